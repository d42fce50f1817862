(** The contact read from the card of a contact: which lines reach which field. *)
From Coq Require Import Permutation.
From Verif Require Import Base BaseFacts QtText Utf8 Utf8Facts M_ParamMap M_VCard M_VCardText
  S_Escape P_Escape S_Fold P_Fold S_CardText P_CardText S_Card P_Assoc P_Card S_Parse P_Parse P_Parse2
  S_RoundTrip P_RoundTrip P_RoundTrip2 P_RoundTrip3 P_ReadBack P_Items P_Order
  M_Split S_Split P_Split M_Values M_Date M_Addressee M_VCardTool S_Contact P_Seen P_ReadFields P_Lines.

(** ** reading ends *)
Definition seen (E : Ext) (T : Tool) (v : version) (export : bool) (a : addressee) : list vline :=
  in_order (reread_card E (create_card T v export a)).
Definition reads_as (E : Ext) (T : Tool) (v : version) (export : bool) (a b : addressee) : Prop :=
  exists card, read_lines T card 1 (seen E T v export a) (addressee_new (t_newid T card 0)) = Some b.

Lemma seen_line E T v export a l : fitting E T v a -> In l (seen E T v export a) ->
  exists x, In x (contact_lines T v export a) /\ loud E x = true /\ reread E x = l /\ classed E x.
Proof.
  intros Hf Hl. unfold seen, create_card in Hl. fold (card_of (contact_lines T v export a)) in Hl. apply in_reread in Hl as (x & Hx & H1 & H2).
  exists x. split; auto. split; auto. split; auto. pose proof (all_classed E T v export a Hf) as H. rewrite Forall_forall in H. auto.
Qed.
Lemma split_total sep s : sep <> cBS -> split_string sep s <> None.
Proof. intros H E. rewrite split_string_sp in E by auto. discriminate. Qed.

(** the shape of the lines seen *)
Definition shaped (l : vline) : Prop :=
  (vl_group l = [] /\ (In (vl_id l) known \/ exists q, vl_id l = B "X-" ++ q)) \/
  (vl_group l <> [] /\ to_lower (vl_id l) <> B "adr").
Lemma pictured_known i : pictured i = true -> In i known.
Proof. unfold pictured. rewrite orb_true_iff, !leqb_eq. intros [->| ->]; in_known. Qed.
Lemma seen_shaped E T v export a l : fitting E T v a -> In l (seen E T v export a) -> shaped l.
Proof.
  intros Hf Hl. destruct (seen_line E T v export a l Hf Hl) as (x & _ & Hx & <- & [_ _ Hs _]).
  destruct (Hs Hx) as [(H1 & H2 & H3)|[(H1 & H2 & H3)|(H1 & H2 & H3)]].
  - left. rewrite H2. auto.
  - right. auto.
  - left. split; auto. left. apply pictured_known; auto.
Qed.

Lemma kind_x q : kind_of kind_table (to_lower (B "X-" ++ q)) = LX.
Proof.
  change (to_lower (B "X-" ++ q)) with (120%N :: 45%N :: to_lower q).
  assert (H : forallb (fun e => match fst e with c :: d :: _ => negb (N.eqb c 120 && N.eqb d 45) | _ => true end) kind_table = true) by reflexivity.
  revert H. generalize kind_table. induction l as [|[n k] l IH]; intros H; [reflexivity|]. cbn [forallb fst] in H. apply andb_true_iff in H as [H1 H2].
  cbn [kind_of]. destruct (leqb_spec (120%N :: 45%N :: to_lower q) n) as [<-|_]; [discriminate|auto].
Qed.
Lemma shaped_kind l : shaped l -> line_kind l = if isnil (vl_group l) then kind_of kind_table (to_lower (vl_id l)) else LGroup.
Proof.
  intros [[H1 _]|[H1 H2]]; unfold line_kind; cbv zeta.
  - rewrite H1. reflexivity.
  - apply isnil_false in H1. rewrite H1. apply leqb_neq in H2. rewrite H2. reflexivity.
Qed.

Lemma reads_ok E T v export a card : fitting E T v a ->
  exists b, read_lines T card 1 (seen E T v export a) (addressee_new (t_newid T card 0)) = Some b.
Proof.
  intros Hf.
  assert (H : forall ls k x, (forall l, In l ls -> In l (seen E T v export a)) -> exists b, read_lines T card k ls x = Some b).
  { induction ls as [|l ls IH]; intros k x Hin; [exists x; reflexivity|]. cbn [read_lines].
    destruct (read_line_total T (t_newid T card k) l x) as [b Hb].
    - intros Hk. specialize (Hin l (or_introl eq_refl)). pose proof (seen_shaped E T v export a l Hf Hin) as Hs.
      destruct (seen_line E T v export a l Hf Hin) as (y & _ & Hy & <- & Hc). pose proof (cl_picture _ _ Hc Hy) as Hp.
      rewrite shaped_kind in Hk by auto. destruct (isnil (vl_group (reread E y))) eqn:Eg; [|destruct Hk; discriminate].
      apply Hp; [apply isnil_true; auto|]. destruct Hs as [[_ [Hs|[q Hs]]]|[Hs _]].
      + assert (Hall : forallb (fun i => match kind_of kind_table (to_lower i) with LLogo | LPhoto => pictured i | _ => true end) known = true) by reflexivity.
        rewrite forallb_forall in Hall. specialize (Hall _ Hs). destruct Hk as [Hk|Hk]; rewrite Hk in Hall; exact Hall.
      + rewrite Hs, kind_x in Hk. destruct Hk; discriminate.
      + apply isnil_false in Hs. congruence.
    - intros sep Hsep. apply split_total; auto.
    - rewrite Hb. apply IH. intros y Hy. apply Hin. right; auto. }
  apply H. auto.
Qed.

Lemma trip_cards E T v export l : Forall (fitting E T v) l -> Forall (good_card E) (map (create_card T v export) l).
Proof.
  intros H. apply Forall_map. eapply Forall_impl; [|exact H]. intros a Ha. unfold good_card, create_card.
  fold (card_of (contact_lines T v export a)). apply Forall_forall. intros x Hx. rewrite written_in in Hx.
  pose proof (all_classed E T v export a Ha) as Hc. rewrite Forall_forall in Hc. apply (Hc x Hx).
Qed.
Lemma read_cards_ok E T v export l : Forall (fitting E T v) l -> forall n, exists res,
  read_cards T n (map (reread_card E) (map (create_card T v export) l)) = Some res /\ Forall2 (reads_as E T v export) l res.
Proof.
  induction 1 as [|a l Ha Hl IH]; intros n; [exists []; split; [reflexivity|constructor]|].
  destruct (reads_ok E T v export a n Ha) as [b Hb]. destruct (IH (S n)) as (res & Hr & H2).
  exists (b :: res). split.
  - cbn [map read_cards]. unfold read_card. fold (in_order (reread_card E (create_card T v export a))). fold (seen E T v export a).
    rewrite Hb, Hr. reflexivity.
  - constructor; auto. exists n. exact Hb.
Qed.
Theorem trip_exists_q E T v export l : Forall (fitting E T v) l ->
  exists res, round_trip T E v export l res /\ Forall2 (reads_as E T v export) l res.
Proof.
  intros H. destruct (cards_reread E _ (trip_cards E T v export l H)) as [n Hn].
  destruct (read_cards_ok E T v export l H 0) as (res & Hr & H2). exists res. split; auto.
  exists n. intros fuel Hf. unfold parse_text, create_text. rewrite (Hn fuel Hf), Hr. reflexivity.
Qed.
Lemma fits_all E T v l : Forall (fits T v) l -> Forall (fitting E T v) l.
Proof. intros H. eapply Forall_impl; [|exact H]. intros a Ha. exact Ha. Qed.
Theorem trip_exists E T v export l : Forall (fits T v) l ->
  exists res, round_trip T E v export l res /\ Forall2 (reads_as E T v export) l res.
Proof. intros H. apply trip_exists_q, fits_all, H. Qed.
Theorem trip_reads E T v export l res : Forall (fits T v) l -> round_trip T E v export l res -> Forall2 (reads_as E T v export) l res.
Proof.
  intros H [n Hn]. destruct (trip_exists E T v export l H) as (res' & [m Hm] & H2).
  specialize (Hn (n + m) ltac:(lia)). specialize (Hm (n + m) ltac:(lia)). rewrite Hm in Hn. injection Hn as <-. exact H2.
Qed.

(** ** one field after reading all lines *)
Lemma read_lines_fold {X} T (f : addressee -> X) (K : lkind -> bool) (step : ustring -> vline -> X -> X) card :
  (forall e a, f (put_empty e a) = f a) ->
  (forall id l a, K (line_kind l) = true -> f (eff T id l a) = step id l (f a)) ->
  (forall id l a, K (line_kind l) = false -> f (eff T id l a) = f a) ->
  forall ls k a b, read_lines T card k ls a = Some b ->
  exists ks, length ks = length (filter (fun l => K (line_kind l)) ls) /\ NoDup ks /\ Forall (fun i => k <= i) ks /\
    f b = fold_left (fun x p => step (t_newid T card (fst p)) (snd p) x) (combine ks (filter (fun l => K (line_kind l)) ls)) (f a).
Proof.
  intros He H1 H0. induction ls as [|l ls IH]; intros k a b H.
  - injection H as <-. exists []. repeat split; constructor.
  - cbn [read_lines] in H. destruct (read_line T (t_newid T card k) l a) as [a'|] eqn:El; [|discriminate].
    destruct (IH _ _ _ H) as (ks & Hlen & Hn & Hge & Hf). apply read_line_eff in El as [e ->]. rewrite He in Hf.
    cbn [filter]. destruct (K (line_kind l)) eqn:Ek.
    + exists (k :: ks). rewrite H1 in Hf by auto. split; [cbn; auto|]. split; [constructor; auto; intros Hin; rewrite Forall_forall in Hge; specialize (Hge _ Hin); lia|].
      split; [constructor; auto; eapply Forall_impl; [|exact Hge]; cbn; lia|]. exact Hf.
    + exists ks. rewrite H0 in Hf by auto. split; auto. split; auto. split; [eapply Forall_impl; [|exact Hge]; cbn; lia|]. exact Hf.
Qed.
Lemma read_lines_plain {X} T (f : addressee -> X) (K : lkind -> bool) (step : vline -> X -> X) card :
  (forall e a, f (put_empty e a) = f a) ->
  (forall id l a, K (line_kind l) = true -> f (eff T id l a) = step l (f a)) ->
  (forall id l a, K (line_kind l) = false -> f (eff T id l a) = f a) ->
  forall ls k a b, read_lines T card k ls a = Some b ->
    f b = fold_left (fun x l => step l x) (filter (fun l => K (line_kind l)) ls) (f a).
Proof.
  intros He H1 H0 ls k a b H. destruct (read_lines_fold T f K (fun _ => step) card He H1 H0 ls k a b H) as (ks & Hlen & _ & _ & ->).
  revert ks Hlen. generalize (filter (fun l => K (line_kind l)) ls) (f a). induction l as [|x l IH]; intros y ks Hlen; destruct ks; try discriminate; auto.
  cbn [combine fold_left fst snd]. apply IH. cbn in Hlen. lia.
Qed.

(** ** the lines of one name *)
Definition named (i : ustring) (l : vline) : bool := leqb (vl_id l) i && isnil (vl_group l).
Lemma named_id i l : named i l = true -> vl_id l = i.
Proof. unfold named. rewrite andb_true_iff, leqb_eq. tauto. Qed.
Definition of_kinds (K : lkind -> bool) (ids : list ustring) : Prop :=
  K LGroup = false /\ K LX = false /\
  forallb (fun i => Bool.eqb (K (kind_of kind_table (to_lower i))) (contains i ids)) known = true /\
  forallb (fun i => contains i known) ids = true.
Lemma not_known_x q ids : forallb (fun i => contains i known) ids = true -> contains (B "X-" ++ q) ids = false.
Proof.
  intros H. destruct (contains (B "X-" ++ q) ids) eqn:E; auto. apply contains_In in E. rewrite forallb_forall in H. specialize (H _ E).
  apply contains_In in H. assert (Hk : forallb (fun i => negb (starts_with (B "X-") i)) known = true) by reflexivity.
  rewrite forallb_forall in Hk. specialize (Hk _ H). cbn in Hk. discriminate.
Qed.
Lemma shaped_kinds K ids l : of_kinds K ids -> shaped l -> K (line_kind l) = contains (vl_id l) ids && isnil (vl_group l).
Proof.
  intros (H1 & H2 & H3 & H4) Hs. rewrite shaped_kind by auto. destruct (isnil (vl_group l)) eqn:Eg; [|rewrite andb_false_r; auto].
  rewrite andb_true_r. destruct Hs as [[_ [Hs|[q Hs]]]|[Hs _]].
  - rewrite forallb_forall in H3. specialize (H3 _ Hs). apply Bool.eqb_prop in H3. exact H3.
  - rewrite Hs, kind_x, not_known_x; auto.
  - apply isnil_false in Hs. congruence.
Qed.
Lemma contains_one i j : contains i [j] = leqb i j.
Proof. destruct (leqb_spec i j) as [->|H]; cbn; [rewrite leqb_refl; auto|]. apply orb_false_iff. split; auto. apply leqb_neq. auto. Qed.
Lemma seen_kind E T v export a K i : fitting E T v a -> of_kinds K [i] ->
  filter (fun l => K (line_kind l)) (seen E T v export a) = filter (named i) (seen E T v export a).
Proof.
  intros Hf Hk. apply filter_ext_in'. intros l Hl. rewrite (shaped_kinds K [i]) by (auto; eapply seen_shaped; eauto).
  unfold named. rewrite contains_one. reflexivity.
Qed.

Lemma seen_named E T v export a i : fitting E T v a -> In i known ->
  (pictured i = true -> forall l t, In l (contact_lines T v export a) -> vl_id l <> i ++ B ":data:image/" ++ t) ->
  filter (named i) (seen E T v export a) = readings E (filter (named i) (contact_lines T v export a)).
Proof.
  intros Hf Hi Hp. unfold seen, create_card. fold (card_of (contact_lines T v export a)). apply (select_reread E (named i) i).
  - apply named_id.
  - intros l Hl Hloud. pose proof (all_classed E T v export a Hf) as Hc. rewrite Forall_forall in Hc. specialize (Hc l Hl).
    destruct Hc as [_ Hg Hs _]. destruct (Hs Hloud) as [(H1 & H2 & H3)|[(H1 & H2 & H3)|(H1 & H2 & t & H3)]]; unfold named; rewrite Hg.
    + rewrite H1, H2. reflexivity.
    + apply isnil_false in H1. rewrite H1, andb_false_r. cbn [isnil]. rewrite andb_true_r. symmetry. apply leqb_neq. intros E0.
      assert (Hd : forallb (fun i => negb (mem cDOT i)) known = true) by reflexivity. rewrite forallb_forall in Hd. specialize (Hd _ Hi).
      apply negb_true_iff, mem_false in Hd. apply Hd. rewrite <- E0, H3. apply in_or_app. right. left. reflexivity.
    + rewrite H1. cbn [isnil]. rewrite !andb_true_r.
      destruct (leqb_spec (vl_id (reread E l)) i) as [<-|Hn].
      * exfalso. exact (Hp H2 l t Hl H3).
      * symmetry. apply leqb_neq. intros E0.
        assert (Hd : forallb (fun i => negb (mem cCOLON i)) known = true) by reflexivity. rewrite forallb_forall in Hd. specialize (Hd _ Hi).
        apply negb_true_iff, mem_false in Hd. apply Hd. rewrite <- E0, H3. apply in_or_app. right. left. reflexivity.
Qed.
