(** The fields of the contact read: texts, name parts, categories. *)
From Coq Require Import Permutation.
From Verif Require Import Base BaseFacts QtText Utf8 Utf8Facts M_ParamMap M_VCard M_VCardText
  S_Escape P_Escape S_Fold P_Fold S_CardText P_CardText S_Card P_Assoc P_Card S_Parse P_Parse P_Parse2
  S_RoundTrip P_RoundTrip P_RoundTrip2 P_RoundTrip3 P_ReadBack P_Items P_Order
  M_Split S_Split P_Split M_Values M_Date M_Addressee M_VCardTool S_Contact P_Seen P_ReadFields P_Lines P_Contact P_Chunks.
From Verif Require P_Email.

(** ** structured values are safe if their components are *)
Lemma text_safe_nil : text_safe [].
Proof. split; [reflexivity|]. intros (p & t & c & H & _). destruct p; discriminate. Qed.
Lemma adj_app a b s t : adj a b (s ++ t) = true -> adj a b s = true \/ adj a b t = true \/ (exists s', s = s' ++ [a]) /\ exists t', t = b :: t'.
Proof.
  rewrite !adj_spec. intros (p & q & H). revert p H. induction s as [|x s IH]; intros p H; [right; left; exists p, q; exact H|].
  destruct p as [|y p].
  - cbn in H. injection H as -> H. destruct s as [|z s].
    + right; right. cbn in H. split; [exists []; reflexivity|exists q; exact H].
    + injection H as -> H. left. exists [], s. reflexivity.
  - cbn in H. injection H as -> H. destruct (IH p H) as [(p' & q' & ->)|[H'|[[s' ->] Ht]]].
    + left. exists (y :: p'), q'. reflexivity.
    + right; left. exact H'.
    + right; right. split; [exists (y :: s'); reflexivity|exact Ht].
Qed.
Lemma adj_escape sep c s : sep <> cBS -> c <> sep -> c <> cBS -> adj cBS c (escape_sep sep s) = true -> adj cBS c s = true.
Proof.
  intros Hs Hc Hb. induction s as [|x s IH]; intros H; [discriminate|].
  unfold escape_sep, replace_ch in H. cbn [flat_map] in H. fold (replace_ch sep [cBS; sep] s) in H. fold (escape_sep sep s) in H.
  destruct (N.eqb_spec x sep) as [->|Hx].
  - apply adj_app in H as [H|[H|[[s' H] _]]].
    + exfalso. cbn in H. rewrite andb_false_r, orb_false_r in H. apply N.eqb_eq in H. congruence.
    + cbn [adj]. rewrite (IH H). apply orb_true_r.
    + exfalso. destruct s' as [|y [|z s']]; try discriminate. injection H as _ H. congruence. destruct s'; discriminate.
  - cbn [app] in H. cbn [adj] in *. apply orb_true_iff in H as [H|H]; [|rewrite (IH H); apply orb_true_r].
    apply andb_true_iff in H as [H1 H2]. destruct s as [|y s]; [discriminate|].
    unfold escape_sep, replace_ch in H2. cbn [flat_map] in H2. destruct (N.eqb_spec y sep) as [->|Hy]; cbn [app] in H2.
    + apply N.eqb_eq in H2. congruence.
    + rewrite H1, H2. reflexivity.
Qed.
Lemma adj_join sep c l : sep <> cBS -> c <> sep -> c <> cBS -> adj cBS c (join_components sep l) = true -> Exists (fun s => adj cBS c s = true) l.
Proof.
  intros Hs Hc Hb. unfold join_components. induction l as [|s [|t l] IH]; intros H; [discriminate| |].
  - left. exact (adj_escape sep c s Hs Hc Hb H).
  - change (join [sep] (map (escape_sep sep) (s :: t :: l))) with (escape_sep sep s ++ sep :: join [sep] (map (escape_sep sep) (t :: l))) in H.
    apply adj_app in H as [H|[H|[_ [t' H]]]].
    + left. exact (adj_escape sep c s Hs Hc Hb H).
    + right. apply IH. cbn [adj] in H. apply orb_true_iff in H as [H|H]; auto. apply andb_true_iff in H as [H _]. apply N.eqb_eq in H. congruence.
    + injection H as H _. congruence.
Qed.
Lemma valid_sep c t : (c < 128)%N -> valid_utf16 (c :: t) = valid_utf16 t.
Proof.
  intros H. cbn [valid_utf16]. assert (H1 : is_high c = false) by (unfold is_high; lia). assert (H2 : is_low c = false) by (unfold is_low; lia).
  rewrite H1, H2. replace (c <? 65536)%N with true by lia. reflexivity.
Qed.
Lemma valid_escape sep : (sep < 128)%N -> forall n s, length s <= n -> valid_utf16 s = true -> valid_utf16 (escape_sep sep s) = true.
Proof.
  intros Hs. induction n as [|n IH]; intros s Hl Hv; [destruct s; [reflexivity|cbn in Hl; lia]|].
  destruct s as [|c s]; [reflexivity|]. unfold escape_sep, replace_ch. cbn [flat_map]. fold (replace_ch sep [cBS; sep] s). fold (escape_sep sep s).
  cbn [length] in Hl. destruct (N.eqb_spec c sep) as [->|Hc].
  - rewrite valid_sep in Hv by auto. cbn [app]. rewrite !valid_sep by (auto; unfold cBS; lia). apply IH; auto; lia.
  - cbn [valid_utf16] in Hv. cbn [app valid_utf16]. destruct (is_high c) eqn:Eh.
    + destruct s as [|d s]; [discriminate|]. apply andb_true_iff in Hv as [Hd Hv].
      unfold escape_sep, replace_ch. cbn [flat_map]. destruct (N.eqb_spec d sep) as [->|Hd']; [unfold is_low in Hd; lia|].
      cbn [app]. rewrite Hd. apply (IH s); auto. cbn [length] in Hl. lia.
    + rewrite !andb_true_iff in *. destruct Hv as [H1 H2]. split; auto. apply IH; auto. lia.
Qed.
Lemma valid_join sep l : (sep < 128)%N -> Forall (fun s => valid_utf16 s = true) l -> valid_utf16 (join_components sep l) = true.
Proof.
  intros Hs. unfold join_components. induction l as [|s [|t l] IH]; intros H; [reflexivity| |]; inversion H; subst.
  - apply (valid_escape sep Hs (length s) s); auto.
  - change (join [sep] (map (escape_sep sep) (s :: t :: l))) with (escape_sep sep s ++ [sep] ++ join [sep] (map (escape_sep sep) (t :: l))).
    rewrite P_Email.valid_app by (apply (valid_escape sep Hs (length s) s); auto). cbn [app]. rewrite valid_sep by auto. auto.
Qed.
Lemma join_safe sep l : In sep [cSEMI; cCOMMA] -> Forall text_safe l -> text_safe (join_components sep l).
Proof.
  intros Hs Hl. assert (Hsep : (sep < 128)%N /\ sep <> cBS /\ sep <> 65279%N /\ ~ In sep [110; 78; 114]%N) by (destruct Hs as [<-|[<-|[]]]; repeat split; (discriminate || (cbn; intuition discriminate))).
  destruct Hsep as (H1 & H2 & H3 & H4). cbn [In] in H4. split.
  - unfold text_ok. apply andb_true_iff. split.
    + apply valid_join; auto. eapply Forall_impl; [|exact Hl]. intros s [H _]. unfold text_ok in H. apply andb_true_iff in H. apply H.
    + assert (Hb : forall s r, text_safe s -> no_bom r = true -> no_bom (escape_sep sep s ++ r) = true).
      { intros s r [Hs' _] Hr. unfold text_ok in Hs'. apply andb_true_iff in Hs' as [_ Hs']. destruct s as [|c s]; [exact Hr|].
        unfold escape_sep, replace_ch. cbn [flat_map]. destruct (N.eqb c sep); cbn [app no_bom] in *; auto. }
      unfold join_components. destruct l as [|s [|t l]]; [reflexivity| |]; inversion Hl; subst.
      * change (no_bom (escape_sep sep s) = true). rewrite <- (app_nil_r (escape_sep sep s)). apply Hb; auto.
      * change (join [sep] (map (escape_sep sep) (s :: t :: l))) with (escape_sep sep s ++ [sep] ++ join [sep] (map (escape_sep sep) (t :: l))).
        apply Hb; auto. cbn. apply negb_true_iff, N.eqb_neq. auto.
  - rewrite ambiguous_adj.
    assert (Hx : forall c, In c [110; 78; 114]%N -> adj 92 c (join_components sep l) = true -> False).
    { intros c Hc H. apply adj_join in H; auto.
      - apply Exists_exists in H as (s & Hin & Ha). rewrite Forall_forall in Hl. destruct (Hl s Hin) as [_ Hn]. apply Hn. rewrite ambiguous_adj.
        destruct Hc as [<-|[<-|[<-|[]]]]; auto.
      - intros ->. cbn [In] in Hc. tauto.
      - intros ->. cbn [In] in Hc. destruct Hc as [H0|[H0|[H0|[]]]]; discriminate. }
    intros [H|[H|H]]; eapply Hx; try exact H; cbn; auto.
Qed.

(** ** fields set by one line *)
Ltac eff_cases l :=
  unfold eff; cbv zeta; destruct (line_kind l); intros; try discriminate; try reflexivity;
  repeat match goal with
    | |- context [match ?x with _ => _ end] => destruct x
    | |- context [if ?x then _ else _] => destruct x
  end; reflexivity.
Ltac kinds := split; [reflexivity|]; split; [reflexivity|]; split; vm_compute; reflexivity.

Lemma fold_field {X} E T v export a b (f : addressee -> X) K i (g : vline -> X -> X) :
  fitting E T v a -> reads_as E T v export a b -> of_kinds K [i] -> (pictured i = true -> v <> V40) ->
  (forall e x, f (put_empty e x) = f x) ->
  (forall id l x, K (line_kind l) = true -> f (eff T id l x) = g l (f x)) ->
  (forall id l x, K (line_kind l) = false -> f (eff T id l x) = f x) ->
  exists card, f b = fold_left (fun x l => g l x) (readings E (flat_map (pick i) (chunks T v export a))) (f (addressee_new (t_newid T card 0))).
Proof.
  intros Hf [card Hr] Hk Hp He H1 H0. exists card.
  rewrite (read_lines_plain T f K g card He H1 H0 _ _ _ _ Hr).
  rewrite (seen_chunk E T v export a K i) by auto. reflexivity.
Qed.
Lemma one_field {X} E T v export a b (f : addressee -> X) K i (g : vline -> X -> X) line :
  fitting E T v a -> reads_as E T v export a b -> of_kinds K [i] -> pictured i = false ->
  (forall e x, f (put_empty e x) = f x) ->
  (forall id l x, K (line_kind l) = true -> f (eff T id l x) = g l (f x)) ->
  (forall id l x, K (line_kind l) = false -> f (eff T id l x) = f x) ->
  flat_map (pick i) (chunks T v export a) = [line] ->
  exists card, f b = if loud E line then g (reread E line) (f (addressee_new (t_newid T card 0))) else f (addressee_new (t_newid T card 0)).
Proof.
  intros Hf [card Hr] Hk Hp He H1 H0 Hc. exists card.
  rewrite (read_lines_plain T f K g card He H1 H0 _ _ _ _ Hr).
  rewrite (seen_chunk E T v export a K i) by (auto; congruence). rewrite Hc. unfold readings. cbn [filter]. destruct (loud E line); reflexivity.
Qed.
Lemma text_field E T v export a b (f : addressee -> ustring) K i u :
  fitting E T v a -> reads_as E T v export a b -> of_kinds K [i] -> pictured i = false -> In i known ->
  (forall e x, f (put_empty e x) = f x) ->
  (forall id l x, K (line_kind l) = true -> f (eff T id l x) = lvalue l) ->
  (forall id l x, K (line_kind l) = false -> f (eff T id l x) = f x) ->
  flat_map (pick i) (chunks T v export a) = [text_line i u] ->
  text_safe u -> (u = [] -> forall id, f (addressee_new id) = []) -> f b = u.
Proof.
  intros Hf Hr Hk Hp Hi He H1 H0 Hc [U1 U2] Hd.
  destruct (one_field E T v export a b f K i (fun l _ => lvalue l) (text_line i u) Hf Hr Hk Hp He H1 H0 Hc) as [card ->].
  destruct (seen_plain E i u (known_id i Hi)) as (_ & L & R). unfold text_line. rewrite L, R. destruct u as [|c u]; [apply Hd; auto|].
  cbn [isnil negb lvalue vl_value variant_string]. apply thru_id; auto.
Qed.
(** the same for a text that version 2.1 encodes *)
Lemma text_field21 E T v export a b (f : addressee -> ustring) K i u :
  fitting E T v a -> reads_as E T v export a b -> of_kinds K [i] -> pictured i = false -> In i known ->
  (forall e x, f (put_empty e x) = f x) ->
  (forall id l x, K (line_kind l) = true -> f (eff T id l x) = lvalue l) ->
  (forall id l x, K (line_kind l) = false -> f (eff T id l x) = f x) ->
  flat_map (pick i) (chunks T v export a) = [line21 v i u] -> In u (texts21 a) ->
  text_safe u -> (u = [] -> forall id, f (addressee_new id) = []) -> f b = u.
Proof.
  intros Hf Hr Hk Hp Hi He H1 H0 Hc Hin Hs Hd.
  destruct (one_field E T v export a b f K i (fun l _ => lvalue l) (line21 v i u) Hf Hr Hk Hp He H1 H0 Hc) as [card ->].
  assert (Hq : codes E v u) by (intros Hv; destruct (fq_21 _ _ _ _ Hf Hv) as [H _]; rewrite Forall_forall in H; apply H, in_or_app; auto).
  destruct (seen_coded_safe E i v [] u Hi (NoDup_nil _) (Forall_nil _) Hq Hs) as [L R]. cbn [add_all fold_left] in L, R. rewrite L, R. destruct u as [|c u]; [apply Hd; auto|reflexivity].
Qed.
Ltac text_side := match goal with
  | |- of_kinds _ _ => kinds
  | |- In _ known => in_known
  | |- pictured _ = false => reflexivity
  | |- forall e x, _ = _ => intros; reflexivity
  | |- forall id l x, _ -> _ => let id := fresh in let l := fresh in let x := fresh in intros id l x; eff_cases l
  | _ => idtac
  end.

Lemma field_formatted E T v export a b : fitting E T v a -> reads_as E T v export a b -> text_safe (a_formatted a) -> a_formatted b = a_formatted a.
Proof.
  intros Hf Hr Hs. apply (text_field21 E T v export a b a_formatted (fun k => match k with LFn => true | _ => false end) (B "FN")); text_side; auto.
  left. reflexivity.
Qed.
Ltac needs21 Hf := let Hv := fresh in let H := fresh in intros Hv; destruct (fit_21 _ _ _ Hf Hv) as [H _]; rewrite Forall_forall in H; apply H; cbn [app In]; tauto.
Lemma field_mailer E T v export a b : fitting E T v a -> reads_as E T v export a b -> v <> V40 -> text_safe (a_mailer a) -> a_mailer b = a_mailer a.
Proof.
  intros Hf Hr Hv Hs. apply (text_field21 E T v export a b a_mailer (fun k => match k with LMailer => true | _ => false end) (B "MAILER")); text_side; auto.
  - change (flat_map (pick (B "MAILER")) (chunks T v export a)) with (when (negb (is40 v)) [line21 v (B "MAILER") (a_mailer a)] ++ []).
    destruct v; auto; congruence.
  - right. left. reflexivity.
Qed.
Lemma field_name E T v export a b : fitting E T v a -> reads_as E T v export a b -> v <> V40 -> text_safe (a_name a) -> a_name b = a_name a.
Proof.
  intros Hf Hr Hv Hs. apply (text_field21 E T v export a b a_name (fun k => match k with LName => true | _ => false end) (B "NAME")); text_side; auto.
  - change (flat_map (pick (B "NAME")) (chunks T v export a)) with (when (negb (is40 v)) [line21 v (B "NAME") (a_name a)] ++ []).
    destruct v; auto; congruence.
  - do 3 right. left. reflexivity.
Qed.
Lemma field_note E T v export a b : fitting E T v a -> reads_as E T v export a b -> text_safe (a_note a) -> a_note b = a_note a.
Proof.
  intros Hf Hr Hs. apply (text_field21 E T v export a b a_note (fun k => match k with LNote => true | _ => false end) (B "NOTE")); text_side; auto.
  do 4 right. left. reflexivity.
Qed.
Lemma field_prodid E T v export a b : fitting E T v a -> reads_as E T v export a b -> v <> V21 -> text_safe (a_prodid a) -> a_prodid b = a_prodid a.
Proof.
  intros Hf Hr Hv Hs. apply (text_field E T v export a b a_prodid (fun k => match k with LProdid => true | _ => false end) (B "PRODID")); text_side; auto.
  change (flat_map (pick (B "PRODID")) (chunks T v export a)) with (when (negb (is21 v)) [text_line (B "PRODID") (a_prodid a)] ++ []).
  destruct v; auto; congruence.
Qed.
Lemma field_uid E T v export a b : fitting E T v a -> reads_as E T v export a b -> a_uid a <> [] -> text_safe (a_uid a) -> a_uid b = a_uid a.
Proof.
  intros Hf Hr Hv Hs. apply (text_field E T v export a b a_uid (fun k => match k with LUid => true | _ => false end) (B "UID")); text_side; auto.
  intros H. congruence.
Qed.
Lemma field_kind E T export a b : fits T V40 a -> reads_as E T V40 export a b -> text_safe (a_kind a) -> a_kind b = a_kind a.
Proof.
  intros Hf Hr Hs. destruct (isnil (a_kind a)) eqn:En.
  - destruct (fold_field E T V40 export a b a_kind (fun k => match k with LKind => true | _ => false end) (B "KIND") (fun l _ => lvalue l) Hf Hr) as [card ->]; text_side; try discriminate.
    change (flat_map (pick (B "KIND")) (chunks T V40 export a)) with (when (negb (isnil (a_kind a))) [text_line (B "KIND") (a_kind a)] ++ []).
    rewrite En. apply isnil_true in En. rewrite En. reflexivity.
  - apply (text_field E T V40 export a b a_kind (fun k => match k with LKind => true | _ => false end) (B "KIND")); text_side; auto.
    change (flat_map (pick (B "KIND")) (chunks T V40 export a)) with (when (negb (isnil (a_kind a))) [text_line (B "KIND") (a_kind a)] ++ []).
    rewrite En. reflexivity.
Qed.

(** ** the parts of the name *)
Lemma parts_read E sep i kvs l : In i known -> In sep [cSEMI; cCOMMA] -> l <> [] -> parts_safe l -> NoDup (map fst kvs) -> Forall plain_item kvs ->
  let line := add_all kvs (text_line i (join_components sep l)) in
  loud E line = negb (isnil (join_components sep l)) /\ parts_of sep (reread E line) = l.
Proof.
  intros Hi Hs Hl [H1 H2] Hn Hp line. unfold line. destruct (seen_text E i [] i kvs (join_components sep l) (known_id i Hi) Hn Hp) as (_ & L & R).
  unfold text_line. rewrite L, R. split; auto. unfold parts_of, lvalue. cbn [vl_value variant_string].
  destruct (join_safe sep l Hs H1) as [J1 J2]. rewrite thru_id by auto.
  rewrite (proj2 (split_join_iff sep l ltac:(destruct Hs as [<-|[<-|[]]]; discriminate) Hl) H2). reflexivity.
Qed.
Lemma parts_read21 E v sep i kvs l : In i known -> In sep [cSEMI; cCOMMA] -> l <> [] -> parts_safe l -> NoDup (map fst kvs) -> Forall plain_item kvs ->
  codes E v (join_components sep l) ->
  let line := add_all (line_kvs v (join_components sep l) ++ kvs) (text_line i (join_components sep l)) in
  loud E line = negb (isnil (join_components sep l)) /\ parts_of sep (reread E line) = l.
Proof.
  intros Hi Hs Hl [H1 H2] Hn Hp Hq line. unfold line. destruct (seen_coded E i [] i v kvs (join_components sep l) (known_id i Hi) Hn Hp Hq) as (_ & L & w & R & W).
  rewrite L, R. split; auto. unfold parts_of, lvalue. cbn [vl_value variant_string].
  destruct (join_safe sep l Hs H1) as [J1 J2]. rewrite (W J1 J2).
  rewrite (proj2 (split_join_iff sep l ltac:(destruct Hs as [<-|[<-|[]]]; discriminate) Hl) H2). reflexivity.
Qed.
Lemma join_nil sep l : join_components sep l = [] -> l = [] \/ l = [[]].
Proof.
  unfold join_components. destruct l as [|s [|t l]]; auto; intros H.
  - right. cbn in H. destruct s as [|c s]; auto. unfold escape_sep, replace_ch in H. cbn [flat_map] in H. destruct (N.eqb c sep); discriminate.
  - change (escape_sep sep s ++ [sep] ++ join [sep] (map (escape_sep sep) (t :: l)) = []) in H. apply app_eq_nil in H as [_ H]. discriminate.
Qed.
Definition name_parts (a : addressee) : list ustring := [a_family a; a_given a; a_additional a; a_prefix a; a_suffix a].
Lemma field_name_part E T v export a b (f : addressee -> ustring) n :
  fitting E T v a -> reads_as E T v export a b -> parts_safe (name_parts a) ->
  nth_error (name_parts a) n = Some (f a) ->
  (forall e x, f (put_empty e x) = f x) ->
  (forall id l x, match line_kind l with LN => true | _ => false end = true -> f (eff T id l x) = part n (parts_of cSEMI l) (f x)) ->
  (forall id l x, match line_kind l with LN => true | _ => false end = false -> f (eff T id l x) = f x) ->
  f b = f a.
Proof.
  intros Hf Hr Hs Hn He H1 H0.
  destruct (one_field E T v export a b f (fun k => match k with LN => true | _ => false end) (B "N") (fun l => part n (parts_of cSEMI l)) (n_line v a)
    Hf Hr ltac:(kinds) eq_refl He H1 H0 eq_refl) as [card ->].
  rewrite n_line_full.
  assert (Hq : codes E v (join_components cSEMI (name_parts a))).
  { intros Hv; destruct (fq_21 _ _ _ _ Hf Hv) as [H _]; rewrite Forall_forall in H; apply H, in_or_app. left. do 2 right. left. reflexivity. }
  set (kvs := if is40 v && negb (isnil (a_sortstring a)) then _ else _).
  assert (Hk : NoDup (map fst kvs) /\ Forall plain_item kvs).
  { unfold kvs. destruct (is40 v && negb (isnil (a_sortstring a))) eqn:E4; [|split; constructor]. split; [apply nodup_b_spec; reflexivity|].
    constructor; [|constructor]. apply andb_true_iff in E4 as [E4 E5]. destruct v; try discriminate. destruct (fq_40 _ _ _ _ Hf eq_refl) as (_ & Hc & _).
    split; [split; [apply ikey_dec; reflexivity|left; exact Hc]|]. split; [discriminate|]. split; [discriminate|].
    split; intros Hx; apply item_ops_keys in Hx; cbn [fst snd] in Hx; destruct Hx as [[_ Hx]|[_ Hx]]; discriminate. }
  destruct Hk as [K1 K2]. clearbody kvs.
  destruct (parts_read21 E v cSEMI (B "N") kvs (name_parts a) ltac:(in_known) ltac:(left; reflexivity) ltac:(discriminate) Hs K1 K2 Hq) as [L R].
  unfold name_parts in L, R at 1 2. rewrite L, R. destruct (isnil _) eqn:Ej.
  - exfalso. apply isnil_true, join_nil in Ej. destruct Ej; discriminate.
  - cbn [negb]. unfold part. rewrite Hn. reflexivity.
Qed.
Lemma field_n E T v export a b : fitting E T v a -> reads_as E T v export a b -> parts_safe (name_parts a) -> name_parts b = name_parts a.
Proof.
  intros Hf Hr Hs. unfold name_parts. f_equal; [|f_equal; [|f_equal; [|f_equal; [|f_equal]]]].
  - apply (field_name_part E T v export a b a_family 0); text_side; auto.
  - apply (field_name_part E T v export a b a_given 1); text_side; auto.
  - apply (field_name_part E T v export a b a_additional 2); text_side; auto.
  - apply (field_name_part E T v export a b a_prefix 3); text_side; auto.
  - apply (field_name_part E T v export a b a_suffix 4); text_side; auto.
Qed.

(** ** categories *)
Lemma field_categories E T v export a b : fitting E T v a -> reads_as E T v export a b -> v <> V21 ->
  parts_safe (a_categories a) -> a_categories a <> [[]] -> a_categories b = a_categories a.
Proof.
  intros Hf Hr Hv Hs Hne.
  destruct (one_field E T v export a b a_categories (fun k => match k with LCategories => true | _ => false end) (B "CATEGORIES")
     (fun l x => match split_string cCOMMA (lvalue l) with Some p => p | None => x end) (text_line (B "CATEGORIES") (join_components cCOMMA (a_categories a)))
     Hf Hr) as [card ->]; text_side; auto.
  - destruct v; auto; congruence.
  - destruct (a_categories a) as [|c cs] eqn:Ec.
    + destruct (seen_plain E (B "CATEGORIES") [] (known_id (B "CATEGORIES") ltac:(in_known))) as (_ & L & _).
      change (text_line (B "CATEGORIES") (join_components cCOMMA [])) with (vline_new (B "CATEGORIES") (QStr [])). rewrite L. reflexivity.
    + destruct (parts_read E cCOMMA (B "CATEGORIES") [] (c :: cs) ltac:(in_known) ltac:(right; left; reflexivity) ltac:(discriminate) Hs (NoDup_nil _) (Forall_nil _)) as [L R].
      cbn [add_all fold_left] in L, R. rewrite L. destruct (isnil _) eqn:Ej.
      * exfalso. apply isnil_true, join_nil in Ej. destruct Ej; congruence.
      * cbn [negb]. unfold parts_of in R. destruct (split_string cCOMMA _); [exact R|discriminate].
Qed.
