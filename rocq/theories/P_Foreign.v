(** Proofs about the extensions of other programs (C71). *)
From Verif Require Import Base BaseFacts Utf8 Utf8Facts M_ParamMap M_VCard M_VCardText S_Card S_CardText P_Fold M_Values M_Addressee M_VCardTool S_Parse P_Parse P_Assoc P_Card P_Addressee
  P_ReadFields P_ReadBack P_CardText S_Soft P_Soft P_SoftLoop S_Order P_CardOrder P_Unknown S_Case P_Case S_Foreign.

(** ** Names *)
Lemma spelled_cases tab low given : (exists b, In (low, b) tab /\ spelled tab low given = b) \/ (~ In low (map fst tab) /\ spelled tab low given = given).
Proof.
  induction tab as [|[a b] tab IH]; [right; split; [intros []|reflexivity]|]. cbn [spelled map fst].
  destruct (leqb_spec low a) as [->|Hn]; [left; exists b; split; [left; reflexivity|reflexivity]|].
  destruct IH as [(b' & H1 & H2)|[H1 H2]]; [left; exists b'; split; [right; exact H1|exact H2]|right]. split; [|exact H2].
  intros [H|H]; [congruence|contradiction].
Qed.
Definition own (f : bytes) : bytes := B "KADDRESSBOOK-" ++ f.
Definition lists_ok (f : bytes) (ns : list bytes) : bool :=
  forallb (fun n => leqb (spelled import_names n []) (B "X-" ++ own f) && forallb (fun c => negb (mem c [58; 59; 46]%N)) n && starts_with (B "x-") n) ns
  && contains (B "x-" ++ to_lower (own f)) ns
  && forallb (fun e => negb (leqb (skipn 2 (snd e)) (own f)) || contains (fst e) ns) import_names
  && negb (leqb f vendor_id) && negb (starts_with (B "messaging/") (own f)).
Lemma extensions_ok : forallb (fun p => lists_ok (fst p) (snd p)) extensions = true.
Proof. vm_compute. reflexivity. Qed.
Lemma ext_ok f ns : In (f, ns) extensions -> lists_ok f ns = true.
Proof. intros H. pose proof extensions_ok as K. rewrite forallb_forall in K. exact (K _ H). Qed.

Lemma ext_facts f n : extension_of f n ->
  spelled import_names (to_lower n) n = B "X-" ++ own f /\ name_chars n /\ starts_with (B "x-") (to_lower n) = true.
Proof.
  intros (ns & Hf & Hn). apply ext_ok in Hf. unfold lists_ok in Hf. rewrite !andb_true_iff in Hf. destruct Hf as ((((H & _) & _) & _) & _).
  rewrite forallb_forall in H. specialize (H _ Hn). rewrite !andb_true_iff in H. destruct H as ((H1 & H2) & H3). apply leqb_eq in H1. split; [|split; [|exact H3]].
  - destruct (spelled_cases import_names (to_lower n) []) as [(b & K1 & K2)|[_ K]]; [|rewrite K in H1; discriminate].
    rewrite K2 in H1. subst b. revert K1 K2. generalize (to_lower n) as low. generalize import_names as tab.
    induction tab as [|[x y] tab IH]; intros low K1 K2; [destruct K1|]. cbn [spelled] in *. destruct (leqb_spec low x) as [->|Hx]; [exact K2|].
    destruct K1 as [K1|K1]; [congruence|]. apply IH; auto.
  - intros c Hc. rewrite forallb_forall in H2. assert (Hl : In (lower1 c) (to_lower n)) by (unfold to_lower; apply in_map; exact Hc).
    specialize (H2 _ Hl). split; [|split]; intros ->; cbv in H2; discriminate.
Qed.
Lemma ext_key f l : extension_of f (vl_id l) -> custom_key l = own f.
Proof. intros H. apply ext_facts in H as (H & _). unfold custom_key. rewrite H. reflexivity. Qed.

Lemma key_ext f n : (exists ns, In (f, ns) extensions) -> starts_with (B "x-") (to_lower n) = true ->
  skipn 2 (spelled import_names (to_lower n) n) = own f -> extension_of f n.
Proof.
  intros [ns Hf] Hx Hk. exists ns. split; [exact Hf|]. apply ext_ok in Hf. unfold lists_ok in Hf. rewrite !andb_true_iff in Hf. destruct Hf as ((((_ & H1) & H2) & _) & _).
  apply contains_In in H1.
  destruct (spelled_cases import_names (to_lower n) n) as [(b & K1 & K2)|[K1 K2]]; rewrite K2 in Hk.
  - rewrite forallb_forall in H2. specialize (H2 _ K1). cbn [fst snd] in H2. rewrite Hk, leqb_refl in H2. cbn [negb orb] in H2. apply contains_In. exact H2.
  - apply starts_with_spec in Hx as [r Hx]. destruct n as [|c [|d n]]; try discriminate. cbn [skipn] in Hk. subst n.
    replace (to_lower (c :: d :: own f)) with (B "x-" ++ to_lower (own f)); [exact H1|]. cbn [to_lower map] in Hx |- *. injection Hx as -> -> _. reflexivity.
Qed.

Lemma dash_key key d : index_of 45%N key = Some d -> qualified (firstn d key) (skipn (S d) key) = key /\ ~ In 45%N (firstn d key).
Proof.
  intros H. apply index_of_Some in H as (p & t & -> & Hp & <-). unfold qualified.
  rewrite firstn_app, Nat.sub_diag, firstn_all. cbn [firstn]. rewrite app_nil_r. split; [|exact Hp].
  change (p ++ 45%N :: t) with (p ++ [45%N] ++ t) at 1. rewrite app_assoc. replace (S (length p)) with (length (p ++ [45%N])) by (rewrite app_length; cbn; lia).
  rewrite skipn_app, skipn_all, Nat.sub_diag. cbn [app skipn]. reflexivity.
Qed.
Lemma ins_custom_find app name v cs q : afind q (ins_custom app name v cs) =
  if isnil v || isnil name || isnil app then afind q cs else if leqb q (qualified app name) then Some v else afind q cs.
Proof.
  unfold ins_custom. destruct (isnil v || isnil name || isnil app); [reflexivity|]. rewrite find_custom_afind, update_custom_aupd, insert_sorted_ains.
  destruct (afind (qualified app name) cs) eqn:E.
  - rewrite aupd_find, E. reflexivity.
  - apply ains_find. exact E.
Qed.

Lemma line_x l : line_kind l = LX -> vl_group l = [] /\ starts_with (B "x-") (to_lower (vl_id l)) = true.
Proof.
  unfold line_kind. destruct (negb (isnil (vl_group l)) && negb (leqb (to_lower (vl_id l)) (B "adr"))) eqn:G; [discriminate|].
  assert (Ht : Forall (fun p => snd p <> LX) kind_table) by (repeat constructor; discriminate).
  assert (Hx : forall id, kind_of kind_table id = LX -> starts_with (B "x-") id = true).
  { intros id. induction Ht as [|[m q] tab Hq _ IH]; cbn [kind_of]; [destruct (starts_with (B "x-") id); [reflexivity|discriminate]|].
    destruct (leqb id m); [intros ->; exfalso; apply Hq; reflexivity|exact IH]. }
  intros H. apply Hx in H. split; [|exact H]. destruct (vl_group l); [reflexivity|]. cbn [isnil negb andb] in G.
  destruct (leqb_spec (to_lower (vl_id l)) (B "adr")) as [E|]; [rewrite E in H; discriminate|discriminate].
Qed.
Lemma x_line l : vl_group l = [] -> starts_with (B "x-") (to_lower (vl_id l)) = true -> line_kind l = LX.
Proof.
  intros Hg Hx. unfold line_kind. rewrite Hg. cbn [isnil negb andb]. revert Hx. generalize (to_lower (vl_id l)) as id.
  assert (Ht : Forall (fun p => starts_with (B "x-") (fst p) = false) kind_table) by (repeat constructor).
  intros id. induction Ht as [|[m q] tab Hq _ IH]; cbn [kind_of]; intros Hx; [rewrite Hx; reflexivity|].
  destruct (leqb_spec id m) as [->|]; [cbn [fst] in Hq; congruence|auto].
Qed.

(** ** Lines *)
Definition other_name (f n : bytes) : Prop := ~ extension_of f n /\ ~ (f = B "X-Anniversary" /\ to_lower n = B "anniversary").
Definition entry (f : bytes) (a : addressee) := afind (own f) (a_customs a).
Lemma upto_customs a b : P_ReadFields.upto a b -> a_customs b = a_customs a.
Proof. intros [e ->]. reflexivity. Qed.
Lemma upto_impps a b : P_ReadFields.upto a b -> a_impps b = a_impps a.
Proof. intros [e ->]. reflexivity. Qed.

Lemma other_line T id f l a b : (exists ns, In (f, ns) extensions) -> other_name f (vl_id l) -> read_line T id l a = Some b -> entry f b = entry f a.
Proof.
  intros Hf [H1 H2] Hr. apply read_line_eff in Hr. unfold entry. rewrite (upto_customs _ _ Hr). unfold eff. cbv zeta.
  destruct (line_kind l) eqn:K; try reflexivity; try (destruct (parse_picture l) as [p|]; [|reflexivity]).
  - cbn [a_customs put_customs]. rewrite ins_custom_find. destruct (_ || _ || _); [reflexivity|].
    destruct (leqb_spec (own f) (qualified vendor_id x_anniversary)) as [E|]; [|reflexivity]. exfalso. apply H2. split.
    + unfold own, qualified in E. apply (app_inv_head vendor_id) in E. injection E as E. exact E.
    + unfold line_kind in K. destruct (_ && _); [discriminate|]. apply kind_of_in in K as (m & Hm & ->); [|discriminate|discriminate].
      cbv in Hm. repeat (destruct Hm as [Hm|Hm]; [try discriminate Hm; injection Hm as <-; reflexivity|]). destruct Hm.
  - destruct (geo_parts l) as [|? [|? ?]]; reflexivity.
  - destruct (picture_empty (a_logo a)); reflexivity.
  - destruct (picture_empty (a_photo a)); reflexivity.
  - destruct (sound_empty (a_sound a)); reflexivity.
  - apply line_x in K as [Hg Hx]. change (a_customs (put_impps ?x ?y)) with (a_customs y). cbn [a_customs put_customs]. unfold custom_customs. cbv zeta.
    assert (Hk : custom_key l <> own f) by (intros E; apply H1; apply key_ext; auto).
    destruct (starts_with (B "messaging/") (custom_key l)); [reflexivity|]. destruct (index_of 45 (custom_key l)) as [d|] eqn:D; rewrite ins_custom_find.
    + destruct (_ || _ || _); [reflexivity|]. apply dash_key in D as [-> _]. rewrite (proj2 (leqb_neq _ _)) by auto. reflexivity.
    + destruct (_ || _ || _); [reflexivity|]. rewrite (proj2 (leqb_neq _ _)); [reflexivity|]. intros E. apply index_of_None in D.
      destruct Hf as [ns Hf]. apply ext_ok in Hf. unfold lists_ok in Hf. rewrite !andb_true_iff in Hf. destruct Hf as (((_ & _) & N) & _).
      assert (Hh : custom_key l = vendor_id /\ custom_key l = f).
      { unfold own, qualified in E. revert E D. generalize (custom_key l) as k. clear. intros k E D.
        change (B "KADDRESSBOOK-" ++ f) with (vendor_id ++ 45%N :: f) in E. 
        assert (K : forall p q r s : list N, ~ In 45%N p -> ~ In 45%N q -> p ++ 45%N :: r = q ++ 45%N :: s -> p = q /\ r = s).
        { induction p as [|x p IH]; intros [|y q] r s Hp Hq H; cbn in H.
          - injection H as ->. auto.
          - injection H as <- _. exfalso. apply Hq. left. reflexivity.
          - injection H as -> _. exfalso. apply Hp. left. reflexivity.
          - injection H as -> H. apply IH in H as [-> ->]; [auto|intros K; apply Hp; right; exact K|intros K; apply Hq; right; exact K]. }
        apply K in E as [-> ->]; auto. intros K'. apply mem_In in K'. vm_compute in K'. discriminate. }
      destruct Hh as [Hh Hh2]. rewrite Hh in Hh2. rewrite <- Hh2, leqb_refl in N. discriminate.
Qed.
Lemma own_line T id f l a b : extension_of f (vl_id l) -> vl_group l = [] -> lvalue l <> [] -> read_line T id l a = Some b -> entry f b = Some (lvalue l).
Proof.
  intros Hf Hg Hv Hr. apply read_line_eff in Hr. unfold entry. rewrite (upto_customs _ _ Hr). unfold eff. cbv zeta.
  destruct (ext_facts f _ Hf) as (_ & _ & Hx). rewrite (x_line l Hg Hx). change (a_customs (put_impps ?x ?y)) with (a_customs y). cbn [a_customs put_customs].
  unfold custom_customs. rewrite (ext_key f l Hf). cbv zeta.
  assert (Hm : starts_with (B "messaging/") (own f) = false) by reflexivity. rewrite Hm.
  assert (Hd : index_of 45%N (own f) = Some 12) by reflexivity. rewrite Hd. rewrite ins_custom_find.
  change (firstn 12 (own f)) with vendor_id. change (skipn 13 (own f)) with f. destruct (dash_key _ _ Hd) as [Hq _].
  change (firstn 12 (own f)) with vendor_id in Hq. change (skipn 13 (own f)) with f in Hq. rewrite Hq, leqb_refl.
  destruct (lvalue l); [congruence|]. cbn [isnil orb]. destruct Hf as (ns & Hf & _).
  destruct f; [|reflexivity]. cbv in Hf. repeat (destruct Hf as [Hf|Hf]; [discriminate Hf|]). destruct Hf.
Qed.
Lemma lines_entry T card f v : forall ls k a b, (exists ns, In (f, ns) extensions) -> v <> [] ->
  Forall (fun l => other_name f (vl_id l) \/ (extension_of f (vl_id l) /\ vl_group l = [] /\ lvalue l = v)) ls ->
  (entry f a = Some v \/ Exists (fun l => extension_of f (vl_id l)) ls) ->
  read_lines T card k ls a = Some b -> entry f b = Some v.
Proof.
  induction ls as [|l ls IH]; intros k a b Hf Hv Hl He Hr; cbn [read_lines] in Hr.
  - injection Hr as <-. destruct He as [He|He]; [exact He|inversion He].
  - destruct (read_line T (t_newid T card k) l a) as [a'|] eqn:E; [|discriminate]. pose proof (Forall_inv Hl) as H1. apply Forall_inv_tail in Hl.
    apply (IH (S k) a' b); auto. destruct H1 as [H1|(H1 & H2 & H3)].
    + destruct He as [He|He]; [left; rewrite (other_line T _ f l a a' Hf H1 E); exact He|]. inversion He; subst; [destruct H1; contradiction|right; assumption].
    + left. rewrite <- H3. apply (own_line T (t_newid T card k) f l a a'); auto. congruence.
Qed.

(** ** One card *)
Lemma one_card E nl b bs e : newline nl -> plain_bytes b -> plain_bytes e -> begin_line b -> end_line e -> Forall block_ok bs ->
  parses_to E (card_in nl [] b bs e []) [card_of (map (fun c => parse_pure E (content c)) bs)].
Proof.
  intros H1 H2 H3 H4 H5 H6. assert (O : one_card_text E nl [] b bs e []).
  { unfold one_card_text. split; [exact H1|]. split; [exact (Forall_cons _ H2 (Forall_cons _ H3 (Forall_nil _)))|]. auto. }
  destruct (card_in_run E nl [] b bs e [] O) as (L & _). apply srun_to; [exact L|].
  unfold card_in. cbn [app]. rewrite physical_text_of; [|auto|].
  2:{ constructor; [apply H2|]. apply Forall_app. split; [|constructor; [apply H3|constructor]]. eapply Forall_impl; [|apply blocks_plain; exact H6]. intros l Hl. apply Hl. }
  rewrite plain_clean; [|auto|constructor; [exact H2|apply Forall_app; split; [apply blocks_plain; exact H6|constructor; [exact H3|constructor]]]].
  replace ((b :: flat_map block_lines bs ++ [e]) ++ [[]]) with ((b :: flat_map block_lines bs ++ [e]) ++ [[]]) by reflexivity.
  rewrite srun_app by discriminate. rewrite card_run; auto using not_ends_nil.
Qed.
Lemma isort_all {A} (k : A -> list N) l x : In x l -> In x (isort k l).
Proof.
  destruct (isort_spec k l) as [_ F]. specialize (F (k x)). intros H.
  assert (Hx : In x (withk k (k x) l)) by (apply filter_In; rewrite leqb_refl; auto).
  rewrite <- F in Hx. apply filter_In in Hx. tauto.
Qed.
Lemma plain_escapes v : ~ In 92%N v -> remove_escapes v = v.
Proof. intros H. pose proof (remove_escapes_app [] v) as K. cbn [app] in K. rewrite K; auto. intros (q & Hq). destruct q; discriminate. Qed.
Lemma ascii_read v : S_CardText.ascii v -> from_utf8 v = v.
Proof.
  intros H. rewrite <- (to_utf8_ascii v H) at 1. apply utf8_roundtrip. unfold text_ok. apply andb_true_iff. split; [apply bmp_valid, ascii_bmp, H|].
  destruct v as [|c v]; [reflexivity|]. apply Forall_inv in H. unfold no_bom. lia.
Qed.
Lemma plain_line_value E n v : name_chars n -> plain_value v ->
  let l := parse_pure E (n ++ 58%N :: v) in vl_id l = n /\ vl_group l = [] /\ vl_params l = [] /\ lvalue l = v.
Proof.
  intros Hn [_ Hv]. unfold parse_pure. rewrite run_ident by auto. cbn [app px_run]. change (px_acc px_init) with (@nil N). cbn [app].
  set (z := px_goto PInitial n px_init). unfold px_step. change (px_state z) with PInitial. cbn iota.
  change (58 =? cSEMI)%N with false. change (58 =? cCOLON)%N with true. cbn iota. unfold finish_pure. cbv zeta.
  rewrite plain_escapes by (intros H; apply Hv in H; lia).
  split; [reflexivity|]. split; [reflexivity|]. split; [reflexivity|].
  cbn [px_enc px_goto px_set_line px_init z px_charset isnil negb snd fst px_line vl_set_value vl_set_id].
  unfold lvalue. cbn [vl_value]. rewrite ascii_read; [reflexivity|]. apply Forall_forall. intros c Hc. apply Hv in Hc. lia.
Qed.

Lemma same_field_swappable t : same_field t -> swappable t.
Proof.
  intros ((f & H1 & H2) & Hd). destruct (ext_facts _ _ H1) as (E1 & C1 & X1). destruct (ext_facts _ _ H2) as (E2 & C2 & X2).
  split; [exact C1|]. split; [exact C2|]. split; [exact Hd|]. intros T id l a Hi Hg. unfold read_line.
  rewrite (x_line l) by (rewrite ?Hi; auto). rewrite (x_line (vl_set_id (snd (fst t)) l)) by auto.
  unfold read_custom. cbn [vl_set_id vl_id]. rewrite E2, Hi, E1. reflexivity.
Qed.

Lemma field_text T E nl b bs e n f v : newline nl -> plain_bytes b -> plain_bytes e -> begin_line b -> end_line e ->
  extension_of f n -> plain_value v -> In (n ++ 58%N :: v, []) bs -> Forall block_ok bs ->
  Forall (fun c => c = (n ++ 58%N :: v, []) \/ exists m, named m c /\ other_name f m) bs ->
  exists k, forall fuel, k <= fuel ->
    parse_text T E fuel (card_in nl [] b bs e []) = Undefined \/
    exists a, parse_text T E fuel (card_in nl [] b bs e []) = Done [a] /\ custom vendor_id f a = v.
Proof.
  intros H1 H2 H3 H4 H5 Hf Hv Hin Hb Ho. destruct (one_card E nl b bs e H1 H2 H3 H4 H5 Hb) as [k Hk]. exists k. intros fuel Hfu. unfold parse_text.
  rewrite Hk by exact Hfu. cbn [read_cards]. unfold read_card. set (c := card_of _). fold (in_order c).
  destruct (read_lines T 0 1 (in_order c) (addressee_new (t_newid T 0 0))) as [a|] eqn:R; [|left; reflexivity]. right. exists a. split; [reflexivity|].
  destruct (ext_facts f n Hf) as (_ & Hc & _). destruct (plain_line_value E n v Hc Hv) as (P1 & P2 & P3 & P4).
  assert (Hen : entry f a = Some v).
  { apply (lines_entry T 0 f v (in_order c) 1 (addressee_new (t_newid T 0 0)) a); auto.
    - destruct Hf as (ns & Hf & _). exists ns. exact Hf.
    - apply Hv.
    - apply Forall_forall. intros l Hl. unfold c in Hl. rewrite in_order_isort in Hl. apply isort_in in Hl. apply in_map_iff in Hl as (d & <- & Hd).
      rewrite Forall_forall in Ho. destruct (Ho d Hd) as [->|(m & Hm & Hn)].
      + right. unfold content. cbn [fst snd concat]. rewrite app_nil_r, P1. auto.
      + left. rewrite (named_id E m d Hm). exact Hn.
    - right. apply Exists_exists. exists (parse_pure E (n ++ 58%N :: v)). rewrite P1. split; [|exact Hf]. unfold c. rewrite in_order_isort. apply isort_all.
      apply in_map_iff. exists (n ++ 58%N :: v, []). split; [|exact Hin]. unfold content. cbn [fst snd concat]. rewrite app_nil_r. reflexivity. }
  unfold custom. rewrite find_custom_afind. change (qualified vendor_id f) with (own f). unfold entry in Hen. rewrite Hen. reflexivity.
Qed.

(** ** Messaging *)
Lemma add_impp_keeps V i l x : In x l -> In x (add_impp V i l).
Proof. unfold add_impp. destruct (impp_valid _ i); [|auto]. intros H. apply in_app_iff. left. exact H. Qed.
Lemma impps_kept T id l a b x : read_line T id l a = Some b -> In x (a_impps a) -> In x (a_impps b).
Proof.
  intros Hr Hx. apply read_line_eff in Hr. rewrite (upto_impps _ _ Hr). unfold eff. cbv zeta.
  destruct (line_kind l) eqn:K; try exact Hx; try (destruct (parse_picture l) as [p|]; [|exact Hx]).
  - apply add_impp_keeps. exact Hx.
  - destruct (geo_parts l) as [|? [|? ?]]; exact Hx.
  - destruct (picture_empty (a_logo a)); exact Hx.
  - destruct (picture_empty (a_photo a)); exact Hx.
  - destruct (sound_empty (a_sound a)); exact Hx.
  - cbn [a_impps put_impps]. unfold custom_impps. cbv zeta. destruct (starts_with (B "messaging/") (custom_key l)); [|exact Hx].
    match goal with |- In _ (fst (fold_left ?g ?vs ?acc)) => assert (Hk : forall us i u, In x i -> In x (fst (fold_left g us (i, u)))) end.
    { induction us as [|w us IH]; intros i u Hi; [exact Hi|]. cbn [fold_left]. apply IH. apply add_impp_keeps. exact Hi. }
    apply Hk. exact Hx.
Qed.
Lemma lines_impp T card x (P : vline -> Prop) : (forall id l a b, P l -> read_line T id l a = Some b -> In x (a_impps b)) ->
  forall ls k a b, (In x (a_impps a) \/ Exists P ls) -> read_lines T card k ls a = Some b -> In x (a_impps b).
Proof.
  intros HP. induction ls as [|l ls IH]; intros k a b He Hr; cbn [read_lines] in Hr.
  - injection Hr as <-. destruct He as [He|He]; [exact He|inversion He].
  - destruct (read_line T (t_newid T card k) l a) as [a'|] eqn:E; [|discriminate]. apply (IH (S k) a' b); auto.
    destruct He as [He|He]; [left; exact (impps_kept T _ l a a' x E He)|]. inversion He; subst; [left; exact (HP _ l a a' H0 E)|right; assumption].
Qed.
Lemma messengers_ok : forallb (fun p => let key := skipn 2 (spelled import_names (fst p) []) in
  starts_with (B "messaging/") key && forallb (fun c => negb (mem c [58; 59; 46]%N)) (fst p) && starts_with (B "x-") (fst p) && contains (fst p) (map fst import_names) &&
  match index_of 45%N key with Some d => leqb (normalize_impp (mid_len 10 (d - 10) key)) (snd p) | None => false end) messengers = true.
Proof. vm_compute. reflexivity. Qed.
Lemma spelled_any tab low g h : In low (map fst tab) -> spelled tab low g = spelled tab low h.
Proof.
  induction tab as [|[x y] tab IH]; intros H; [destruct H|]. cbn [spelled]. destruct (leqb_spec low x); [reflexivity|]. destruct H as [H|H]; [cbn in H; congruence|auto].
Qed.
Lemma messenger_facts n s : In (to_lower n, s) messengers ->
  let key := skipn 2 (spelled import_names (to_lower n) n) in
  starts_with (B "messaging/") key = true /\ name_chars n /\ starts_with (B "x-") (to_lower n) = true /\
  exists d, index_of 45%N key = Some d /\ normalize_impp (mid_len 10 (d - 10) key) = s.
Proof.
  intros H. pose proof messengers_ok as K. rewrite forallb_forall in K. specialize (K _ H). cbv zeta in K. cbn [fst snd] in K.
  rewrite !andb_true_iff in K. destruct K as ((((K1 & K2) & K3) & K4) & K5). apply contains_In in K4. rewrite (spelled_any _ _ n [] K4). cbv zeta.
  split; [exact K1|]. split; [|split; [exact K3|]].
  - intros c Hc. rewrite forallb_forall in K2. assert (Hl : In (lower1 c) (to_lower n)) by (unfold to_lower; apply in_map; exact Hc).
    specialize (K2 _ Hl). split; [|split]; intros ->; cbv in K2; discriminate.
  - destruct (index_of 45 _) as [d|]; [|discriminate]. exists d. split; [reflexivity|]. apply leqb_eq. exact K5.
Qed.
Lemma messenger_text T E nl b bs e n s v : newline nl -> plain_bytes b -> plain_bytes e -> begin_line b -> end_line e ->
  In (to_lower n, s) messengers -> plain_value v -> In (n ++ 58%N :: v, []) bs -> Forall block_ok bs ->
  let i := mkImpp [] (t_set_path T v (t_set_scheme T s [])) in impp_valid (env_url (t_env T)) i = true ->
  exists k, forall fuel, k <= fuel ->
    parse_text T E fuel (card_in nl [] b bs e []) = Undefined \/
    exists a, parse_text T E fuel (card_in nl [] b bs e []) = Done [a] /\ In i (a_impps a).
Proof.
  intros H1 H2 H3 H4 H5 Hf Hv Hin Hb i Hi. destruct (one_card E nl b bs e H1 H2 H3 H4 H5 Hb) as [k Hk]. exists k. intros fuel Hfu. unfold parse_text.
  rewrite Hk by exact Hfu. cbn [read_cards]. unfold read_card. set (c := card_of _). fold (in_order c).
  destruct (read_lines T 0 1 (in_order c) (addressee_new (t_newid T 0 0))) as [a|] eqn:R; [|left; reflexivity]. right. exists a. split; [reflexivity|].
  destruct (messenger_facts n s Hf) as (M1 & Hc & Mx & d & M2 & M3). destruct (plain_line_value E n v Hc Hv) as (P1 & P2 & P3 & P4).
  apply (lines_impp T 0 i (fun l => l = parse_pure E (n ++ 58%N :: v))) with (ls := in_order c) (k := 1) (a := addressee_new (t_newid T 0 0)); auto.
  - intros id l a0 b0 -> Hr. apply read_line_eff in Hr. rewrite (upto_impps _ _ Hr). unfold eff. cbv zeta.
    rewrite x_line by (rewrite ?P1; auto). cbn [a_impps put_impps]. unfold custom_impps, custom_key. cbv zeta. rewrite P1, M1, M2, M3, P4, P3.
    rewrite split_notin by (intros K; apply Hv in K; lia). cbn [filter]. destruct Hv as [Hn _]. destruct v as [|x v]; [congruence|]. cbn [isnil negb fold_left fst snd].
    unfold add_impp. fold i. rewrite Hi. apply in_app_iff. right. left. reflexivity.
  - right. apply Exists_exists. exists (parse_pure E (n ++ 58%N :: v)). split; [|reflexivity]. unfold c. rewrite in_order_isort. apply isort_all.
    apply in_map_iff. exists (n ++ 58%N :: v, []). split; [|exact Hin]. unfold content. cbn [fst snd concat]. rewrite app_nil_r. reflexivity.
Qed.
