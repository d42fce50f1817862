(** Proofs for drag and drop and the date helpers. *)
From Verif Require Import Base BaseFacts M_ParamMap M_VCard M_VCardText M_Values M_Date M_Addressee M_VCardTool M_Ldif M_Convert S_Convert
  P_Date P_LdifBack.

Lemma md_set_has f d m : md_has f (md_set f d m) = true.
Proof. unfold md_has, md_set. rewrite existsb_app. cbn [existsb fst]. replace (leqb f f) with true by (symmetry; apply leqb_eq; reflexivity). rewrite orb_true_r. reflexivity. Qed.
Lemma md_set_data f d m : md_data f (md_set f d m) = d.
Proof.
  unfold md_set. induction m as [|[g x] m IH]; cbn [filter fst app md_data].
  - replace (leqb f f) with true by (symmetry; apply leqb_eq; reflexivity). reflexivity.
  - destruct (leqb g f) eqn:E; cbn [negb]; [exact IH|]. cbn [app md_data]. rewrite E. exact IH.
Qed.
Lemma md_set_other f g d m : g <> f -> md_data g (md_set f d m) = md_data g m /\ md_has g (md_set f d m) = md_has g m.
Proof.
  intros H. assert (Hn : leqb f g = false) by (destruct (leqb f g) eqn:E; [apply leqb_eq in E; congruence|reflexivity]).
  unfold md_set. induction m as [|[k x] m [IH1 IH2]]; cbn [filter fst app md_data md_has existsb].
  - rewrite Hn. auto.
  - destruct (leqb k f) eqn:E; cbn [negb].
    + apply leqb_eq in E. subst k. rewrite Hn. cbn [orb]. auto.
    + cbn [app md_data md_has existsb fst]. destruct (leqb k g); [auto|]. cbn [orb]. auto.
Qed.
Lemma card_text_nonempty E c : card_text E c <> [].
Proof. unfold card_text. discriminate. Qed.
Lemma create_text_nil T E v x l : isnil (create_text T E v x l) = isnil l.
Proof.
  unfold create_text, create_vcards. destruct l as [|a l]; [reflexivity|]. cbn [map flat_map isnil].
  pose proof (card_text_nonempty E (create_card T v x a)) as H. destruct (card_text E (create_card T v x a)); [congruence|reflexivity].
Qed.
Lemma mime_set d m kind : find_mime kind (Some (md_set vcard_mime d m)) = vcard_mime.
Proof. unfold find_mime. rewrite md_set_has. reflexivity. Qed.
Lemma populate_one T E l m : l <> [] -> populate T E l m = (true, md_set vcard_mime (create_text T E V30 false l) m).
Proof. intros H. unfold populate. rewrite create_text_nil. destruct l; [congruence|reflexivity]. Qed.
Lemma from_mime_set T E kind fuel d m old : from_mime T E kind fuel (Some (md_set vcard_mime d m)) old
  = match parse_text T E fuel d with Running => Running | Undefined => Undefined | Done l => Done (negb (isnil l), l) end.
Proof.
  unfold from_mime. rewrite mime_set. change vcard_mime with (116%N :: skipn 1 vcard_mime) at 1.
  cbv iota. change (116%N :: skipn 1 vcard_mime) with vcard_mime. rewrite md_set_data. reflexivity.
Qed.
Lemma find_mime_spec kind m : let f := find_mime kind (Some m) in
  (md_has vcard_mime m = true -> f = vcard_mime) /\
  (md_has vcard_mime m = false -> (exists m1 d m2, m = m1 ++ (f, d) :: m2 /\ kind f = true /\ forall e, In e m1 -> kind (fst e) = false) \/
                                   (f = [] /\ forall e, In e m -> kind (fst e) = false)).
Proof.
  cbn zeta. unfold find_mime. destruct (md_has vcard_mime m); split; intros H; try discriminate; [reflexivity|]. clear H.
  induction m as [|[g d] m IH]; [right; split; [reflexivity|intros e []]|]. cbn [find fst].
  destruct (kind g) eqn:E.
  - left. exists [], d, m. cbn [fst]. split; [reflexivity|]. split; [exact E|intros e []].
  - destruct IH as [(m1 & d' & m2 & Q & K & H)|[K H]].
    + left. exists ((g, d) :: m1), d', m2. split; [cbn [app]; rewrite <- Q; reflexivity|]. split; [exact K|]. intros e [<-|He]; [exact E|exact (H e He)].
    + right. split; [exact K|]. intros e [<-|He]; [exact E|exact (H e He)].
Qed.

(** ** dates *)
Lemma compact_remove s : remove_ch cCOLON (remove_ch 45%N s) = compact s.
Proof.
  unfold remove_ch, compact. induction s as [|c s IH]; [reflexivity|]. cbn [filter]. change cCOLON with 58%N in *.
  destruct (N.eqb c 45); cbn [negb andb filter]; [exact IH|]. destruct (N.eqb c 58); cbn [negb]; [exact IH|rewrite IH; reflexivity].
Qed.
Lemma compact_idem s : compact (compact s) = compact s.
Proof.
  unfold compact. induction s as [|c s IH]; [reflexivity|]. cbn [filter]. destruct (negb (N.eqb c 45) && negb (N.eqb c 58)) eqn:E; [|exact IH].
  cbn [filter]. rewrite E, IH. reflexivity.
Qed.
Lemma string_compact s : string_to_date (compact s) = string_to_date s.
Proof. unfold string_to_date. rewrite !compact_remove, compact_idem. reflexivity. Qed.
Lemma day_text d : four_digits d -> string_to_date (day_to_string (Some d)) = mkDt (Some d) (Some midnight) TLocal.
Proof.
  intros [D Y]. destruct d as [y m dd]. cbn [d_year d_month d_day] in *.
  assert (D' := D). unfold date_ok in D'. rewrite !andb_true_iff, !Z.leb_le in D'. destruct D' as ((((Y0 & M1) & M2) & D1) & D2).
  assert (month_days y m <= 31)%Z by apply month_days_le.
  unfold day_to_string. cbn [d_year d_month d_day].
  replace (year4 y) with (zpad 4 y) by (unfold year4; destruct (Z.ltb_spec y 0); [lia|reflexivity]).
  destruct (zpad4 y ltac:(lia)) as (y1 & y2 & y3 & y4 & -> & Y1 & Y2 & Y3 & Y4 & YV).
  destruct (zpad2 m ltac:(lia)) as (m1 & m2 & -> & A1 & A2 & MV).
  destruct (zpad2 dd ltac:(lia)) as (d1 & d2 & -> & A3 & A4 & DV).
  apply digit_bounds in Y1, Y2, Y3, Y4, A1, A2, A3, A4. cbn [app].
  unfold string_to_date.
  assert (R : forall k l, (k < 48 \/ k = 58)%N -> forall c, (48 <= c <= 57)%N \/ c = 84%N \/ c = 90%N -> remove_ch k (c :: l) = c :: remove_ch k l).
  { intros k l K c C. apply remove_ch_skip. apply N.eqb_neq. lia. }
  rewrite !(R 45%N) by lia. rewrite !(R cCOLON) by (try (right; reflexivity); lia).
  change (remove_ch cCOLON (remove_ch 45%N [])) with (@nil N). cbn [length Nat.leb Nat.ltb nth_error andb].
  unfold mid_len. cbn [firstn skipn]. rewrite YV, MV, DV. cbv iota. unfold mk_date. rewrite D. reflexivity.
Qed.
