(** What is read back of an exported contact: lemmas for C28. *)
From Verif Require Import Base BaseFacts Utf8 Utf8Facts QtText M_ParamMap M_Values M_Date M_Addressee M_ContactGroup M_Ldif S_Ldif S_LdifContact P_Types P_Lists P_Date P_Ldif P_LdifEntry P_LdifConv P_LdifText P_LdifRead.
Local Open Scope list_scope.
Local Open Scope nat_scope.

(** ** Phone numbers *)

Definition old_ids (E : LdifExt) (k : nat) (l : list phone) : Prop := Forall (fun p => exists i, i < k /\ ph_id p = le_newid E i) l.
Lemma padd_new E v t k l : (forall i j, le_newid E i = le_newid E j -> i = j) -> old_ids E k l ->
  padd E v t k l = l ++ (if isnil (simplified v) then [] else [phone_of (le_newid E k) v t]) /\ old_ids E (kadd v k) (padd E v t k l).
Proof.
  intros I O. assert (X : padd E v t k l = l ++ (if isnil (simplified v) then [] else [phone_of (le_newid E k) v t])).
  { unfold padd. destruct v as [|c v]; [cbn; rewrite app_nil_r; reflexivity|]. cbn [isnil]. unfold replace_or.
    destruct (find_split _ l) as [[[b x] r]|] eqn:F.
    - exfalso. apply find_split_Some in F. destruct F as (-> & L & _). apply leqb_eq in L. apply Forall_app in O. destruct O as [_ O].
      inversion O as [|? ? (i & Li & Hi)]; subst. rewrite Hi in L. apply I in L. lia.
    - destruct (isnil (simplified (c :: v))); [rewrite app_nil_r|]; reflexivity. }
  split; [exact X|]. rewrite X. unfold kadd. destruct v as [|c v]; [cbn; rewrite app_nil_r; exact O|]. cbn [isnil].
  apply Forall_app. split.
  - eapply Forall_impl; [|exact O]. intros p (i & Hi & P). exists i. split; [lia|exact P].
  - destruct (isnil (simplified (c :: v))); [constructor|]. constructor; [|constructor]. exists k. split; [lia|reflexivity].
Qed.
Lemma phones_back E qs : (forall i j, le_newid E i = le_newid E j -> i = j) -> forall k l, old_ids E k l ->
  map (fun p => (ph_type p, ph_number p)) (fst (fold_left (pstep E) qs (l, k))) =
  map (fun p => (ph_type p, ph_number p)) l
  ++ flat_map (fun q : N * ustring => let n := simplified (snd q) in if isnil n then [] else [(fst q, n)]) qs.
Proof.
  intros I. induction qs as [|[t v] qs IH]; intros k l O; [cbn; rewrite app_nil_r; reflexivity|].
  cbn [fold_left flat_map]. unfold pstep at 2. cbn [fst snd]. destruct (padd_new E v t k l I O) as (X & O').
  rewrite IH by exact O'. rewrite X, map_app, <- app_assoc. f_equal. f_equal. destruct (isnil (simplified v)); reflexivity.
Qed.

(** ** E-mail addresses *)

Lemma eadd_text v l : map em_mail (eadd v l) = if isnil v || contains v (map em_mail l) then map em_mail l else map em_mail l ++ [v].
Proof. unfold eadd. destruct (isnil v || contains v (map em_mail l)); [reflexivity|]. rewrite map_app. reflexivity. Qed.
Lemma filter_filter_pred {A} (p q : A -> bool) l : filter p (filter q l) = filter (fun x => q x && p x) l.
Proof. induction l as [|x l IH]; [reflexivity|]. cbn [filter]. destruct (q x); cbn [andb filter]; [destruct (p x)|]; rewrite IH; reflexivity. Qed.
Lemma contains_snoc v l x : contains v (l ++ [x]) = contains v l || leqb x v.
Proof. induction l as [|y l IH]; [cbn; apply orb_false_r|]. cbn [app contains]. rewrite IH, orb_assoc. reflexivity. Qed.
Lemma emails_back vs : forall l,
  map em_mail (fold_left (fun l v => eadd v l) vs l) = map em_mail l ++ filter (fun v => negb (contains v (map em_mail l))) (distinct vs).
Proof.
  induction vs as [|v vs IH]; intros l; [cbn; rewrite app_nil_r; reflexivity|]. cbn [fold_left distinct]. rewrite IH, eadd_text.
  destruct v as [|c v]; [reflexivity|]. set (w := c :: v). cbn [isnil orb]. change (isnil w) with false. cbv iota. cbn [orb filter].
  destruct (contains w (map em_mail l)) eqn:C; cbn [negb].
  - f_equal. rewrite filter_filter_pred. apply filter_ext_in. intros y _. destruct (leqb y w) eqn:L; cbn [negb andb]; [|reflexivity].
    apply leqb_eq in L. subst y. rewrite C. reflexivity.
  - rewrite <- app_assoc. f_equal. cbn [app]. f_equal. rewrite filter_filter_pred. apply filter_ext_in. intros y _.
    rewrite contains_snoc, negb_orb, andb_comm. f_equal. f_equal.
    destruct (leqb y w) eqn:A, (leqb w y) eqn:D; try reflexivity; [apply leqb_eq in A|apply leqb_eq in D]; subst; rewrite leqb_refl in *; discriminate.
Qed.

(** ** Addresses *)

Definition astate (empty : bool) (id : ustring) (t : N) (po st lo re pc co : ustring) : address :=
  mkAddress empty id t geo_new po [] st lo re pc co [].
Lemma aset_street e id t po st lo re pc co v : aset ad_set_street v (astate e id t po st lo re pc co) = astate (e && isnil v) id t po (or_ v st) lo re pc co.
Proof. destruct v; [destruct e|rewrite andb_false_r]; reflexivity. Qed.
Lemma aset_line e id t po st lo re pc co v : aset ad_add_line v (astate e id t po st lo re pc co) = astate (e && isnil v) id t po (if isnil v then st else st ++ cLF :: v) lo re pc co.
Proof. destruct v; [destruct e|rewrite andb_false_r]; reflexivity. Qed.
Lemma aset_pobox e id t po st lo re pc co v : aset ad_set_pobox v (astate e id t po st lo re pc co) = astate (e && isnil v) id t (or_ v po) st lo re pc co.
Proof. destruct v; [destruct e|rewrite andb_false_r]; reflexivity. Qed.
Lemma aset_locality e id t po st lo re pc co v : aset ad_set_locality v (astate e id t po st lo re pc co) = astate (e && isnil v) id t po st (or_ v lo) re pc co.
Proof. destruct v; [destruct e|rewrite andb_false_r]; reflexivity. Qed.
Lemma aset_region e id t po st lo re pc co v : aset ad_set_region v (astate e id t po st lo re pc co) = astate (e && isnil v) id t po st lo (or_ v re) pc co.
Proof. destruct v; [destruct e|rewrite andb_false_r]; reflexivity. Qed.
Lemma aset_postal e id t po st lo re pc co v : aset ad_set_postal v (astate e id t po st lo re pc co) = astate (e && isnil v) id t po st lo re (or_ v pc) co.
Proof. destruct v; [destruct e|rewrite andb_false_r]; reflexivity. Qed.
Lemma aset_country E e id t po st lo re pc co v : (forall c, le_country E (le_country E c) = le_country E c) ->
  aset (fun v => ad_set_country (read_country E v)) (le_country E v) (astate e id t po st lo re pc co) = astate (e && isnil (le_country E v)) id t po st lo re pc (or_ (le_country E v) co).
Proof.
  intros H. assert (X : read_country E (le_country E v) = le_country E v) by (unfold read_country; rewrite H; destruct (_ <=? _); reflexivity).
  unfold aset, or_. destruct (le_country E v) as [|c s] eqn:C; [destruct e; reflexivity|]. cbn [isnil]. rewrite andb_false_r. unfold ad_set_country. rewrite X. reflexivity.
Qed.
Lemma or_or v x : or_ v (or_ v x) = or_ v x. Proof. destruct v; reflexivity. Qed.
Lemma or_empty v : or_ v [] = v. Proof. destruct v; reflexivity. Qed.
Lemma street_lines s : (if isnil (second_line s) then or_ (M_Ldif.first_line s) s else or_ (M_Ldif.first_line s) s ++ cLF :: second_line s) = carried_street s.
Proof. unfold carried_street, or_. destruct (isnil (M_Ldif.first_line s)), (isnil (second_line s)); rewrite ?app_nil_r; reflexivity. Qed.
Lemma carried_street_nil s : isnil (carried_street s) = isnil s.
Proof.
  unfold carried_street. destruct s as [|c s]; [reflexivity|]. destruct (M_Ldif.first_line (c :: s)) eqn:F; reflexivity.
Qed.
Lemma first_nil s : isnil s = true -> isnil (M_Ldif.first_line s) = true /\ isnil (second_line s) = true.
Proof. destruct s; [auto|discriminate]. Qed.
Lemma nil_and s : isnil s && isnil (M_Ldif.first_line s) && isnil (second_line s) = isnil s.
Proof. destruct s; [reflexivity|reflexivity]. Qed.

Lemma home_state E id x : (forall c, le_country E (le_country E c) = le_country E c) ->
  exists e, home_back E id x = astate e id aHome [] (carried_street (ad_street x)) (ad_locality x) (ad_region x) (ad_postal x) (le_country E (ad_country x))
    /\ e = negb (existsb (fun v => negb (isnil v)) (carried_address E [] x)).
Proof.
  intros H. unfold home_back. change (address_new id aHome) with (astate true id aHome [] [] [] [] [] []).
  rewrite !aset_street, aset_line, aset_locality, aset_region, aset_postal, aset_country, !or_empty, street_lines by exact H.
  eexists. split; [reflexivity|]. cbn [andb]. rewrite nil_and. unfold carried_address. cbn [existsb]. rewrite carried_street_nil.
  cbn [isnil negb orb]. rewrite !negb_orb, !negb_involutive, !andb_true_r. rewrite <- !andb_assoc. reflexivity.
Qed.
Lemma work_state E id x : (forall c, le_country E (le_country E c) = le_country E c) ->
  exists e, work_back E id x = astate e id aWork (ad_pobox x) (carried_street (ad_street x)) (ad_locality x) (ad_region x) (ad_postal x) (le_country E (ad_country x))
    /\ e = negb (existsb (fun v => negb (isnil v)) (carried_address E (ad_pobox x) x)).
Proof.
  intros H. unfold work_back. change (address_new id aWork) with (astate true id aWork [] [] [] [] [] []).
  rewrite aset_postal, aset_pobox, aset_locality, !aset_street, aset_line. rewrite aset_country by exact H. rewrite aset_locality.
  rewrite aset_country by exact H. rewrite aset_region. rewrite !or_or, !or_empty, street_lines.
  eexists. split; [reflexivity|]. unfold carried_address. cbn [existsb]. rewrite carried_street_nil.
  cbn [isnil negb orb]. rewrite !negb_orb, !negb_involutive, !andb_true_r.
  destruct (ad_street x) as [|sc sr]; [cbn [isnil M_Ldif.first_line second_line split andb]|cbn [isnil]; rewrite ?andb_false_r; reflexivity].
  destruct (isnil (ad_pobox x)), (isnil (ad_locality x)), (isnil (ad_region x)), (isnil (ad_postal x)), (isnil (le_country E (ad_country x))); reflexivity.
Qed.

(** ** Web address and dates *)

Lemma urls_back E a : url_valid (env_url (le_env E)) [] = false ->
  uadd E (url_text E a) (uadd E (url_text E a) (uadd E (url_text E a) [])) = carried_url E a.
Proof.
  intros H. unfold carried_url, uadd. destruct (isnil (url_text E a)); [reflexivity|]. cbn [isnil negb andb].
  set (u := url_parse _ _). destruct (url_valid _ u) eqn:V; [|cbn [isnil andb]; rewrite ?V; reflexivity].
  cbn [app isnil andb ru_url]. destruct u as [|c u]; [congruence|]. reflexivity.
Qed.

Lemma month_days_le y m : (month_days y m <= 31)%Z.
Proof. unfold month_days. repeat match goal with |- context [if ?b then _ else _] => destruct b end; lia. Qed.
Lemma digit_bounds c : digit c -> (48 <= c <= 57)%N.
Proof. unfold digit, is_digit. lia. Qed.
Lemma revision_text d t z : date_ok (d_year d) (d_month d) (d_day d) = true -> (0 < d_year d < 10000)%Z ->
  time_ok (t_hour t) (t_min t) (t_sec t) (t_msec t) = true ->
  let s := date_to_string (mkDt (Some d) (Some t) z) in
  isnil s = false /\ leqb s (B "0Z") = false /\
  string_to_date s = mkDt (Some d) (Some (mkTime (t_hour t) (t_min t) (t_sec t) 0)) TLocal.
Proof.
  intros D Y T. destruct d as [y m dd], t as [h mi se ms]. cbn [d_year d_month d_day t_hour t_min t_sec t_msec] in *.
  assert (D' := D). unfold date_ok in D'. rewrite !andb_true_iff, !Z.leb_le in D'. destruct D' as ((((Y0 & M1) & M2) & D1) & D2).
  assert (month_days y m <= 31)%Z by apply month_days_le.
  assert (T' := T). unfold time_ok in T'. rewrite !andb_true_iff, !Z.leb_le, !Z.ltb_lt in T'.
  unfold date_to_string. cbn [dt_date dt_time d_year d_month d_day t_hour t_min t_sec].
  replace (year4 y) with (zpad 4 y) by (unfold year4; destruct (Z.ltb_spec y 0); [lia|reflexivity]).
  destruct (zpad4 y ltac:(lia)) as (y1 & y2 & y3 & y4 & -> & Y1 & Y2 & Y3 & Y4 & YV).
  destruct (zpad2 m ltac:(lia)) as (m1 & m2 & -> & A1 & A2 & MV).
  destruct (zpad2 dd ltac:(lia)) as (d1 & d2 & -> & A3 & A4 & DV).
  destruct (zpad2 h ltac:(lia)) as (h1 & h2 & -> & A5 & A6 & HV).
  destruct (zpad2 mi ltac:(lia)) as (i1 & i2 & -> & A7 & A8 & IV).
  destruct (zpad2 se ltac:(lia)) as (s1 & s2 & -> & A9 & A10 & SV).
  apply digit_bounds in Y1, Y2, Y3, Y4, A1, A2, A3, A4, A5, A6, A7, A8, A9, A10.
  cbn [app]. split; [reflexivity|]. split; [change (B "0Z") with [48%N; 90%N]; cbn [leqb]; destruct (N.eqb_spec y2 90); [lia|]; cbn [andb]; apply andb_false_r|].
  unfold string_to_date.
  assert (R : forall k l, (k < 48 \/ k = 58)%N -> forall c, (48 <= c <= 57)%N \/ c = 84%N \/ c = 90%N -> remove_ch k (c :: l) = c :: remove_ch k l).
  { intros k l K c C. apply remove_ch_skip. apply N.eqb_neq. lia. }
  rewrite !(R 45%N) by lia. rewrite !(R cCOLON) by (try (right; reflexivity); lia).
  change (remove_ch cCOLON (remove_ch 45%N [])) with (@nil N). cbn [length Nat.leb Nat.ltb nth_error andb].
  unfold mid_len. cbn [firstn skipn]. rewrite YV, MV, DV, HV, IV, SV. change (N.eqb (upper1 84) 84) with true. cbv iota.
  unfold mk_date, mk_time. rewrite D. replace (time_ok h mi se 0) with true by (symmetry; unfold time_ok; rewrite !andb_true_iff, !Z.leb_le, !Z.ltb_lt; lia).
  reflexivity.
Qed.
Lemma dt_eq_refl V x : dt_eq V x x = true.
Proof. unfold dt_eq. destruct (dt_valid x); [|reflexivity]. cbn. apply Z.eqb_refl. Qed.
Lemma dt_eq_sym V x y : dt_eq V x y = dt_eq V y x.
Proof. unfold dt_eq. destruct (dt_valid x), (dt_valid y); cbn; try reflexivity. apply Z.eqb_sym. Qed.
Lemma revision_back E rev a : revision_ok a ->
  dt_eq (le_env E) (radd E (if dt_valid (a_revision a) then date_to_string (a_revision a) else []) rev) (carried_revision rev a) = true.
Proof.
  unfold revision_ok, carried_revision, dt_valid. destruct (a_revision a) as [od ot z]. cbn [dt_date dt_time].
  destruct od as [d|]; [|intros _; apply dt_eq_refl]. destruct ot as [t|]; [|intros _; apply dt_eq_refl].
  intros (D & Y & T). destruct (revision_text d t z D Y T) as (A & Z & S). unfold radd. rewrite A, Z, S.
  cbn [dt_valid dt_date dt_time negb orb]. set (x := mkDt _ _ _). destruct (dt_eq (le_env E) x rev) eqn:Q.
  - rewrite dt_eq_sym. exact Q.
  - apply dt_eq_refl.
Qed.
Lemma revision_stamp E rev a : revision_ok a -> dt_eq (le_env E) (carried_revision rev a) rev = false ->
  radd E (if dt_valid (a_revision a) then date_to_string (a_revision a) else []) rev = carried_revision rev a.
Proof.
  unfold revision_ok, carried_revision, dt_valid. destruct (a_revision a) as [od ot z]. cbn [dt_date dt_time].
  destruct od as [d|]; [|intros _ Q; rewrite dt_eq_refl in Q; discriminate]. destruct ot as [t|]; [|intros _ Q; rewrite dt_eq_refl in Q; discriminate].
  intros (D & Y & T) Q. destruct (revision_text d t z D Y T) as (A & Z & S). unfold radd. rewrite A, Z, S.
  cbn [dt_valid dt_date dt_time negb orb]. rewrite Q. reflexivity.
Qed.

Lemma decimal_int z : (0 <= z < 2147483648)%Z -> to_int (decimal (Z.to_N z)) = z /\ to_int_ok (decimal (Z.to_N z)) = Some z.
Proof.
  intros H. destruct (decimal_spec (Z.to_N z)) as (D & V & _). pose proof (decimal_nonnil (Z.to_N z)) as N.
  rewrite Z2N.id in V by lia. assert (X : to_int (decimal (Z.to_N z)) = z) by (rewrite to_int_digits; [exact V|intros C; rewrite C in N; discriminate|exact D|lia]).
  split; [exact X|]. assert (Y : forall s, to_int_ok s = None -> to_int s = 0%Z).
  { intros s. unfold to_int_ok, to_int. destruct (match utrimmed s with [] => _ | _ => _ end) as [neg body]. destruct (all_digits body); [|reflexivity]. cbv zeta. destruct (_ && _)%bool; [discriminate|reflexivity]. }
  assert (W : forall s v, to_int_ok s = Some v -> to_int s = v).
  { intros s v. unfold to_int_ok, to_int. destruct (match utrimmed s with [] => _ | _ => _ end) as [neg body]. destruct (all_digits body); [|discriminate]. cbv zeta. destruct (_ && _)%bool; [congruence|discriminate]. }
  destruct (to_int_ok (decimal (Z.to_N z))) as [v|] eqn:O; [rewrite (W _ _ O) in X; congruence|].
  exfalso. pose proof (Y _ O) as Q. rewrite X in Q. subst z. discriminate O.
Qed.
Lemma birth_back b a : birthday_ok a -> birth_lines b a = birth_after b a.
Proof.
  unfold birthday_ok, birth_lines, birth_after. destruct (dt_date (a_birthday a)) as [d|]; [|reflexivity]. intros (D & Y).
  unfold date_ok in D. rewrite !andb_true_iff, !Z.leb_le in D. destruct D as ((((Y0 & M1) & M2) & D1) & D2).
  assert (month_days (d_year d) (d_month d) <= 31)%Z by apply month_days_le.
  rewrite (proj1 (decimal_int (d_day d) ltac:(lia))), (proj1 (decimal_int (d_month d) ltac:(lia))).
  destruct (Z.ltb_spec 0 (d_year d)); [|reflexivity]. rewrite (proj2 (decimal_int (d_year d) ltac:(lia))). reflexivity.
Qed.

(** ** The contact *)

Definition back_of (E : LdifExt) (rev : datetime) (k : nat) (b : Z * Z * Z) (a : addressee) : addressee :=
  let r := read_state E rev k b [] [] a in
  let a1 := match mk_date (r_byear r) (r_bmon r) (r_bday r) with Some d => set_birthday_date (Some d) (r_a r) | None => r_a r end in
  let a2 := if ad_empty (r_home r) then a1 else insert_address (r_home r) a1 in
  if ad_empty (r_work r) then a2 else insert_address (r_work r) a2.
Lemma read_state_lists E rev k b cs gs a :
  read_state E rev k b cs gs a = r_set_lists cs gs (read_state E rev k b [] [] a).
Proof. unfold read_state. destruct (fold_left (pstep E) (number_lines a) ([], k + 4)). reflexivity. Qed.
Lemma reset_start E rev r : dt_valid rev = true ->
  r_reset E rev r = r_start E rev (r_k r) (r_bday r, r_bmon r, r_byear r) (r_contacts r) (r_groups r).
Proof. reflexivity. Qed.
Lemma end_contact E rev k b cs gs a : dt_valid rev = true ->
  let r := read_state E rev k b [] [] a in
  end_entry E rev (read_state E rev k b cs gs a) =
  r_start E rev (r_k r) (r_bday r, r_bmon r, r_byear r) (cs ++ (if named a then [back_of E rev k b a] else [])) gs.
Proof.
  intros V r. rewrite read_state_lists. fold r. unfold end_entry.
  assert (G : cg_count (r_group r) = 0) by (unfold r, read_state; destruct (fold_left _ _ _); reflexivity).
  cbn [r_group r_set_lists r_a r_home r_work r_bday r_bmon r_byear r_contacts r_groups]. rewrite G. cbn [Nat.eqb].
  rewrite reset_start by exact V.
  set (a1 := match mk_date (r_byear r) (r_bmon r) (r_bday r) with Some d => set_birthday_date (Some d) (r_a r) | None => r_a r end).
  assert (N : negb (isnil (a_formatted a1)) || negb (isnil (a_name a1)) || negb (isnil (a_family a1)) = named a).
  { assert (X : a_formatted a1 = a_formatted (r_a r) /\ a_name a1 = a_name (r_a r) /\ a_family a1 = a_family (r_a r)).
    { unfold a1. destruct (mk_date _ _ _); [|auto]. unfold set_birthday_date. destruct (_ && _); auto. }
    destruct X as (-> & -> & ->). unfold named, r, read_state. destruct (fold_left (pstep E) _ _). cbn [St r_a a_formatted a_name a_family isnil negb].
    rewrite orb_false_r. reflexivity. }
  rewrite N. unfold back_of. fold r. fold a1. destruct (named a); cbn [r_contacts r_groups r_set_lists r_k r_bday r_bmon r_byear]; [reflexivity|].
  rewrite app_nil_r. reflexivity.
Qed.

Lemma filter_all l : filter (fun v => negb (contains v [])) l = l.
Proof. induction l as [|x l IH]; [reflexivity|]. cbn [filter contains negb] in *. f_equal. exact IH. Qed.
Lemma tset_text v : first_text (tset v []) = v.
Proof. destruct v; reflexivity. Qed.
Lemma back_shape E rev k b a :
  exists ph k' x1 x2, fold_left (pstep E) (number_lines a) ([], k + 4) = (ph, k') /\
  let h := home_back E (le_newid E (k + 1)) (address_of [] aHome a) in
  let w := work_back E (le_newid E (k + 2)) (address_of [] aWork a) in
  back_of E rev k b a =
    mkAddressee (or_ (a_uid a) (le_newid E k)) [] (simplified (a_formatted a)) (a_family a) (a_given a) [] (a_prefix a) [] x1 []
      tz_new geo_new (carried_department a) (a_note a) [] (radd E (if dt_valid (a_revision a) then date_to_string (a_revision a) else []) rev) []
      SInvalid picture_new picture_new sound_new dt_null ph
      (if ad_empty w then (if ad_empty h then [] else [h])
       else replace_or (fun q => leqb (ad_id q) (ad_id w)) w true (if ad_empty h then [] else [h]))
      [] (fold_left (fun l v => eadd v l) (emails_of a) []) [] [] gender_new [] [] [] [] [] [] []
      (uadd E (url_text E a) (uadd E (url_text E a) (uadd E (url_text E a) []))) [] [] [] []
      (tset (title a) []) (tset (role a) []) (tset (organization a) []) (tset (nickname a) []) [] false false x2
  /\ x2 = false
  /\ dt_date x1 = birth_date (birth_lines b a).
Proof.
  destruct (fold_left (pstep E) (number_lines a) ([], k + 4)) as [ph k'] eqn:F.
  exists ph, k', (match birth_date (birth_lines b a) with Some d => mk_dt (Some d) None TLocal | None => dt_null end), false.
  split; [reflexivity|]. intros h w. split; [|split; [reflexivity|destruct (birth_date (birth_lines b a)); reflexivity]].
  unfold back_of, read_state. rewrite F.
  cbn [St r_a r_home r_work r_bday r_bmon r_byear]. fold h. fold w. change (mk_date (snd (birth_lines b a)) (snd (fst (birth_lines b a))) (fst (fst (birth_lines b a)))) with (birth_date (birth_lines b a)).
  clearbody h w. destruct (birth_date (birth_lines b a)) as [d|].
  - change (set_birthday_date (Some d) ?z) with (put_bdaytime false (put_birthday (mk_dt (Some d) None TLocal) (touch z))).
    unfold insert_address. destruct (ad_empty h), (ad_empty w); reflexivity.
  - unfold insert_address. destruct (ad_empty h), (ad_empty w); reflexivity.
Qed.
Lemma contact_back E rev k b a : sane E -> exportable E a ->
  came_back E rev a (back_of E rev k b a) /\ nothing_else (back_of E rev k b a)
  /\ dt_date (a_birthday (back_of E rev k b a)) = birth_date (birth_after b a) /\ a_bdaytime (back_of E rev k b a) = false.
Proof.
  intros [SC SI SCo SU] (W & R & BD). destruct (back_shape E rev k b a) as (ph & k' & x1 & x2 & F & EQ & X2 & X1).
  set (h := home_back E (le_newid E (k + 1)) (address_of [] aHome a)) in *.
  set (w := work_back E (le_newid E (k + 2)) (address_of [] aWork a)) in *.
  rewrite EQ. rewrite (birth_back b a BD) in X1. split; [|split; [split; reflexivity|split; [exact X1|exact X2]]].
  split; cbn [a_given a_family a_formatted a_uid a_prefix a_department a_note a_phones a_addresses a_urls a_revision]; try reflexivity.
  - destruct (a_uid a); [congruence|reflexivity].
  - apply tset_text.
  - apply tset_text.
  - apply tset_text.
  - apply tset_text.
  - unfold emails_of at 1. cbn [a_emails]. rewrite emails_back. cbn [map app]. apply filter_all.
  - change ph with (fst (ph, k')). rewrite <- F. rewrite phones_back; [|exact SI|constructor]. reflexivity.
  - destruct (home_state E (le_newid E (k + 1)) (address_of [] aHome a) SCo) as (eh & H & Hh). fold h in H.
    destruct (work_state E (le_newid E (k + 2)) (address_of [] aWork a) SCo) as (ew & Hw & Hww). fold w in Hw.
    assert (XH := f_equal negb Hh). assert (XW := f_equal negb Hww). rewrite negb_involutive in XH, XW.
    rewrite H, Hw. unfold carried_addresses. cbn [filter snd ad_empty astate].
    rewrite <- XH, <- XW. clear Hh Hww XH XW. destruct eh, ew;
      cbn [negb map replace_or find_split ad_id astate ad_type parts_of]; try reflexivity.
    unfold replace_or. cbn [find_split ad_id astate].
    destruct (leqb (le_newid E (k + 1)) (le_newid E (k + 2))) eqn:L; [apply leqb_eq in L; apply SI in L; lia|]. reflexivity.
  - apply urls_back, SU.
  - apply revision_back, R.
  - apply revision_stamp, R.
Qed.

(** ** Lists *)

Lemma evs_nil : evs [] = []. Proof. reflexivity. Qed.
Lemma contact_step E rev k b cs gs a : sane E -> exportable E a -> a_empty a = false -> dt_valid rev = true ->
  exists text, addressee_to_ldif E a = Some text /\ text <> [] /\ (exists p, to_latin1 text = p ++ [cLF; cLF]) /\ (exists q, to_latin1 text = B "dn:" ++ q) /\
  exists k', process_events E rev (evs (to_latin1 text)) (r_start E rev k b cs gs) =
  r_start E rev k' (birth_after b a) (cs ++ (if named a then [back_of E rev k b a] else [])) gs.
Proof.
  intros S X NE V. destruct X as (W & R & BD). destruct (contact_read E a (sane_char E S) NE W) as (text & T & P & Q & H).
  exists text. split; [exact T|]. split; [intros ->; destruct P as (p & P); destruct p; discriminate|]. split; [exact P|]. split; [exact Q|].
  exists (r_k (read_state E rev k b [] [] a)). rewrite H, contact_state, end_contact by exact V. f_equal.
  rewrite <- (birth_back b a BD). unfold read_state. destruct (fold_left (pstep E) _ _). cbn [St r_bday r_bmon r_byear].
  destruct (birth_lines b a) as [[? ?] ?]. reflexivity.
Qed.
(** the parts of an export *)
Definition exports (E : LdifExt) (l : list addressee) : list bytes :=
  flat_map (fun a => match addressee_to_ldif E a with Some t => [to_latin1 t] | None => [] end) l.
Definition piece (t : bytes) : Prop := (exists p, t = p ++ [cLF; cLF]) /\ (exists q, t = B "dn:" ++ q).
Lemma evs_pieces ts : Forall piece ts -> evs (concat ts) = flat_map evs ts.
Proof.
  induction 1 as [|t ts (P & Q) F IH]; [reflexivity|]. cbn [concat flat_map]. destruct ts as [|u us].
  - cbn [concat flat_map]. rewrite !app_nil_r. reflexivity.
  - rewrite <- IH. destruct P as (p & ->). assert (PU : piece u) by (inversion F; assumption). destruct PU as (_ & q & ->).
    exact (evs_concat p (q ++ concat us)).
Qed.
Lemma latin1_concat E l : to_latin1 (flat_map (fun a => or_nothing (addressee_to_ldif E a)) l) = concat (exports E l).
Proof.
  induction l as [|a l IH]; [reflexivity|]. cbn [flat_map]. rewrite latin1_app, IH. unfold exports. cbn [flat_map].
  rewrite concat_app. f_equal. destruct (addressee_to_ldif E a); cbn; rewrite ?app_nil_r; reflexivity.
Qed.
Definition exported (l : list addressee) : list addressee := filter (fun a => negb (a_empty a)) l.
Lemma list_step E rev : sane E -> dt_valid rev = true -> forall l, Forall (exportable E) l -> forall k b cs gs,
  Forall piece (exports E l) /\
  exists bs k' b', process_events E rev (flat_map evs (exports E l)) (r_start E rev k b cs gs) = r_start E rev k' b' (cs ++ bs) gs
    /\ Forall2 (fun a x => came_back E rev a x /\ nothing_else x) (filter named (exported l)) bs
    /\ map (fun x => dt_date (a_birthday x)) bs = birthdays_after b (exported l)
    /\ Forall (fun x => a_bdaytime x = false) bs.
Proof.
  intros S V. induction l as [|a l IH]; intros FA k b cs gs.
  - split; [constructor|]. exists [], k, b. rewrite app_nil_r. repeat split; constructor.
  - inversion FA as [|? ? XA XL]; subst. unfold exports, exported. cbn [flat_map filter].
    destruct (a_empty a) eqn:NE.
    + assert (NT : addressee_to_ldif E a = None) by (unfold addressee_to_ldif; rewrite NE; reflexivity). rewrite NT. cbn [app negb]. apply IH, XL.
    + destruct (contact_step E rev k b cs gs a S XA NE V) as (text & T & NT & P & Q & k1 & ST). rewrite T. cbn [negb app flat_map].
      destruct (IH XL k1 (birth_after b a) (cs ++ (if named a then [back_of E rev k b a] else [])) gs) as (FP & bs & k' & b' & PR & F2 & BM & BT).
      split; [constructor; [split; assumption|exact FP]|].
      destruct (contact_back E rev k b a S XA) as (CB & NO & BI & BF).
      exists ((if named a then [back_of E rev k b a] else []) ++ bs), k', b'.
      split; [|split; [|split]].
      * unfold process_events in *. rewrite fold_left_app. rewrite ST. rewrite app_assoc. exact PR.
      * cbn [filter]. destruct (named a); [|exact F2]. cbn [app]. constructor; [split; assumption|exact F2].
      * cbn [birthdays_after]. rewrite map_app. f_equal; [|exact BM]. destruct (named a); [|reflexivity]. cbn [map]. rewrite BI. reflexivity.
      * apply Forall_app. split; [|exact BT]. destruct (named a); constructor; [exact BF|constructor].
Qed.
Lemma latin1_nil s : to_latin1 s = [] -> s = [].
Proof. destruct s; [reflexivity|discriminate]. Qed.
Theorem list_back E dt l : sane E -> Forall (exportable E) l -> dt_valid dt = true \/ dt_valid (le_now E) = true ->
  let rev := if dt_valid dt then dt else le_now E in
  exists bs, ldif_to_addressee E (snd (addressees_to_ldif E l [])) dt [] [] = Some (bs, [])
    /\ Forall2 (fun a x => came_back E rev a x /\ nothing_else x) (filter named (exported l)) bs
    /\ map (fun x => dt_date (a_birthday x)) bs = birthdays_after no_birth (exported l)
    /\ Forall (fun x => a_bdaytime x = false) bs.
Proof.
  intros S F VV rev. assert (V : dt_valid rev = true) by (unfold rev; destruct (dt_valid dt) eqn:D; [exact D|destruct VV; congruence]).
  destruct (list_step E rev S V l F 0 no_birth [] []) as (FP & bs & k' & b' & PR & REST). exists bs. split; [|exact REST].
  cbn [addressees_to_ldif snd app]. set (text := flat_map _ l). assert (L : to_latin1 text = concat (exports E l)) by apply latin1_concat.
  destruct text as [|c t] eqn:TX.
  - unfold ldif_to_addressee. cbn [isnil]. rewrite <- (evs_pieces _ FP) in PR. rewrite <- L in PR. change (evs (to_latin1 [])) with (@nil (pval * list N * list N)) in PR.
    apply (f_equal r_contacts) in PR. cbn in PR. rewrite <- PR. reflexivity.
  - rewrite ldif_to_addressee_evs by discriminate. fold rev. rewrite <- TX in *. cbv zeta. rewrite L, (evs_pieces _ FP), PR. reflexivity.
Qed.
