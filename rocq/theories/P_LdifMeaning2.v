(** Lemmas for C81: the attributes of an entry one after the other. *)
From Verif Require Import Base BaseFacts Utf8 Utf8Facts QtText M_ParamMap M_Values M_Date M_Addressee M_ContactGroup M_Ldif S_Ldif S_LdifContact P_Types P_Lists P_Date P_Ldif P_LdifEntry P_LdifConv P_LdifText P_LdifRead S_DateText P_DateText P_Addressee P_AddrEq P_Card S_LdifMeaning P_LdifMeaning.
From Verif Require P_LdifBack P_Convert2.
Local Open Scope list_scope.
Local Open Scope nat_scope.

Definition pk_step (E : LdifExt) (x : list phone * nat) (p : ustring * ustring) : list phone * nat :=
  (u_phone E (snd x) p (fst x), u_k p (snd x)).
Definition over {X : Type} (f : ustring * ustring -> X -> X) (ps : attrs) (x : X) : X := fold_left (fun x p => f p x) ps x.
Lemma fold_SU E ps : forall uid fo fam giv pre dep note rev ph em us ti ro og ni bday home work bd bm by_ g k cs gs,
  fold_left (fun r p => evaluate_pair E (fst p) (snd p) r) ps (SU uid fo fam giv pre dep note rev ph em us ti ro og ni bday home work bd bm by_ g k cs gs) =
  SU (over (u_last ["uid"]%string) ps uid) (over (u_last ["cn"]%string) ps fo) (over (u_last ["sn"]%string) ps fam) (over (u_last ["givenname"]%string) ps giv)
    (over (u_last ["vocation"]%string) ps pre) (over (u_last ["department"]%string) ps dep) (over u_note ps note) (over (u_rev E) ps rev)
    (fst (fold_left (pk_step E) ps (ph, k))) (over u_mail ps em)
    (over (u_url E) ps us) (over (u_text ["title"]%string) ps ti) (over (u_text ["ou"]%string) ps ro) (over (u_text ["o"; "organization"; "organizationname"]%string) ps og)
    (over (u_text ["nickname"; "xmozillanickname"; "mozillanickname"]%string) ps ni) (over u_bat ps bday) (over (u_home E) ps home) (over (u_work E) ps work)
    (over (u_int 0 ["birthday"]%string) ps bd) (over (u_int 0 ["birthmonth"]%string) ps bm) (over (u_int (-1) ["birthyear"]%string) ps by_)
    (over u_group ps g) (snd (fold_left (pk_step E) ps (ph, k))) cs gs.
Proof.
  induction ps as [|p ps IH]; intros; [reflexivity|]. destruct p as [f v]. unfold over. cbn [fold_left]. rewrite evaluate_SU. cbv zeta.
  rewrite IH. reflexivity.
Qed.

(** ** Each of them *)

Lemma last_cons {X} (x d : X) l : last (x :: l) d = last l x.
Proof. revert x d. induction l as [|y l IH]; intros x d; [reflexivity|]. change (last (x :: y :: l) d) with (last (y :: l) d). rewrite !IH. reflexivity. Qed.
Lemma all_cons names p ps : all_of names (p :: ps) = if called names p then snd p :: all_of names ps else all_of names ps.
Proof. unfold all_of. cbn [filter]. destruct (called names p); reflexivity. Qed.
Lemma over_last names ps : forall x, over (u_last names) ps x = last (all_of names ps) x.
Proof.
  induction ps as [|p ps IH]; intros x; [reflexivity|]. unfold over in *. cbn [fold_left]. rewrite IH, all_cons. unfold u_last.
  destruct (called names p); [|reflexivity]. symmetry. apply last_cons.
Qed.
Lemma over_text names ps : forall l, first_text (over (u_text names) ps l) = last (all_of names ps) (first_text l).
Proof.
  induction ps as [|p ps IH]; intros l; [reflexivity|]. unfold over in *. cbn [fold_left]. rewrite IH, all_cons. unfold u_text.
  destruct (called names p); [|reflexivity]. rewrite last_cons. f_equal. destruct l as [|t r]; [|destruct t; reflexivity].
  destruct (snd p); reflexivity.
Qed.
Lemma over_note ps : over u_note ps [] = note_of ps.
Proof. reflexivity. Qed.
Lemma once_new x l : ~ In x l -> filter (fun y => negb (leqb y x)) (once l) = once l.
Proof.
  intros N. assert (S : forall y, In y (once l) -> In y l).
  { clear N. induction l as [|z l IH]; [auto|]. intros y [->|I]; [left; reflexivity|]. apply filter_In in I as [I _]. right. auto. }
  assert (F : forall y, In y (once l) -> leqb y x = false).
  { intros y I. destruct (leqb y x) eqn:L; [|reflexivity]. apply leqb_eq in L. subst. exfalso. auto. }
  revert F. generalize (once l). intros m F. induction m as [|y m IH]; [reflexivity|]. cbn [filter]. rewrite F by (left; reflexivity). cbn [negb].
  f_equal. apply IH. intros z I. apply F. right. exact I.
Qed.
(** the texts of a list that are not in another one, each once *)
Lemma over_mail ps : forall l, map em_mail (over u_mail ps l) =
  map em_mail l ++ filter (fun y => negb (contains y (map em_mail l))) (once (all_of ["mail"; "mozillasecondemail"; "othermailbox"]%string ps)).
Proof.
  induction ps as [|p ps IH]; intros l; [cbn; rewrite app_nil_r; reflexivity|]. unfold over in *. cbn [fold_left]. rewrite IH, all_cons. unfold u_mail.
  destruct (called _ p); [|reflexivity]. cbn [once filter]. destruct (contains (snd p) (map em_mail l)) eqn:C.
  - cbn [negb]. f_equal. rewrite P_LdifBack.filter_filter_pred. apply filter_ext. intros y. destruct (leqb y (snd p)) eqn:L; [|cbn [negb andb]; rewrite ?andb_true_r; reflexivity].
    apply leqb_eq in L. subst. rewrite C. reflexivity.
  - cbn [negb]. rewrite map_app. cbn [map]. rewrite <- app_assoc. cbn [app]. f_equal. f_equal. rewrite P_LdifBack.filter_filter_pred. apply filter_ext. intros y.
    rewrite !contains_existsb, existsb_app. cbn [existsb]. change (em_mail (email_of (snd p))) with (snd p). rewrite orb_false_r, negb_orb. apply andb_comm.
Qed.

(** telephone numbers *)
Lemma kind_one p : kind_of p = [] \/ exists t, kind_of p = [t].
Proof.
  destruct p as [f v]. unfold kind_of, phone_kinds. cbn [flat_map fst snd].
  repeat match goal with
  | |- context [leqb f (B ?s)] => destruct (leqb f (B s)) eqn:?; [right; match goal with H : leqb f (B s) = true |- _ => apply leqb_eq in H; subst f end; eexists; reflexivity|]; cbn [app]
  end.
  left. reflexivity.
Qed.
Lemma said_kinds p : flat_map (fun k : string * N => if leqb (fst p) (B (fst k)) && negb (isnil (simplified (snd p))) then [(snd k, simplified (snd p))] else []) phone_kinds
  = if isnil (simplified (snd p)) then [] else map (fun t => (t, simplified (snd p))) (kind_of p).
Proof.
  destruct p as [f v]. unfold kind_of. cbn [fst snd]. generalize phone_kinds. intros l. induction l as [|k l IH]; [destruct (isnil _); reflexivity|]. cbn [flat_map]. rewrite IH.
  destruct (leqb f (B (fst k))); [|reflexivity]. cbn [andb app map]. destruct (isnil (simplified v)); reflexivity.
Qed.
Lemma replace_fresh {X} (f : X -> bool) x b l : Forall (fun y => f y = false) l -> replace_or f x b l = if b then l ++ [x] else l.
Proof. intros F. unfold replace_or. assert (H : find_split f l = None) by (apply find_split_None; exact F). rewrite H. reflexivity. Qed.
Lemma over_phones E ps : (forall i j, le_newid E i = le_newid E j -> i = j) -> forall l k,
  Forall (fun q => exists j, j < k /\ ph_id q = le_newid E j) l ->
  map (fun q => (ph_type q, ph_number q)) (fst (fold_left (pk_step E) ps (l, k))) = map (fun q => (ph_type q, ph_number q)) l ++ phones_said ps.
Proof.
  intros I. induction ps as [|p ps IH]; intros l k F; [cbn; rewrite app_nil_r; reflexivity|]. cbn [fold_left].
  unfold pk_step at 2. cbn [fst snd]. unfold phones_said. cbn [flat_map]. rewrite said_kinds. fold (phones_said ps). unfold u_phone, u_k.
  destruct p as [pf pv]. cbn [fst snd]. destruct (kind_one (pf, pv)) as [K|(t & K)]; rewrite K.
  - rewrite IH by exact F. destruct (isnil _); reflexivity.
  - assert (FF : Forall (fun q => leqb (ph_id q) (le_newid E k) = false) l).
    { eapply Forall_impl; [|exact F]. intros q (j & J & ->). apply leqb_neq. intros H. apply I in H. lia. }
    rewrite (replace_fresh _ _ _ _ FF), simplified_idem. destruct (isnil (simplified pv)) eqn:N; cbn [negb].
    + rewrite IH; [reflexivity|]. eapply Forall_impl; [|exact F]. intros q (j & J & Q). exists j. split; [lia|exact Q].
    + rewrite IH; [rewrite map_app, <- app_assoc; reflexivity|]. apply Forall_app. split.
      * eapply Forall_impl; [|exact F]. intros q (j & J & Q). exists j. split; [lia|exact Q].
      * constructor; [|constructor]. exists k. split; [lia|reflexivity].
Qed.

(** URLs *)
Lemma over_url E ps : url_valid (env_url (le_env E)) [] = false -> forall l,
  match l with [] => True | u :: r => ru_url u <> [] /\ r = [] end ->
  over (u_url E) ps l = match l with
    | [] => match filter (url_valid (env_url (le_env E))) (map (url_parse (env_url (le_env E))) (all_of ["homeurl"; "workurl"; "mozillahomeurl"]%string ps)) with
            | u :: _ => [mkRurl [] u] | [] => [] end
    | l => l end.
Proof.
  intros NV. induction ps as [|p ps IH]; intros l H; [destruct l; reflexivity|]. unfold over in *. cbn [fold_left]. rewrite all_cons. unfold u_url at 2.
  destruct (called _ p) eqn:C; [|cbn [andb]; apply IH; exact H]. cbn [andb map filter].
  destruct l as [|u r].
  - cbn [isnil andb app]. destruct (url_valid _ (url_parse _ (snd p))) eqn:V; [|exact (IH [] Logic.I)].
    rewrite IH; [reflexivity|]. split; [|reflexivity]. cbn [ru_url]. intros Z. rewrite Z in V. congruence.
  - destruct H as [H ->]. assert (NE : isnil (ru_url u) = false) by (destruct (ru_url u); [congruence|reflexivity]).
    rewrite NE. cbn [andb]. rewrite IH; [reflexivity|]. split; [exact H|reflexivity].
Qed.

(** birthday parts *)
Lemma over_int bad names ps : forall x, over (u_int bad names) ps x = last_number bad names ps x.
Proof.
  induction ps as [|p ps IH]; intros x; [reflexivity|]. unfold over in *. cbn [fold_left]. rewrite IH. unfold last_number. rewrite all_cons. unfold u_int.
  destruct (called names p); [|reflexivity]. destruct (all_of names ps) as [|y l]; [reflexivity|].
  change (last (snd p :: y :: l) []) with (last (y :: l) []). reflexivity.
Qed.
Lemma over_bat ps : forall x, over u_bat ps x =
  last (flat_map (fun v => match eight v with Some d => [Some d] | None => [] end) (all_of ["xbatbirthday"]%string ps)) x.
Proof.
  induction ps as [|p ps IH]; intros x; [reflexivity|]. unfold over in *. cbn [fold_left]. rewrite IH, all_cons. unfold u_bat.
  destruct (called _ p); [|reflexivity]. cbn [flat_map]. destruct (eight (snd p)); [|reflexivity]. cbn [app]. symmetry. apply last_cons.
Qed.

(** the time of the last change *)
Lemma two_spec' z : (0 <= z < 100)%Z -> exists a b, two z = [a; b] /\ (48 <= a <= 57)%N /\ (48 <= b <= 57)%N /\ to_int [a; b] = z.
Proof. intros H. destruct (two_spec z H) as (a & b & E & A & C & V). exists a, b. split; [exact E|]. split; [exact (P_LdifBack.digit_bounds _ A)|]. split; [exact (P_LdifBack.digit_bounds _ C)|exact V]. Qed.
Lemma stamp_date d t tail v : stamp d t tail v -> leqb v (B "0Z") = false /\ string_to_date v = mkDt (Some d) (Some t) TLocal.
Proof.
  intros (Y & D & T & MS & V). destruct d as [y m dd], t as [h mi se ms]. cbn [d_year d_month d_day t_hour t_min t_sec t_msec] in *. subst ms.
  assert (D' := D). unfold date_ok in D'. rewrite !andb_true_iff, !Z.leb_le in D'. destruct D' as ((((Y0 & M1) & M2) & D1) & D2).
  assert (month_days y m <= 31)%Z by apply P_LdifBack.month_days_le.
  assert (T' := T). unfold time_ok in T'. rewrite !andb_true_iff, !Z.leb_le, !Z.ltb_lt in T'.
  destruct (four_spec y ltac:(lia)) as (y1 & y2 & y3 & y4 & YE & Y1 & Y2 & Y3 & Y4 & YV).
  destruct (two_spec' m ltac:(lia)) as (m1 & m2 & ME & A1 & A2 & MV).
  destruct (two_spec' dd ltac:(lia)) as (d1 & d2 & DE & A3 & A4 & DV).
  destruct (two_spec' h ltac:(lia)) as (h1 & h2 & HE & A5 & A6 & HV).
  destruct (two_spec' mi ltac:(lia)) as (i1 & i2 & IE & A7 & A8 & IV).
  destruct (two_spec' se ltac:(lia)) as (s1 & s2 & SE & A9 & A10 & SV).
  apply P_LdifBack.digit_bounds in Y1, Y2, Y3, Y4. rewrite YE, ME, DE, HE, IE, SE in V.
  assert (Z0 : leqb v (B "0Z") = false).
  { destruct V as [-> | ->]; cbn [app]; change (B "0Z") with [48%N; 90%N]; cbn [leqb]; (destruct (N.eqb_spec y2 90); [lia|]); cbn [andb]; apply andb_false_r. }
  split; [exact Z0|].
  assert (R : forall k l, (k < 48 \/ k = 58)%N -> forall c, (48 <= c <= 57)%N \/ c = 84%N -> remove_ch k (c :: l) = c :: remove_ch k l).
  { intros k l K c C. apply remove_ch_skip. apply N.eqb_neq. lia. }
  assert (C : exists tl, remove_ch cCOLON (remove_ch 45%N v) = [y1; y2; y3; y4; m1; m2; d1; d2; 84%N; h1; h2; i1; i2; s1; s2] ++ tl).
  { exists (remove_ch cCOLON (remove_ch 45%N tail)). change (B "T") with [84%N] in V. change (B "-") with [45%N] in V. change (B ":") with [cCOLON] in V.
    destruct V as [-> | ->]; cbn [app]; rewrite ?(R 45%N), ?remove_ch_drop by lia; rewrite ?(R 45%N), ?remove_ch_drop by lia; rewrite ?(R 45%N) by lia;
      rewrite ?(R 45%N), ?remove_ch_drop by lia;
      rewrite ?(remove_ch_skip 45%N cCOLON) by reflexivity;
      rewrite ?(R 45%N) by lia; rewrite ?(remove_ch_skip 45%N cCOLON) by reflexivity; rewrite ?(R 45%N) by lia;
      rewrite ?(R cCOLON) by (try (right; reflexivity); lia); rewrite ?remove_ch_drop; rewrite ?(R cCOLON) by (try (right; reflexivity); lia);
      rewrite ?remove_ch_drop; rewrite ?(R cCOLON) by (try (right; reflexivity); lia); reflexivity. }
  destruct C as (tl & C). unfold string_to_date. rewrite C. cbn [app length Nat.leb Nat.ltb nth_error andb].
  unfold mid_len. cbn [firstn skipn]. rewrite YV, MV, DV, HV, IV, SV. change (N.eqb (upper1 84) 84) with true. cbv iota.
  unfold mk_date, mk_time. rewrite D, T. reflexivity.
Qed.
Lemma over_rev E ps os : Forall2 stamp_says (all_of ["modifytimestamp"]%string ps) os -> forall x y, dt_eq (le_env E) x y = true ->
  dt_eq (le_env E) (over (u_rev E) ps x) (last_some os y) = true.
Proof.
  revert os. induction ps as [|p ps IH]; intros os F x y Q; [inversion F; exact Q|]. rewrite all_cons in F. unfold over in *. cbn [fold_left]. unfold u_rev at 2.
  destruct (called _ p); [|apply IH; assumption]. inversion F as [|v o vs os' H F']; subst. destruct H as [(-> & ->)|(d & t & tail & S & ->)].
  - cbn [leqb orb]. change (leqb (B "0Z") (B "0Z")) with true. cbn [orb last_some]. apply IH; assumption.
  - destruct (stamp_date _ _ _ _ S) as (Z & W). rewrite Z, W. cbn [orb negb dt_valid dt_date dt_time last_some].
    destruct (dt_eq (le_env E) (mkDt (Some d) (Some t) TLocal) x) eqn:EQ; apply IH; try assumption.
    + rewrite dt_eq_sym. exact EQ.
    + apply dt_eq_refl.
Qed.

(** addresses *)
Lemma called_sub l m p : forallb (fun s => existsb (String.eqb s) m) l = true -> called m p = false -> called l p = false.
Proof.
  intros S M. apply (one_of_sub l m (fst p)); [|exact M]. intros s I. rewrite forallb_forall in S. specialize (S s I).
  apply existsb_exists in S as (t & J & H). apply String.eqb_eq in H. subst. exact J.
Qed.
Lemma over_country E names ps : forall x,
  over (fun p x => if called names p then read_country E (snd p) else x) ps x = last (map (fun v => if length v <=? 2 then le_country E v else v) (all_of names ps)) x.
Proof.
  induction ps as [|p ps IH]; intros x; [reflexivity|]. unfold over in *. cbn [fold_left]. rewrite IH, all_cons. destruct (called names p); [|reflexivity].
  cbn [map]. symmetry. apply last_cons.
Qed.
Definition u_street (whole line : list string) (p : ustring * ustring) (s : ustring) : ustring :=
  if called whole p then snd p else if called line p then s ++ cLF :: snd p else s.
Lemma over_home E ps : forall x, let y := over (u_home E) ps x in
  ad_id y = ad_id x /\ ad_type y = ad_type x /\ ad_empty y = (if isnil (all_of home_names ps) then ad_empty x else false) /\
  parts_of y = [ad_pobox x; ad_extended x;
    over (u_street ["streethomeaddress"; "mozillahomestreet"; "homepostaladdress"]%string ["mozillahomepostaladdress2"]%string) ps (ad_street x);
    over (u_last ["mozillahomelocalityname"]%string) ps (ad_locality x); over (u_last ["mozillahomestate"]%string) ps (ad_region x);
    over (u_last ["mozillahomepostalcode"]%string) ps (ad_postal x);
    over (fun p x => if called ["mozillahomecountryname"]%string p then read_country E (snd p) else x) ps (ad_country x); ad_label x].
Proof.
  induction ps as [|p ps IH]; intros x; [repeat split|]. unfold over in *. cbn [fold_left]. rewrite all_cons. cbv zeta in *.
  destruct (IH (u_home E p x)) as (A & T & M & P). rewrite A, T, M, P. clear A T M P IH. unfold u_home. destruct (called home_names p) eqn:C.
  - split; [reflexivity|]. split; [reflexivity|]. split; [cbn [isnil]; destruct (isnil _); reflexivity|]. reflexivity.
  - split; [reflexivity|]. split; [reflexivity|]. split; [reflexivity|]. unfold u_street, u_last.
    rewrite !(fun l S => called_sub l home_names p S C) by reflexivity. reflexivity.
Qed.
Lemma over_work E ps : forall x, let y := over (u_work E) ps x in
  ad_id y = ad_id x /\ ad_type y = ad_type x /\ ad_empty y = (if isnil (all_of work_names ps) then ad_empty x else false) /\
  parts_of y = [over (u_last ["postofficebox"]%string) ps (ad_pobox x); ad_extended x;
    over (u_street ["street"; "postaladdress"; "streetaddress"]%string ["mozillapostaladdress2"; "mozillaworkstreet2"]%string) ps (ad_street x);
    over (u_last ["l"; "locality"]%string) ps (ad_locality x); over (u_last ["st"]%string) ps (ad_region x);
    over (u_last ["postalcode"]%string) ps (ad_postal x);
    over (fun p x => if called ["c"; "countryname"]%string p then read_country E (snd p) else x) ps (ad_country x); ad_label x].
Proof.
  induction ps as [|p ps IH]; intros x; [repeat split|]. unfold over in *. cbn [fold_left]. rewrite all_cons. cbv zeta in *.
  destruct (IH (u_work E p x)) as (A & T & M & P). rewrite A, T, M, P. clear A T M P IH. unfold u_work. destruct (called work_names p) eqn:C.
  - split; [reflexivity|]. split; [reflexivity|]. split; [cbn [isnil]; destruct (isnil _); reflexivity|]. reflexivity.
  - split; [reflexivity|]. split; [reflexivity|]. split; [reflexivity|]. unfold u_street, u_last.
    rewrite !(fun l S => called_sub l work_names p S C) by reflexivity. reflexivity.
Qed.
Lemma home_parts E ps id : let y := over (u_home E) ps (address_new id aHome) in
  ad_id y = id /\ ad_type y = aHome /\ ad_empty y = isnil (all_of home_names ps) /\ parts_of y = home_said E ps.
Proof.
  destruct (over_home E ps (address_new id aHome)) as (A & T & M & P). cbv zeta in *. rewrite A, T, M, P. split; [reflexivity|]. split; [reflexivity|].
  split; [destruct (isnil _); reflexivity|]. rewrite !over_last, over_country. reflexivity.
Qed.
Lemma work_parts E ps id : let y := over (u_work E) ps (address_new id aWork) in
  ad_id y = id /\ ad_type y = aWork /\ ad_empty y = isnil (all_of work_names ps) /\ parts_of y = work_said E ps.
Proof.
  destruct (over_work E ps (address_new id aWork)) as (A & T & M & P). cbv zeta in *. rewrite A, T, M, P. split; [reflexivity|]. split; [reflexivity|].
  split; [destruct (isnil _); reflexivity|]. rewrite !over_last, over_country. reflexivity.
Qed.

(** groups *)
Lemma over_group ps : forall g, let h := over u_group ps g in
  cg_name h = last (all_of ["display-name"]%string ps) (cg_name g) /\ cg_data h = cg_data g ++ map member_data (all_of ["member"]%string ps) /\
  cg_refs h = cg_refs g /\ cg_grefs h = cg_grefs g.
Proof.
  induction ps as [|p ps IH]; intros g; [cbn; rewrite app_nil_r; auto|]. unfold over in *. cbn [fold_left]. rewrite !all_cons. cbv zeta in *.
  destruct (IH (u_group p g)) as (A & D & R & G). rewrite A, D, R, G. clear A D R G IH. unfold u_group.
  destruct (called ["member"]%string p) eqn:M.
  - assert (N : called ["display-name"]%string p = false).
    { destruct p as [f v]. unfold called in *. cbn [existsb fst orb] in *. rewrite orb_false_r in *. apply leqb_eq in M. subst f. reflexivity. }
    rewrite N. cbn [cg_append_data cg_name cg_data cg_refs cg_grefs map]. rewrite <- app_assoc. auto.
  - destruct (called ["display-name"]%string p); [|auto]. cbn [cg_set_name cg_name cg_data cg_refs cg_grefs]. rewrite last_cons. auto.
Qed.
Lemma member_parts v : fold_left member_part (split cCOMMA v) ([], []) = (part_said "cn=" v, part_said "mail=" v).
Proof.
  unfold part_said. generalize (split cCOMMA v). intros l.
  enough (G : forall a b, fold_left member_part l (a, b) =
    (last (flat_map (fun s => if starts_with (B "cn=") s then [utrimmed (skipn (length (B "cn=")) s)] else []) l) a,
     last (flat_map (fun s => if starts_with (B "mail=") s then [utrimmed (skipn (length (B "mail=")) s)] else []) l) b)) by apply G.
  induction l as [|s l IH]; intros a b; [reflexivity|]. cbn [fold_left flat_map]. unfold member_part at 2.
  destruct (starts_with (B "cn=") s) eqn:C.
  - assert (M : starts_with (B "mail=") s = false).
    { apply starts_with_spec in C. destruct C as (r & ->). reflexivity. }
    rewrite M. cbn [app]. rewrite IH, last_cons. reflexivity.
  - destruct (starts_with (B "mail=") s) eqn:M; [|apply IH]. cbn [app]. rewrite IH, last_cons. reflexivity.
Qed.
Lemma member_reads v : (cd_name (member_data v), cd_email (member_data v)) = member_said v /\ cd_customs (member_data v) = [].
Proof.
  unfold member_data. rewrite member_parts. unfold member_said. cbv zeta. split; [|reflexivity].
  destruct (isnil (part_said "cn=" v)); [reflexivity|]. destruct (isnil (part_said "mail=" v)); reflexivity.
Qed.
