(** Proofs about the texts of dates and times (C73). *)
From Verif Require Import Base BaseFacts QtText M_VCard M_Date S_Date P_Date S_Name P_Email S_DateText.
Local Open Scope Z_scope.

Lemma two_spec : forall z, 0 <= z < 100 -> exists a b, two z = [a; b] /\ digit a /\ digit b /\ to_int [a; b] = z.
Proof.
  intros z H. unfold two. eexists. eexists. split; [reflexivity|].
  assert (H1 : 0 <= z / 10 < 10) by (split; [apply Z.div_pos; lia|apply Z.div_lt_upper_bound; lia]).
  pose proof (Z.mod_pos_bound z 10 ltac:(lia)) as H2. pose proof (Z.div_mod z 10 ltac:(lia)) as H3.
  assert (D1 : digit (Z.to_N (48 + z / 10))) by (unfold digit, is_digit; lia).
  assert (D2 : digit (Z.to_N (48 + z mod 10))) by (unfold digit, is_digit; lia).
  split; [exact D1|]. split; [exact D2|].
  assert (V : digits_value [Z.to_N (48 + z / 10); Z.to_N (48 + z mod 10)] = z).
  { unfold digits_value. cbn [fold_left]. rewrite !Z2N.id by lia. lia. }
  rewrite to_int_digits; [exact V|discriminate| |lia].
  unfold digit in D1, D2. cbn [forallb]. rewrite D1, D2. reflexivity.
Qed.
Lemma four_spec : forall z, 0 <= z < 10000 -> exists a b c d, four z = [a; b; c; d] /\ digit a /\ digit b /\ digit c /\ digit d /\ to_int [a; b; c; d] = z.
Proof.
  intros z H. assert (H1 : 0 <= z / 100 < 100) by (split; [apply Z.div_pos; lia|apply Z.div_lt_upper_bound; lia]).
  pose proof (Z.mod_pos_bound z 100 ltac:(lia)) as H2. pose proof (Z.div_mod z 100 ltac:(lia)) as H3.
  destruct (two_spec _ H1) as (a & b & E1 & Da & Db & V1). destruct (two_spec _ H2) as (c & d & E2 & Dc & Dd & V2).
  exists a, b, c, d. unfold four. rewrite E1, E2. split; [reflexivity|]. split; [exact Da|]. split; [exact Db|]. split; [exact Dc|]. split; [exact Dd|].
  unfold digit, is_digit in Da, Db, Dc, Dd.
  assert (K : forall x y, (48 <= x <= 57)%N -> (48 <= y <= 57)%N -> to_int [x; y] = (Z.of_N x - 48) * 10 + (Z.of_N y - 48)).
  { intros x y Hx Hy. rewrite to_int_digits; [unfold digits_value; cbn [fold_left]; lia|discriminate|cbn [forallb]; unfold is_digit; lia|
      unfold digits_value; cbn [fold_left]; lia]. }
  rewrite K in V1, V2 by lia.
  rewrite to_int_digits; [unfold digits_value; cbn [fold_left]; lia|discriminate|cbn [forallb]; unfold is_digit; lia|
      unfold digits_value; cbn [fold_left]; lia].
Qed.

Lemma real_date_ok : forall d, (1 <= d_year d \/ d_year d = -1) -> real_date d -> mk_date (d_year d) (d_month d) (d_day d) = Some d.
Proof.
  intros [y m n] H [H1 H2]. cbn [d_year d_month d_day] in *. unfold mk_date, date_ok.
  replace (y =? 0) with false by lia. replace (1 <=? m) with true by lia. replace (m <=? 12) with true by lia.
  replace (1 <=? n) with true by lia. replace (n <=? month_days y m) with true by lia. reflexivity.
Qed.
Lemma date_read : forall d s, real_date d -> date_text d s ->
  index_of 84%N s = None /\
  (if starts_with [45%N; 45%N] s
   then mk_date (-1) (to_int (mid_len 0 2 (remove_ch 45%N s))) (to_int (mid_len 2 2 (remove_ch 45%N s)))
   else mk_date (to_int (mid_len 0 4 (remove_ch 45%N s))) (to_int (mid_len 4 2 (remove_ch 45%N s)))
          (to_int (mid_len 6 2 (remove_ch 45%N s)))) = Some d.
Proof.
  intros d s R T. assert (Hm : 0 <= d_month d < 100 /\ 0 <= d_day d < 100).
  { destruct R as [R1 R2]. unfold month_days in R2. destruct (d_month d =? 2); [destruct (leap (d_year d))|destruct (_ || _)%bool]; lia. }
  destruct Hm as [Hm Hd]. destruct (two_spec _ Hm) as (m1 & m2 & Em & ? & ? & Im). destruct (two_spec _ Hd) as (d1 & d2 & Ed & ? & ? & Id).
  unfold date_text in T. cbv zeta in T. rewrite Em, Ed in T.
  assert (OK : (1 <= d_year d \/ d_year d = -1) -> mk_date (d_year d) (d_month d) (d_day d) = Some d) by (intros; apply real_date_ok; assumption).
  destruct T as [(Y & T)|(Y & T)].
  - destruct (four_spec (d_year d)) as (y1 & y2 & y3 & y4 & Ey & ? & ? & ? & ? & Iy); [lia|]. rewrite Ey in T.
    digits_out. assert (Hs : N.eqb 45 y1 = false) by (rewrite N.eqb_sym; assumption).
    assert (E : remove_ch 45%N s = [y1; y2; y3; y4; m1; m2; d1; d2]) by (destruct T as [->| ->]; cbn [app]; rm_chars; reflexivity).
    split; [destruct T as [->| ->]; cbn [app]; find_char|]. rewrite E.
    replace (starts_with _ _) with false by (destruct T as [->| ->]; cbn [app starts_with]; rewrite Hs; reflexivity).
    unfold mid_len. cbn [firstn skipn]. rewrite Im, Id, Iy. apply OK. lia.
  - digits_out.
    assert (E : remove_ch 45%N s = [m1; m2; d1; d2]) by (destruct T as [->| ->]; cbn [app]; rm_chars; reflexivity).
    split; [destruct T as [->| ->]; cbn [app]; find_char|]. rewrite E.
    replace (starts_with _ _) with true by (destruct T as [->| ->]; reflexivity).
    unfold mid_len. cbn [firstn skipn]. rewrite Im, Id, <- Y. apply OK. lia.
Qed.

Lemma digits_absent : forall c l, Forall digit l -> (c < 48 \/ 57 < c)%N -> ~ In c l.
Proof. intros c l F H I. rewrite Forall_forall in F. specialize (F c I). unfold digit, is_digit in F. lia. Qed.
Lemma digits_index : forall c l r, Forall digit l -> (c < 48 \/ 57 < c)%N ->
  index_of c (l ++ r) = option_map (fun i => (length l + i)%nat) (index_of c r).
Proof.
  intros c l r F H. induction F as [|x l Hx F IH]; [cbn; destruct (index_of c r); reflexivity|].
  cbn [app index_of]. rewrite (digit_neq x c Hx H), IH. destruct (index_of c r); reflexivity.
Qed.
Definition hms_of (hms : ustring) : Z * Z * Z :=
  match length hms with
  | 2%nat => (to_int hms, 0, 0)
  | 4%nat => (to_int (mid_len 0 2 hms), to_int (mid_len 2 2 hms), 0)
  | 6%nat => (to_int (mid_len 0 2 hms), to_int (mid_len 2 2 hms), to_int (mid_len 4 2 hms))
  | _ => (0, 0, 0)
  end.
Definition time_of (x : Z * Z * Z) : option time := mk_time (fst (fst x)) (snd (fst x)) (snd x) 0.
Lemma time_part : forall hms zs z, Forall digit hms ->
  (z = TLocal /\ zs = []) \/ (z = TUtc /\ zs = [90%N]) \/
  (exists (east : bool) os o, Forall digit os /\ zs = (if east then 43%N else 45%N) :: os /\
     o = match length os with
         | 2%nat => to_int (firstn 2 os) * 3600
         | 4%nat => to_int (firstn 2 os) * 3600 + to_int (mid_len 2 2 os) * 60
         | _ => 0 end /\ z = from_offset (if east then o else - o)) ->
  parse_time_part (hms ++ zs) = (time_of (hms_of hms), z).
Proof.
  intros hms zs z F H. unfold parse_time_part.
  rewrite !digits_index by (auto; lia). cbv zeta.
  assert (K : forall n l, firstn (length hms + 0) (hms ++ l) = hms /\ mid (length hms + 0 + 1) (hms ++ n :: l) = l).
  { intros n l. rewrite Nat.add_0_r. split; [apply firstn_app_exact|]. unfold mid.
    change (n :: l) with ([n] ++ l). rewrite app_assoc. replace (length hms + 1)%nat with (length (hms ++ [n])) by (rewrite app_length; reflexivity).
    apply skipn_app_exact. }
  assert (G : forall z' : tspec, (let '(h, m, s) := hms_of hms in (mk_time h m s 0, z')) = (time_of (hms_of hms), z')).
  { intros z'. unfold time_of. destruct (hms_of hms) as [[h m] s]. reflexivity. }
  destruct H as [(-> & ->)|[(-> & ->)|(east & os & o & Fo & -> & Eo & ->)]].
  - cbn [index_of option_map omax]. rewrite app_nil_r. apply G.
  - change (index_of 90%N [90%N]) with (Some 0%nat). change (index_of 43%N [90%N]) with (@None nat). change (index_of 45%N [90%N]) with (@None nat).
    cbn [option_map omax]. rewrite (proj1 (K 0%N [90%N])). apply G.
  - assert (N90 : index_of 90%N os = None) by (apply index_of_None, digits_absent; [exact Fo|lia]).
    assert (N43 : index_of 43%N os = None) by (apply index_of_None, digits_absent; [exact Fo|lia]).
    assert (N45 : index_of 45%N os = None) by (apply index_of_None, digits_absent; [exact Fo|lia]).
    destruct east; cbn [index_of N.eqb Pos.eqb option_map]; rewrite ?N90, ?N43, ?N45; cbn [option_map omax].
    + rewrite (proj1 (K 0%N (43%N :: os))), (proj2 (K 43%N os)), <- Eo. apply G.
    + rewrite (proj1 (K 0%N (45%N :: os))), (proj2 (K 45%N os)), <- Eo. apply G.
Qed.

Lemma time_read : forall t s z zs, real_time t -> time_text t s -> zone_text z zs ->
  parse_time_part (remove_ch cCOLON (s ++ zs)) = (Some t, z).
Proof.
  intros t s z zs (Rh & Rm & Rs) (M & T) Z.
  destruct (two_spec (t_hour t)) as (h1 & h2 & Eh & Dh1 & Dh2 & Ih); [lia|].
  destruct (two_spec (t_min t)) as (m1 & m2 & Em & Dm1 & Dm2 & Im); [lia|].
  destruct (two_spec (t_sec t)) as (s1 & s2 & Es & Ds1 & Ds2 & Is); [lia|]. rewrite Eh, Em, Es in T.
  assert (S1 : forall a b, remove_ch cCOLON (a ++ b) = remove_ch cCOLON a ++ remove_ch cCOLON b) by (intros; unfold remove_ch; apply filter_app).
  assert (S2 : forall l, Forall digit l -> remove_ch cCOLON l = l).
  { induction 1 as [|c l Hc F IH]; [reflexivity|]. unfold remove_ch. cbn [filter]. rewrite (digit_neq c cCOLON Hc) by (unfold cCOLON; lia). cbn [negb]. f_equal. exact IH. }
  assert (OK : forall h m n, h = t_hour t -> m = t_min t -> n = t_sec t -> time_of (h, m, n) = Some t).
  { intros h m n -> -> ->. unfold time_of, mk_time, time_ok. cbn [fst snd].
    replace (_ && _)%bool with true by lia. f_equal. destruct t; cbn in *; subst; reflexivity. }
  assert (TT : exists hms, remove_ch cCOLON s = hms /\ Forall digit hms /\ time_of (hms_of hms) = Some t).
  { destruct T as [(E1 & E2 & ->)|[(E1 & [->| ->])|[->| ->]]]; eexists; (split; [reflexivity|]); rewrite ?S1;
      change (remove_ch cCOLON [58%N]) with (@nil N); cbn [app]; rewrite ?S2 by (repeat (constructor; [assumption|]); constructor);
      (split; [repeat (constructor; [assumption|]); constructor|]); unfold hms_of, mid_len; cbn [length firstn skipn app]; apply OK; lia. }
  destruct TT as (hms & Ehms & Fh & Ht). rewrite S1, Ehms, <- Ht. apply time_part; [exact Fh|].
  destruct Z as [(-> & ->)|[(-> & ->)|(east & h & m & Hh & Hm & Ho & -> & Zs)]]; [left; auto|right; left; auto|right; right].
  destruct (two_spec h Hh) as (a1 & a2 & Ea & Da1 & Da2 & Ia). destruct (two_spec m Hm) as (b1 & b2 & Eb & Db1 & Db2 & Ib). rewrite Ea, Eb in Zs.
  assert (FO : forall o, o = h * 3600 + m * 60 -> (if o =? 0 then TUtc else TOffset (if east then o else - o)) = from_offset (if east then o else - o)).
  { intros o Eo. unfold from_offset. replace ((-57600 <=? (if east then o else - o)) && ((if east then o else - o) <=? 57600))%bool with true by (destruct east; lia).
    replace ((if east then o else - o) =? 0) with (o =? 0) by (destruct east; lia). reflexivity. }
  assert (SG : remove_ch cCOLON [if east then 43%N else 45%N] = [if east then 43%N else 45%N]) by (destruct east; reflexivity).
  destruct Zs as [(E1 & ->)|[->| ->]]; exists east.
  - exists [a1; a2], (h * 3600 + m * 60). rewrite S1, SG, S2 by (repeat (constructor; [assumption|]); constructor).
    split; [repeat (constructor; [assumption|]); constructor|]. split; [reflexivity|]. split; [cbn [length firstn]; lia|apply FO; reflexivity].
  - exists [a1; a2; b1; b2], (h * 3600 + m * 60). rewrite !S1, SG, (S2 [a1; a2]), (S2 [b1; b2]) by (repeat (constructor; [assumption|]); constructor).
    split; [repeat (constructor; [assumption|]); constructor|]. split; [reflexivity|]. split; [unfold mid_len; cbn [length firstn skipn]; lia|apply FO; reflexivity].
  - exists [a1; a2; b1; b2], (h * 3600 + m * 60). rewrite !S1, SG, (S2 [a1; a2]), (S2 [b1; b2]) by (repeat (constructor; [assumption|]); constructor).
    split; [repeat (constructor; [assumption|]); constructor|]. split; [reflexivity|]. split; [unfold mid_len; cbn [length firstn skipn]; lia|apply FO; reflexivity].
Qed.

Lemma read_forms : forall d t z ds ts zs, real_date d -> date_text d ds -> real_time t -> time_text t ts -> zone_text z zs ->
  parse_datetime (ds ++ 84%N :: ts ++ zs) = (mkDt (Some d) (Some t) z, true).
Proof.
  intros d t z ds ts zs R D Rt T Z. destruct (date_read d ds R D) as [E1 E2]. rewrite parse_datetime_unfold. cbv zeta.
  rewrite index_of_app_T by exact E1. rewrite firstn_app_exact, E2.
  replace (mid (length ds + 1) (ds ++ 84%N :: ts ++ zs)) with (ts ++ zs).
  2:{ unfold mid. change (84%N :: ts ++ zs) with ([84%N] ++ ts ++ zs). rewrite app_assoc.
      replace (length ds + 1)%nat with (length (ds ++ [84%N])) by (rewrite app_length; reflexivity). symmetry. apply skipn_app_exact. }
  rewrite (time_read t ts z zs Rt T Z). reflexivity.
Qed.
Lemma read_date_forms : forall d ds, real_date d -> date_text d ds -> parse_datetime ds = (mkDt (Some d) (Some midnight) TLocal, false).
Proof.
  intros d ds R D. destruct (date_read d ds R D) as [E1 E2]. rewrite parse_datetime_unfold. cbv zeta. rewrite E1. rewrite E2. reflexivity.
Qed.

(** what was read was a number *)
Lemma value_digits : forall l, digits_value l = value l.
Proof.
  intros l. unfold digits_value, value. generalize 0. induction l as [|c l IH]; intros n; [reflexivity|]. cbn [fold_left]. rewrite IH. f_equal. lia.
Qed.
Lemma utrim_left_split : forall s, exists sp, s = sp ++ utrim_left s /\ Forall (fun c => is_uspace c = true) sp.
Proof.
  induction s as [|c s [sp [E F]]]; [exists []; split; [reflexivity|constructor]|].
  cbn [utrim_left]. destruct (is_uspace c) eqn:K.
  - exists (c :: sp). cbn [app]. split; [f_equal; exact E|constructor; auto].
  - exists []. split; [reflexivity|constructor].
Qed.
Lemma utrimmed_split : forall s, exists l r, s = l ++ utrimmed s ++ r
  /\ Forall (fun c => is_uspace c = true) l /\ Forall (fun c => is_uspace c = true) r.
Proof.
  intros s. destruct (utrim_left_split s) as [l [E F]].
  destruct (utrim_left_split (rev (utrim_left s))) as [r [E2 F2]].
  exists l, (rev r). split; [|split; [exact F|apply Forall_rev; exact F2]].
  rewrite E at 1. f_equal. unfold utrimmed. rewrite <- rev_app_distr, <- E2, rev_involutive. reflexivity.
Qed.
Lemma to_int_number : forall s z, to_int s = z -> z <> 0 -> number_text s z.
Proof.
  intros s z E Hz. destruct (utrimmed_split s) as (l & r & Es & Fl & Fr). unfold to_int in E. cbv zeta in E. set (t := utrimmed s) in *. clearbody t.
  assert (K : exists (sign : list N) (neg : bool) body, t = sign ++ body /\ ((neg = true /\ sign = [45%N]) \/ (neg = false /\ (sign = [] \/ sign = [43%N]))) /\
    (if all_digits body then let v := if neg then - digits_value body else digits_value body in if (-2147483648 <=? v) && (v <=? 2147483647) then v else 0 else 0) = z).
  { destruct t as [|c t]; [exists (@nil N), false, (@nil N); split; [reflexivity|split; [auto|exact E]]|].
    destruct (N.eqb_spec c 45) as [->|]; [exists [45%N], true, t; split; [reflexivity|split; [auto|exact E]]|].
    destruct (N.eqb_spec c 43) as [->|]; [exists [43%N], false, t; split; [reflexivity|split; [auto|exact E]]|].
    exists (@nil N), false, (c :: t). split; [reflexivity|split; [auto|exact E]]. }
  destruct K as (sign & neg & body & -> & Hs & K). destruct (all_digits body) eqn:A; [|lia]. cbv zeta in K.
  destruct ((-2147483648 <=? _) && _)%bool; [|lia]. unfold all_digits in A. apply andb_true_iff in A as [A1 A2].
  exists l, sign, body, r. split; [rewrite Es, <- app_assoc; reflexivity|]. split; [apply Forall_app; auto|].
  split; [intros ->; discriminate A2|]. split.
  - apply Forall_forall. intros c Hc. rewrite forallb_forall in A1. specialize (A1 c Hc). unfold is_digit in A1. lia.
  - rewrite !value_digits in K. destruct Hs as [(-> & ->)|(-> & Hs)]; [right|left]; split; auto.
Qed.
Lemma mk_date_inv : forall y m n d, mk_date y m n = Some d -> d = mkDate y m n /\ y <> 0 /\ real_date d.
Proof.
  intros y m n d H. unfold mk_date in H. destruct (date_ok y m n) eqn:E; [|discriminate]. injection H as <-. unfold date_ok in E. unfold real_date. cbn [d_year d_month d_day].
  repeat split; lia.
Qed.
Lemma read_numbers : forall s d, dt_date (fst (parse_datetime s)) = Some d ->
  real_date d /\ exists ds rest, s = ds ++ rest /\ ~ In 84%N ds /\ (rest = [] \/ exists r, rest = 84%N :: r) /\
    let fs := filter (fun c => negb (N.eqb c 45)) ds in
    ((exists r, ds = [45%N; 45%N] ++ r) /\ d_year d = -1 /\ number_text (firstn 2 fs) (d_month d) /\ number_text (firstn 2 (skipn 2 fs)) (d_day d)) \/
    ((~ exists r, ds = [45%N; 45%N] ++ r) /\ number_text (firstn 4 fs) (d_year d) /\ number_text (firstn 2 (skipn 4 fs)) (d_month d) /\
     number_text (firstn 2 (skipn 6 fs)) (d_day d)).
Proof.
  intros s d H. rewrite parse_datetime_unfold in H. cbv zeta in H. cbn [fst mk_dt dt_date] in H.
  set (ds := match index_of 84%N s with Some p => firstn p s | None => s end) in *.
  assert (G : exists rest, s = ds ++ rest /\ ~ In 84%N ds /\ (rest = [] \/ exists r, rest = 84%N :: r)).
  { unfold ds. destruct (index_of 84%N s) as [p|] eqn:E.
    - apply index_of_Some in E as (a & b & -> & N & <-). rewrite firstn_app_exact. exists (84%N :: b). split; [reflexivity|]. split; [exact N|eauto].
    - exists []. rewrite app_nil_r. split; [reflexivity|]. split; [apply index_of_None; exact E|auto]. }
  clearbody ds. destruct G as (rest & Es & N & R).
  change (filter (fun c => negb (N.eqb c 45)) ds) with (remove_ch 45%N ds).
  destruct (starts_with [45%N; 45%N] ds) eqn:S.
  - apply mk_date_inv in H as (-> & Y & Rd). split; [exact Rd|]. exists ds, rest. split; [exact Es|]. split; [exact N|]. split; [exact R|]. left.
    destruct Rd as [R1 R2]. cbn [d_year d_month d_day] in *. split; [apply starts_with_spec; exact S|]. split; [reflexivity|].
    unfold mid_len in *. cbn [skipn] in *. split; apply to_int_number; auto; lia.
  - apply mk_date_inv in H as (-> & Y & Rd). split; [exact Rd|]. exists ds, rest. split; [exact Es|]. split; [exact N|]. split; [exact R|]. right.
    destruct Rd as [R1 R2]. cbn [d_year d_month d_day] in *. split.
    + intros [r E]. rewrite E in S. discriminate S.
    + unfold mid_len in *. cbn [skipn] in *. split; [|split]; apply to_int_number; auto; lia.
Qed.
