From Verif Require Import Base BaseFacts QtText M_VCard M_Date S_Date.
Local Open Scope Z_scope.

Definition digit (c : N) : Prop := is_digit c = true.

Lemma digits_value_snoc s c : digits_value (s ++ [c]) = digits_value s * 10 + (Z.of_N c - 48).
Proof. unfold digits_value. rewrite fold_left_app. reflexivity. Qed.

Lemma digits_spec f : forall n, (n < 2 ^ N.of_nat f)%N ->
  forallb is_digit (digits (S f) n) = true
  /\ digits_value (digits (S f) n) = Z.of_N n
  /\ forall k, (n < 10 ^ N.of_nat (S k))%N -> (1 <= length (digits (S f) n) <= S k)%nat.
Proof.
  induction f as [|f IH]; intros n Hn.
  - assert (n = 0%N) by (cbn in Hn; lia). subst n.
    split; [reflexivity|split; [reflexivity|]]. intros k _. change (digits 1 0%N) with [48%N]. cbn [length]. lia.
  - change (digits (S (S f)) n) with
      (if N.ltb n 10 then [(48 + n)%N] else digits (S f) (n / 10)%N ++ [(48 + n mod 10)%N]).
    destruct (N.ltb n 10) eqn:E.
    + cbn [forallb length]. unfold is_digit, digits_value. cbn [fold_left]. repeat split; lia.
    + assert (Hd : (n / 10 < 2 ^ N.of_nat f)%N).
      { apply N.div_lt_upper_bound; [lia|].
        rewrite Nat2N.inj_succ, N.pow_succ_r' in Hn. lia. }
      destruct (IH _ Hd) as (A & V & L).
      pose proof (N.mod_lt n 10 ltac:(lia)) as Hm.
      pose proof (N.div_mod n 10 ltac:(lia)) as Hdm.
      split; [|split].
      * rewrite forallb_app, A. cbn. unfold is_digit. lia.
      * rewrite digits_value_snoc, V. lia.
      * intros k Hk. rewrite app_length. cbn [length].
        destruct k as [|k].
        { change (N.of_nat 1) with 1%N in Hk. rewrite N.pow_1_r in Hk. lia. }
        specialize (L k). assert (Hk' : (n / 10 < 10 ^ N.of_nat (S k))%N).
        { apply N.div_lt_upper_bound; [lia|]. rewrite Nat2N.inj_succ, N.pow_succ_r' in Hk. lia. }
        specialize (L Hk'). lia.
Qed.

Lemma decimal_spec n :
  forallb is_digit (decimal n) = true
  /\ digits_value (decimal n) = Z.of_N n
  /\ forall k, (n < 10 ^ N.of_nat (S k))%N -> (1 <= length (decimal n) <= S k)%nat.
Proof.
  unfold decimal. apply digits_spec.
  destruct n as [|p]; [cbn; lia|].
  cbn [N.size_nat]. induction p as [p IH|p IH|]; cbn [Pos.size_nat].
  - rewrite Nat2N.inj_succ, N.pow_succ_r'. lia.
  - rewrite Nat2N.inj_succ, N.pow_succ_r'. lia.
  - cbn. lia.
Qed.

Lemma digits_value_zeros k s : digits_value (repeat 48%N k ++ s) = digits_value s.
Proof.
  induction k as [|k IH]; [reflexivity|]. rewrite <- IH. cbn [repeat app].
  unfold digits_value. cbn [fold_left]. reflexivity.
Qed.

Lemma zpad_spec w z : (1 <= w)%nat -> 0 <= z < 10 ^ Z.of_nat w ->
  length (zpad w z) = w /\ forallb is_digit (zpad w z) = true /\ digits_value (zpad w z) = z.
Proof.
  intros Hw Hz. unfold zpad, padded.
  destruct (decimal_spec (Z.to_N z)) as (A & V & L).
  assert (Hl : (1 <= length (decimal (Z.to_N z)) <= w)%nat).
  { destruct w as [|w]; [lia|]. apply L.
    apply N2Z.inj_lt. rewrite N2Z.inj_pow, Z2N.id by lia. rewrite nat_N_Z. lia. }
  cbv zeta. rewrite app_length, repeat_length, forallb_app, A, digits_value_zeros, V.
  repeat split; try lia.
  rewrite andb_true_r. clear. induction (w - length _)%nat; cbn; auto.
Qed.

Lemma digit_not_space c : is_digit c = true -> is_uspace c = false.
Proof. unfold is_digit, is_uspace. lia. Qed.

Lemma to_int_digits s : s <> [] -> forallb is_digit s = true -> 0 <= digits_value s <= 2147483647 ->
  to_int s = digits_value s.
Proof.
  intros Hne Hd Hv.
  assert (Ht : utrimmed s = s).
  { assert (Hl : forall x, forallb is_digit x = true -> utrim_left x = x).
    { intros [|c x] H; [reflexivity|]. cbn in H. apply andb_true_iff in H as [H _].
      cbn. rewrite digit_not_space by exact H. reflexivity. }
    unfold utrimmed. rewrite (Hl s Hd). rewrite Hl; [apply rev_involutive|].
    rewrite forallb_forall in *. intros x Hx. apply Hd. apply in_rev. exact Hx. }
  unfold to_int. rewrite Ht. destruct s as [|c s]; [congruence|].
  assert (Hc : is_digit c = true) by (cbn in Hd; apply andb_true_iff in Hd; tauto).
  replace (N.eqb c 45) with false by (symmetry; apply N.eqb_neq; unfold is_digit in Hc; lia).
  replace (N.eqb c 43) with false by (symmetry; apply N.eqb_neq; unfold is_digit in Hc; lia).
  unfold all_digits. rewrite Hd. cbn [isnil negb andb].
  replace ((-2147483648 <=? digits_value (c :: s)) && (digits_value (c :: s) <=? 2147483647))%bool with true by lia.
  reflexivity.
Qed.

Lemma zpad2 z : 0 <= z < 100 ->
  exists a b, zpad 2 z = [a; b] /\ digit a /\ digit b /\ to_int [a; b] = z.
Proof.
  intros H. destruct (zpad_spec 2 z) as (L & D & V); [lia|exact H|].
  destruct (zpad 2 z) as [|a [|b [|]]] eqn:E; try discriminate.
  exists a, b. split; [reflexivity|].
  pose proof D as D'. cbn [forallb] in D'. rewrite !andb_true_iff in D'.
  repeat split; try (unfold digit; tauto).
  rewrite to_int_digits; [exact V|discriminate|exact D|lia].
Qed.

Lemma zpad4 z : 0 <= z < 10000 ->
  exists a b c d, zpad 4 z = [a; b; c; d] /\ digit a /\ digit b /\ digit c /\ digit d /\ to_int [a; b; c; d] = z.
Proof.
  intros H. destruct (zpad_spec 4 z) as (L & D & V); [lia|exact H|].
  destruct (zpad 4 z) as [|a [|b [|c [|d [|]]]]] eqn:E; try discriminate.
  exists a, b, c, d. split; [reflexivity|].
  pose proof D as D'. cbn [forallb] in D'. rewrite !andb_true_iff in D'.
  repeat split; try (unfold digit; tauto).
  rewrite to_int_digits; [exact V|discriminate|exact D|lia].
Qed.

Lemma digit_neq c k : digit c -> (k < 48 \/ 57 < k)%N -> N.eqb c k = false.
Proof. unfold digit, is_digit. intros H K. apply N.eqb_neq. lia. Qed.

Lemma digit_neqs c : digit c ->
  N.eqb c 84 = false /\ N.eqb c 45 = false /\ N.eqb c 58 = false /\ N.eqb c 90 = false /\ N.eqb c 43 = false.
Proof. intros H. repeat split; apply digit_neq; auto; lia. Qed.

Ltac digits_out :=
  repeat match goal with
  | H : digit ?c |- _ =>
      destruct (digit_neqs c H) as (? & ? & ? & ? & ?);
      clear H
  end.

Definition dash_of (v : version) : ustring := match v with V40 => [] | _ => [45%N] end.
Definition colon_of (v : version) : ustring := match v with V40 => [] | _ => [cCOLON] end.

Lemma remove_ch_skip k a l : N.eqb a k = false -> remove_ch k (a :: l) = a :: remove_ch k l.
Proof. intros H. unfold remove_ch. cbn [filter]. rewrite H. reflexivity. Qed.
Lemma remove_ch_drop k l : remove_ch k (k :: l) = remove_ch k l.
Proof. unfold remove_ch. cbn [filter]. rewrite N.eqb_refl. reflexivity. Qed.
Lemma index_of_skip k a l : N.eqb a k = false -> index_of k (a :: l) = option_map S (index_of k l).
Proof. intros H. cbn [index_of]. rewrite H. reflexivity. Qed.

Ltac rm_chars :=
  repeat first [ rewrite remove_ch_drop
               | rewrite remove_ch_skip by first [assumption | reflexivity] ].
Ltac find_char :=
  repeat rewrite index_of_skip by first [assumption | reflexivity]; reflexivity.

(** the text of a date: no T inside, and after removing dashes its fields *)
Lemma create_date_read d v : storable_date d ->
  let s := create_date d v in
  index_of 84%N s = None /\
  (if starts_with [45%N; 45%N] s
   then mk_date (-1) (to_int (mid_len 0 2 (remove_ch 45%N s))) (to_int (mid_len 2 2 (remove_ch 45%N s)))
   else mk_date (to_int (mid_len 0 4 (remove_ch 45%N s))) (to_int (mid_len 4 2 (remove_ch 45%N s)))
          (to_int (mid_len 6 2 (remove_ch 45%N s)))) = Some d.
Proof.
  intros [Hy Hok]. destruct d as [y m dd]; cbn [d_year d_month d_day] in *.
  assert (Hm : 0 <= m < 100 /\ 0 <= dd < 100).
  { unfold date_ok in Hok. unfold month_days in Hok.
    repeat (apply andb_true_iff in Hok as [Hok ?]).
    destruct (m =? 2); [destruct (leap y)|destruct (_ || _)%bool]; lia. }
  destruct Hm as [Hm Hd].
  destruct (zpad2 m Hm) as (m1 & m2 & Em & ? & ? & Im).
  destruct (zpad2 dd Hd) as (d1 & d2 & Ed & ? & ? & Id).
  unfold create_date; cbn [d_year d_month d_day]. rewrite Em, Ed.
  assert (Hmk : mk_date y m dd = Some (mkDate y m dd)) by (unfold mk_date; rewrite Hok; reflexivity).
  destruct Hy as [Hy|Hy].
  - replace (0 <? y) with true by lia.
    destruct (zpad4 y) as (y1 & y2 & y3 & y4 & Ey & ? & ? & ? & ? & Iy); [lia|].
    rewrite Ey. digits_out.
    assert (Hs : N.eqb 45 y1 = false) by (rewrite N.eqb_sym; assumption).
    split; [destruct v; cbn [app]; find_char|].
    replace (remove_ch _ _) with [y1; y2; y3; y4; m1; m2; d1; d2].
    2:{ destruct v; cbn [app]; rm_chars; reflexivity. }
    replace (starts_with _ _) with false by (destruct v; cbn [app starts_with]; rewrite Hs; reflexivity).
    unfold mid_len. cbn [firstn skipn]. rewrite Im, Id, Iy. exact Hmk.
  - subst y. digits_out.
    replace (0 <? -1) with false by lia.
    split; [destruct v; cbn [app]; find_char|].
    replace (remove_ch _ _) with [m1; m2; d1; d2].
    2:{ destruct v; cbn [app]; rm_chars; reflexivity. }
    replace (starts_with _ _) with true by (destruct v; reflexivity).
    unfold mid_len. cbn [firstn skipn]. rewrite Im, Id. exact Hmk.
Qed.

Lemma index_of_app_T s r : index_of 84%N s = None -> index_of 84%N (s ++ 84%N :: r) = Some (length s).
Proof. intros H. apply index_of_app_notin. apply index_of_None. exact H. Qed.

Definition offset_text (v : version) (z : tspec) : ustring :=
  match z with
  | TUtc => [90%N]
  | TOffset o =>
      let a := Z.abs o mod 86400 in
      (if 0 <=? o then [43%N] else [45%N]) ++ zpad 2 (a / 3600)
      ++ (match v with V40 => [] | _ => [cCOLON] end) ++ zpad 2 ((a / 60) mod 60)
  | _ => []
  end.

Definition parse_time_part (ts : ustring) : option time * tspec :=
  let zpos := index_of 90%N ts in
  let plus := index_of 43%N ts in
  let minus := index_of 45%N ts in
  let tzpos := omax (omax zpos plus) minus in
  let hms := match tzpos with Some q => firstn q ts | None => ts end in
  let '(h, m, s) :=
    match length hms with
    | 2%nat => (to_int hms, 0, 0)
    | 4%nat => (to_int (mid_len 0 2 hms), to_int (mid_len 2 2 hms), 0)
    | 6%nat => (to_int (mid_len 0 2 hms), to_int (mid_len 2 2 hms), to_int (mid_len 4 2 hms))
    | _ => (0, 0, 0)
    end in
  let z :=
    match tzpos with
    | None => TLocal
    | Some q =>
        match zpos with
        | Some _ => TUtc
        | None =>
            let os := mid (q + 1) ts in
            let o := match length os with
                     | 2%nat => to_int (firstn 2 os) * 3600
                     | 4%nat => to_int (firstn 2 os) * 3600 + to_int (mid_len 2 2 os) * 60
                     | _ => 0
                     end in
            from_offset (match minus with Some _ => - o | None => o end)
        end
    end in
  (mk_time h m s 0, z).

Lemma parse_datetime_unfold str : parse_datetime str =
  let posT := index_of 84%N str in
  let ds0 := match posT with Some p => firstn p str | None => str end in
  let ds := remove_ch 45%N ds0 in
  let d := if starts_with [45%N; 45%N] ds0 then mk_date (-1) (to_int (mid_len 0 2 ds)) (to_int (mid_len 2 2 ds))
           else mk_date (to_int (mid_len 0 4 ds)) (to_int (mid_len 4 2 ds)) (to_int (mid_len 6 2 ds)) in
  let tz := match posT with
            | None => (None, TLocal)
            | Some p => parse_time_part (remove_ch cCOLON (mid (p + 1) str))
            end in
  (mk_dt d (fst tz) (snd tz), match fst tz with Some _ => true | None => false end).
Proof.
  unfold parse_datetime, parse_time_part. cbv zeta.
  destruct (index_of 84%N str); [|reflexivity].
  set (hms := match omax _ _ with Some q => _ | None => _ end).
  destruct (length hms) as [|[|[|[|[|[|[|]]]]]]]; reflexivity.
Qed.

Lemma parse_time_part_local h1 h2 m1 m2 s1 s2 :
  digit h1 -> digit h2 -> digit m1 -> digit m2 -> digit s1 -> digit s2 ->
  parse_time_part [h1; h2; m1; m2; s1; s2]
  = (mk_time (to_int [h1; h2]) (to_int [m1; m2]) (to_int [s1; s2]) 0, TLocal).
Proof.
  intros. digits_out. set (L := [h1; h2; m1; m2; s1; s2]).
  assert (E90 : index_of 90%N L = None) by (unfold L; find_char).
  assert (E43 : index_of 43%N L = None) by (unfold L; find_char).
  assert (E45 : index_of 45%N L = None) by (unfold L; find_char).
  unfold parse_time_part. rewrite E90, E43, E45. reflexivity.
Qed.

Lemma parse_time_part_utc h1 h2 m1 m2 s1 s2 :
  digit h1 -> digit h2 -> digit m1 -> digit m2 -> digit s1 -> digit s2 ->
  parse_time_part [h1; h2; m1; m2; s1; s2; 90%N]
  = (mk_time (to_int [h1; h2]) (to_int [m1; m2]) (to_int [s1; s2]) 0, TUtc).
Proof.
  intros. digits_out. set (L := [h1; h2; m1; m2; s1; s2; 90%N]).
  assert (E90 : index_of 90%N L = Some 6%nat) by (unfold L; find_char).
  assert (E43 : index_of 43%N L = None) by (unfold L; find_char).
  assert (E45 : index_of 45%N L = None) by (unfold L; find_char).
  unfold parse_time_part. rewrite E90, E43, E45. reflexivity.
Qed.

Lemma parse_time_part_offset sg h1 h2 m1 m2 s1 s2 o1 o2 p1 p2 :
  sg = 43%N \/ sg = 45%N ->
  digit h1 -> digit h2 -> digit m1 -> digit m2 -> digit s1 -> digit s2 ->
  digit o1 -> digit o2 -> digit p1 -> digit p2 -> 
  parse_time_part [h1; h2; m1; m2; s1; s2; sg; o1; o2; p1; p2]
  = (mk_time (to_int [h1; h2]) (to_int [m1; m2]) (to_int [s1; s2]) 0,
     let o := to_int [o1; o2] * 3600 + to_int [p1; p2] * 60 in
     from_offset (if N.eqb sg 43 then o else - o)).
Proof.
  intros Hsg; intros. digits_out. set (L := [h1; h2; m1; m2; s1; s2; sg; o1; o2; p1; p2]).
  destruct Hsg as [-> | ->].
  - assert (E90 : index_of 90%N L = None) by (unfold L; find_char).
    assert (E43 : index_of 43%N L = Some 6%nat) by (unfold L; find_char).
    assert (E45 : index_of 45%N L = None) by (unfold L; find_char).
    unfold parse_time_part. rewrite E90, E43, E45. reflexivity.
  - assert (E90 : index_of 90%N L = None) by (unfold L; find_char).
    assert (E43 : index_of 43%N L = None) by (unfold L; find_char).
    assert (E45 : index_of 45%N L = Some 6%nat) by (unfold L; find_char).
    unfold parse_time_part. rewrite E90, E43, E45. reflexivity.
Qed.

Lemma spec_roundtrip t v z : storable_time t -> storable_spec z ->
  parse_time_part (remove_ch cCOLON (zpad 2 (t_hour t) ++ colon_of v ++ zpad 2 (t_min t) ++ colon_of v
                     ++ zpad 2 (t_sec t) ++ offset_text v z)) = (Some t, z).
Proof.
  intros (Hh & Hm & Hs & Hms) Hz. destruct t as [h m s ms]; cbn [t_hour t_min t_sec t_msec] in *. subst ms.
  destruct (zpad2 h) as (h1 & h2 & Eh & Dh1 & Dh2 & Ih); [lia|].
  destruct (zpad2 m) as (m1 & m2 & Em & Dm1 & Dm2 & Im); [lia|].
  destruct (zpad2 s) as (s1 & s2 & Es & Ds1 & Ds2 & Is); [lia|].
  rewrite Eh, Em, Es.
  assert (Hmk : mk_time h m s 0 = Some (mkTime h m s 0)).
  { unfold mk_time, time_ok. replace (_ && _)%bool with true; [reflexivity|]. lia. }
  unfold cCOLON, colon_of, cCOLON.
  destruct z as [| |o|]; cbn [storable_spec] in Hz; try tauto.
  - replace (remove_ch _ _) with [h1; h2; m1; m2; s1; s2].
    2:{ digits_out. unfold offset_text. destruct v; cbn [app]; rm_chars; reflexivity. }
    rewrite parse_time_part_local by assumption. rewrite Ih, Im, Is, Hmk. reflexivity.
  - replace (remove_ch _ _) with [h1; h2; m1; m2; s1; s2; 90%N].
    2:{ digits_out. unfold offset_text. destruct v; cbn [app]; rm_chars; reflexivity. }
    rewrite parse_time_part_utc by assumption. rewrite Ih, Im, Is, Hmk. reflexivity.
  - destruct Hz as (Hne & Hr & Hdiv).
    unfold offset_text, cCOLON. cbv zeta.
    set (a := Z.abs o mod 86400).
    assert (Ha : a = Z.abs o) by (apply Z.mod_small; lia).
    assert (Hdiv' : a mod 60 = 0). { rewrite Ha. apply Z.mod_divide; [lia|]. apply Z.divide_abs_r. exact Hdiv. }
    pose proof (Z.div_mod a 3600 ltac:(lia)) as D1.
    pose proof (Z.mod_pos_bound a 3600 ltac:(lia)) as B1.
    pose proof (Z.mod_pos_bound (a / 60) 60 ltac:(lia)) as B2.
    assert (Hsum : (a / 3600) * 3600 + ((a / 60) mod 60) * 60 = a).
    { pose proof (Z.div_mod a 60 ltac:(lia)). pose proof (Z.div_mod (a / 60) 60 ltac:(lia)) as D2.
      rewrite Z.div_div in D2 by lia. change (60 * 60) with 3600 in D2. lia. }
    destruct (zpad2 (a / 3600)) as (o1 & o2 & Eo & Do1 & Do2 & Io); [lia|].
    destruct (zpad2 ((a / 60) mod 60)) as (p1 & p2 & Ep & Dp1 & Dp2 & Ip); [lia|].
    rewrite Eo, Ep. clearbody a.
    set (sg := if 0 <=? o then 43%N else 45%N).
    replace (remove_ch _ _) with [h1; h2; m1; m2; s1; s2; sg; o1; o2; p1; p2].
    2:{ digits_out. unfold sg. destruct (0 <=? o); destruct v; cbn [app]; rm_chars; reflexivity. }
    rewrite parse_time_part_offset; try assumption.
    2:{ unfold sg. destruct (0 <=? o); auto. }
    rewrite Ih, Im, Is, Hmk, Io, Ip. cbv zeta. rewrite Hsum. f_equal.
    replace (if N.eqb sg 43 then a else - a) with o.
    2:{ unfold sg. destruct (0 <=? o) eqn:E; cbn; lia. }
    unfold from_offset.
    replace ((-57600 <=? o) && (o <=? 57600))%bool with true by lia;
         replace (o =? 0) with false by lia; reflexivity.
Qed.

Lemma firstn_len_app {A} (a b : list A) : firstn (length a) (a ++ b) = a.
Proof. rewrite firstn_app, Nat.sub_diag, firstn_all. cbn. apply app_nil_r. Qed.

Lemma datetime_roundtrip d t z v : storable_date d -> storable_time t -> storable_spec z ->
  parse_datetime (create_datetime (mkDt (Some d) (Some t) z) v true) = (mkDt (Some d) (Some t) z, true).
Proof.
  intros Hd Ht Hz. unfold create_datetime. cbn [dt_date dt_time dt_spec negb].
  destruct (create_date_read d v Hd) as [HT Hdate].
  set (s := create_date d v) in *. clearbody s.
  unfold create_time.
  replace (s ++ _ ++ _) with (s ++ 84%N :: (zpad 2 (t_hour t) ++ colon_of v ++ zpad 2 (t_min t) ++ colon_of v
                     ++ zpad 2 (t_sec t) ++ offset_text v z)).
  2:{ f_equal. cbn [app]. rewrite <- !app_assoc. reflexivity. }
  pose proof (spec_roundtrip t v z Ht Hz) as Hs.
  set (r := zpad 2 (t_hour t) ++ _) in *. clearbody r.
  rewrite parse_datetime_unfold. cbv zeta. rewrite index_of_app_T by exact HT.
  rewrite firstn_len_app.
  replace (mid (length s + 1) (s ++ 84%N :: r)) with r.
  2:{ unfold mid. replace (s ++ 84%N :: r) with ((s ++ [84%N]) ++ r) by (rewrite <- app_assoc; reflexivity).
      replace (length s + 1)%nat with (length (s ++ [84%N])) by (rewrite app_length; reflexivity).
      rewrite skipn_app_exact; reflexivity. }
  rewrite Hs. cbn [fst snd]. rewrite Hdate. reflexivity.
Qed.

Lemma date_roundtrip d ot z v : storable_date d ->
  parse_datetime (create_datetime (mkDt (Some d) ot z) v false) = (mkDt (Some d) (Some midnight) TLocal, false).
Proof.
  intros Hd. unfold create_datetime. cbn [dt_date negb].
  destruct (create_date_read d v Hd) as [HT Hdate].
  rewrite parse_datetime_unfold. cbv zeta. rewrite HT, Hdate. reflexivity.
Qed.

(** ** Time zone *)
Lemma tz_roundtrip o : -6000 < o < 6000 -> parse_tz (create_tz o) = Some o.
Proof.
  intros H. unfold create_tz. cbv zeta.
  set (neg := if o <? 0 then -1 else 1).
  assert (Hq : exists q r, Z.quot o 60 * neg = q /\ Z.rem o 60 * neg = r /\ 0 <= q < 100 /\ 0 <= r < 60
               /\ q * 60 + r = Z.abs o).
  { exists (Z.quot o 60 * neg), (Z.rem o 60 * neg). unfold neg. pose proof (Z.quot_rem o 60 ltac:(lia)).
    destruct (o <? 0) eqn:E.
    - pose proof (Z.rem_bound_pos_neg o 60 ltac:(lia) ltac:(lia)). lia.
    - pose proof (Z.rem_bound_pos_pos o 60 ltac:(lia) ltac:(lia)). lia. }
  destruct Hq as (q & r & -> & -> & Hq & Hr & Hsum).
  destruct (zpad2 q) as (q1 & q2 & Eq & ? & ? & Iq); [lia|].
  destruct (zpad2 r) as (r1 & r2 & Er & ? & ? & Ir); [lia|].
  rewrite Eq, Er.
  destruct (0 <=? o) eqn:E; cbn [app parse_tz mid_len skipn firstn cCOLON]; rewrite Iq, Ir; cbn [N.eqb Pos.eqb]; f_equal; lia.
Qed.
