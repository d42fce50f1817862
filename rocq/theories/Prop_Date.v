(** C14, C15: dates, times and time zones in a vCard. *)
From Coq Require Znumtheory.
From Verif Require Import Base M_VCard M_Date S_Date P_Date.
Local Open Scope Z_scope.

(** C14.  A date and time written to a vCard of any version is read back with the
    same date, time of day and time specification, and marked as having a time. *)
Theorem C14_datetime_roundtrip :
  forall (v : version) (d : date) (t : time) (z : tspec),
    storable_date d -> storable_time t -> storable_spec z ->
    parse_datetime (create_datetime (mkDt (Some d) (Some t) z) v true)
    = (mkDt (Some d) (Some t) z, true).
Proof. intros v d t z. apply datetime_roundtrip. Qed.
Print Assumptions C14_datetime_roundtrip.

(** C14.  A date written without time is read back as the same date, marked as
    having no time. *)
Theorem C14_date_roundtrip :
  forall (v : version) (d : date) (t : option time) (z : tspec),
    storable_date d ->
    parse_datetime (create_datetime (mkDt (Some d) t z) v false)
    = (mkDt (Some d) (Some midnight) TLocal, false).
Proof. intros v d t z. apply date_roundtrip. Qed.
Print Assumptions C14_date_roundtrip.

(** C14.  An invalid date is written as the empty text. *)
Theorem C14_invalid_date_not_written :
  forall v t z w, create_datetime (mkDt None t z) v w = [].
Proof. reflexivity. Qed.
Print Assumptions C14_invalid_date_not_written.

(** Outside that class the claim fails: a five-digit year, milliseconds, an offset
    with seconds. *)
Theorem C14_datetime_roundtrip_refuted :
  (exists d t, date_ok (d_year d) (d_month d) (d_day d) = true /\ storable_time t /\
     forall v, fst (parse_datetime (create_datetime (mkDt (Some d) (Some t) TUtc) v true))
               <> mkDt (Some d) (Some t) TUtc)
  /\ (exists d o, storable_date d /\ -57600 <= o <= 57600 /\ o <> 0 /\
     forall v, fst (parse_datetime (create_datetime (mkDt (Some d) (Some midnight) (TOffset o)) v true))
               <> mkDt (Some d) (Some midnight) (TOffset o))
  /\ (exists d t, storable_date d /\ 0 < t_msec t < 1000 /\
     forall v, fst (parse_datetime (create_datetime (mkDt (Some d) (Some t) TUtc) v true))
               <> mkDt (Some d) (Some t) TUtc).
Proof.
  split; [|split].
  - exists (mkDate 10000 1 1), midnight. split; [reflexivity|]. split; [cbv; repeat split; congruence|].
    intros []; vm_compute; congruence.
  - exists (mkDate 2000 1 1), 3630. split; [split; [left; cbn; lia|reflexivity]|].
    split; [lia|]. split; [lia|]. intros []; vm_compute; congruence.
  - exists (mkDate 2000 1 1), (mkTime 12 0 0 500). split; [split; [left; cbn; lia|reflexivity]|].
    split; [cbn; lia|]. intros []; vm_compute; congruence.
Qed.
Print Assumptions C14_datetime_roundtrip_refuted.

(** The days there are: the Gregorian calendar; the years before 1 go on without a
    year 0. *)
Theorem C14_calendar :
  forall y m d,
    (1 <= y ->
       (date_ok y m d = true <->
          (1 <= d <= 28 /\ 1 <= m <= 12) \/ (29 <= d <= 30 /\ 1 <= m <= 12 /\ m <> 2) \/ (d = 31 /\ In m [1; 3; 5; 7; 8; 10; 12]) \/
          (d = 29 /\ m = 2 /\ (4 | y) /\ ((100 | y) -> (400 | y))))) /\
    date_ok 0 m d = false /\
    (y < 0 -> forall k, 1 <= y + 1 + 400 * k -> date_ok y m d = date_ok (y + 1 + 400 * k) m d).
Proof.
  intros y m d. split; [|split; [reflexivity|]].
  - intros Hy. assert (Hl : leap y = true <-> (4 | y) /\ ((100 | y) -> (400 | y))).
    { unfold leap. destruct (Z.ltb_spec y 1); [lia|]. rewrite andb_true_iff, orb_true_iff, negb_true_iff, !Z.eqb_eq, Z.eqb_neq.
      rewrite !Z.mod_divide by lia. destruct (Znumtheory.Zdivide_dec 100 y); tauto. }
    unfold date_ok, month_days. rewrite !andb_true_iff, negb_true_iff, Z.eqb_neq, !Z.leb_le.
    destruct (Z.eqb_spec m 2) as [->|Hm].
    + destruct (leap y); cbn [In]; intuition (try lia; try discriminate).
      assert (d = 29 \/ d <= 28) as [->|] by lia; [right; right; right; auto|left; lia].
    + destruct (Z.eqb_spec m 4), (Z.eqb_spec m 6), (Z.eqb_spec m 9), (Z.eqb_spec m 11); cbn [orb In]; lia.
  - intros Hy k Hk. unfold date_ok, month_days, leap.
    replace (y =? 0) with false by (symmetry; apply Z.eqb_neq; lia). replace (y + 1 + 400 * k =? 0) with false by (symmetry; apply Z.eqb_neq; lia).
    replace (y <? 1) with true by (symmetry; apply Z.ltb_lt; lia). replace (y + 1 + 400 * k <? 1) with false by (symmetry; apply Z.ltb_ge; lia). cbv zeta.
    replace ((y + 1 + 400 * k) mod 4) with ((y + 1) mod 4) by (replace (y + 1 + 400 * k) with (y + 1 + (100 * k) * 4) by lia; rewrite Z.mod_add by lia; reflexivity).
    replace ((y + 1 + 400 * k) mod 100) with ((y + 1) mod 100) by (replace (y + 1 + 400 * k) with (y + 1 + (4 * k) * 100) by lia; rewrite Z.mod_add by lia; reflexivity).
    replace ((y + 1 + 400 * k) mod 400) with ((y + 1) mod 400) by (replace (y + 1 + 400 * k) with (y + 1 + k * 400) by lia; rewrite Z.mod_add by lia; reflexivity).
    reflexivity.
Qed.
Print Assumptions C14_calendar.
(** The times that exist: 24 hours, 60 minutes, 60 seconds, 1000 milliseconds. *)
Theorem C14_clock : forall h m s ms : Z,
    time_ok h m s ms = true <-> 0 <= h <= 23 /\ 0 <= m <= 59 /\ 0 <= s <= 59 /\ 0 <= ms <= 999.
Proof. intros h m s ms. unfold time_ok. rewrite !andb_true_iff, !Z.leb_le, !Z.ltb_lt. lia. Qed.
Print Assumptions C14_clock.
Example C14_calendar_case : date_ok 2024 2 29 = true /\ date_ok 1900 2 29 = false /\ date_ok 2000 2 29 = true /\ date_ok (-1) 2 29 = true /\ date_ok 2023 11 31 = false.
Proof. vm_compute. auto 6. Qed.

Example C14_leap_day : storable_date (mkDate 2000 2 29) /\ storable_date (mkDate (-1) 2 29)
  /\ storable_time (mkTime 23 59 59 0) /\ storable_spec (TOffset (-12600)).
Proof.
  repeat split; cbn; auto; try lia. exists (-210). reflexivity.
Qed.
Example C14_text :
  create_datetime (mkDt (Some (mkDate 2000 2 29)) (Some (mkTime 23 5 59 0)) (TOffset (-12600))) V30 true
  = B "2000-02-29T23:05:59-03:30"
  /\ create_datetime (mkDt (Some (mkDate 987 12 1)) (Some (mkTime 23 5 59 0)) TUtc) V40 true
  = B "09871201T230559Z".
Proof. split; vm_compute; reflexivity. Qed.

(** C15.  An offset of less than 100 hours is read back unchanged. *)
Theorem C15_timezone_roundtrip :
  forall o, -6000 < o < 6000 -> parse_tz (create_tz o) = Some o.
Proof. exact tz_roundtrip. Qed.
Print Assumptions C15_timezone_roundtrip.

(** The bound is exact. *)
Theorem C15_timezone_bound :
  parse_tz (create_tz 6000) <> Some 6000 /\ parse_tz (create_tz (-6000)) <> Some (-6000).
Proof. split; vm_compute; congruence. Qed.
Print Assumptions C15_timezone_bound.

Example C15_negative_half_hour : create_tz (-30) = B "-00:30" /\ parse_tz (B "-00:30") = Some (-30).
Proof. split; vm_compute; reflexivity. Qed.
