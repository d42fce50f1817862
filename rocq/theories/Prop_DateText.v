(** C73: the texts of dates and times that are read. *)
From Verif Require Import Base M_VCard M_Date S_DateText P_DateText.
Local Open Scope Z_scope.

(** Every date, with or without dashes, with or without the year, followed by a time with
    or without colons, with or without minutes and seconds, in local time, UTC or with an
    offset, is read as that date and time. *)
Theorem C73_date_and_time :
  forall (d : date) (t : time) (z : tspec) (ds ts zs : ustring),
    real_date d -> date_text d ds -> real_time t -> time_text t ts -> zone_text z zs ->
    parse_datetime (ds ++ 84%N :: ts ++ zs) = (mkDt (Some d) (Some t) z, true).
Proof. exact read_forms. Qed.
Print Assumptions C73_date_and_time.

(** Without a time it is read as that date at midnight, marked as having no time. *)
Theorem C73_date :
  forall (d : date) (ds : ustring), real_date d -> date_text d ds ->
    parse_datetime ds = (mkDt (Some d) (Some midnight) TLocal, false).
Proof. exact read_date_forms. Qed.
Print Assumptions C73_date.

(** Nothing else is read as a date: a text that is read as a date has the numbers of its
    year, month and day in the expected places, and the day is in the calendar. *)
Theorem C73_only_dates :
  forall (s : ustring) (d : date), dt_date (fst (parse_datetime s)) = Some d ->
    real_date d /\
    exists ds rest, s = ds ++ rest /\ ~ In 84%N ds /\ (rest = [] \/ exists r, rest = 84%N :: r) /\
      let fs := filter (fun c => negb (N.eqb c 45)) ds in
      ((exists r, ds = [45%N; 45%N] ++ r) /\ d_year d = -1 /\ number_text (firstn 2 fs) (d_month d) /\ number_text (firstn 2 (skipn 2 fs)) (d_day d)) \/
      ((~ exists r, ds = [45%N; 45%N] ++ r) /\ number_text (firstn 4 fs) (d_year d) /\ number_text (firstn 2 (skipn 4 fs)) (d_month d) /\
       number_text (firstn 2 (skipn 6 fs)) (d_day d)).
Proof. exact read_numbers. Qed.
Print Assumptions C73_only_dates.

Example C73_case :
  let d := mkDate 1985 4 12 in let t := mkTime 10 22 0 0 in
  real_date d /\ date_text d (B "1985-04-12") /\ date_text d (B "19850412") /\ date_text (mkDate (-1) 2 29) (B "--0229") /\ real_date (mkDate (-1) 2 29) /\
  real_time t /\ time_text t (B "1022") /\ time_text t (B "10:22") /\ time_text t (B "10:22:00") /\
  zone_text (TOffset (-28800)) (B "-08") /\ zone_text (TOffset 5400) (B "+0130") /\
  parse_datetime (B "1985-04-12T1022-08") = (mkDt (Some d) (Some t) (TOffset (-28800)), true) /\
  dt_date (fst (parse_datetime (B "1985-4a-12"))) = None.
Proof.
  intros d t. split; [split; vm_compute; split; congruence|].
  split; [left; split; [cbn; lia|right; reflexivity]|]. split; [left; split; [cbn; lia|left; reflexivity]|]. split; [right; split; [reflexivity|left; reflexivity]|].
  split; [split; vm_compute; split; congruence|]. split; [repeat split; cbn; lia|].
  split; [split; [reflexivity|right; left; split; [reflexivity|left; reflexivity]]|].
  split; [split; [reflexivity|right; left; split; [reflexivity|right; reflexivity]]|].
  split; [split; [reflexivity|right; right; right; reflexivity]|].
  split; [right; right; exists false, 8, 0; split; [lia|]; split; [lia|]; cbv zeta; split; [lia|]; split; [reflexivity|left; split; reflexivity]|].
  split; [right; right; exists true, 1, 30; split; [lia|]; split; [lia|]; cbv zeta; split; [lia|]; split; [reflexivity|right; left; reflexivity]|].
  split; vm_compute; reflexivity.
Qed.

(** The dates of RFC 6350 without a day or without a month are not read, *)
Theorem C73_incomplete_refuted :
  Forall (fun s => dt_date (fst (parse_datetime s)) = None) (map B ["1985-04"; "1985"; "--04"; "---12"]%string).
Proof. repeat constructor. Qed.
Print Assumptions C73_incomplete_refuted.
(** and a time that is not a time is read as midnight, marked as having a time. *)
Theorem C73_nonsense_time_refuted :
  parse_datetime (B "1985-04-12Tnoon") = (mkDt (Some (mkDate 1985 4 12)) (Some midnight) TLocal, true).
Proof. vm_compute. reflexivity. Qed.
Print Assumptions C73_nonsense_time_refuted.
