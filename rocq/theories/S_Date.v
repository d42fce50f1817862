(** Specification vocabulary for dates and times (C14, C15). *)
From Verif Require Import Base M_Date.
Local Open Scope Z_scope.

(** A date of the Gregorian calendar that a vCard can hold: year 1 to 9999, or the
    special year -1 that stands for "year not known". *)
Definition storable_date (d : date) : Prop :=
  (1 <= d_year d <= 9999 \/ d_year d = -1) /\ date_ok (d_year d) (d_month d) (d_day d) = true.

(** A time of day in whole seconds. *)
Definition storable_time (t : time) : Prop :=
  0 <= t_hour t < 24 /\ 0 <= t_min t < 60 /\ 0 <= t_sec t < 60 /\ t_msec t = 0.

(** Local time, UTC, or a non-zero offset of whole minutes in Qt's range. *)
Definition storable_spec (z : tspec) : Prop :=
  match z with
  | TLocal | TUtc => True
  | TOffset o => o <> 0 /\ -57600 <= o <= 57600 /\ (60 | o)
  | TZone => False
  end.
