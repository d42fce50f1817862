(** Texts of dates and times (C73). *)
From Verif Require Import Base QtText M_Date.
Local Open Scope Z_scope.

(** two and four decimal digits *)
Definition two (z : Z) : ustring := [Z.to_N (48 + z / 10); Z.to_N (48 + z mod 10)].
Definition four (z : Z) : ustring := two (z / 100) ++ two (z mod 100).

(** a date with or without dashes; without the year it begins with two dashes (and the
    year is -1) *)
Definition date_text (d : date) (s : ustring) : Prop :=
  let y := d_year d in let m := two (d_month d) in let n := two (d_day d) in
  (1 <= y <= 9999 /\ (s = four y ++ m ++ n \/ s = four y ++ [45%N] ++ m ++ [45%N] ++ n)) \/
  (y = -1 /\ (s = [45%N; 45%N] ++ m ++ n \/ s = [45%N; 45%N] ++ m ++ [45%N] ++ n)).
(** a day of the calendar *)
Definition real_date (d : date) : Prop :=
  1 <= d_month d <= 12 /\ 1 <= d_day d <= month_days (d_year d) (d_month d).
(** a time with or without colons; minutes and seconds can be left out *)
Definition time_text (t : time) (s : ustring) : Prop :=
  let h := two (t_hour t) in let m := two (t_min t) in let n := two (t_sec t) in
  t_msec t = 0 /\
  ((t_min t = 0 /\ t_sec t = 0 /\ s = h) \/
   (t_sec t = 0 /\ (s = h ++ m \/ s = h ++ [58%N] ++ m)) \/
   (s = h ++ m ++ n \/ s = h ++ [58%N] ++ m ++ [58%N] ++ n)).
Definition real_time (t : time) : Prop := 0 <= t_hour t < 24 /\ 0 <= t_min t < 60 /\ 0 <= t_sec t < 60.
(** local time, UTC, or an offset of at most 16 hours, with or without colon and minutes *)
Definition zone_text (z : tspec) (s : ustring) : Prop :=
  (z = TLocal /\ s = []) \/ (z = TUtc /\ s = [90%N]) \/
  exists (east : bool) h m, 0 <= h < 100 /\ 0 <= m < 100 /\
    let o := h * 3600 + m * 60 in let sign := [if east then 43%N else 45%N] in
    o <= 57600 /\ z = (if o =? 0 then TUtc else TOffset (if east then o else - o)) /\
    ((m = 0 /\ s = sign ++ two h) \/ s = sign ++ two h ++ two m \/ s = sign ++ two h ++ [58%N] ++ two m).

(** the text of a number: digits, a sign in front, blanks around *)
Definition value (s : list N) : Z := fold_left (fun n c => 10 * n + (Z.of_N c - 48)) s 0.
Definition number_text (s : ustring) (z : Z) : Prop :=
  exists l sign ds r, s = l ++ sign ++ ds ++ r /\ Forall (fun c => is_uspace c = true) (l ++ r) /\
    ds <> [] /\ Forall (fun c => 48 <= c <= 57)%N ds /\
    ((z = value ds /\ (sign = [] \/ sign = [43%N])) \/ (z = - value ds /\ sign = [45%N])).
