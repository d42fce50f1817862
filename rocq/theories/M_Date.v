(** Model of dates and times: the parts of [QDate], [QTime], [QDateTime] that the
    repository uses (trusted base) and [VCardTool::parseDateTime],
    [createDateTime], [createDate], [createTime] (vcardtool.cpp:1216-1344), and the
    TZ property (vcardtool.cpp:604-617, 1076-1091). *)
From Verif Require Import Base QtText M_VCard.
Local Open Scope Z_scope.

(** ** Decimal numbers *)

(** the decimal digits of a number *)
Fixpoint digits (fuel : nat) (n : N) : list N :=
  match fuel with
  | O => []
  | S f => if N.ltb n 10 then [(48 + n)%N]
           else digits f (n / 10)%N ++ [(48 + n mod 10)%N]
  end.
Definition decimal (n : N) : list N := digits (S (N.size_nat n)) n.
(** padded with zeros on the left to at least [w] characters ([%0wd] of a
    non-negative number; also [QDate::toString] fields MM, dd, yyyy) *)
Definition padded (w : nat) (n : N) : list N :=
  let d := decimal n in repeat 48%N (w - length d)%nat ++ d.

Definition all_digits (s : list N) : bool := forallb is_digit s && negb (isnil s).
Definition digits_value (s : list N) : Z :=
  fold_left (fun acc c => acc * 10 + (Z.of_N c - 48)) s 0.
(** [QString::toInt()] / [QStringView::toInt()]: blanks of any script at both ends, an optional
    sign, decimal digits; 0 for anything else or outside the range of [int]. *)
Definition to_int (s : ustring) : Z :=
  let t := utrimmed s in
  let '(neg, body) := match t with
                      | c :: r => if N.eqb c 45 then (true, r) else if N.eqb c 43 then (false, r) else (false, t)
                      | [] => (false, [])
                      end in
  if all_digits body then
    let v := if neg : bool then - digits_value body else digits_value body in
    if (-2147483648 <=? v) && (v <=? 2147483647) then v else 0
  else 0.

(** ** QDate, QTime, QDateTime *)

Record date := mkDate { d_year : Z; d_month : Z; d_day : Z }.
(** [QCalendar::Gregorian]: there is no year 0; year -1 is a leap year. *)
Definition leap (y : Z) : bool :=
  let y := if y <? 1 then y + 1 else y in
  (y mod 4 =? 0) && (negb (y mod 100 =? 0) || (y mod 400 =? 0)).
Definition month_days (y m : Z) : Z :=
  if m =? 2 then (if leap y then 29 else 28)
  else if (m =? 4) || (m =? 6) || (m =? 9) || (m =? 11) then 30 else 31.
(** [QDate::isValid(y, m, d)] *)
Definition date_ok (y m d : Z) : bool :=
  negb (y =? 0) && (1 <=? m) && (m <=? 12) && (1 <=? d) && (d <=? month_days y m).
(** [QDate::setDate]: [None] is the invalid date. *)
Definition mk_date (y m d : Z) : option date :=
  if date_ok y m d then Some (mkDate y m d) else None.

Record time := mkTime { t_hour : Z; t_min : Z; t_sec : Z; t_msec : Z }.
Definition time_ok (h m s ms : Z) : bool :=
  (0 <=? h) && (h <? 24) && (0 <=? m) && (m <? 60) && (0 <=? s) && (s <? 60) && (0 <=? ms) && (ms <? 1000).
(** [QTime::setHMS] *)
Definition mk_time (h m s ms : Z) : option time :=
  if time_ok h m s ms then Some (mkTime h m s ms) else None.
Definition midnight : time := mkTime 0 0 0 0.

(** [QDateTime::timeSpec] with the offset; [TZone] is a named zone or an
    out-of-range offset. *)
Inductive tspec := TLocal | TUtc | TOffset (secs : Z) | TZone.
Record datetime := mkDt { dt_date : option date; dt_time : option time; dt_spec : tspec }.
Definition dt_null : datetime := mkDt None None TLocal.
(** [QDateTime(date, time, zone)]: if the date is valid and the time is not, the
    time becomes midnight.  (Simplification: local times skipped by a
    daylight-saving change, which Qt moves, are not modelled.) *)
Definition mk_dt (d : option date) (t : option time) (z : tspec) : datetime :=
  mkDt d (match d, t with Some _, None => Some midnight | _, _ => t end) z.
Definition dt_set_time (t : option time) (x : datetime) : datetime := mk_dt (dt_date x) t (dt_spec x).
Definition dt_valid (x : datetime) : bool :=
  match dt_date x, dt_time x with Some _, Some _ => true | _, _ => false end.
(** [QTimeZone::fromSecondsAheadOfUtc] (range of QTimeZone::MinUtcOffsetSecs ..
    MaxUtcOffsetSecs) *)
Definition from_offset (o : Z) : tspec :=
  if (-57600 <=? o) && (o <=? 57600) then (if o =? 0 then TUtc else TOffset o) else TZone.

(** ** Writing *)

Definition zpad (w : nat) (z : Z) : list N := padded w (Z.to_N z).

(** [createDate], vcardtool.cpp:1320-1333 *)
Definition create_date (d : date) (v : version) : ustring :=
  let dash := match v with V40 => [] | _ => [45%N] end in
  if 0 <? d_year d
  then zpad 4 (d_year d) ++ dash ++ zpad 2 (d_month d) ++ dash ++ zpad 2 (d_day d)
  else [45%N; 45%N] ++ zpad 2 (d_month d) ++ dash ++ zpad 2 (d_day d).

(** [createTime], vcardtool.cpp:1335-1344; the text of an invalid time is empty *)
Definition create_time (t : option time) (v : version) : ustring :=
  let colon := match v with V40 => [] | _ => [cCOLON] end in
  84%N :: match t with
          | Some t => zpad 2 (t_hour t) ++ colon ++ zpad 2 (t_min t) ++ colon ++ zpad 2 (t_sec t)
          | None => []
          end.

(** [createDateTime], vcardtool.cpp:1291-1318 *)
Definition create_datetime (x : datetime) (v : version) (with_time : bool) : ustring :=
  match dt_date x with
  | None => []
  | Some d =>
      let str := create_date d v in
      if negb with_time then str
      else
        str ++ create_time (dt_time x) v
        ++ match dt_spec x with
           | TUtc => [90%N]
           | TOffset o =>
               (* QTime(0,0).addSecs(abs(o)) wraps around at 24 hours *)
               let a := Z.abs o mod 86400 in
               (if 0 <=? o then [43%N] else [45%N])
               ++ zpad 2 (a / 3600)
               ++ (match v with V40 => [] | _ => [cCOLON] end)
               ++ zpad 2 ((a / 60) mod 60)
           | _ => []
           end
  end.

(** ** Reading: [parseDateTime], vcardtool.cpp:1216-1289.  The result is the date
    and time and the value stored through [timeValid]. *)
Definition remove_ch (c : N) (s : ustring) : ustring := filter (fun x => negb (N.eqb x c)) s.
Definition omax (a b : option nat) : option nat :=
  match a, b with
  | Some x, Some y => Some (Nat.max x y)
  | Some x, None => Some x
  | None, y => y
  end.
Definition parse_datetime (str : ustring) : datetime * bool :=
  let posT := index_of 84%N str in
  let ds0 := match posT with Some p => firstn p str | None => str end in
  let no_year := starts_with [45%N; 45%N] ds0 in
  let ds := remove_ch 45%N ds0 in
  let d := if no_year then mk_date (-1) (to_int (mid_len 0 2 ds)) (to_int (mid_len 2 2 ds))
           else mk_date (to_int (mid_len 0 4 ds)) (to_int (mid_len 4 2 ds)) (to_int (mid_len 6 2 ds)) in
  let '(t, z) :=
    match posT with
    | None => (None, TLocal)
    | Some p =>
        let ts := remove_ch cCOLON (mid (p + 1) str) in
        let zpos := index_of 90%N ts in
        let plus := index_of 43%N ts in
        let minus := index_of 45%N ts in
        let tzpos := omax (omax zpos plus) minus in
        let hms := match tzpos with Some q => firstn q ts | None => ts end in
        let '(h, m, s) :=
          match length hms with
          | 2%nat => (to_int hms, 0, 0)
          | 4%nat => (to_int (mid_len 0 2 hms), to_int (mid_len 2 2 hms), 0)
          | 6%nat => (to_int (mid_len 0 2 hms), to_int (mid_len 2 2 hms), to_int (mid_len 4 2 hms))
          | _ => (0, 0, 0)
          end in
        let z :=
          match tzpos with
          | None => TLocal
          | Some q =>
              match zpos with
              | Some _ => TUtc
              | None =>
                  let os := mid (q + 1) ts in
                  let o := match length os with
                           | 2%nat => to_int (firstn 2 os) * 3600
                           | 4%nat => to_int (firstn 2 os) * 3600 + to_int (mid_len 2 2 os) * 60
                           | _ => 0
                           end in
                  from_offset (match minus with Some _ => - o | None => o end)
              end
          end in
        (mk_time h m s 0, z)
    end in
  (mk_dt d t z, match t with Some _ => true | None => false end).

(** ** Time zone offset *)

(** writer, vcardtool.cpp:604-617: the text of the TZ property for an offset
    (minutes) *)
Definition create_tz (o : Z) : ustring :=
  let neg := if o <? 0 then -1 else 1 in
  (if 0 <=? o then [43%N] else [45%N])
  ++ zpad 2 (Z.quot o 60 * neg) ++ [cCOLON] ++ zpad 2 (Z.rem o 60 * neg).

(** reader, vcardtool.cpp:1076-1091 ([None]: empty value, nothing is set) *)
Definition parse_tz (s : ustring) : option Z :=
  match s with
  | [] => None
  | c :: _ =>
      let hours := to_int (mid_len 1 2 s) in
      let minutes := to_int (mid_len 4 2 s) in
      Some ((hours * 60 + minutes) * (if N.eqb c 43 then 1 else -1))
  end.
