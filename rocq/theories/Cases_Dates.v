(** autotests/datetimetest.cpp on the model: the table of times read, of
    times and dates written.  Tests of the model, not proofs of the claims. *)
From Verif Require Import Base BaseFacts QtText M_VCard M_Date.
From Coq Require Import String ZArith.
Open Scope string_scope.
Open Scope list_scope.
Open Scope Z_scope.

Definition in_2016 (t : option time) (z : tspec) : datetime := mk_dt (mk_date 2016 1 20) t z.

(** [DateTimeTest::shouldParseDateTime], autotests/datetimetest.cpp:21-82.
    [QCOMPARE] compares instants; here the fields themselves agree. *)
Example Test_DateTimeTest_shouldParseDateTime :
  map (fun s => fst (parse_datetime (B s)))
    ["2016-01-20T12:33:30+0200"; "2016-01-20T12:33:30+02"; "20160120T123330+0200";
     "2016-01-20T12:33Z"; "2016-01-20T12:33-0300"; "2016-01-20T12:33"; "2016-01-20";
     "--0120"; "--01-20"]
  = [in_2016 (mk_time 12 33 30 0) (TOffset 7200); in_2016 (mk_time 12 33 30 0) (TOffset 7200);
     in_2016 (mk_time 12 33 30 0) (TOffset 7200); in_2016 (mk_time 12 33 0 0) TUtc;
     in_2016 (mk_time 12 33 0 0) (TOffset (-10800)); in_2016 (mk_time 12 33 0 0) TLocal;
     in_2016 (mk_time 0 0 0 0) TLocal;
     mk_dt (mk_date (-1) 1 20) (mk_time 0 0 0 0) TLocal;
     mk_dt (mk_date (-1) 1 20) (mk_time 0 0 0 0) TLocal].
Proof. vm_compute. reflexivity. Qed.
(** the second result, lines 50-68 *)
Example Test_DateTimeTest_timeIsValid :
  map (fun s => snd (parse_datetime (B s))) ["2016-01-20T12:33"; "2016-01-20"; "T1233Z"]
  = [true; false; true].
Proof. vm_compute. reflexivity. Qed.
(** lines 65-68: a time without a date *)
Example Test_DateTimeTest_timeOnly :
  let d := fst (parse_datetime (B "T1233Z")) in
  dt_date d = None /\ dt_time d = mk_time 12 33 0 0.
Proof. vm_compute. split; reflexivity. Qed.

(** [DateTimeTest::shouldCreateDateTime], autotests/datetimetest.cpp:84-137 *)
Example Test_DateTimeTest_shouldCreateDateTime :
  [create_datetime (in_2016 (mk_time 12 33 30 0) TUtc) V40 true;
   create_datetime (in_2016 None TUtc) V40 true;
   create_datetime (in_2016 (mk_time 12 33 30 0) TLocal) V40 true;
   create_datetime (in_2016 (mk_time 12 33 30 0) (TOffset (-7200))) V40 true;
   create_datetime (in_2016 (mk_time 12 33 30 0) (TOffset 9000)) V40 true;
   create_datetime (in_2016 (mk_time 12 33 30 0) (TOffset (-7200))) V30 true;
   create_datetime (mk_dt None (mk_time 12 33 30 0) (TOffset (-7200))) V30 true;
   create_datetime (in_2016 (mk_time 12 33 30 0) TLocal) V30 false;
   create_datetime (in_2016 (mk_time 12 33 30 0) TLocal) V40 false]
  = map B ["20160120T123330Z"; "20160120T000000Z"; "20160120T123330"; "20160120T123330-0200";
           "20160120T123330+0230"; "2016-01-20T12:33:30-02:00"; ""; "2016-01-20"; "20160120"].
Proof. vm_compute. reflexivity. Qed.

(** [DateTimeTest::shouldCreateDate], autotests/datetimetest.cpp:139-166 *)
Example Test_DateTimeTest_shouldCreateDate :
  [create_date (mkDate 2016 1 20) V30; create_date (mkDate 2016 1 20) V40;
   create_date (mkDate (-1) 1 20) V30; create_date (mkDate (-1) 1 20) V40]
  = map B ["2016-01-20"; "20160120"; "--01-20"; "--0120"].
Proof. vm_compute. reflexivity. Qed.
