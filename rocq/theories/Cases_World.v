(** A concrete library for running the model on the project's own test data.
    Nothing is proved from this file: it only instantiates the parameters of
    the model ([Ext], [Env], [Tool]) with functions that behave, on the data
    of /repo/autotests, as Qt and KCodecs do.  Sound as a model of Qt and
    KCodecs only there. *)
From Verif Require Import Base BaseFacts QtText Utf8 M_ParamMap M_VCard M_VCardText
  M_Split M_Values M_Date M_Addressee M_VCardTool.
From Coq Require Import String QArith.
Open Scope list_scope.

(** Lines of a text file, ended as the project's test data end them. *)
Definition lf (l : list string) : bytes := flat_map (fun s => B s ++ [cLF]) l.
Definition crlf (l : list string) : bytes := flat_map (fun s => B s ++ [cCR; cLF]) l.

(** [KCodecs::quotedPrintableDecode] and [quotedPrintableEncode], as far as
    the test data need them: printable bytes but the equals sign stand for
    themselves, a line feed stays, and [F], [.], [-] are coded where a line
    begins (kcodecsqp.cpp of KCodecs; not part of /repo). *)
Definition hex_value (c : N) : N := (if c <? 58 then c - 48 else if c <? 71 then c - 55 else c - 87)%N.
Definition hex_char (n : N) : N := (if n <? 10 then n + 48 else n + 55)%N.
Definition hexadecimal (c : N) : bool :=
  ((48 <=? c) && (c <=? 57) || (65 <=? c) && (c <=? 70) || (97 <=? c) && (c <=? 102))%N.
Fixpoint w_qp_decode (s : bytes) : bytes :=
  match s with
  | [] => []
  | c :: r =>
      if (c =? 61)%N then
        match r with
        | 10%N :: r' => w_qp_decode r'
        | a :: b :: r' =>
            if hexadecimal a && hexadecimal b
            then (16 * hex_value a + hex_value b)%N :: w_qp_decode r'
            else c :: w_qp_decode r
        | _ => c :: w_qp_decode r
        end
      else c :: w_qp_decode r
  end.
Fixpoint w_qp_encode (begins : bool) (s : bytes) : bytes :=
  match s with
  | [] => []
  | c :: r =>
      if (c =? 10)%N then c :: w_qp_encode true r
      else if ((32 <=? c) && (c <=? 126) && negb (c =? 61)
               && negb (begins && ((c =? 70) || (c =? 46) || (c =? 45))))%N
      then c :: w_qp_encode false r
      else 61%N :: hex_char (c / 16)%N :: hex_char (c mod 16)%N :: w_qp_encode false r
  end.
Definition E1 : Ext := {|
  qp_decode := w_qp_decode;
  qp_encode := w_qp_encode true;
  charset_decode := fun n => if leqb (to_lower n) (B "utf-8") then Some from_utf8 else None;
  charset_encode := fun n => if leqb (to_lower n) (B "utf-8") then Some to_utf8 else None |}.

(** URLs are kept as text; their scheme is what stands before the colon. *)
Definition w_scheme (u : qurl) : ustring :=
  match index_of cCOLON u with Some i => firstn i u | None => [] end.
Definition w_path (u : qurl) : ustring :=
  match index_of cCOLON u with Some i => skipn (S i) u | None => u end.
Definition Env1 : Env := {|
  env_url := {| url_parse := fun s => s; url_valid := fun u => negb (isnil u); url_scheme := w_scheme |};
  env_img := {| img_load := fun b => Some b; img_save := fun px _ => px |};
  env_instant := fun _ => 0%Z |}.

(** Decimal numbers. *)
Fixpoint w_digits (s : ustring) (acc : Z) (n : nat) : Z * nat * ustring :=
  match s with
  | c :: r => if ((48 <=? c) && (c <=? 57))%N
              then w_digits r (10 * acc + Z.of_N (c - 48))%Z (S n) else (acc, n, s)
  | [] => (acc, n, [])
  end.
Definition w_number (s : ustring) : Q :=
  let '(neg, s) := match s with 45%N :: r => (true, r) | _ => (false, s) end in
  let '(i, _, r) := w_digits s 0%Z 0 in
  let '(f, nf, _) := match r with 46%N :: r => w_digits r 0%Z 0 | _ => (0%Z, 0%nat, r) end in
  let d := Z.to_pos (10 ^ Z.of_nat nf) in
  Qmake ((if neg then -1 else 1) * (i * Zpos d + f))%Z d.
(** The nearest single-precision value of a number. *)
Definition w_single (q : Q) : Q :=
  let n := Z.abs (Qnum q) in
  if (n =? 0)%Z then q else
  let d := Zpos (Qden q) in
  let up := Z.max 0 (24 + Z.log2 d - Z.log2 n)%Z in
  let m := (n * 2 ^ up / d)%Z in
  let down := Z.max 0 (Z.log2 m - 24)%Z in
  let m := (m / 2 ^ down)%Z in
  let m := if Z.testbit m 0 then (m + 1)%Z else m in
  let e := (down - up)%Z in
  Qred (Qmult (Qmake (Z.sgn (Qnum q) * m) 1) (if (0 <=? e)%Z then Qmake (2 ^ e) 1 else Qmake 1 (Z.to_pos (2 ^ (- e))))).
Fixpoint w_decimal (fuel : nat) (n : N) : ustring :=
  match fuel with
  | O => []
  | S k => if (n <? 10)%N then [48 + n]%N else w_decimal k (n / 10)%N ++ [48 + n mod 10]%N
  end.
Definition w_padded (k : nat) (s : ustring) : ustring := repeat 48%N (k - List.length s) ++ s.
Definition w_fmt6 (f : flt) : ustring :=
  match f with
  | Fin q =>
      let m := ((2 * Qnum q * 1000000 + Zpos (Qden q)) / (2 * Zpos (Qden q)))%Z in
      (if (m <? 0)%Z then [45%N] else [])
      ++ w_decimal 30 (Z.to_N (Z.abs m) / 1000000)%N ++ [46%N]
      ++ w_padded 6 (w_decimal 30 (Z.to_N (Z.abs m) mod 1000000)%N)
  | _ => []
  end.

(** [toString(Qt::ISODate)] of a date. *)
Definition w_iso (d : date) : ustring :=
  w_padded 4 (w_decimal 6 (Z.to_N (d_year d))) ++ [45%N]
  ++ w_padded 2 (w_decimal 3 (Z.to_N (d_month d))) ++ [45%N]
  ++ w_padded 2 (w_decimal 3 (Z.to_N (d_day d))).

(** [QDate::fromString(.., Qt::ISODate)] *)
Definition w_iso_read (s : ustring) : option date :=
  match w_digits s 0%Z 0 with
  | (y, 4%nat, 45%N :: r) =>
      match w_digits r 0%Z 0 with
      | (m, 2%nat, 45%N :: r) =>
          match w_digits r 0%Z 0 with
          | (d, 2%nat, []) => if date_ok y m d then Some (mkDate y m d) else None
          | _ => None
          end
      | _ => None
      end
  | _ => None
  end.

Definition T1 : Tool := {|
  t_env := Env1;
  t_set_scheme := fun s u => s ++ cCOLON :: w_path u;
  t_set_path := fun p u => w_scheme u ++ cCOLON :: p;
  t_display := fun u => u;
  t_fmt6 := w_fmt6;
  t_float := fun s => Fin (w_single (w_number s));
  t_double := fun s => Fin (w_single (w_number s));
  t_date_iso := fun d => match d with Some d => w_iso d | None => [] end;
  t_iso_date := w_iso_read;
  t_newid := fun c i => B "id" ++ w_decimal 5 (N.of_nat c) ++ w_decimal 5 (N.of_nat i) |}.

(** What a test does: parse, then write; the fuel is the length of the text. *)
Definition roundtrip (v : version) (export : bool) (s : bytes) : outcome bytes :=
  match parse_text T1 E1 (50 + List.length s) s with
  | Done l => Done (create_text T1 E1 v export l)
  | Running => Running
  | Undefined => Undefined
  end.
