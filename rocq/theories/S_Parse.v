(** Specification vocabulary for reading vCard texts (C02, C06, C07). *)
From Verif Require Import Base Utf8 M_VCardText.

(** The lines of a text: parts between LF characters, one trailing CR removed. *)
Definition physical_lines (text : bytes) : list bytes := map strip_cr (split 10%N text).

Definition folded_line (p : bytes) : Prop := exists c r, p = c :: r /\ (c = 32 \/ c = 9)%N.
Definition blank_line (p : bytes) : Prop := Forall (fun c => is_space c = true) p.
Definition begin_line (p : bytes) : Prop := exists a b, p = a ++ b /\ to_lower a = B "begin:vcard".
Definition end_line (p : bytes) : Prop := exists a b, p = a ++ b /\ to_lower a = B "end:vcard".

(** The content lines of a list of physical lines: lines inside BEGIN/END with
    the folded continuation lines appended.  [inside], [cur]: whether a card is
    open, and the line assembled so far. *)
Inductive contents : bool -> bytes -> list bytes -> list bytes -> Prop :=
| ct_end inside cur : contents inside cur [] []
| ct_fold inside cur c p ps out :
    (c = 32 \/ c = 9)%N -> contents inside (cur ++ p) ps out ->
    contents inside cur ((c :: p) :: ps) out
| ct_blank inside cur p ps out :
    blank_line p -> ~ folded_line p -> contents inside cur ps out ->
    contents inside cur (p :: ps) out
| ct_begin inside cur p ps out :
    ~ blank_line p -> ~ folded_line p -> begin_line p -> contents true [] ps out ->
    contents inside cur (p :: ps) (if inside then cur :: out else out)
| ct_finish inside cur p ps out :
    ~ blank_line p -> ~ folded_line p -> end_line p -> contents false [] ps out ->
    contents inside cur (p :: ps) (if inside then cur :: out else out)
| ct_line inside cur p ps out :
    ~ blank_line p -> ~ folded_line p -> ~ begin_line p -> ~ end_line p -> contents inside p ps out ->
    contents inside cur (p :: ps) (if inside then cur :: out else out).

(** A content line with a quoted-printable soft line break: it mentions
    quoted-printable and ends in '='. *)
Definition soft_break (l : bytes) : Prop :=
  (exists a q b, l = a ++ q ++ b /\ to_lower q = B "quoted-printable") /\ (exists a, l = a ++ [61%N]).

(** No content line of the text has a soft line break.  (A text without any
    line break is looked at twice by the parser.) *)
Definition reading (text : bytes) : list bytes :=
  if mem 10%N text then physical_lines text else physical_lines text ++ physical_lines text.
Definition no_soft_breaks (text : bytes) : Prop :=
  forall out, contents false [] (reading text) out -> Forall (fun l => ~ soft_break l) out.

(** A text of complete cards: empty or ending in LF, and every BEGIN line is
    followed by an END line. *)
Definition complete (text : bytes) : Prop :=
  (text = [] \/ exists a, text = a ++ [10%N]) /\
  forall a p b, physical_lines text = a ++ p :: b -> begin_line p -> exists q, In q b /\ end_line q.

(** The parser terminates on [text] and returns [cards]. *)
Definition parses_to (E : Ext) (text : bytes) (cards : list M_VCard.vcard) : Prop :=
  exists n, forall fuel, n <= fuel -> parse_vcards E fuel text = Some cards.
