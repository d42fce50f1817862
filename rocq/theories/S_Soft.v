(** Specification vocabulary for quoted-printable soft line breaks (C02, C65). *)
From Verif Require Import Base Utf8 M_VCardText S_Parse.

(** The last line but one of the text is not blank and does not end in '='.
    ([physical_lines] of a text that ends in a line feed has an empty last part.) *)
Definition settled (text : bytes) : Prop :=
  exists before p e, physical_lines text = before ++ [p; e; []] /\
    ~ blank_line p /\ ~ (exists q, p = q ++ [61%N]).

(** A text made of lines, each ended by LF or CR LF. *)
Definition newline (nl : bytes) : Prop := nl = [10%N] \/ nl = [13; 10]%N.
Definition text_of (nl : bytes) (ls : list bytes) : bytes := flat_map (fun l => l ++ nl) ls.
Definition one_line (l : bytes) : Prop := ~ In 10%N l.

(** A value spread over several lines by soft line breaks: every piece but the
    last has '=' appended. *)
Fixpoint broken (l : bytes) (cs : list bytes) : list bytes :=
  match cs with
  | [] => [l]
  | c :: r => (l ++ [61%N]) :: broken c r
  end.

(** The parameters of a property line with quoted-printable encoding. *)
Definition param_text (p : bytes) : Prop := ~ In 58%N p /\ ~ In 59%N p /\ ~ In 34%N p.
Definition qp_param (p : bytes) : Prop :=
  to_lower p = B "encoding=quoted-printable" \/ to_lower p = B "quoted-printable".
Definition other_param (p : bytes) : Prop :=
  (forall r, to_lower p <> B "encoding=" ++ r) /\ to_lower p <> B "base64".
(** [name;param;param:] *)
Definition qp_head (h : bytes) : Prop :=
  exists n ps, h = n ++ flat_map (fun p => 59%N :: p) ps ++ [58%N] /\
    (exists c r, n = c :: r /\ is_space c = false) /\ ~ In 58%N n /\ ~ In 59%N n /\
    Forall param_text ps /\ Exists qp_param ps /\ Forall (fun p => qp_param p \/ other_param p) ps.

(** A line that continues a value: it starts with a character other than white
    space, and has no backslash and no CR or LF. *)
Definition more (c : bytes) : Prop :=
  (exists x r, c = x :: r /\ is_space x = false) /\ ~ In 92%N c /\ ~ In 13%N c /\ ~ In 10%N c /\
  ~ begin_line c /\ ~ end_line c.
