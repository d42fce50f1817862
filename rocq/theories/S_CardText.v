(** Specification vocabulary for whole vCard texts. *)
From Verif Require Import Base Utf8 M_ParamMap M_VCard.

(** [c] occurs nowhere in the name part (group, identifier, parameters) of a
    property line. *)
Definition header_free (c : N) (l : vline) : Prop :=
  ~ In c (vl_group l) /\ ~ In c (vl_id l) /\
  Forall (fun pv => ~ In c (fst pv) /\ Forall (fun v => ~ In c v) (snd pv)) (vl_params l).

(** The name part is ASCII. *)
Definition ascii (s : list N) : Prop := Forall (fun c => (c < 128)%N) s.
Definition header_ascii (l : vline) : Prop :=
  ascii (vl_group l) /\ ascii (vl_id l) /\
  Forall (fun pv => ascii (fst pv) /\ Forall ascii (snd pv)) (vl_params l).

(** a line with a plain text value: neither charset nor encoding parameter *)
Definition plain_text_line (u : ustring) (l : vline) : Prop :=
  vl_value l = QStr u /\ find_param (B "charset") (vl_params l) = None /\
  find_param (B "encoding") (vl_params l) = None.

Definition has_value (l : vline) : Prop := vl_value l <> QInvalid.

Definition card_all (P : vline -> Prop) (c : vcard) : Prop :=
  Forall (fun e => Forall P (snd e)) c.
