(** Well-formed property lines and cards (C06). *)
From Verif Require Import Base Utf8 M_ParamMap M_VCard M_VCardText S_Escape S_Card.

Definition printable (c : N) : Prop := (33 <= c <= 126)%N.

(** characters of property names and groups: printable ASCII except . : ; *)
Definition name_char (c : N) : Prop := printable c /\ ~ In c [46; 58; 59]%N.
(** characters of parameter names: printable ASCII except : ; = and capitals *)
Definition key_char (c : N) : Prop := printable c /\ ~ In c [58; 59; 61]%N /\ ~ (65 <= c <= 90)%N.
(** characters of parameter values: Latin-1 without control characters, double quote, and , : ; *)
Definition pvalue_char (c : N) : Prop := (32 <= c < 256)%N /\ ~ In c [34; 44; 58; 59]%N.

Definition wf_name (s : ustring) : Prop := s <> [] /\ Forall name_char s.
Definition wf_params (m : pmap) : Prop :=
  increasing (map fst m) /\
  Forall (fun pv => Forall key_char (fst pv) /\ snd pv <> [] /\ NoDup (snd pv) /\
                    Forall (fun v => v <> [] /\ Forall pvalue_char v) (snd pv)) m.

(** The forms of values that can be written and read:
    plain text, text in a character set, binary data, quoted-printable text. *)
Inductive wf_value (E : Ext) (l : vline) : Prop :=
| wf_text u :
    vl_value l = QStr u -> vl_parameters (B "charset") l = [] -> vl_parameters (B "encoding") l = [] ->
    u <> [] -> text_ok u = true -> ~ ambiguous u -> wf_value E l
| wf_binary b e :
    vl_value l = QBytes b -> vl_parameters (B "charset") l = [] -> vl_parameters (B "encoding") l = [e] ->
    to_lower e = B "b" -> b <> [] -> is_bytes b = true -> wf_value E l
| wf_quoted u e :
    vl_value l = QStr u -> vl_parameters (B "charset") l = [] -> vl_parameters (B "encoding") l = [e] ->
    to_lower e = B "quoted-printable" -> text_ok u = true ->
    qp_decode E (qp_encode E (to_utf8 u)) = to_utf8 u ->
    qp_encode E (to_utf8 u) <> [] -> ~ ambiguous (qp_encode E (to_utf8 u)) ->
    (forall a, qp_encode E (to_utf8 u) <> a ++ [61%N]) -> wf_value E l
| wf_charset u cs enc dec :
    vl_value l = QStr u -> vl_parameters (B "charset") l = [cs] -> vl_parameters (B "encoding") l = [] ->
    charset_encode E cs = Some enc -> charset_decode E (to_lower cs) = Some dec ->
    dec (enc u) = u -> enc u <> [] -> ~ ambiguous (enc u) -> wf_value E l.

Definition wf_line (E : Ext) (l : vline) : Prop :=
  wf_name (vl_id l) /\ to_lower (vl_id l) <> B "begin" /\ to_lower (vl_id l) <> B "end" /\
  Forall name_char (vl_group l) /\ wf_params (vl_params l) /\ vl_b64 l = [] /\ wf_value E l.

(** A card as [VCard::addLine] builds it, made of well-formed lines. *)
Definition wf_card (E : Ext) (c : vcard) : Prop :=
  increasing (identifiers c) /\
  Forall (fun e => snd e <> [] /\ Forall (fun l => vl_id l = fst e /\ wf_line E l) (snd e)) c.
