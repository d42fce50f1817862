(** Model of [/repo/src/vcardparser/vcardline.cpp] and
    [/repo/src/vcardparser/vcard.cpp]. *)
From Verif Require Import Base M_ParamMap.

(** [QVariant] as used for property values: invalid, a string, or bytes. *)
Inductive qvariant := QInvalid | QStr (s : ustring) | QBytes (b : bytes).

(** [VCardLine], members at vcardline_p.h (mBase64Value .. mValue). *)
Record vline := mkVline {
  vl_id : ustring;          (* mIdentifier *)
  vl_group : ustring;       (* mGroup *)
  vl_params : pmap;         (* mParamMap *)
  vl_value : qvariant;      (* mValue *)
  vl_b64 : bytes            (* mBase64Value *)
}.

(** [VCardLine::VCardLine()], vcardline.cpp:14-16 *)
Definition vline_empty : vline := mkVline [] [] [] QInvalid [].
(** [VCardLine::VCardLine(identifier, value)], vcardline.cpp:23-27 *)
Definition vline_new (id : ustring) (v : qvariant) : vline := mkVline id [] [] v [].

(** vcardline.cpp:69-97: setters *)
Definition vl_set_id (id : ustring) (l : vline) : vline :=
  mkVline id (vl_group l) (vl_params l) (vl_value l) (vl_b64 l).
Definition vl_set_group (g : ustring) (l : vline) : vline :=
  mkVline (vl_id l) g (vl_params l) (vl_value l) (vl_b64 l).
Definition vl_set_value (v : qvariant) (l : vline) : vline :=
  mkVline (vl_id l) (vl_group l) (vl_params l) v (vl_b64 l).
Definition vl_set_params (m : pmap) (l : vline) : vline :=
  mkVline (vl_id l) (vl_group l) m (vl_value l) (vl_b64 l).
Definition vl_set_b64 (b : bytes) (l : vline) : vline :=
  mkVline (vl_id l) (vl_group l) (vl_params l) (vl_value l) b.

(** [VCardLine::hasGroup], vcardline.cpp:98-101 *)
Definition vl_has_group (l : vline) : bool := negb (isnil (vl_group l)).

(** the map update inside [VCardLine::addParameter], vcardline.cpp:121-131 *)
Definition pm_add (p v : ustring) (m : pmap) : pmap :=
  match find_param p m with
  | Some vs => if contains v vs then m else update_param p (vs ++ [v]) m
  | None => insert_param p [v] m
  end.

(** [VCardLine::addParameter], vcardline.cpp:121-131 *)
Definition vl_add_param (p v : ustring) (l : vline) : vline :=
  vl_set_params (pm_add p v (vl_params l)) l.

(** [VCardLine::addParameters], vcardline.cpp:114-119: the value list of each
    parameter is joined with ','. *)
Definition vl_add_params (m : pmap) (l : vline) : vline :=
  fold_left (fun acc pv => vl_add_param (fst pv) (join [cCOMMA] (snd pv)) acc) m l.

(** [VCardLine::parameters], vcardline.cpp:133-137 *)
Definition vl_parameters (p : ustring) (l : vline) : list ustring :=
  match find_param p (vl_params l) with Some vs => vs | None => [] end.

(** [VCardLine::parameter], vcardline.cpp:139-143: the first value *)
Definition vl_parameter (p : ustring) (l : vline) : ustring :=
  match vl_parameters p l with v :: _ => v | [] => [] end.

(** [VCardLine::parameterList], vcardline.cpp:103-112 *)
Definition vl_param_list (l : vline) : list ustring := map fst (vl_params l).

(** [VCard]: a vector of (identifier, lines), vcard_p.h *)
Definition vcard := list (ustring * list vline).

(** [VCard::findByLineId] + [lines], vcard.cpp:63-67 *)
Fixpoint find_lines (id : ustring) (c : vcard) : option (list vline) :=
  match c with
  | [] => None
  | (i, ls) :: r => if leqb i id then Some ls else find_lines id r
  end.

Fixpoint append_line (id : ustring) (l : vline) (c : vcard) : vcard :=
  match c with
  | [] => []
  | (i, ls) :: r => if leqb i id then (i, ls ++ [l]) :: r else (i, ls) :: append_line id l r
  end.

(** insertion before [std::lower_bound] (vector sorted by identifier) *)
Fixpoint insert_entry (id : ustring) (ls : list vline) (c : vcard) : vcard :=
  match c with
  | [] => [(id, ls)]
  | (i, ks) :: r => if lltb i id then (i, ks) :: insert_entry id ls r else (id, ls) :: c
  end.

(** [VCard::addLine], vcard.cpp:51-61 *)
Definition add_line (l : vline) (c : vcard) : vcard :=
  match find_lines (vl_id l) c with
  | Some _ => append_line (vl_id l) l c
  | None => insert_entry (vl_id l) [l] c
  end.

(** [VCard::lines], vcard.cpp:63-67 *)
Definition card_lines (id : ustring) (c : vcard) : list vline :=
  match find_lines id c with Some ls => ls | None => [] end.

(** [VCard::line], vcard.cpp:69-73: the first line, or an empty one *)
Definition card_line (id : ustring) (c : vcard) : vline :=
  match card_lines id c with l :: _ => l | [] => vline_empty end.

(** [VCard::identifiers], vcard.cpp:41-49 *)
Definition identifiers (c : vcard) : list ustring := map fst c.

(** [VCard::Version] and [VCard::version], vcard.cpp:101-117.  A card whose
    VERSION entry exists always has at least one line (so [list.at(0)] is in
    range); [None] is the out-of-range access. *)
Inductive version := V21 | V30 | V40.
Definition card_version (c : vcard) : option version :=
  match find_lines (B "VERSION") c with
  | None => Some V30
  | Some [] => None
  | Some (l :: _) =>
      match vl_value l with
      | QStr s => if leqb s (B "2.1") then Some V21
                  else if leqb s (B "3.0") then Some V30 else Some V40
      | QBytes s => if leqb s (B "2.1") then Some V21
                  else if leqb s (B "3.0") then Some V30 else Some V40
      | QInvalid => Some V40
      end
  end.

(** [VCard::setVersion], vcard.cpp:77-99: note that the version text is put into
    the identifier of the line, not into its value. *)
Definition card_set_version (v : version) (c : vcard) : vcard :=
  let l := vline_new (match v with V21 => B "2.1" | V30 => B "3.0" | V40 => B "4.0" end) QInvalid in
  match find_lines (B "VERSION") c with
  | Some _ => append_line (B "VERSION") l c
  | None => insert_entry (B "VERSION") [l] c
  end.
