(** What the address formats that come with the library promise (C86). *)
From Verif Require Import Base Utf8 M_Values M_AddressFormat S_AddressFormat S_FormatText M_Formats.
Open Scope N_scope.

(** The library has its own formats, read by a user of any language. *)
Definition ships (X : FmtExt) : Prop :=
  exists lang, forall c k, k <> B "PostalCodeFormat" -> fx_config X c k = bundled_config lang c k.

(** the countries whose formats name no locality *)
Definition no_locality : list ustring := map B ["AE"; "GI"; "KY"; "MO"; "NR"; "SG"]%string.

(** the fields that a format names, in their order; the sorting code, for which an address
    has nothing, is not counted *)
Definition named_fields (es : list elem) : list N :=
  filter (fun f => negb (f =? 0) && negb (f =? fSorting)) (map e_field es).

(** the entry [v] of the file in the group [c] with the name [k], and that for one language *)
Definition in_file (c : string) (k v : ustring) : Prop := exists g k' v', In (c, g) bundled /\ In (k', v') g /\ B k' = k /\ from_utf8 (B v') = v.
Definition for_language (k lang : ustring) : ustring := k ++ B "[" ++ lang ++ B "]".
