(** C01: escaping of text values. *)
From Verif Require Import Base Utf8 M_VCardText S_Escape P_Escape.

(** C01.  What is written and read again is the same text, exactly when the text
    contains no backslash followed by 'n', 'N' or 'r'. *)
Theorem C01_escape_roundtrip_iff :
  forall (exclude_comma : bool) (s : bytes),
    remove_escapes (add_escapes exclude_comma s) = s <-> ~ ambiguous s.
Proof. exact escape_iff. Qed.
Print Assumptions C01_escape_roundtrip_iff.

(** The excluded texts exist: the path "C:\new". *)
Theorem C01_escape_roundtrip_refuted :
  exists s, remove_escapes (add_escapes false s) <> s.
Proof. exists (B "C:\new"). vm_compute. discriminate. Qed.
Print Assumptions C01_escape_roundtrip_refuted.

(** A non-trivial text in the good class: backslashes before other letters,
    doubled backslashes, commas, line breaks. *)
Example C01_good : ~ ambiguous (B "a,b\\c\,\x" ++ [13; 10; 92]%N).
Proof. apply (escape_iff false). vm_compute. reflexivity. Qed.
Example C01_bad : ambiguous (B "C:\new").
Proof. exists (B "C:"), (B "ew"), 110%N. auto. Qed.
