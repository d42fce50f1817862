(** Specification vocabulary for text escaping (property C01). *)
From Verif Require Import Base.

(** A backslash immediately followed by the letter n, N or r. *)
Definition ambiguous (s : bytes) : Prop :=
  exists (before after : bytes) (c : N),
    s = before ++ 92%N :: c :: after /\ (c = 110%N \/ c = 78%N \/ c = 114%N).
