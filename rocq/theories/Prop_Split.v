(** C10: structured values. *)
From Verif Require Import Base M_Split S_Split P_Split.

(** C10.  Escaping each component, joining with the separator and splitting again
    gives the same components exactly when no component but the last ends in a
    backslash. *)
Theorem C10_split_join_iff :
  forall (sep : N) (components : list ustring),
    sep <> cBS -> components <> [] ->
    (split_string sep (join_components sep components) = Some components
     <-> separable components).
Proof. exact split_join_iff. Qed.
Print Assumptions C10_split_join_iff.

(** Splitting always terminates with a list (the loop bound is never reached). *)
Theorem C10_split_total :
  forall sep s, sep <> cBS -> exists l, split_string sep s = Some l /\ l <> [].
Proof.
  intros sep s H. exists (sp sep [] s). split; [apply split_string_sp; exact H|].
  generalize (@nil N). induction s as [|c s IH]; cbn; intros cur; [discriminate|].
  destruct (N.eqb c sep); [destruct (ends_bs cur)|]; try apply IH. discriminate.
Qed.
Print Assumptions C10_split_total.

(** The defect class is inhabited: the family name "x\" swallows the given name. *)
Theorem C10_split_join_refuted :
  exists l, l <> [] /\ split_string cSEMI (join_components cSEMI l) <> Some l.
Proof. exists [B "x\"; B "y"]. split; [discriminate|]. vm_compute. discriminate. Qed.
Print Assumptions C10_split_join_refuted.

Example C10_good : separable [B "Smith; John"; B ""; B "a\;b"; B "\x"; B "end\"].
Proof. apply (split_join_iff cSEMI); [discriminate|discriminate|]. vm_compute. reflexivity. Qed.
Example C10_swallowed :
  split_string cSEMI (join_components cSEMI [B "x\"; B "y"; B "z"]) = Some [B "x;y"; B "z"].
Proof. vm_compute. reflexivity. Qed.
