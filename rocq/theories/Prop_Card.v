(** C08, C09: parameter maps and cards. *)
From Verif Require Import Base M_ParamMap M_VCard S_Card P_Card.

(** C08.  After any sequence of [addParameter] calls on a line without
    parameters: names strictly increase; exactly the used names occur; looking
    up a name gives the distinct values added under it, in order of first
    addition. *)
Theorem C08_parameters_sorted :
  forall (ops : list (ustring * ustring)) (l : vline),
    vl_params l = [] -> increasing (vl_param_list (add_all ops l)).
Proof. intros ops l H. exact (proj1 (add_params_spec ops l H)). Qed.
Print Assumptions C08_parameters_sorted.

Theorem C08_parameter_names :
  forall (ops : list (ustring * ustring)) (l : vline) (p : ustring),
    vl_params l = [] ->
    (In p (vl_param_list (add_all ops l)) <-> exists v, In (p, v) ops).
Proof. exact add_params_names. Qed.
Print Assumptions C08_parameter_names.

Theorem C08_parameter_values :
  forall (ops : list (ustring * ustring)) (l : vline) (p : ustring),
    vl_params l = [] ->
    vl_parameters p (add_all ops l) = firsts (added p ops) /\
    NoDup (vl_parameters p (add_all ops l)).
Proof. intros ops l p H. destruct (add_params_spec ops l H) as (_ & H1 & H2). auto. Qed.
Print Assumptions C08_parameter_values.

Example C08_case :
  let l := add_all [(B "type", B "home"); (B "label", B "x"); (B "type", B "work"); (B "type", B "home")]
                   (vline_new (B "TEL") (QStr (B "1"))) in
  vl_param_list l = [B "label"; B "type"] /\ vl_parameters (B "type") l = [B "home"; B "work"].
Proof. vm_compute. auto. Qed.

(** C09.  After adding any lines to an empty card. *)
Theorem C09_lines_in_insertion_order :
  forall (lines : list vline) (id : ustring),
    card_lines id (card_of lines) = filter (fun l => leqb (vl_id l) id) lines.
Proof. exact card_lines_spec. Qed.
Print Assumptions C09_lines_in_insertion_order.

Theorem C09_identifiers_sorted_unique :
  forall (lines : list vline),
    increasing (identifiers (card_of lines)) /\ NoDup (identifiers (card_of lines)) /\
    forall id, In id (identifiers (card_of lines)) <-> exists l, In l lines /\ vl_id l = id.
Proof.
  intros lines. destruct (identifiers_spec lines) as [H1 H2].
  exact (conj H1 (conj (increasing_NoDup _ H1) H2)).
Qed.
Print Assumptions C09_identifiers_sorted_unique.

Example C09_case :
  let a := vline_new (B "TEL") (QStr (B "1")) in
  let b := vline_new (B "N") (QStr (B "2")) in
  let c := vline_new (B "TEL") (QStr (B "3")) in
  identifiers (card_of [a; b; c]) = [B "N"; B "TEL"] /\ card_lines (B "TEL") (card_of [a; b; c]) = [a; c].
Proof. vm_compute. auto. Qed.
