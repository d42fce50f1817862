(** Specifications for the value classes. *)
From Coq Require Import QArith.
From Verif Require Import Base QtText M_ParamMap M_Values.
Local Open Scope list_scope.

(** ** Parameters *)
(** no parameter name occurs twice *)
Definition names_distinct (m : pmap) : Prop := NoDup (map fst m).
Definition values_of (p : ustring) (m : pmap) : list ustring :=
  match find_param p m with Some vs => vs | None => [] end.
(** every value of the type parameter naming a standard type that is not in [t] is
    written in capitals *)
Definition removable_types (t : N) (m : pmap) : Prop :=
  forall s, In s (values_of (B "type") m) ->
    (forall name flag, In (name, flag) email_type_names -> to_upper s = name ->
       N.land t flag = 0%N -> s = name).
(** every spelling of PREF among the values is the capital one *)
Definition pref_in_capitals (m : pmap) : Prop :=
  forall s, In s (values_of (B "type") m) -> to_lower s = B "pref" -> s = B "PREF".

(** calls of [setType] and [setPreferred] on one object *)
Inductive pm_op := PType (t : N) | PPref (p : bool).
Definition do_pm (m : pmap) (o : pm_op) : pmap :=
  match o with PType t => pm_set_type to_upper email_type_names t m | PPref p => pm_set_preferred p m end.
(** the last type (preference) set, or the one before the calls *)
Fixpoint last_type (ops : list pm_op) (t : N) : N :=
  match ops with [] => t | PType t' :: r => last_type r t' | _ :: r => last_type r t end.
Fixpoint last_pref (ops : list pm_op) (p : bool) : bool :=
  match ops with [] => p | PPref p' :: r => last_pref r p' | _ :: r => last_pref r p end.

(** ** Equivalence relations *)
Definition equivalence {A} (eqb : A -> A -> bool) : Prop :=
  (forall x, eqb x x = true) /\ (forall x y, eqb x y = eqb y x)
  /\ (forall x y z, eqb x y = true -> eqb y z = true -> eqb x z = true).
(** the same on the values satisfying [P] *)
Definition equivalence_on {A} (P : A -> Prop) (eqb : A -> A -> bool) : Prop :=
  (forall x, P x -> eqb x x = true) /\ (forall x y, eqb x y = eqb y x)
  /\ (forall x y z, P y -> eqb x y = true -> eqb y z = true -> eqb x z = true).

(** ** Geo *)
Inductive geo_op := GLat (v : flt) | GLon (v : flt) | GClear.
Definition do_geo (g : geo) (o : geo_op) : geo :=
  match o with GLat v => geo_set_lat v g | GLon v => geo_set_lon v g | GClear => geo_clear g end.
Definition in_range (v : flt) (lo hi : Z) : Prop :=
  exists q, v = Fin q /\ (inject_Z lo <= q)%Q /\ (q <= inject_Z hi)%Q.

(** ** Phone numbers *)
(** only digits, except that the first character may be a plus sign *)
Definition dialable (isDigit : N -> bool) (s : ustring) : Prop :=
  match s with
  | [] => True
  | c :: r => (isDigit c = true \/ c = 43%N) /\ Forall (fun x => isDigit x = true) r
  end.
