(** Specification of contact groups (C29, C30). *)
From Verif Require Import Base M_ContactGroup.

(** ** C29 *)

(** [l'] is [l] without its first element equal to [x] *)
Definition without_first {A} (eqb : A -> A -> bool) (x : A) (l l' : list A) : Prop :=
  (Forall (fun y => eqb y x = false) l /\ l' = l)
  \/ (exists b y t, l = b ++ y :: t /\ eqb y x = true /\ Forall (fun z => eqb z x = false) b /\ l' = b ++ t).

Inductive cg_op :=
| CName (s : ustring) | CId (s : ustring)
| CAddRef (r : cref) | CAddGref (r : gref) | CAddData (d : cdata)
| CDelRef (r : cref) | CDelGref (r : gref) | CDelData (d : cdata)
| CNoRefs | CNoGrefs | CNoData.
Definition do_cg (o : cg_op) (g : cgroup) : cgroup :=
  match o with
  | CName s => cg_set_name s g | CId s => cg_set_id s g
  | CAddRef r => cg_append_ref r g | CAddGref r => cg_append_gref r g | CAddData d => cg_append_data d g
  | CDelRef r => cg_remove_ref r g | CDelGref r => cg_remove_gref r g | CDelData d => cg_remove_data d g
  | CNoRefs => cg_clear_refs g | CNoGrefs => cg_clear_grefs g | CNoData => cg_clear_data g
  end.
Definition run_cg (ops : list cg_op) (g : cgroup) : cgroup := fold_left (fun g o => do_cg o g) ops g.

(** what one operation does to one kind of member: append, delete, clear, or nothing *)
Inductive on_list (A : Type) := Add (x : A) | Del (x : A) | Clear | Keep.
Arguments Add {A}. Arguments Del {A}. Arguments Clear {A}. Arguments Keep {A}.
Definition ref_effect (o : cg_op) : on_list cref :=
  match o with CAddRef r => Add r | CDelRef r => Del r | CNoRefs => Clear | _ => Keep end.
Definition gref_effect (o : cg_op) : on_list gref :=
  match o with CAddGref r => Add r | CDelGref r => Del r | CNoGrefs => Clear | _ => Keep end.
Definition data_effect (o : cg_op) : on_list cdata :=
  match o with CAddData d => Add d | CDelData d => Del d | CNoData => Clear | _ => Keep end.
(** the list of members a user expects after a sequence of such effects *)
Inductive expected {A} (eqb : A -> A -> bool) : list A -> list (on_list A) -> list A -> Prop :=
| exp_nil l : expected eqb l [] l
| exp_add l x es l' : expected eqb (l ++ [x]) es l' -> expected eqb l (Add x :: es) l'
| exp_del l x es m l' : without_first eqb x l m -> expected eqb m es l' -> expected eqb l (Del x :: es) l'
| exp_clear l es l' : expected eqb [] es l' -> expected eqb l (Clear :: es) l'
| exp_keep l es l' : expected eqb l es l' -> expected eqb l (Keep :: es) l'.

(** ** C30 *)

Definition nonempty (s : ustring) : bool := negb (isnil s).
(** what the reader asks of a group *)
Definition acceptable (g : cgroup) : bool :=
  nonempty (cg_id g) && nonempty (cg_name g)
  && forallb (fun r => nonempty (cr_uid r) || nonempty (cr_gid r)) (cg_refs g)
  && forallb (fun r => nonempty (gr_uid r)) (cg_grefs g)
  && forallb (fun d => nonempty (cd_email d)) (cg_data g).
(** the part of a group that the XML form has room for *)
Definition without_customs (g : cgroup) : cgroup :=
  mkCgroup (cg_id g) (cg_name g)
    (map (fun r => mkCref (cr_uid r) (cr_gid r) (cr_email r) []) (cg_refs g))
    (map (fun r => mkGref (gr_uid r) []) (cg_grefs g))
    (map (fun d => mkCdata (cd_name d) (cd_email d) []) (cg_data g)).
(** elements without white space, comments, document start and end *)
Definition elements (ts : list xtok) : list xtok :=
  filter (fun t => match t with XOther => false | _ => true end) ts.
(** the groups before the first one that is not acceptable *)
Fixpoint accepted_prefix (l : list cgroup) : list cgroup :=
  match l with [] => [] | g :: r => if acceptable g then g :: accepted_prefix r else [] end.
(** a group extended by the members of another one, with its id and name *)
Definition merged (g0 g : cgroup) : cgroup :=
  mkCgroup (cg_id g) (cg_name g) (cg_refs g0 ++ cg_refs g) (cg_grefs g0 ++ cg_grefs g) (cg_data g0 ++ cg_data g).
