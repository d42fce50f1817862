(** Model of [/repo/src/parametermap_p.h]. *)
From Verif Require Import Base.

(** [ParameterData], parametermap_p.h:22-30; [ParameterMap] is a
    [std::vector<ParameterData>], parametermap_p.h:32. *)
Definition pmap := list (ustring * list ustring).

(** [ParameterMap::findParam], parametermap_p.h:35-47: [std::find_if], first
    entry with the given name.  Returns the values of the entry. *)
Fixpoint find_param (p : ustring) (m : pmap) : option (list ustring) :=
  match m with
  | [] => None
  | (q, vs) :: r => if leqb q p then Some vs else find_param p r
  end.

(** [ParameterMap::insertParam], parametermap_p.h:53-57: insert before
    [std::lower_bound].  [lower_bound] is modelled as "the first entry whose name
    is not smaller", which is what it returns on a vector sorted by name (its
    precondition). *)
Fixpoint insert_param (p : ustring) (vs : list ustring) (m : pmap) : pmap :=
  match m with
  | [] => [(p, vs)]
  | (q, ws) :: r => if lltb q p then (q, ws) :: insert_param p vs r else (p, vs) :: m
  end.

(** Assignment through the iterator returned by [findParam]
    (e.g. vcardline.cpp:125): replaces the values of the first entry named [p]. *)
Fixpoint update_param (p : ustring) (vs : list ustring) (m : pmap) : pmap :=
  match m with
  | [] => []
  | (q, ws) :: r => if leqb q p then (q, vs) :: r else (q, ws) :: update_param p vs r
  end.

(** [erase] of the iterator returned by [findParam] (e.g. email.cpp, impp.cpp:94). *)
Fixpoint erase_param (p : ustring) (m : pmap) : pmap :=
  match m with
  | [] => []
  | (q, ws) :: r => if leqb q p then r else (q, ws) :: erase_param p r
  end.

(** [QStringList::contains] (case sensitive). *)
Fixpoint contains (v : ustring) (l : list ustring) : bool :=
  match l with [] => false | x :: r => leqb x v || contains v r end.

(** [operator==] of two maps (element-wise), parametermap_p.h:98-101. *)
Fixpoint list_leqb (a b : list ustring) : bool :=
  match a, b with
  | [], [] => true
  | x :: a', y :: b' => leqb x y && list_leqb a' b'
  | _, _ => false
  end.
Fixpoint pmap_eqb (a b : pmap) : bool :=
  match a, b with
  | [], [] => true
  | (p, vs) :: a', (q, ws) :: b' => leqb p q && list_leqb vs ws && pmap_eqb a' b'
  | _, _ => false
  end.
