(** Specification vocabulary for documents of contact groups (C79). *)
From Verif Require Import Base M_ContactGroup S_ContactGroup.

(** The value of an attribute; empty without one.  (The attributes of an element are distinct.) *)
Definition gives (at_ : xattrs) (k : string) (v : ustring) : Prop :=
  In (B k, v) at_ \/ (v = [] /\ ~ In (B k) (map fst at_)).

(** An element without content. *)
Definition element : Type := ustring * xattrs.
Definition tokens_of (e : element) : list xtok := [XStart (fst e) (snd e); XEnd (fst e)].
(** A member of a group. *)
Inductive member := ARef (uid gid email : ustring) | AGref (uid : ustring) | AData (name email : ustring).
Definition states (e : element) (m : member) : Prop :=
  match m with
  | ARef uid gid email => fst e = B "contactReference" /\ gives (snd e) "uid" uid /\ gives (snd e) "gid" gid /\ gives (snd e) "preferredEmail" email /\ uid ++ gid <> []
  | AGref uid => fst e = B "contactGroupReference" /\ gives (snd e) "uid" uid /\ uid <> []
  | AData name email => fst e = B "contactData" /\ gives (snd e) "name" name /\ gives (snd e) "email" email /\ email <> []
  end.

(** A group: its attributes and the elements in it. *)
Definition group_text : Type := xattrs * list element.
Definition tokens_of_group (d : group_text) : list xtok :=
  XStart (B "contactGroup") (fst d) :: flat_map tokens_of (snd d) ++ [XEnd (B "contactGroup")].
Definition well_formed (d : group_text) : Prop := NoDup (map fst (fst d)) /\ Forall (fun e => NoDup (map fst (snd e))) (snd d).
Definition has_head (d : group_text) (id name : ustring) : Prop := gives (fst d) "uid" id /\ gives (fst d) "name" name /\ id <> [] /\ name <> [].
(** The group of a text: the members of each kind in their order. *)
Definition group_of (id name : ustring) (ms : list member) : cgroup :=
  mkCgroup id name
    (flat_map (fun m => match m with ARef u g e => [mkCref u g e []] | _ => [] end) ms)
    (flat_map (fun m => match m with AGref u => [mkGref u []] | _ => [] end) ms)
    (flat_map (fun m => match m with AData n e => [mkCdata n e []] | _ => [] end) ms).
Definition tells (d : group_text) (g : cgroup) : Prop :=
  exists id name ms, has_head d id name /\ Forall2 states (snd d) ms /\ g = group_of id name ms.
(** A text that is no group: without identifier or name, or with an element that is no member. *)
Definition faulty (d : group_text) : Prop :=
  (forall id name, ~ has_head d id name) \/ exists e, In e (snd d) /\ forall m, ~ states e m.
(** A document with a list of groups. *)
Definition tokens_of_list (at_ : xattrs) (ds : list group_text) : list xtok :=
  XStart (B "contactGroupList") at_ :: flat_map tokens_of_group ds ++ [XEnd (B "contactGroupList")].
