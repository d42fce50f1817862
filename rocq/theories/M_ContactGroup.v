(** Model of [KContacts::ContactGroup] (contactgroup.cpp) and of its XML form
    (contactgrouptool.cpp). *)
From Verif Require Import Base.

(** ** Members *)

(** [QMap<QString, QString>]: pairs in increasing order of the keys. *)
Definition cmap := list (ustring * ustring).
(** [QMap::insert] *)
Fixpoint cm_insert (k v : ustring) (m : cmap) : cmap :=
  match m with
  | [] => [(k, v)]
  | (q, w) :: r => if leqb q k then (k, v) :: r
                   else if lltb q k then (q, w) :: cm_insert k v r else (k, v) :: m
  end.
(** [QMap::remove] *)
Definition cm_remove (k : ustring) (m : cmap) : cmap := filter (fun e => negb (leqb (fst e) k)) m.
(** [QMap::value] (default: null string) *)
Fixpoint cm_value (k : ustring) (m : cmap) : ustring :=
  match m with [] => [] | (q, w) :: r => if leqb q k then w else cm_value k r end.
(** [QMap::operator==] *)
Fixpoint cm_eqb (a b : cmap) : bool :=
  match a, b with
  | [], [] => true
  | (p, v) :: a', (q, w) :: b' => leqb p q && leqb v w && cm_eqb a' b'
  | _, _ => false
  end.

(** [ContactReferencePrivate], contactgroup.cpp:17-37 *)
Record cref := mkCref { cr_uid : ustring; cr_gid : ustring; cr_email : ustring; cr_customs : cmap }.
(** contactgroup.cpp:39-54 *)
Definition cref_new : cref := mkCref [] [] [] [].
Definition cref_of (uid : ustring) : cref := mkCref uid [] [] [].
(** contactgroup.cpp:60-98 *)
Definition cr_set_uid (s : ustring) (r : cref) : cref := mkCref s (cr_gid r) (cr_email r) (cr_customs r).
Definition cr_set_gid (s : ustring) (r : cref) : cref := mkCref (cr_uid r) s (cr_email r) (cr_customs r).
Definition cr_set_email (s : ustring) (r : cref) : cref := mkCref (cr_uid r) (cr_gid r) s (cr_customs r).
Definition cr_insert_custom (k v : ustring) (r : cref) : cref :=
  mkCref (cr_uid r) (cr_gid r) (cr_email r) (cm_insert k v (cr_customs r)).
Definition cr_remove_custom (k : ustring) (r : cref) : cref :=
  mkCref (cr_uid r) (cr_gid r) (cr_email r) (cm_remove k (cr_customs r)).
(** [ContactReference::operator==], contactgroup.cpp:113-116: the GID is not
    compared *)
Definition cref_eq (a b : cref) : bool :=
  leqb (cr_uid a) (cr_uid b) && leqb (cr_email a) (cr_email b) && cm_eqb (cr_customs a) (cr_customs b).

(** [ContactGroupReferencePrivate], contactgroup.cpp:118-135, 191-194 *)
Record gref := mkGref { gr_uid : ustring; gr_customs : cmap }.
Definition gref_new : gref := mkGref [] [].
Definition gr_set_uid (s : ustring) (r : gref) : gref := mkGref s (gr_customs r).
Definition gref_eq (a b : gref) : bool := leqb (gr_uid a) (gr_uid b) && cm_eqb (gr_customs a) (gr_customs b).

(** [ContactGroup::Data], contactgroup.cpp:196-287 *)
Record cdata := mkCdata { cd_name : ustring; cd_email : ustring; cd_customs : cmap }.
Definition cdata_new : cdata := mkCdata [] [] [].
Definition cd_set_name (s : ustring) (d : cdata) : cdata := mkCdata s (cd_email d) (cd_customs d).
Definition cd_set_email (s : ustring) (d : cdata) : cdata := mkCdata (cd_name d) s (cd_customs d).
Definition cdata_eq (a b : cdata) : bool :=
  leqb (cd_name a) (cd_name b) && leqb (cd_email a) (cd_email b) && cm_eqb (cd_customs a) (cd_customs b).

(** ** Groups *)

(** [ContactGroup::Private], contactgroup.cpp:289-313 *)
Record cgroup := mkCgroup {
  cg_id : ustring; cg_name : ustring;
  cg_refs : list cref; cg_grefs : list gref; cg_data : list cdata
}.
(** [ContactGroup::ContactGroup()], contactgroup.cpp:315-318; the random identifier
    is an argument *)
Definition cgroup_new (id : ustring) : cgroup := mkCgroup id [] [] [] [].
(** contactgroup.cpp:335-353 *)
Definition cg_set_name (s : ustring) (g : cgroup) : cgroup :=
  mkCgroup (cg_id g) s (cg_refs g) (cg_grefs g) (cg_data g).
Definition cg_set_id (s : ustring) (g : cgroup) : cgroup :=
  mkCgroup s (cg_name g) (cg_refs g) (cg_grefs g) (cg_data g).
(** [count], contactgroup.cpp:355-358 (group references are not counted) *)
Definition cg_count (g : cgroup) : nat := length (cg_refs g) + length (cg_data g).
(** [append], contactgroup.cpp:417-430 *)
Definition cg_append_ref (r : cref) (g : cgroup) : cgroup :=
  mkCgroup (cg_id g) (cg_name g) (cg_refs g ++ [r]) (cg_grefs g) (cg_data g).
Definition cg_append_gref (r : gref) (g : cgroup) : cgroup :=
  mkCgroup (cg_id g) (cg_name g) (cg_refs g) (cg_grefs g ++ [r]) (cg_data g).
Definition cg_append_data (d : cdata) (g : cgroup) : cgroup :=
  mkCgroup (cg_id g) (cg_name g) (cg_refs g) (cg_grefs g) (cg_data g ++ [d]).
(** [QList::removeOne]: erase at [indexOf], the first element [y] with [y == x] *)
Fixpoint remove_one {A} (eqb : A -> A -> bool) (x : A) (l : list A) : list A :=
  match l with [] => [] | y :: r => if eqb y x then r else y :: remove_one eqb x r end.
(** [remove], contactgroup.cpp:432-445 *)
Definition cg_remove_ref (r : cref) (g : cgroup) : cgroup :=
  mkCgroup (cg_id g) (cg_name g) (remove_one cref_eq r (cg_refs g)) (cg_grefs g) (cg_data g).
Definition cg_remove_gref (r : gref) (g : cgroup) : cgroup :=
  mkCgroup (cg_id g) (cg_name g) (cg_refs g) (remove_one gref_eq r (cg_grefs g)) (cg_data g).
Definition cg_remove_data (d : cdata) (g : cgroup) : cgroup :=
  mkCgroup (cg_id g) (cg_name g) (cg_refs g) (cg_grefs g) (remove_one cdata_eq d (cg_data g)).
(** [removeAll...], contactgroup.cpp:447-460 *)
Definition cg_clear_refs (g : cgroup) : cgroup := mkCgroup (cg_id g) (cg_name g) [] (cg_grefs g) (cg_data g).
Definition cg_clear_grefs (g : cgroup) : cgroup := mkCgroup (cg_id g) (cg_name g) (cg_refs g) [] (cg_data g).
Definition cg_clear_data (g : cgroup) : cgroup := mkCgroup (cg_id g) (cg_name g) (cg_refs g) (cg_grefs g) [].
(** [QList::operator==] *)
Fixpoint all2 {A} (eqb : A -> A -> bool) (a b : list A) : bool :=
  match a, b with
  | [], [] => true
  | x :: a', y :: b' => eqb x y && all2 eqb a' b'
  | _, _ => false
  end.
(** [ContactGroup::operator==], contactgroup.cpp:471-478 *)
Definition cgroup_eq (a b : cgroup) : bool :=
  leqb (cg_id a) (cg_id b) && leqb (cg_name a) (cg_name b) && all2 cref_eq (cg_refs a) (cg_refs b)
  && all2 gref_eq (cg_grefs a) (cg_grefs b) && all2 cdata_eq (cg_data a) (cg_data b).

(** ** XML *)

(** Tokens as delivered by [QXmlStreamReader::readNext] (the lexical layer of XML
    is not modelled): start and end of an element, anything else (document start
    and end, characters, comments), and the invalid token of a malformed document,
    after which [atEnd()] holds. *)
Definition xattrs := list (ustring * ustring).
Inductive xtok := XStart (name : ustring) (attrs : xattrs) | XEnd (name : ustring) | XOther | XInvalid.

Definition eList : ustring := B "contactGroupList".
Definition eGroup : ustring := B "contactGroup".
Definition eRef : ustring := B "contactReference".
Definition eGref : ustring := B "contactGroupReference".
Definition eData : ustring := B "contactData".
Definition kUid : ustring := B "uid".
Definition kGid : ustring := B "gid".
Definition kName : ustring := B "name".
Definition kEmail : ustring := B "email".
Definition kPreferred : ustring := B "preferredEmail".

(** [writeContactReference], contactgrouptool.cpp:91-103 *)
Definition write_ref (r : cref) : list xtok :=
  [XStart eRef ([(kUid, cr_uid r); (kGid, cr_gid r)]
                ++ (if isnil (cr_email r) then [] else [(kPreferred, cr_email r)]));
   XEnd eRef].
(** [writeContactGroupReference], contactgrouptool.cpp:105-113 *)
Definition write_gref (r : gref) : list xtok := [XStart eGref [(kUid, gr_uid r)]; XEnd eGref].
(** [writeData], contactgrouptool.cpp:115-124 *)
Definition write_data (d : cdata) : list xtok :=
  [XStart eData [(kName, cd_name d); (kEmail, cd_email d)]; XEnd eData].
(** [writeGroup], contactgrouptool.cpp:67-89 *)
Definition write_group (g : cgroup) : list xtok :=
  XStart eGroup [(kUid, cg_id g); (kName, cg_name g)]
  :: flat_map write_ref (cg_refs g) ++ flat_map write_gref (cg_grefs g)
  ++ flat_map write_data (cg_data g) ++ [XEnd eGroup].
(** [write(group)], contactgrouptool.cpp:39-48 *)
Definition write_single (g : cgroup) : list xtok := write_group g.
(** [write(groupList)], contactgrouptool.cpp:50-65 *)
Definition write_list (l : list cgroup) : list xtok :=
  XStart eList [] :: flat_map write_group l ++ [XEnd eList].

(** [QXmlStreamAttributes::value]: empty if there is no such attribute *)
Fixpoint attr (k : ustring) (l : xattrs) : ustring :=
  match l with [] => [] | (q, v) :: r => if leqb q k then v else attr k r end.

(** [readData], contactgrouptool.cpp:255-270 *)
Definition read_data (at_ : xattrs) : option cdata :=
  if isnil (attr kEmail at_) then None
  else Some (cd_set_email (attr kEmail at_) (cd_set_name (attr kName at_) cdata_new)).
(** [readContactReference], contactgrouptool.cpp:272-288 *)
Definition read_ref (at_ : xattrs) : option cref :=
  if isnil (attr kUid at_) && isnil (attr kGid at_) then None
  else Some (cr_set_email (attr kPreferred at_) (cr_set_gid (attr kGid at_) (cr_set_uid (attr kUid at_) cref_new))).
(** [readContactGroupReference], contactgrouptool.cpp:290-302 *)
Definition read_gref (at_ : xattrs) : option gref :=
  if isnil (attr kUid at_) then None else Some (gr_set_uid (attr kUid at_) gref_new).

(** The loop of [readGroup], contactgrouptool.cpp:218-252: the group, whether it
    returned [true], and the tokens not yet read ([raiseError] ends the loop). *)
Fixpoint read_members (ts : list xtok) (g : cgroup) : cgroup * bool * list xtok :=
  match ts with
  | [] => (g, false, [])
  | XStart n at_ :: r =>
      if leqb n eData then
        match read_data at_ with None => (g, false, r) | Some d => read_members r (cg_append_data d g) end
      else if leqb n eRef then
        match read_ref at_ with None => (g, false, r) | Some x => read_members r (cg_append_ref x g) end
      else if leqb n eGref then
        match read_gref at_ with None => (g, false, r) | Some x => read_members r (cg_append_gref x g) end
      else (g, false, r)
  | XEnd n :: r => if leqb n eGroup then (g, true, r) else read_members r g
  | XOther :: r => read_members r g
  | XInvalid :: r => (g, false, r)
  end.
(** [readGroup], contactgrouptool.cpp:201-253, at a start element with these
    attributes; the group object is the caller's *)
Definition read_group (at_ : xattrs) (ts : list xtok) (g : cgroup) : cgroup * bool * list xtok :=
  if isnil (attr kUid at_) then (g, false, ts)
  else if isnil (attr kName at_) then (g, false, ts)
  else read_members ts (cg_set_name (attr kName at_) (cg_set_id (attr kUid at_) g)).

(** [read(device, group)], contactgrouptool.cpp:145-161: the caller's group after
    the call and the result *)
Fixpoint read_single (ts : list xtok) (g : cgroup) : cgroup * bool :=
  match ts with
  | [] => (g, true)
  | XStart n at_ :: r => if leqb n eGroup then fst (read_group at_ r g) else (g, false)
  | XInvalid :: _ => (g, false)
  | _ :: r => read_single r g
  end.

(** [read(device, groupList)], contactgrouptool.cpp:163-199.  [depth] is an [int];
    [fuel] bounds the number of rounds ([None]: exceeded).  [newid]: the identifier
    a new [ContactGroup] receives (it is overwritten).  After [readGroup] the
    current token is the end element of the group, which lowers the depth. *)
Fixpoint read_list (fuel : nat) (newid : ustring) (depth : Z) (ts : list xtok) (acc : list cgroup)
  : option (list cgroup * bool) :=
  match fuel with
  | O => None
  | S f =>
      match ts with
      | [] => Some (acc, true)
      | XStart n at_ :: r =>
          let depth := (depth + 1)%Z in
          if (depth =? 1)%Z then
            if leqb n eList then read_list f newid depth r acc else Some (acc, false)
          else if (depth =? 2)%Z then
            if leqb n eGroup then
              match read_group at_ r (cgroup_new newid) with
              | (_, false, _) => Some (acc, false)
              | (g, true, r') => read_list f newid (depth - 1)%Z r' (acc ++ [g])
              end
            else Some (acc, false)
          else read_list f newid depth r acc
      | XEnd _ :: r => read_list f newid (depth - 1)%Z r acc
      | XOther :: r => read_list f newid depth r acc
      | XInvalid :: _ => Some (acc, false)
      end
  end.
(** enough rounds for every input (lemma [read_list_total]) *)
Definition read_group_list (newid : ustring) (ts : list xtok) (acc : list cgroup) : option (list cgroup * bool) :=
  read_list (S (length ts)) newid 0 ts acc.
