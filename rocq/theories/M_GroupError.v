(** Model of the error messages of [ContactGroupTool] (contactgrouptool.cpp). *)
From Verif Require Import Base M_ContactGroup.

(** [QXmlStreamReader::errorString()]: empty without an error; the text given to
    [raiseError], after which [atEnd()] holds; the message of the XML library, [lib], at
    an invalid token.  The functions give the error text when the reading function of the
    same shape in M_ContactGroup.v returns. *)

(** the loop of [readGroup], contactgrouptool.cpp:218-252, with [readData], :255-270,
    [readContactReference], :272-288, [readContactGroupReference], :290-302 *)
Fixpoint members_error (lib : ustring) (ts : list xtok) : ustring :=
  match ts with
  | [] => []
  | XStart n at_ :: r =>
      if leqb n eData then
        match read_data at_ with None => B "ContactData is missing an email address" | Some _ => members_error lib r end
      else if leqb n eRef then
        match read_ref at_ with None => B "ContactReference is missing both uid and gid" | Some _ => members_error lib r end
      else if leqb n eGref then
        match read_gref at_ with None => B "ContactGroupReference is missing a uid" | Some _ => members_error lib r end
      else B "The document does not describe a ContactGroup"
  | XEnd n :: r => if leqb n eGroup then [] else members_error lib r
  | XOther :: r => members_error lib r
  | XInvalid :: _ => lib
  end.
(** [readGroup], contactgrouptool.cpp:201-253 *)
Definition group_error (lib : ustring) (at_ : xattrs) (ts : list xtok) : ustring :=
  if isnil (attr kUid at_) then B "ContactGroup is missing a uid"
  else if isnil (attr kName at_) then B "ContactGroup is missing a name"
  else members_error lib ts.
(** [read(device, group)], contactgrouptool.cpp:145-161 *)
Fixpoint single_error (lib : ustring) (ts : list xtok) : ustring :=
  match ts with
  | [] => []
  | XStart n at_ :: r => if leqb n eGroup then group_error lib at_ r else B "The document does not describe a ContactGroup"
  | XInvalid :: _ => lib
  | _ :: r => single_error lib r
  end.
(** [read(device, groupList)], contactgrouptool.cpp:163-199; [None]: fuel exceeded, as
    for [read_list] *)
Fixpoint list_error (lib : ustring) (fuel : nat) (newid : ustring) (depth : Z) (ts : list xtok) : option ustring :=
  match fuel with
  | O => None
  | S f =>
      match ts with
      | [] => Some []
      | XStart n at_ :: r =>
          let depth := (depth + 1)%Z in
          if (depth =? 1)%Z then
            if leqb n eList then list_error lib f newid depth r
            else Some (B "The document does not describe a list of ContactGroup")
          else if (depth =? 2)%Z then
            if leqb n eGroup then
              match read_group at_ r (cgroup_new newid) with
              | (_, false, _) => Some (group_error lib at_ r)
              | (_, true, r') => list_error lib f newid (depth - 1)%Z r'
              end
            else Some (B "The document does not describe a list of ContactGroup")
          else list_error lib f newid depth r
      | XEnd _ :: r => list_error lib f newid (depth - 1)%Z r
      | XOther :: r => list_error lib f newid depth r
      | XInvalid :: _ => Some lib
      end
  end.

(** [ContactGroupTool::convertFromXml] for a group, contactgrouptool.cpp:304-317.
    [message] is the argument [errorMessage]: [None] for a null pointer, else the text
    there; the result is the caller's group, the result and the text afterwards. *)
Definition convert_group (lib : ustring) (ts : list xtok) (g : cgroup) (message : option ustring)
  : cgroup * bool * option ustring :=
  let '(g', ok) := read_single ts g in
  (g', ok, if ok then message else option_map (fun _ => single_error lib ts) message).
(** [ContactGroupTool::convertFromXml] for a list, contactgrouptool.cpp:329-342 *)
Definition convert_groups (lib newid : ustring) (ts : list xtok) (l : list cgroup) (message : option ustring)
  : option (list cgroup * bool * option ustring) :=
  match read_group_list newid ts l, list_error lib (S (length ts)) newid 0 ts with
  | Some (l', ok), Some e => Some (l', ok, if ok then message else option_map (fun _ => e) message)
  | _, _ => None
  end.
(** [ContactGroupTool::convertToXml], contactgrouptool.cpp:319-327 and 344-352: the
    tokens, the result, the message *)
Definition convert_to (g : cgroup) (message : option ustring) : list xtok * bool * option ustring := (write_single g, true, message).
Definition convert_list_to (l : list cgroup) (message : option ustring) : list xtok * bool * option ustring := (write_list l, true, message).
