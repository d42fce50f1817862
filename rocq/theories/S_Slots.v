(** Value classes as records of variables (C62). *)
From Verif Require Import Base QtText M_ParamMap M_Values M_Addressee M_ContactGroup M_Access.

Section Slots.
  Variables (X F : Type) (V : F -> Type) (read : forall f, X -> V f) (write : forall f, V f -> X -> X).
  (** calls of setters, one after the other *)
  Definition setters (cs : list { f : F & V f }) (x : X) : X := fold_left (fun x c => write (projT1 c) (projT2 c) x) cs x.
  (** every getter returns what the last call of its setter was given ([kept] of it), and
      what it returned before if there was none *)
  Definition are_variables (kept : forall f, V f -> V f) : Prop :=
    (forall x before f v after, Forall (fun c => projT1 c <> f) after ->
       read f (setters (before ++ existT V f v :: after) x) = kept f v) /\
    (forall x cs f, Forall (fun c => projT1 c <> f) cs -> read f (setters cs x) = read f x).
End Slots.
Arguments setters {X F V}. Arguments are_variables {X F V}.
Definition as_given (F : Type) (V : F -> Type) (f : F) (v : V f) : V f := v.

(** references to contacts, references to groups, data members, groups *)
Inductive rfield := RUid | RGid | REmail.
Definition rread (f : rfield) (r : cref) : ustring := match f with RUid => cr_uid r | RGid => cr_gid r | REmail => cr_email r end.
Definition rwrite (f : rfield) : ustring -> cref -> cref := match f with RUid => cr_set_uid | RGid => cr_set_gid | REmail => cr_set_email end.
Inductive dfield := DName | DEmail.
Definition dread (f : dfield) (d : cdata) : ustring := match f with DName => cd_name d | DEmail => cd_email d end.
Definition dwrite (f : dfield) : ustring -> cdata -> cdata := match f with DName => cd_set_name | DEmail => cd_set_email end.
Inductive gfield := GId | GName.
Definition gread (f : gfield) (g : cgroup) : ustring := match f with GId => cg_id g | GName => cg_name g end.
Definition gwrite (f : gfield) : ustring -> cgroup -> cgroup := match f with GId => cg_set_id | GName => cg_set_name end.
(** keys *)
Inductive kfield := KId | KBin | KText | KKind | KKindText.
Definition kvalue (f : kfield) : Type := match f with KBin => bytes | KKind => keytype | _ => ustring end.
Definition kread (f : kfield) : key -> kvalue f := match f with KId => ke_id | KBin => ke_bin | KText => ke_text | KKind => ke_type | KKindText => ke_custom end.
Definition kwrite (f : kfield) : kvalue f -> key -> key :=
  match f with KId => ke_set_id | KBin => ke_set_bin | KText => ke_set_text | KKind => ke_set_type | KKindText => ke_set_custom end.
(** sounds *)
Inductive sfield := SUrl | SData.
Definition sread (f : sfield) (s : sound) : list N := match f with SUrl => so_url s | SData => so_data s end.
Definition swrite (f : sfield) : list N -> sound -> sound := match f with SUrl => so_set_url | SData => so_set_data end.
(** telephone numbers *)
Inductive pfield := PId | PNumber | PType.
Definition pvalue (f : pfield) : Type := match f with PType => N | _ => ustring end.
Definition pread (f : pfield) : phone -> pvalue f := match f with PId => ph_id | PNumber => ph_number | PType => ph_type end.
Definition pwrite (f : pfield) : pvalue f -> phone -> phone := match f with PId => ph_set_id | PNumber => ph_set_number | PType => ph_set_type end.
(** the spaces of a number are simplified *)
Definition tidy (f : pfield) : pvalue f -> pvalue f := match f with PNumber => simplified | _ => fun v => v end.
