(** Model of [AddresseeHelper]: the words known to [Addressee::setNameFromString]. *)
From Verif Require Import Base M_Addressee M_Name.
Open Scope list_scope.

(** What the helper is built from: the translation [i18n] of a text, the entries of the
    group General of kabcrc (an entry that is not there is read as its default: an empty
    list, [None] for the switch), and [QString::toLower].  How KConfig reads its files is
    not modelled. *)
Record NameWorld := {
  nw_tr : ustring -> ustring;
  nw_prefixes : list ustring;
  nw_inclusions : list ustring;
  nw_suffixes : list ustring;
  nw_family : option bool;
  nw_lower : ustring -> ustring
}.

(** [QSet<QString>::insert] and [contains]; a set as the list of its elements *)
Definition set_insert (w : ustring) (s : list ustring) : list ustring :=
  if existsb (leqb w) s then s else s ++ [w].
Definition set_contains (w : ustring) (s : list ustring) : bool := existsb (leqb w) s.

(** [addToSet], addresseehelper.cpp:31-38 *)
Definition add_to_set (l : list ustring) (s : list ustring) : list ustring :=
  fold_left (fun s w => if isnil w then s else set_insert w s) l s.

(** [AddresseeHelper::initSettings], addresseehelper.cpp:40-71: the three sets *)
Definition helper_titles (W : NameWorld) : list ustring :=
  add_to_set (nw_prefixes W)
    (set_insert (nw_tr W (B "Prof.")) (set_insert (nw_tr W (B "Ms.")) (set_insert (nw_tr W (B "Mrs."))
      (set_insert (nw_tr W (B "Mr.")) (set_insert (nw_tr W (B "Miss")) (set_insert (nw_tr W (B "Dr.")) [])))))).
Definition helper_suffixes (W : NameWorld) : list ustring :=
  add_to_set (nw_suffixes W)
    (set_insert (nw_tr W (B "Sr.")) (set_insert (nw_tr W (B "Jr.")) (set_insert (nw_tr W (B "III"))
      (set_insert (nw_tr W (B "II")) (set_insert (nw_tr W (B "I")) []))))).
Definition helper_prefixes (W : NameWorld) : list ustring :=
  add_to_set (nw_inclusions W) (set_insert (B "de") (set_insert (B "von") (set_insert (B "van") []))).

(** [containsTitle], [containsPrefix], [containsSuffix], [treatAsFamilyName],
    addresseehelper.cpp:73-91 *)
Definition helper (W : NameWorld) : NameExt := {|
  nx_title := fun w => set_contains w (helper_titles W);
  nx_prefix := fun w => set_contains w (helper_prefixes W);
  nx_suffix := fun w => set_contains w (helper_suffixes W);
  nx_family := match nw_family W with Some b => b | None => true end;
  nx_lower := nw_lower W
|}.
