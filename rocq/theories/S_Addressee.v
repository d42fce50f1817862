(** Specifications for the list operations of a contact.  Only the member functions
    of [M_Addressee] that a user calls occur here. *)
From Coq Require Import QArith.
From Verif Require Import Base M_Values M_Addressee S_Values.
Local Open Scope nat_scope.

(** ** E-mail addresses: sequences of calls *)
Inductive email_op := OpAdd (e : email) | OpRemove (m : ustring).
Definition do_email (a : addressee) (o : email_op) : addressee :=
  match o with OpAdd e => add_email e a | OpRemove m => remove_email m a end.
Definition run_emails (ops : list email_op) (a : addressee) : addressee := fold_left do_email ops a.
(** entries with another address *)
Definition others (m : ustring) (l : list email) : list email :=
  filter (fun e => negb (leqb (em_mail e) m)) l.
(** [x] occurs twice in a row *)
Definition twice_in_a_row (x : ustring) (l : list ustring) : Prop :=
  exists p t, l = p ++ x :: x :: t.

(** ** Collections keyed by an identifier *)
Inductive coll_op (A : Type) := OpPut (x : A) | OpDel (x : A).
Arguments OpPut {A}. Arguments OpDel {A}.
(** An abstract collection: what is stored under an identifier.  [wanted x] tells
    whether a new entry [x] is accepted; [replaces x] whether an existing one may be
    replaced by it. *)
Definition coll (A : Type) := ustring -> option A.
Definition coll_step {A} (ident : A -> ustring) (wanted replaces : A -> bool) (m : coll A) (o : coll_op A) : coll A :=
  match o with
  | OpPut x => match m (ident x) with
               | Some _ => if replaces x then (fun i => if leqb i (ident x) then Some x else m i) else m
               | None => if wanted x then (fun i => if leqb i (ident x) then Some x else m i) else m
               end
  | OpDel x => fun i => if leqb i (ident x) then None else m i
  end.
Definition coll_run {A} (ident : A -> ustring) (wanted replaces : A -> bool) (ops : list (coll_op A)) : coll A :=
  fold_left (coll_step ident wanted replaces) ops (fun _ => None).

Definition do_phone (a : addressee) (o : coll_op phone) :=
  match o with OpPut x => insert_phone x a | OpDel x => remove_phone x a end.
Definition do_address (a : addressee) (o : coll_op address) :=
  match o with OpPut x => insert_address x a | OpDel x => remove_address x a end.
Definition do_key (a : addressee) (o : coll_op key) :=
  match o with OpPut x => insert_key x a | OpDel x => remove_key x a end.

(** ** Selection by type *)
(** all requested type bits are present; a request for no bits asks for no bits *)
Definition has_type (value pattern : N) : Prop :=
  if N.eqb pattern 0 then value = 0%N
  else forall i, N.testbit pattern i = true -> N.testbit value i = true.

(** ** Custom fields *)
Inductive custom_op := OpInsert (app name value : ustring) | OpErase (app name : ustring).
Definition do_custom (a : addressee) (o : custom_op) : addressee :=
  match o with OpInsert p n v => insert_custom p n v a | OpErase p n => remove_custom p n a end.
(** the text stored under the qualified name [q] after a history, most recent
    operation last *)
Definition custom_effect (q : ustring) (cur : ustring) (o : custom_op) : ustring :=
  match o with
  | OpInsert p n v => if leqb (p ++ B "-" ++ n) q && negb (isnil p) && negb (isnil n) && negb (isnil v) then v else cur
  | OpErase p n => if leqb (p ++ B "-" ++ n) q then [] else cur
  end.
Definition last_value (q : ustring) (ops : list custom_op) : ustring := fold_left (custom_effect q) ops [].

(** ** Categories *)
Inductive cat_op := OpCat (c : ustring) | OpUncat (c : ustring).
Definition do_cat (a : addressee) (o : cat_op) : addressee :=
  match o with OpCat c => insert_category c a | OpUncat c => remove_category c a end.
(** is [c] in the set after the history *)
Definition cat_member (c : ustring) (cur : bool) (o : cat_op) : bool :=
  match o with
  | OpCat x => if leqb x c then true else cur
  | OpUncat x => if leqb x c then false else cur
  end.
(** the list of categories, oldest first *)
Definition cat_list (cur : list ustring) (o : cat_op) : list ustring :=
  match o with
  | OpCat x => if existsb (leqb x) cur then cur else cur ++ [x]
  | OpUncat x => filter (fun y => negb (leqb x y)) cur
  end.

(** ** Equality of contacts *)
(** no two elements are equal *)
Fixpoint distinct_by {A} (eqb : A -> A -> bool) (l : list A) : Prop :=
  match l with [] => True | x :: r => (forall y, In y r -> eqb x y = false) /\ distinct_by eqb r end.
(** a picture that is a link, or was given as an image and has not been encoded *)
Definition plain_picture (p : picture) : Prop :=
  pi_raw p = [] /\ (pi_intern p = true -> pi_data p <> None).
(** an embedded picture has data *)
Definition readable (p : picture) : Prop := pi_intern p = true -> pi_data p <> None \/ pi_raw p <> [].
(** a position whose coordinates, if valid, are numbers in range (every position
    produced by the member functions of [Geo]: C43) *)
Definition proper_geo (g : geo) : Prop :=
  (g_vlat g = true -> in_range (g_lat g) (-90) 90) /\ (g_vlon g = true -> in_range (g_lon g) (-180) 180).
Definition well_formed (a : addressee) : Prop :=
  readable (a_logo a) /\ readable (a_photo a) /\ Forall readable (a_xphotos a) /\ Forall readable (a_xlogos a)
  /\ proper_geo (a_geo a) /\ Forall (fun x => proper_geo (ad_geo x)) (a_addresses a).
Definition plain_pictures (a : addressee) : Prop :=
  plain_picture (a_logo a) /\ plain_picture (a_photo a)
  /\ Forall plain_picture (a_xphotos a) /\ Forall plain_picture (a_xlogos a).
(** every list compared without regard to order is free of equal elements *)
Definition no_equal_elements (V : Env) (a : addressee) : Prop :=
  distinct_by phone_eq (a_phones a) /\ distinct_by address_eq (a_addresses a)
  /\ distinct_by key_eq (a_keys a) /\ distinct_by email_eq (a_emails a)
  /\ distinct_by leqb (a_categories a) /\ distinct_by calurl_eq (a_calurls a)
  /\ distinct_by sound_eq (a_xsounds a) /\ distinct_by (picture_eq (env_img V)) (a_xphotos a)
  /\ distinct_by (picture_eq (env_img V)) (a_xlogos a) /\ distinct_by rurl_eq (a_urls a)
  /\ distinct_by leqb (a_members a) /\ distinct_by ptext_eq (a_related a)
  /\ distinct_by leqb (a_sources a) /\ distinct_by fgroup_eq (a_fgroups a)
  /\ distinct_by ptext_eq (a_titles a) /\ distinct_by ptext_eq (a_roles a)
  /\ distinct_by ptext_eq (a_orgs a) /\ distinct_by ptext_eq (a_nicks a)
  /\ distinct_by ptext_eq (a_pidmaps a).

(** the single-valued text fields of a contact *)
Definition texts (a : addressee) : list ustring :=
  [a_uid a; a_name a; a_formatted a; a_family a; a_given a; a_additional a; a_prefix a; a_suffix a;
   a_mailer a; a_department a; a_note a; a_prodid a; a_sortstring a; a_kind a].
(** as many elements, and each has an equal one in the other list *)
Definition matched {A} (eqb : A -> A -> bool) (l m : list A) : Prop :=
  length l = length m /\ forall x, In x l -> exists y, In y m /\ eqb y x = true.
(** equal element by element *)
Definition pairwise {A} (eqb : A -> A -> bool) (l m : list A) : Prop := Forall2 (fun x y => eqb x y = true) l m.
