(** Specification vocabulary for C62, C63. *)
From Verif Require Import Base QtText M_ParamMap M_Values M_Addressee M_ContactGroup M_Access.

(** ** the properties of an address *)
Inductive afield := AId | AType | AGeo | APobox | AExtended | AStreet | ALocality | ARegion | APostal | ACountry | ALabel.
Definition avalue (f : afield) : Type := match f with AType => N | AGeo => geo | _ => ustring end.
Definition aread (f : afield) : address -> avalue f :=
  match f with
  | AId => ad_id | AType => ad_type | AGeo => ad_geo | APobox => ad_pobox | AExtended => ad_extended | AStreet => ad_street
  | ALocality => ad_locality | ARegion => ad_region | APostal => ad_postal | ACountry => ad_country | ALabel => ad_label
  end.
Definition awrite (f : afield) : avalue f -> address -> address :=
  match f with
  | AId => ad_set_id | AType => ad_set_type | AGeo => ad_set_geo | APobox => ad_set_pobox | AExtended => ad_set_extended | AStreet => ad_set_street
  | ALocality => ad_set_locality | ARegion => ad_set_region | APostal => ad_set_postal | ACountry => ad_set_country | ALabel => ad_set_label
  end.
Definition acall : Type := { f : afield & avalue f }.
Definition aset (f : afield) (v : avalue f) : acall := existT avalue f v.
Definition acalls (cs : list acall) (a : address) : address := fold_left (fun a c => awrite (projT1 c) (projT2 c) a) cs a.

(** ** pictures: calls that set, calls that read *)
Inductive picture_call :=
| PUrl (u : ustring) | PUrlType (u t : ustring) | PRaw (d : bytes) (t : ustring) | PData (im : image) (alpha : bool).
Definition picture_set (c : picture_call) (p : picture) : picture :=
  match c with PUrl u => pi_set_url u p | PUrlType u t => pi_set_url_type u t p | PRaw d t => pi_set_raw d t p | PData im al => pi_set_data im al p end.
Inductive picture_read := ReadData | ReadRaw.
Definition picture_after (I : ImgExt) (r : picture_read) (p : picture) : picture :=
  match r with ReadData => pi_after_data I p | ReadRaw => pi_after_raw I p end.
(** what the getters return after [c] *)
Definition picture_shows (I : ImgExt) (c : picture_call) (p : picture) : Prop :=
  match c with
  | PUrl u => pi_intern p = false /\ pi_url p = u /\ pi_type p = []
  | PUrlType u t => pi_intern p = false /\ pi_url p = u /\ pi_type p = t
  | PRaw d t => pi_intern p = true /\ pi_raw_of I p = d /\ pi_type p = t /\ pi_data_of I p = (if isnil d then None else img_load I d)
  | PData im al => pi_intern p = true /\ pi_data_of I p = im /\ pi_type p = (if al then B "png" else B "jpeg") /\
                   pi_raw_of I p = (match im with Some i => img_save I i (to_upper (pi_type p)) | None => [] end)
  end.

(** ** custom entries of the members of a group: [(k, Some v)] inserts, [(k, None)] removes *)
Definition custom_calls {A} (insert : ustring -> ustring -> A -> A) (remove : ustring -> A -> A) (cs : list (ustring * option ustring)) (x : A) : A :=
  fold_left (fun x c => match snd c with Some v => insert (fst c) v x | None => remove (fst c) x end) cs x.
Definition last_call (k : ustring) (cs : list (ustring * option ustring)) : ustring :=
  fold_left (fun cur c => if leqb (fst c) k then match snd c with Some v => v | None => [] end else cur) cs [].

(** ** labels *)
(** the literals of the labels of telephone types *)
Definition phone_words : list ustring :=
  map B ["Preferred Number"; "Home Fax"; "Work Fax"; "Home"; "Work"; "Messenger"; "Preferred"; "Voice"; "Fax"; "Mobile"; "Video"; "Mailbox"; "Modem"; "Car"; "ISDN"; "PCS"; "Pager"; "Telephone number"]%string.
Definition address_words : list ustring :=
  map B ["Domestic"; "International"; "Postal"; "Parcel"; "Home"; "Work"; "Preferred Address"]%string.
(** a translation that tells the literals apart and uses no slash *)
Definition clear_words (tr : ustring -> ustring) (ws : list ustring) : Prop :=
  (forall x y, In x ws -> In y ws -> tr x = tr y -> x = y) /\ Forall (fun w => tr w <> [] /\ ~ In 47%N (tr w)) ws.
