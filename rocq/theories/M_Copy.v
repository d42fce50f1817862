(** Implicit sharing.  Objects of the library hold a [QSharedDataPointer] to their
    private data: copying an object copies the pointer; a non-const access to
    private data that is shared first replaces it by a copy made with the copy
    constructor of the private class ([QSharedDataPointer::detach]).  Several of
    these hand-written copy constructors do not copy every member. *)
From Verif Require Import Base M_ParamMap M_Values M_Date M_Addressee M_ContactGroup.
Local Open Scope list_scope.
Local Open Scope nat_scope.

(** ** The machine *)

(** Variables (positions of [handles]) point to private data objects (positions of
    [store]).  The reference count of an object is the number of variables that
    point to it. *)
Record shared (T : Type) := mkShared { handles : list nat; store : list T }.
Arguments mkShared {T}. Arguments handles {T}. Arguments store {T}.

(** a program over objects of one class: construct an object, copy-construct one
    from [x_j], assign ([x_i = x_j]), call a non-const member function *)
Inductive stmt (T : Type) := New (v : T) | Copy (j : nat) | Assign (i j : nat) | Call (i : nat) (f : T -> T).
Arguments New {T}. Arguments Copy {T}. Arguments Assign {T}. Arguments Call {T}.

Fixpoint set_at {A} (i : nat) (x : A) (l : list A) : list A :=
  match l, i with
  | [], _ => []
  | _ :: r, O => x :: r
  | y :: r, S i => y :: set_at i x r
  end.

(** [QSharedDataPointer::detach]: only if the reference count is not 1 *)
Definition is_shared (h : nat) (hs : list nat) : bool := Nat.ltb 1 (count_occ Nat.eq_dec hs h).

Section Machine.
Context {T : Type} (detach : T -> T).
(** Statements that name a variable that does not exist are ignored. *)
Definition exec (s : stmt T) (m : shared T) : shared T :=
  match s with
  | New v => mkShared (handles m ++ [length (store m)]) (store m ++ [v])
  | Copy j =>
      match nth_error (handles m) j with
      | Some h => mkShared (handles m ++ [h]) (store m)
      | None => m
      end
  | Assign i j =>
      match nth_error (handles m) j with
      | Some h => mkShared (set_at i h (handles m)) (store m)
      | None => m
      end
  | Call i f =>
      match nth_error (handles m) i with
      | None => m
      | Some h =>
          match nth_error (store m) h with
          | None => m
          | Some v =>
              if is_shared h (handles m)
              then mkShared (set_at i (length (store m)) (handles m)) (store m ++ [f (detach v)])
              else mkShared (handles m) (set_at h (f v) (store m))
          end
      end
  end.
Definition exec_all (p : list (stmt T)) : shared T := fold_left (fun m s => exec s m) p (mkShared [] []).
(** the private data a variable refers to *)
Definition content (m : shared T) (i : nat) : option T :=
  match nth_error (handles m) i with Some h => nth_error (store m) h | None => None end.
End Machine.

(** ** The copy constructors *)

(** phonenumber.cpp:33-39: [mParamMap] is not copied *)
Definition phone_detach (p : phone) : phone := mkPhone (ph_id p) (ph_number p) (ph_type p) [].
(** address.cpp:35-50: [address_detach] is in [M_Values], as the reader of vCards needs it. *)
(** impp.cpp:26-30: [address] is not copied *)
Definition impp_detach (i : impp) : impp := mkImpp (im_params i) [].
(** picture.cpp:24-31: [mRawData] is not copied *)
Definition picture_detach (p : picture) : picture := mkPicture (pi_url p) (pi_type p) (pi_data p) [] (pi_intern p).
(** contactgroup.cpp:25-31: [mGid] is not copied *)
Definition cref_detach (r : cref) : cref := mkCref (cr_uid r) [] (cr_email r) (cr_customs r).
(** addressee.cpp:62-111: [mKind], [mFieldGroupList], [mNickNameExtraList] and
    [mClientPidMapList] are not copied *)
Definition addressee_detach (a : addressee) : addressee :=
  put_kind [] (put_fgroups [] (put_nicks [] (put_pidmaps [] a))).

(** The copy constructors of the other classes copy every member. *)

(** email.cpp:23-28 *)
Definition email_detach (e : email) : email := mkEmail (em_params e) (em_mail e).
(** title.cpp, role.cpp, org.cpp, nickname.cpp, note.cpp, related.cpp, lang.cpp,
    clientpidmap.cpp, each at 23-28 *)
Definition ptext_detach (p : ptext) : ptext := mkPtext (pt_params p) (pt_text p).
(** fieldgroup.cpp:23-29 *)
Definition fgroup_detach (f : fgroup) : fgroup := mkFgroup (fg_params f) (fg_name f) (fg_value f).
(** calendarurl.cpp:24-30 *)
Definition calurl_detach (c : calurl) : calurl := mkCalurl (cu_params c) (cu_type c) (cu_url c).
(** resourcelocatorurl.cpp:25-30 *)
Definition rurl_detach (r : rurl) : rurl := mkRurl (ru_params r) (ru_url r).
(** key.cpp:25-34 *)
Definition key_detach (k : key) : key := mkKey (ke_id k) (ke_bin k) (ke_text k) (ke_custom k) (ke_type k) (ke_isbin k).
(** sound.cpp:23-30 *)
Definition sound_detach (s : sound) : sound := mkSound (so_url s) (so_type s) (so_data s) (so_intern s).
(** geo.cpp:26-33 *)
Definition geo_detach (g : geo) : geo := mkGeo (g_lat g) (g_lon g) (g_vlat g) (g_vlon g).
(** timezone.cpp:24-29 *)
Definition tz_detach (t : tzone) : tzone := mkTz (tz_offset t) (tz_valid t).
(** gender.cpp:20-25 *)
Definition gender_detach (g : gender) : gender := mkGender (ge_gender g) (ge_comment g).
(** contactgroup.cpp:126-131 *)
Definition gref_detach (r : gref) : gref := mkGref (gr_uid r) (gr_customs r).
(** contactgroup.cpp:204-210 *)
Definition cdata_detach (d : cdata) : cdata := mkCdata (cd_name d) (cd_email d) (cd_customs d).
(** contactgroup.cpp:298-306 *)
Definition cgroup_detach (g : cgroup) : cgroup := mkCgroup (cg_id g) (cg_name g) (cg_refs g) (cg_grefs g) (cg_data g).
(** secrecy.cpp:25-29 *)
Definition secrecy_detach (s : secrecy) : secrecy := s.
