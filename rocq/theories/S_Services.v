(** Specification vocabulary for the messaging services that the library ships (C89). *)
From Verif Require Import Base M_Values M_Convert M_Services.
From Coq Require Import String.
Open Scope list_scope.

(** The service [t] comes with the library, is called [n] and has the icon [i] (maybe none). *)
Definition ships_service (t n i : string) : Prop := In (t, (n, i)) bundled_services.

(** A world with the resources of the library, in a language without translation: the files are among those found, and
    their entries are read.  There can be any number of files of the user and of the system. *)
Record services_installed (X : ImExt) (icon : ustring -> ustring) : Prop := {
  si_files : exists files, In files (ix_dirs X) /\ forall t n i, ships_service t n i -> In (B t ++ B ".desktop") files;
  si_name : forall t n i, ships_service t n i -> ix_name X (service_resource t) = B n;
  si_icon : forall t n i, ships_service t n i -> icon (service_resource t) = B i }.

(** There is no file of the user or the system for the service. *)
Definition not_overridden (X : ImExt) (t : string) : Prop := ix_located X (B t) = None.

(** The scheme of a URI in the normal form (RFC 3986, 3.1): a small letter, then small letters and digits. *)
Definition small_letter (c : N) : Prop := (97 <= c <= 122)%N.
Definition scheme_form (s : ustring) : Prop :=
  exists c r, s = c :: r /\ small_letter c /\ Forall (fun d => small_letter d \/ (48 <= d <= 57)%N) r.

(** What is asked of QUrl: [setScheme] of a scheme and [setPath] give an address with that scheme. *)
Definition scheme_kept (U : UrlExt) (set_scheme set_path : ustring -> qurl -> qurl) : Prop :=
  forall s v, scheme_form s -> url_scheme U (set_path v (set_scheme s [])) = s /\ set_path v (set_scheme s []) <> [].
