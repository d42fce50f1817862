(** Specification vocabulary for the parameters of the entries of a contact (C78). *)
From Verif Require Import Base QtText M_ParamMap M_VCardText M_Values M_Addressee M_VCardTool S_Parse S_Coding S_Meaning.

(** The values of a parameter in a map. *)
Definition held (k : bytes) (m : pmap) : list ustring := match find_param k m with Some vs => vs | None => [] end.
(** The map has the parameters of the property, and no others. *)
Definition carries (p : said) (m : pmap) : Prop := forall k vs, kept_key k -> parameter p k vs -> held k m = vs.

(** [PREF=1], or [TYPE=pref] without a PREF parameter. *)
Definition marked_preferred (p : said) : Prop :=
  (exists vs, parameter p (B "pref") (B "1" :: vs)) \/
  (parameter p (B "pref") [] /\ exists v, type_value v p /\ to_lower v = B "pref").
(** The positions of the flags in [Email::TypeFlag] and [ResourceLocatorUrl::TypeFlag]. *)
Definition email_flags : list (string * N) := [("home", 0); ("work", 1); ("other", 2)]%string%N.
Definition url_flags : list (string * N) :=
  [("HOME", 0); ("WORK", 1); ("PROFILE", 2); ("FTP", 3); ("RESERVATION", 4); ("APPINSTALLPAGE", 5); ("OTHER", 6)]%string%N.
(** The flags of the words, in the case of the table. *)
Definition exact_flags (table : list (string * N)) (p : said) (t : N) : Prop :=
  forall i, N.testbit t i = true <-> exists w, In (w, i) table /\ type_value (B w) p.

(** The property is the last of its name with its text. *)
Definition last_with_text (f : string) (ps : list said) (p : said) : Prop :=
  exists qs rs, of_name f ps = qs ++ p :: rs /\ forall q, In q rs -> sd_text q <> sd_text p.

(** The scheme of a messenger service. *)
Definition service_scheme (s : bytes) : bytes :=
  if leqb s (B "jabber") then B "xmpp" else if leqb s (B "yahoo") then B "ymsgr" else if leqb s (B "gadugadu") then B "gg" else s.

(** The kind of a key: the first TYPE, or else the MEDIATYPE; PGP without either. *)
Definition key_kind (p : said) (k : key) : Prop :=
  (forall v vs, parameter p (B "type") (v :: vs) ->
     (to_lower v = B "x509" -> ke_type k = KX509) /\ (to_lower v = B "pgp" -> ke_type k = KPGP) /\
     (to_lower v <> B "x509" -> to_lower v <> B "pgp" -> ke_type k = KCustom /\ ke_custom k = v)) /\
  (parameter p (B "type") [] ->
     (forall v vs, parameter p (B "mediatype") (v :: vs) ->
        (to_lower v = B "application/x-x509-ca-cert" -> ke_type k = KX509) /\ (to_lower v = B "application/pgp-keys" -> ke_type k = KPGP)) /\
     (parameter p (B "mediatype") [] -> ke_type k = KPGP)).

Definition between (lo : Z) (x : flt) (hi : Z) : Prop := f_le (f_of_Z lo) x = true /\ f_le x (f_of_Z hi) = true.
