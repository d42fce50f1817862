(** Specification of the debug texts (C84). *)
From Verif Require Import Base Utf8 M_ParamMap M_Values M_Date M_Addressee M_Access M_Debug.

(** a text on one line *)
Definition one_line (s : ustring) : Prop := ~ In cLF s.
(** one row, and the text of an object: its class, its rows between braces *)
Definition row (label : string) (v : ustring) : ustring := B label ++ B ": " ++ v ++ [cLF].
Definition sheet (class : string) (rows : list ustring) : ustring :=
  B class ++ B " {" ++ [cLF] ++ concat rows ++ B "}" ++ [cLF].
Definition yes_no (b : bool) : ustring := if b then B "true" else B "false".
(** the row of the parameters, if there are any *)
Definition params_row (m : pmap) : list ustring :=
  match m with
  | [] => []
  | _ => [row "    parameters" (concat (map (fun e => fst e ++ [cSP] ++ join [cCOMMA] (snd e)) m))]
  end.
(** binary data or an address *)
Definition data_row (intern : bool) (data : bytes) (url : ustring) : ustring :=
  if intern then row "  Data" (to_base64 data) else row "  Url" url.

(** a number in decimal notation *)
Fixpoint decimal_number (v : Z) (ds : ustring) : Z :=
  match ds with [] => v | d :: r => decimal_number (10 * v + (Z.of_N d - 48)) r end.
(** a place marker of [QString::arg] and its number: a percent sign, perhaps the letter L, one or two digits *)
Inductive place_marker : ustring -> N -> Prop :=
| marker_one : forall l d, l = [] \/ l = [76%N] -> (d < 10)%N -> place_marker (37%N :: l ++ [48 + d]%N) d
| marker_two : forall l d e, l = [] \/ l = [76%N] -> (d < 10)%N -> (e < 10)%N -> place_marker (37%N :: l ++ [48 + d; 48 + e]%N) (10 * d + e)%N.

(** What the text of an address shows, in order. *)
Definition address_shown (X : DebugExt) (a : address) : list ustring :=
  [yes_no (ad_empty a); ad_id a; address_type_label (dx_tr X) (ad_type a); ad_pobox a; ad_extended a; ad_street a;
   ad_locality a; ad_region a; ad_postal a; ad_country a; ad_label a;
   yes_no (geo_valid (ad_geo a)); dx_num X (g_lat (ad_geo a)); dx_num X (g_lon (ad_geo a))].
(** What the text of a contact shows before its lists, in order. *)
Definition source_shown (intern : bool) (data : bytes) (url : ustring) : ustring :=
  if intern then B "Data: " ++ to_base64 data else B "Url: " ++ url.
Definition picture_shown (X : DebugExt) (p : picture) : list ustring :=
  [pi_type p; yes_no (pi_intern p); source_shown (pi_intern p) (pi_raw_of (env_img (dx_env X)) p) (pi_url p)].
Definition sound_shown (s : sound) : list ustring := [so_type s; yes_no (so_intern s); source_shown (so_intern s) (so_data s) (so_url s)].
Definition contact_shown (X : DebugExt) (a : addressee) : list ustring :=
  [a_uid a; a_name a; a_formatted a; a_family a; a_given a; a_additional a; a_prefix a; a_suffix a; nickname a;
   dx_time X (a_birthday a); a_mailer a; int_text (tz_offset (a_tz a));
   yes_no (geo_valid (a_geo a)); dx_num X (g_lat (a_geo a)); dx_num X (g_lon (a_geo a));
   title a; role a; organization a; a_department a; a_note a; a_prodid a; dx_time X (a_revision a); a_sortstring a;
   ru_url (main_url a); secrecy_label (dx_tr X) (a_secrecy a)]
  ++ picture_shown X (a_logo a) ++ picture_shown X (a_photo a) ++ sound_shown (a_sound a)
  ++ [ge_gender (a_gender a); ge_comment (a_gender a); a_kind a].
(** What the texts of the entries of its lists show, in order. *)
Definition params_shown (m : pmap) : list ustring :=
  match m with [] => [] | _ => [concat (map (fun e => fst e ++ [cSP] ++ join [cCOMMA] (snd e)) m)] end.
Definition email_shown (e : email) : list ustring := em_mail e :: params_shown (em_params e).
Definition lang_shown (l : ptext) : list ustring := pt_text l :: params_shown (pt_params l).
(** neither the identifier nor the type *)
Definition phone_shown (p : phone) : list ustring := ph_number p :: params_shown (ph_params p).
Definition key_shown (X : DebugExt) (k : key) : list ustring :=
  [ke_id k; key_type_label (dx_tr X) (ke_type k); yes_no (ke_isbin k); if ke_isbin k then to_base64 (ke_bin k) else ke_text k]
  ++ match ke_type k with KCustom => [ke_custom k] | _ => [] end.
(** Everything the text of a contact shows. *)
Record shown := {
  sh_rows : list ustring;
  sh_emails : list (list ustring);
  sh_langs : list (list ustring);
  sh_phones : list (list ustring);
  sh_addresses : list (list ustring);
  sh_keys : list (list ustring)
}.
Definition contact_all (X : DebugExt) (a : addressee) : shown :=
  {| sh_rows := contact_shown X a; sh_emails := map email_shown (a_emails a); sh_langs := map lang_shown (a_langs a);
     sh_phones := map phone_shown (a_phones a); sh_addresses := map (address_shown X) (a_addresses a);
     sh_keys := map (key_shown X) (a_keys a) |}.
Definition all_one_line (h : shown) : Prop :=
  Forall one_line (sh_rows h) /\ Forall (Forall one_line) (sh_emails h) /\ Forall (Forall one_line) (sh_langs h)
  /\ Forall (Forall one_line) (sh_phones h) /\ Forall (Forall one_line) (sh_addresses h) /\ Forall (Forall one_line) (sh_keys h).
