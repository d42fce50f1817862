(** Specification vocabulary for texts written from contacts that have been read (C59). *)
From Verif Require Import Base Utf8 QtText M_ParamMap M_VCard M_VCardText S_Escape S_Card S_RoundTrip S_Split S_Date
  M_Split M_Values M_Date M_Addressee M_VCardTool S_Contact.

(** what [safe30] and [safe21] do not speak about: the position, keys, pictures, sounds,
    sources, relations, field groups and messaging addresses.  Binary data is not kept
    in version 2.1 (C37_version21_refuted). *)
Record rest_in (T : Tool) (v : version) (a : addressee) : Prop := {
  (** a position is written with six decimals; the numbers read from that text are a
      position and are written in the same way *)
  r_geo : geo_text_ok T (a_geo a) /\
          (geo_valid (a_geo a) = true ->
             geo_valid (geo_rounded T (a_geo a)) = true /\
             t_fmt6 T (g_lat (geo_rounded T (a_geo a))) = t_fmt6 T (g_lat (a_geo a)) /\
             t_fmt6 T (g_lon (geo_rounded T (a_geo a))) = t_fmt6 T (g_lon (a_geo a)));
  r_keys : Forall (fun k => key_safe k /\ (v = V21 -> ke_isbin k = false)) (a_keys a);
  r_logos : Forall (fun p => picture_safe p /\ (v = V21 -> pi_intern p = false)) (a_logo a :: a_xlogos a);
  r_photos : Forall (fun p => picture_safe p /\ (v = V21 -> pi_intern p = false)) (a_photo a :: a_xphotos a);
  r_sounds : Forall (fun s => sound_safe s /\ (v = V21 -> so_intern s = false)) (a_sound a :: a_xsounds a);
  r_sources : Forall (fun u => text_safe u /\ url_parse (env_url (t_env T)) u = u) (a_sources a);
  r_related : Forall (fun t => text_safe (pt_text t)) (a_related a) /\ NoDup (a_related a);
  r_fgroups : Forall (fun f => text_safe (fg_value f)) (a_fgroups a) /\ NoDup (map fg_name (a_fgroups a));
  r_impps : Forall (fun i => text_safe (im_address i) /\ impp_valid (env_url (t_env T)) i = true /\
                             url_parse (env_url (t_env T)) (im_address i) = im_address i) (a_impps a)
}.
