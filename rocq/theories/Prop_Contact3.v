(** C37 (version 4.0), C46-C49: further fields of contacts written as vCards and read
    again; see [Prop_Contact] for [round_trip] and [fits]. *)
From Coq Require Import Permutation.
From Verif Require Import Base QtText Utf8 M_ParamMap M_VCard M_VCardText S_Escape S_Card S_Parse S_RoundTrip S_Split P_Split
  M_Split M_Values M_Date S_Date M_Addressee M_VCardTool S_Contact
  P_Lines P_Contact P_Fields P_Fields2 P_Types P_Addr P_Fields3 P_Fields4 P_Fields5 P_Fields6 P_Fields7 P_Contact2 P_ContactCase P_Pic40.

(** ** C37: version 4.0 *)

Theorem C37_photo40 :
  forall (T : Tool) (E : Ext) (export : bool) (l res : list addressee), Forall (fits T V40) l -> round_trip T E V40 export l res ->
    Forall2 (fun a b => a_xphotos a = [] -> pi_intern (a_photo a) = true -> length (pi_type (a_photo a)) = 3 -> ~ In cSEMI (pi_type (a_photo a)) -> pi_raw_of (env_img (t_env T)) (a_photo a) <> [] ->
      pi_intern (a_photo b) = true /\ pi_raw (a_photo b) = pi_raw_of (env_img (t_env T)) (a_photo a) /\ pi_type (a_photo b) = B "image/" ++ pi_type (a_photo a) ++ B ";" /\ a_xphotos b = []) l res.
Proof.
  intros T E export l res Hf Hr. apply (trip_each E T V40 export l res _ Hf Hr). intros a b Ha Hab Hx Hi Hl Hs Hn.
  pose proof (field_photo40 E T export a b Ha Hab Hx (fun _ => conj Hl Hs)) as H. unfold pic40, picture_full in H. rewrite Hi in H.
  destruct (pi_raw_of (env_img (t_env T)) (a_photo a)); [congruence|]. injection H as -> ->. auto.
Qed.
Print Assumptions C37_photo40.
Theorem C37_logo40 :
  forall (T : Tool) (E : Ext) (export : bool) (l res : list addressee), Forall (fits T V40) l -> round_trip T E V40 export l res ->
    Forall2 (fun a b => a_xlogos a = [] -> pi_intern (a_logo a) = true -> length (pi_type (a_logo a)) = 3 -> ~ In cSEMI (pi_type (a_logo a)) -> pi_raw_of (env_img (t_env T)) (a_logo a) <> [] ->
      pi_intern (a_logo b) = true /\ pi_raw (a_logo b) = pi_raw_of (env_img (t_env T)) (a_logo a) /\ pi_type (a_logo b) = B "image/" ++ pi_type (a_logo a) ++ B ";" /\ a_xlogos b = []) l res.
Proof.
  intros T E export l res Hf Hr. apply (trip_each E T V40 export l res _ Hf Hr). intros a b Ha Hab Hx Hi Hl Hs Hn.
  pose proof (field_logo40 E T export a b Ha Hab Hx (fun _ => conj Hl Hs)) as H. unfold pic40, picture_full in H. rewrite Hi in H.
  destruct (pi_raw_of (env_img (t_env T)) (a_logo a)); [congruence|]. injection H as -> ->. auto.
Qed.
Print Assumptions C37_logo40.
(** linked pictures *)
Theorem C37_linked40 :
  forall (T : Tool) (E : Ext) (export : bool) (l res : list addressee), Forall (fits T V40) l -> round_trip T E V40 export l res ->
    Forall2 (fun a b => (a_xphotos a = [] -> pi_intern (a_photo a) = false -> pi_url (a_photo b) = pi_url (a_photo a)) /\
                        (a_xlogos a = [] -> pi_intern (a_logo a) = false -> pi_url (a_logo b) = pi_url (a_logo a))) l res.
Proof.
  intros T E export l res Hf Hr. apply (trip_each E T V40 export l res _ Hf Hr). intros a b Ha Hab. split; intros Hx Hi.
  - pose proof (field_photo40 E T export a b Ha Hab Hx) as H. unfold pic40, picture_full in H. rewrite Hi in H. specialize (H ltac:(discriminate)).
    destruct (pi_url (a_photo a)); injection H as -> _; reflexivity.
  - pose proof (field_logo40 E T export a b Ha Hab Hx) as H. unfold pic40, picture_full in H. rewrite Hi in H. specialize (H ltac:(discriminate)).
    destruct (pi_url (a_logo a)); injection H as -> _; reflexivity.
Qed.
Print Assumptions C37_linked40.
(** a contact without main photo but with another one: that becomes the main photo *)
Theorem C37_only_extra_refuted :
  forall E : Ext, exists a b p, fits exT V30 a /\ round_trip exT E V30 false [a] [b] /\ pi_intern p = false /\ pi_url p <> [] /\
    a_photo a = picture_new /\ a_xphotos a = [p] /\ a_photo b = p /\ a_xphotos b = [].
Proof.
  intros E. set (p := mkPicture (B "http://p") [] None [] false). set (a := put_xphotos [p] (addressee_new (B "u"))).
  assert (Hf : fits exT V30 a) by (apply fits_spec; vm_compute; reflexivity). exists a. eexists. exists p.
  split; [exact Hf|]. split; [apply trip_at; [constructor; [exact Hf|constructor]|cbv; reflexivity]|]. repeat split. discriminate.
Qed.
Print Assumptions C37_only_extra_refuted.
(** with several photos, a linked one is written first, whatever its place *)
Theorem C37_order40_refuted :
  forall E : Ext, exists a b, fits exT V40 a /\ round_trip exT E V40 false [a] [b] /\
    pi_intern (a_photo a) = true /\ pi_raw (a_photo a) <> [] /\ pi_intern (a_photo b) = false /\ pi_url (a_photo b) = B "http://x".
Proof.
  intros E. set (a := put_xphotos [mkPicture (B "http://x") [] None [] false] (put_photo (mkPicture [] (B "png") None [1; 2; 3]%N true) (addressee_new (B "u")))).
  assert (Hf : fits exT V40 a) by (apply fits_spec; vm_compute; reflexivity). exists a. eexists.
  split; [exact Hf|]. split; [apply trip_at; [constructor; [exact Hf|constructor]|cbv; reflexivity]|]. split; [reflexivity|]. split; [discriminate|]. split; reflexivity.
Qed.
Print Assumptions C37_order40_refuted.
Definition ex_png : addressee := put_logo (mkPicture (B "http://l") [] None [] false) (put_photo (mkPicture [] (B "gif") None [9; 0; 255]%N true) (addressee_new (B "u"))).
Example C37_case40 : fits exT V40 ex_png /\ a_xphotos ex_png = [] /\ length (pi_type (a_photo ex_png)) = 3 /\ ~ In cSEMI (pi_type (a_photo ex_png)) /\
  pi_raw_of (env_img (t_env exT)) (a_photo ex_png) = [9; 0; 255]%N.
Proof. split; [apply fits_spec; vm_compute; reflexivity|]. split; [reflexivity|]. split; [reflexivity|]. split; [apply BaseFacts.mem_false; reflexivity|reflexivity]. Qed.

(** ** C46: dates, time zone, position, sort string *)
Theorem C46_birthday :
  forall (T : Tool) (E : Ext) (v : version) (export : bool) (l res : list addressee), Forall (fits T v) l -> round_trip T E v export l res ->
    Forall2 (fun a b => birthday_safe (a_birthday a) (a_bdaytime a) -> a_birthday b = a_birthday a /\ a_bdaytime b = a_bdaytime a) l res.
Proof. intros T E v export l res Hf Hr. apply (trip_each E T v export l res _ Hf Hr). intros a b Ha Hab. exact (field_birthday E T v export a b Ha Hab). Qed.
Print Assumptions C46_birthday.
Theorem C46_revision :
  forall (T : Tool) (E : Ext) (v : version) (export : bool) (l res : list addressee), Forall (fits T v) l -> round_trip T E v export l res ->
    Forall2 (fun a b => datetime_safe (a_revision a) -> a_revision b = a_revision a) l res.
Proof. intros T E v export l res Hf Hr. apply (trip_each E T v export l res _ Hf Hr). intros a b Ha Hab. exact (field_revision E T v export a b Ha Hab). Qed.
Print Assumptions C46_revision.
Theorem C46_death_date :
  forall (T : Tool) (E : Ext) (export : bool) (l res : list addressee), Forall (fits T V40) l -> round_trip T E V40 export l res ->
    Forall2 (fun a b => datetime_safe (a_deathdate a) -> a_deathdate b = a_deathdate a) l res.
Proof. intros T E export l res Hf Hr. apply (trip_each E T V40 export l res _ Hf Hr). intros a b Ha Hab. exact (field_deathdate E T export a b Ha Hab). Qed.
Print Assumptions C46_death_date.
Theorem C46_time_zone :
  forall (T : Tool) (E : Ext) (v : version) (export : bool) (l res : list addressee), Forall (fits T v) l -> round_trip T E v export l res ->
    Forall2 (fun a b => tz_safe (a_tz a) -> a_tz b = a_tz a) l res.
Proof. intros T E v export l res Hf Hr. apply (trip_each E T v export l res _ Hf Hr). intros a b Ha Hab. exact (field_tz E T v export a b Ha Hab). Qed.
Print Assumptions C46_time_zone.
(** to the six decimals written *)
Theorem C46_position :
  forall (T : Tool) (E : Ext) (v : version) (export : bool) (l res : list addressee), Forall (fits T v) l -> round_trip T E v export l res ->
    Forall2 (fun a b => geo_text_ok T (a_geo a) ->
      a_geo b = if geo_valid (geo_rounded T (a_geo a)) then geo_rounded T (a_geo a) else geo_new) l res.
Proof. intros T E v export l res Hf Hr. apply (trip_each E T v export l res _ Hf Hr). intros a b Ha Hab. exact (field_geo E T v export a b Ha Hab). Qed.
Print Assumptions C46_position.
(** in version 3.0, unless an organisation has a parameter SORT-AS *)
Theorem C46_sort_string :
  forall (T : Tool) (E : Ext) (export : bool) (l res : list addressee), Forall (fits T V30) l -> round_trip T E V30 export l res ->
    Forall2 (fun a b => text_safe (a_sortstring a) ->
      Forall (fun o => parts_safe (pt_text o :: if isnil (a_department a) then [] else [a_department a])) (a_orgs a) ->
      Forall (fun o => ~ In (B "sort-as") (map fst (pt_params o))) (a_orgs a) -> a_sortstring b = a_sortstring a) l res.
Proof. intros T E export l res Hf Hr. apply (trip_each E T V30 export l res _ Hf Hr). intros a b Ha Hab. exact (field_sortstring E T export a b Ha Hab). Qed.
Print Assumptions C46_sort_string.
Theorem C46_sort_as_refuted :
  forall E : Ext, exists a b, fits exT V30 a /\ round_trip exT E V30 false [a] [b] /\ a_sortstring a = [] /\ a_sortstring b = B "Acme".
Proof.
  intros E. set (a := put_orgs [mkPtext [(B "sort-as", [B "Acme"])] (B "The Acme")] (addressee_new (B "u"))).
  assert (Hf : fits exT V30 a) by (apply fits_spec; vm_compute; reflexivity). exists a. eexists.
  split; [exact Hf|]. split; [apply trip_at; [constructor; [exact Hf|constructor]|cbv; reflexivity]|]. split; reflexivity.
Qed.
Print Assumptions C46_sort_as_refuted.
Definition ex_dates : addressee :=
  put_bdaytime true (put_birthday (mkDt (Some (mkDate 1999 12 31)) (Some (mkTime 7 5 9 0)) TUtc)
  (put_deathdate (mkDt (Some (mkDate 2024 2 29)) (Some (mkTime 23 59 58 0)) TUtc)
  (put_tz (mkTz (-210) true) (put_geo (geo_of (Fin (QArith_base.Qmake 3 2)) (Fin (QArith_base.Qmake 3 2))) (addressee_new (B "u")))))).
Example C46_case : fits exT V40 ex_dates /\ birthday_safe (a_birthday ex_dates) (a_bdaytime ex_dates) /\ datetime_safe (a_deathdate ex_dates) /\
  tz_safe (a_tz ex_dates) /\ geo_text_ok exT (a_geo ex_dates) /\ geo_valid (geo_rounded exT (a_geo ex_dates)) = true.
Proof.
  split; [apply fits_spec; vm_compute; reflexivity|]. split.
  { exists (mkDate 1999 12 31), (mkTime 7 5 9 0), TUtc. split; [reflexivity|]. split; [split; [left; cbn; lia|reflexivity]|]. split; [cbv; intuition discriminate|exact I]. }
  split. { right. exists (mkDate 2024 2 29), (mkTime 23 59 58 0), TUtc. split; [reflexivity|]. split; [split; [left; cbn; lia|reflexivity]|]. split; [cbv; intuition discriminate|exact I]. }
  split; [cbn; lia|]. split; [|reflexivity].
  split; repeat (constructor; [cbv; intuition discriminate|]); constructor.
Qed.

(** ** C47: e-mail addresses *)
(** preferred addresses come first, last written first; the others keep their order *)
Theorem C47_emails :
  forall (T : Tool) (E : Ext) (v : version) (export : bool) (l res : list addressee), Forall (fits T v) l -> round_trip T E v export l res ->
    Forall2 (fun a b => Forall (fun e => text_safe (em_mail e)) (a_emails a) -> NoDup (map em_mail (a_emails a)) ->
      let full := filter (fun e => negb (isnil (em_mail e))) (a_emails a) in
      a_emails b = rev (filter email_preferred full) ++ filter (fun e => negb (email_preferred e)) full) l res.
Proof. intros T E v export l res Hf Hr. apply (trip_each E T v export l res _ Hf Hr). intros a b Ha Hab. exact (field_emails E T v export a b Ha Hab). Qed.
Print Assumptions C47_emails.
(** so with two preferred addresses another one becomes the preferred e-mail *)
Theorem C47_order_refuted :
  forall E : Ext, exists a b, fits exT V30 a /\ round_trip exT E V30 false [a] [b] /\
    map em_mail (a_emails a) = [B "a@b"; B "c@d"] /\ map em_mail (a_emails b) = [B "c@d"; B "a@b"].
Proof.
  intros E. set (a := put_emails [mkEmail [(B "type", [B "PREF"])] (B "a@b"); mkEmail [(B "type", [B "PREF"])] (B "c@d")] (addressee_new (B "u"))).
  assert (Hf : fits exT V30 a) by (apply fits_spec; vm_compute; reflexivity). exists a. eexists.
  split; [exact Hf|]. split; [apply trip_at; [constructor; [exact Hf|constructor]|cbv; reflexivity]|]. split; reflexivity.
Qed.
Print Assumptions C47_order_refuted.
Example C47_case : Forall (fun e => text_safe (em_mail e)) (a_emails ex_contact) /\ NoDup (map em_mail (a_emails ex_contact)) /\
  map email_preferred (a_emails ex_contact) = [true; false].
Proof.
  split; [repeat (apply Forall_cons; [apply text_safe_spec; reflexivity|]); apply Forall_nil|]. split; [|reflexivity]. repeat constructor; cbv; intuition discriminate.
Qed.

(** ** C48: properties that may be repeated *)
Theorem C48_titles :
  forall (T : Tool) (E : Ext) (v : version) (export : bool) (l res : list addressee), Forall (fits T v) l -> round_trip T E v export l res ->
    Forall2 (fun a b => Forall (fun t => text_safe (pt_text t)) (a_titles a) ->
      a_titles b = filter (fun t => negb (isnil (pt_text t))) (a_titles a)) l res.
Proof. intros T E v export l res Hf Hr. apply (trip_each E T v export l res _ Hf Hr). intros a b Ha Hab. exact (field_titles E T v export a b Ha Hab). Qed.
Print Assumptions C48_titles.
Theorem C48_roles :
  forall (T : Tool) (E : Ext) (v : version) (export : bool) (l res : list addressee), Forall (fits T v) l -> round_trip T E v export l res ->
    Forall2 (fun a b => Forall (fun t => text_safe (pt_text t)) (a_roles a) ->
      a_roles b = filter (fun t => negb (isnil (pt_text t))) (a_roles a)) l res.
Proof. intros T E v export l res Hf Hr. apply (trip_each E T v export l res _ Hf Hr). intros a b Ha Hab. exact (field_roles E T v export a b Ha Hab). Qed.
Print Assumptions C48_roles.
Theorem C48_nick_names :
  forall (T : Tool) (E : Ext) (v : version) (export : bool) (l res : list addressee), v <> V21 -> Forall (fits T v) l -> round_trip T E v export l res ->
    Forall2 (fun a b => Forall (fun t => text_safe (pt_text t)) (a_nicks a) -> a_nicks b = filter (fun t => negb (isnil (pt_text t))) (a_nicks a)) l res.
Proof. intros T E v export l res Hv Hf Hr. apply (trip_each E T v export l res _ Hf Hr). intros a b Ha Hab. exact (field_nicks E T v export a b Ha Hab Hv). Qed.
Print Assumptions C48_nick_names.
Theorem C48_related :
  forall (T : Tool) (E : Ext) (v : version) (export : bool) (l res : list addressee), v <> V40 -> Forall (fits T v) l -> round_trip T E v export l res ->
    Forall2 (fun a b => Forall (fun t => text_safe (pt_text t)) (a_related a) -> NoDup (a_related a) -> a_related b = filter (fun t => negb (isnil (pt_text t))) (a_related a)) l res.
Proof. intros T E v export l res Hv Hf Hr. apply (trip_each E T v export l res _ Hf Hr). intros a b Ha Hab. exact (field_related E T v export a b Ha Hab Hv). Qed.
Print Assumptions C48_related.
Theorem C48_urls :
  forall (T : Tool) (E : Ext) (v : version) (export : bool) (l res : list addressee), Forall (fits T v) l -> round_trip T E v export l res ->
    Forall2 (fun a b => Forall (fun u => text_safe (ru_url u) /\ ru_url u <> [] /\ url_parse (env_url (t_env T)) (ru_url u) = ru_url u /\
                    rurl_valid (env_url (t_env T)) u = true) (a_urls a) -> a_urls b = a_urls a) l res.
Proof. intros T E v export l res Hf Hr. apply (trip_each E T v export l res _ Hf Hr). intros a b Ha Hab. exact (field_urls E T v export a b Ha Hab). Qed.
Print Assumptions C48_urls.
(** addresses of sources are parsed again *)
Theorem C48_sources :
  forall (T : Tool) (E : Ext) (v : version) (export : bool) (l res : list addressee), Forall (fits T v) l -> round_trip T E v export l res ->
    Forall2 (fun a b => Forall text_safe (a_sources a) ->
      a_sources b = map (url_parse (env_url (t_env T))) (filter (fun u => negb (isnil u)) (a_sources a))) l res.
Proof. intros T E v export l res Hf Hr. apply (trip_each E T v export l res _ Hf Hr). intros a b Ha Hab. exact (field_sources E T v export a b Ha Hab). Qed.
Print Assumptions C48_sources.
Theorem C48_languages :
  forall (T : Tool) (E : Ext) (export : bool) (l res : list addressee), Forall (fits T V40) l -> round_trip T E V40 export l res ->
    Forall2 (fun a b => Forall (fun t => text_safe (pt_text t) /\ simplified (pt_text t) <> []) (a_langs a) -> NoDup (map pt_text (a_langs a)) ->
      a_langs b = a_langs a) l res.
Proof. intros T E export l res Hf Hr. apply (trip_each E T V40 export l res _ Hf Hr). intros a b Ha Hab. exact (field_langs E T export a b Ha Hab). Qed.
Print Assumptions C48_languages.
Theorem C48_client_pid_maps :
  forall (T : Tool) (E : Ext) (export : bool) (l res : list addressee), Forall (fits T V40) l -> round_trip T E V40 export l res ->
    Forall2 (fun a b => Forall (fun t => text_safe (pt_text t)) (a_pidmaps a) ->
      a_pidmaps b = filter (fun t => negb (isnil (pt_text t))) (a_pidmaps a)) l res.
Proof. intros T E export l res Hf Hr. apply (trip_each E T V40 export l res _ Hf Hr). intros a b Ha Hab. exact (field_pidmaps E T export a b Ha Hab). Qed.
Print Assumptions C48_client_pid_maps.
Theorem C48_kind :
  forall (T : Tool) (E : Ext) (export : bool) (l res : list addressee), Forall (fits T V40) l -> round_trip T E V40 export l res ->
    Forall2 (fun a b => text_safe (a_kind a) -> a_kind b = a_kind a) l res.
Proof. intros T E export l res Hf Hr. apply (trip_each E T V40 export l res _ Hf Hr). intros a b Ha Hab. exact (field_kind E T export a b Ha Hab). Qed.
Print Assumptions C48_kind.
(** members are written for groups only *)
Theorem C48_members :
  forall (T : Tool) (E : Ext) (export : bool) (l res : list addressee), Forall (fits T V40) l -> round_trip T E V40 export l res ->
    Forall2 (fun a b => Forall text_safe (a_members a) -> NoDup (a_members a) -> to_lower (a_kind a) = B "group" ->
      a_members b = filter (fun u => negb (isnil u)) (a_members a)) l res.
Proof. intros T E export l res Hf Hr. apply (trip_each E T V40 export l res _ Hf Hr). intros a b Ha Hab. exact (field_members E T export a b Ha Hab). Qed.
Print Assumptions C48_members.
Theorem C48_members_lost_refuted :
  forall E : Ext, exists a b, fits exT V40 a /\ round_trip exT E V40 false [a] [b] /\ a_members a = [B "m"] /\ a_members b = [].
Proof.
  intros E. set (a := put_members [B "m"] (addressee_new (B "u"))).
  assert (Hf : fits exT V40 a) by (apply fits_spec; vm_compute; reflexivity). exists a. eexists.
  split; [exact Hf|]. split; [apply trip_at; [constructor; [exact Hf|constructor]|cbv; reflexivity]|]. split; reflexivity.
Qed.
Print Assumptions C48_members_lost_refuted.
Definition ex_lists : addressee :=
  put_members [B "urn:a"; B "urn:b;c"] (put_kind (B "Group") (put_langs [mkPtext [(B "pref", [B "1"])] (B "fr"); mkPtext [] (B "d,e")]
  (put_pidmaps [mkPtext [] (B "1;urn:x")] (put_sources [B "http://s"] (put_titles [mkPtext [] (B "T"); mkPtext [] []] (addressee_new (B "u"))))))).
Example C48_case : fits exT V40 ex_lists /\ Forall text_safe (a_members ex_lists) /\ NoDup (a_members ex_lists) /\ to_lower (a_kind ex_lists) = B "group" /\
  Forall (fun t => text_safe (pt_text t) /\ simplified (pt_text t) <> []) (a_langs ex_lists) /\ NoDup (map pt_text (a_langs ex_lists)) /\
  Forall (fun t => text_safe (pt_text t)) (a_pidmaps ex_lists) /\ Forall text_safe (a_sources ex_lists) /\ Forall (fun t => text_safe (pt_text t)) (a_titles ex_lists).
Proof.
  split; [apply fits_spec; vm_compute; reflexivity|].
  split; [repeat (apply Forall_cons; [apply text_safe_spec; reflexivity|]); apply Forall_nil|]. split; [repeat constructor; cbv; intuition discriminate|]. split; [reflexivity|].
  split; [repeat (apply Forall_cons; [split; [apply text_safe_spec; reflexivity|discriminate]|]); apply Forall_nil|]. split; [repeat constructor; cbv; intuition discriminate|].
  repeat split; repeat (apply Forall_cons; [apply text_safe_spec; reflexivity|]); apply Forall_nil.
Qed.

(** ** C49: field groups, calendar addresses, labels *)
(** the same field groups, possibly in another order *)
Theorem C49_field_groups :
  forall (T : Tool) (E : Ext) (v : version) (export : bool) (l res : list addressee), Forall (fits T v) l -> round_trip T E v export l res ->
    Forall2 (fun a b => Forall (fun f => text_safe (fg_value f)) (a_fgroups a) ->
      Permutation (a_fgroups b) (filter (fun f => negb (isnil (fg_value f))) (a_fgroups a))) l res.
Proof. intros T E v export l res Hf Hr. apply (trip_each E T v export l res _ Hf Hr). intros a b Ha Hab. exact (field_fgroups E T v export a b Ha Hab). Qed.
Print Assumptions C49_field_groups.
(** calendar addresses: the same, sorted by type *)
Theorem C49_calendar_addresses :
  forall (T : Tool) (E : Ext) (export : bool) (l res : list addressee), Forall (fits T V40) l -> round_trip T E V40 export l res ->
    Forall2 (fun a b => Forall (fun c => text_safe (t_display T (cu_url c)) /\ t_display T (cu_url c) <> [] /\ calurl_valid (env_url (t_env T)) c = true /\
                                   cu_type c <> CalEnd /\ url_parse (env_url (t_env T)) (t_display T (cu_url c)) = cu_url c) (a_calurls a) ->
      Permutation (a_calurls b) (a_calurls a) /\
      forall t, filter (fun c => caltype_eq (cu_type c) t) (a_calurls b) = filter (fun c => caltype_eq (cu_type c) t) (a_calurls a)) l res.
Proof.
  intros T E export l res Hf Hr. apply (trip_each E T V40 export l res _ Hf Hr). intros a b Ha Hab Hs.
  rewrite (field_calurls E T export a b Ha Hab) by (eapply Forall_impl; [|exact Hs]; intros c Hc; cbv beta in Hc |- *; tauto). split.
  - apply (calurl_sorted (env_url (t_env T))). eapply Forall_impl; [|exact Hs]. intros c Hc. cbv beta in Hc |- *. tauto.
  - intros t. apply (calurl_stable (env_url (t_env T))). eapply Forall_impl; [|exact Hs]. intros c Hc. cbv beta in Hc |- *. tauto.
Qed.
Print Assumptions C49_calendar_addresses.
Definition ex_groups : addressee :=
  put_fgroups [mkFgroup [] (B "b.X-ABLABEL") (B "v;1"); mkFgroup [] (B "a.NOTE") (B "w")]
  (put_calurls [mkCalurl [] CalFBUrl (B "http://f"); mkCalurl [(B "pref", [B "1"])] CalCALUri (B "http://c")] (addressee_new (B "u"))).
Example C49_case : fits exT V40 ex_groups /\ Forall (fun f => text_safe (fg_value f)) (a_fgroups ex_groups) /\
  Forall (fun c => text_safe (t_display exT (cu_url c)) /\ t_display exT (cu_url c) <> [] /\ calurl_valid (env_url (t_env exT)) c = true /\
                   cu_type c <> CalEnd /\ url_parse (env_url (t_env exT)) (t_display exT (cu_url c)) = cu_url c) (a_calurls ex_groups).
Proof.
  split; [apply fits_spec; vm_compute; reflexivity|]. split; [repeat (apply Forall_cons; [apply text_safe_spec; reflexivity|]); apply Forall_nil|].
  repeat (apply Forall_cons; [split; [apply text_safe_spec; reflexivity|split; [discriminate|split; [reflexivity|split; [discriminate|reflexivity]]]]|]). apply Forall_nil.
Qed.
(** a field group whose name is not one group and one property: it becomes that property, an extension under another name, or
    loses the first part of its name *)
Theorem C49_group_names_refuted :
  forall E : Ext, exists a b,
    parse_text exT E 20 (create_text exT E V40 false [a]) = Done [b] /\
    a_fgroups a = [mkFgroup [] (B "NOTE") (B "v"); mkFgroup [] (B "X-LABEL") (B "w"); mkFgroup [] (B "g.a.b") (B "x")] /\
    a_note a = [] /\ a_customs a = [] /\
    a_fgroups b = [mkFgroup [] (B "a.b") (B "x")] /\ a_note b = B "v" /\ a_customs b = [(B "LABEL-LABEL", B "w")].
Proof.
  intros E. exists (put_fgroups [mkFgroup [] (B "NOTE") (B "v"); mkFgroup [] (B "X-LABEL") (B "w"); mkFgroup [] (B "g.a.b") (B "x")] (addressee_new (B "u"))).
  eexists. split; [cbv; reflexivity|]. repeat split; vm_compute; reflexivity.
Qed.
Print Assumptions C49_group_names_refuted.
(** two addresses of the same kind with labels: the first label is overwritten *)
Theorem C49_label_refuted :
  forall E : Ext, exists a b, fits exT V30 a /\ round_trip exT E V30 false [a] [b] /\
    map ad_label (a_addresses a) = [B "first"; B "second"] /\ map ad_label (a_addresses b) <> [B "first"; B "second"].
Proof.
  intros E. set (a := put_addresses [mkAddress false (B "1") aHome geo_new [] [] (B "s1") [] [] [] [] (B "first"); mkAddress false (B "2") aHome geo_new [] [] (B "s2") [] [] [] [] (B "second")] (addressee_new (B "u"))).
  assert (Hf : fits exT V30 a) by (apply fits_spec; vm_compute; reflexivity). exists a. eexists.
  split; [exact Hf|]. split; [apply trip_at; [constructor; [exact Hf|constructor]|cbv; reflexivity]|]. split; [reflexivity|]. cbv. discriminate.
Qed.
Print Assumptions C49_label_refuted.
(** in version 4.0 the label is a parameter written as it is: its text can add
    properties to the contact *)
Theorem C49_label_injection_refuted :
  forall E : Ext, exists a b,
    a_titles a = [] /\ parse_text exT E 20 (create_text exT E V40 false [a]) = Done [b] /\ map pt_text (a_titles b) = [B "boss"].
Proof.
  intros E. exists (put_addresses [mkAddress false (B "1") aHome geo_new [] [] (B "s") [] [] [] [] ([34%N; 58%N; 10%N] ++ B "TITLE:boss" ++ [10%N] ++ B "X-A:")] (addressee_new (B "u"))).
  eexists. split; [reflexivity|]. split; [cbv; reflexivity|reflexivity].
Qed.
Print Assumptions C49_label_injection_refuted.
(** a LABEL line takes away the position of the address it belongs to *)
Theorem C49_label_position_refuted :
  let adr := B "ADR;TYPE=home;GEO=" ++ [34%N] ++ B "geo:1,2" ++ [34%N] ++ B ":;;s;;;;" in
  let text := fun ls => flat_map (fun l => l ++ [10%N]) ([B "BEGIN:VCARD"; adr] ++ ls ++ [B "END:VCARD"]) in
  forall E : Ext, exists a b,
    parse_text exT E 20 (text []) = Done [a] /\ parse_text exT E 20 (text [B "LABEL;TYPE=home:s"]) = Done [b] /\
    map ad_street (a_addresses a) = [B "s"] /\ map ad_street (a_addresses b) = [B "s"] /\ map ad_label (a_addresses b) = [B "s"] /\
    map (fun x => geo_valid (ad_geo x)) (a_addresses a) = [true] /\ map (fun x => geo_valid (ad_geo x)) (a_addresses b) = [false].
Proof.
  intros adr text E. eexists. eexists. split; [cbv; reflexivity|]. split; [cbv; reflexivity|]. repeat split.
Qed.
Print Assumptions C49_label_position_refuted.
