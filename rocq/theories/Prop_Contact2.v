(** C13, C37, C38, C39, C44: contacts written as vCards and read again, continued
    (see [Prop_Contact] for the vocabulary). *)
From Coq Require Import Permutation.
From Verif Require Import Base QtText Utf8 M_ParamMap M_VCard M_VCardText S_Escape S_Card S_Parse S_RoundTrip S_Split P_Split S_Date
  M_Split M_Values M_Date M_Addressee M_VCardTool S_Contact
  P_Lines P_Contact P_Fields P_Fields2 P_Types P_Addr P_Fields3 P_Fields4 P_Fields5 P_Fields6 P_Fields7 P_Contact2 P_ContactCase P_RoundTrip3 Prop_Contact.

(** ** C13: types of telephone numbers and addresses *)
Theorem C13_phone_types :
  forall (T : Tool) (E : Ext) (v : version) (export : bool) (l res : list addressee), Forall (fits T v) l -> round_trip T E v export l res -> fresh_ids T ->
    Forall2 (fun a b =>
      Forall (fun p => text_safe (ph_number p)) (a_phones a) ->
      Forall2 (fun p q => ph_number q = simplified (ph_number p) /\
                 (N.land (ph_type p) phone_vocabulary <> 0%N -> ph_type q = N.land (ph_type p) phone_vocabulary) /\
                 (N.land (ph_type p) phone_vocabulary = 0%N -> ph_type q = tUndefined))
              (filter (fun p => negb (isnil (simplified (ph_number p)))) (a_phones a)) (a_phones b)) l res.
Proof.
  intros T E v export l res Hf Hr HT. apply (trip_each E T v export l res _ Hf Hr). intros a b Ha Hab Hs.
  eapply Forall2_imp; [|exact (field_phones E T v export a b Ha Hab HT Hs)]. intros p q _ (H1 & H2 & _). cbv zeta in H2. split; [exact H1|].
  destruct (N.eqb_spec (N.land (ph_type p) phone_vocabulary) 0); split; intros; congruence.
Qed.
Print Assumptions C13_phone_types.
(** the vocabulary is all types but Undefined (addresses: all) *)
Theorem C13_vocabulary :
  (forall t : N, N.land t phone_vocabulary = t <-> (forall i, N.testbit t i = true -> (i < 14)%N)) /\
  (forall t : N, N.land t address_vocabulary = t <-> (forall i, N.testbit t i = true -> (i < 7)%N)).
Proof.
  assert (H : forall n t, N.land t (N.ones n) = t <-> (forall i, N.testbit t i = true -> (i < n)%N)).
  { intros n t. split.
    - intros He i Hi. rewrite <- He, N.land_spec in Hi. apply andb_true_iff in Hi as [_ Hi]. destruct (N.lt_ge_cases i n) as [Hl|Hl]; [exact Hl|]. rewrite N.ones_spec_high in Hi by exact Hl. discriminate.
    - intros Hb. apply N.bits_inj. intros i. rewrite N.land_spec. destruct (N.testbit t i) eqn:Ei; [|reflexivity]. rewrite N.ones_spec_low by (apply Hb; exact Ei). reflexivity. }
  split; [exact (H 14%N)|exact (H 7%N)].
Qed.
Print Assumptions C13_vocabulary.
Theorem C13_address_types :
  forall (T : Tool) (E : Ext) (v : version) (export : bool) (l res : list addressee), Forall (fits T v) l -> round_trip T E v export l res -> fresh_ids T ->
    Forall2 (fun a b =>
      Forall (fun x => address_safe x /\ address_blank x = false /\ (v <> V40 -> text_safe (ad_label x))) (a_addresses a) ->
      (v <> V40 -> labels_told_apart (a_addresses a)) ->
      Forall2 (fun x y => ad_type y = N.land (ad_type x) address_vocabulary) (a_addresses a) (a_addresses b)) l res.
Proof.
  intros T E v export l res Hf Hr HT. apply (trip_each E T v export l res _ Hf Hr). intros a b Ha Hab Hs Hl.
  eapply Forall2_imp; [|exact (field_addresses E T v export a b Ha Hab HT Hs Hl)]. unfold address_back. tauto.
Qed.
Print Assumptions C13_address_types.
(** other parameters of telephone numbers *)
Theorem C13_phone_parameters :
  forall (T : Tool) (E : Ext) (v : version) (export : bool) (l res : list addressee), Forall (fits T v) l -> round_trip T E v export l res -> fresh_ids T ->
    Forall2 (fun a b =>
      Forall (fun p => text_safe (ph_number p)) (a_phones a) ->
      Forall2 (fun p q => forall k, k <> B "type" -> find_param k (ph_params q) = find_param k (ph_params p))
              (filter (fun p => negb (isnil (simplified (ph_number p)))) (a_phones a)) (a_phones b)) l res.
Proof.
  intros T E v export l res Hf Hr HT. apply (trip_each E T v export l res _ Hf Hr). intros a b Ha Hab Hs.
  eapply Forall2_imp; [|exact (field_phones E T v export a b Ha Hab HT Hs)]. intros p q _ (_ & _ & H3). exact H3.
Qed.
Print Assumptions C13_phone_parameters.
Example C13_case : fresh_ids exT /\ Forall (fun p => text_safe (ph_number p)) (a_phones ex_contact) /\
  map (fun p => N.land (ph_type p) phone_vocabulary) (a_phones ex_contact) = [25%N; 64%N] /\
  map (fun x => N.land (ad_type x) address_vocabulary) (a_addresses ex_contact) = [80%N; 32%N].
Proof. split; [exact ex_fresh|]. split; [repeat (apply Forall_cons; [apply text_safe_spec; reflexivity|]); apply Forall_nil|]. split; reflexivity. Qed.

(** ** C37: binary values *)
Theorem C37_photos :
  forall (T : Tool) (E : Ext) (export : bool) (l res : list addressee), Forall (fits T V30) l -> round_trip T E V30 export l res ->
    Forall2 (fun a b => Forall picture_safe (a_photo a :: a_xphotos a) ->
      media_back (picture_full T) (picture_back T) picture_new (a_photo a) (a_xphotos a) (a_photo b) (a_xphotos b)) l res.
Proof.
  intros T E export l res Hf Hr. apply (trip_each E T V30 export l res _ Hf Hr). intros a b Ha Hab Hs.
  apply (field_photos E T V30 export a b Ha Hab); [discriminate|]. eapply Forall_impl; [|exact Hs]. intros p Hp. split; [exact Hp|discriminate].
Qed.
Print Assumptions C37_photos.
Theorem C37_logos :
  forall (T : Tool) (E : Ext) (export : bool) (l res : list addressee), Forall (fits T V30) l -> round_trip T E V30 export l res ->
    Forall2 (fun a b => Forall picture_safe (a_logo a :: a_xlogos a) ->
      media_back (picture_full T) (picture_back T) picture_new (a_logo a) (a_xlogos a) (a_logo b) (a_xlogos b)) l res.
Proof.
  intros T E export l res Hf Hr. apply (trip_each E T V30 export l res _ Hf Hr). intros a b Ha Hab Hs.
  apply (field_logos E T V30 export a b Ha Hab); [discriminate|]. eapply Forall_impl; [|exact Hs]. intros p Hp. split; [exact Hp|discriminate].
Qed.
Print Assumptions C37_logos.
Theorem C37_sounds :
  forall (T : Tool) (E : Ext) (export : bool) (l res : list addressee), Forall (fits T V30) l -> round_trip T E V30 export l res ->
    Forall2 (fun a b => Forall sound_safe (a_sound a :: a_xsounds a) ->
      media_back sound_full sound_back sound_new (a_sound a) (a_xsounds a) (a_sound b) (a_xsounds b)) l res.
Proof.
  intros T E export l res Hf Hr. apply (trip_each E T V30 export l res _ Hf Hr). intros a b Ha Hab Hs.
  apply (field_sounds E T V30 export a b Ha Hab); [discriminate|]. eapply Forall_impl; [|exact Hs]. intros p Hp. split; [exact Hp|discriminate].
Qed.
Print Assumptions C37_sounds.
Theorem C37_keys :
  forall (T : Tool) (E : Ext) (export : bool) (l res : list addressee), Forall (fits T V30) l -> round_trip T E V30 export l res -> fresh_ids T ->
    Forall2 (fun a b => Forall key_safe (a_keys a) -> Forall2 key_back (filter key_full (a_keys a)) (a_keys b)) l res.
Proof.
  intros T E export l res Hf Hr HT. apply (trip_each E T V30 export l res _ Hf Hr). intros a b Ha Hab Hs.
  apply (field_keys E T V30 export a b Ha Hab HT); [discriminate|]. eapply Forall_impl; [|exact Hs]. intros p Hp. split; [exact Hp|discriminate].
Qed.
Print Assumptions C37_keys.
(** in version 2.1 only linked pictures and sounds and textual keys survive *)
Theorem C37_links21 :
  forall (T : Tool) (E : Ext) (export : bool) (l res : list addressee), Forall (fits T V21) l -> round_trip T E V21 export l res -> fresh_ids T ->
    Forall2 (fun a b =>
      (Forall (fun p => picture_safe p /\ pi_intern p = false) (a_photo a :: a_xphotos a) ->
         media_back (picture_full T) (picture_back T) picture_new (a_photo a) (a_xphotos a) (a_photo b) (a_xphotos b)) /\
      (Forall (fun s => sound_safe s /\ so_intern s = false) (a_sound a :: a_xsounds a) ->
         media_back sound_full sound_back sound_new (a_sound a) (a_xsounds a) (a_sound b) (a_xsounds b)) /\
      (Forall (fun k => key_safe k /\ ke_isbin k = false) (a_keys a) -> Forall2 key_back (filter key_full (a_keys a)) (a_keys b))) l res.
Proof.
  intros T E export l res Hf Hr HT. apply (trip_each E T V21 export l res _ Hf Hr). intros a b Ha Hab. split; [|split]; intros Hs.
  - apply (field_photos E T V21 export a b Ha Hab); [discriminate|]. eapply Forall_impl; [|exact Hs]. intros p Hp. split; [apply Hp|intros _; apply Hp].
  - apply (field_sounds E T V21 export a b Ha Hab); [discriminate|]. eapply Forall_impl; [|exact Hs]. intros p Hp. split; [apply Hp|intros _; apply Hp].
  - apply (field_keys E T V21 export a b Ha Hab HT); [discriminate|]. eapply Forall_impl; [|exact Hs]. intros p Hp. split; [apply Hp|intros _; apply Hp].
Qed.
Print Assumptions C37_links21.
(** an embedded picture in version 2.1 *)
Theorem C37_version21_refuted :
  forall E : Ext, exists a b, fits exT V21 a /\ picture_safe (a_photo a) /\ round_trip exT E V21 false [a] [b] /\
    pi_intern (a_photo a) = true /\ pi_raw (a_photo b) <> pi_raw (a_photo a).
Proof.
  intros E. set (a := put_photo (mkPicture [] (B "jpeg") None [200; 10; 65]%N true) (addressee_new (B "u"))).
  assert (Hf : fits exT V21 a) by (apply fits_spec; vm_compute; reflexivity). exists a. eexists.
  split; [exact Hf|]. split; [split; [discriminate|apply BaseFacts.mem_false; reflexivity]|].
  split; [apply trip_at; [constructor; [exact Hf|constructor]|cbv; reflexivity]|]. split; [reflexivity|]. cbv. discriminate.
Qed.
Print Assumptions C37_version21_refuted.
(** an embedded picture in version 4.0 whose type is longer than png *)
Theorem C37_version40_refuted :
  forall E : Ext, exists a b, fits exT V40 a /\ picture_safe (a_photo a) /\ round_trip exT E V40 false [a] [b] /\
    pi_intern (a_photo a) = true /\ pi_raw (a_photo b) <> pi_raw (a_photo a) /\ pi_type (a_photo b) <> pi_type (a_photo a).
Proof.
  intros E. set (a := put_photo (mkPicture [] (B "svg+xml") None [1; 2; 3; 4; 5; 6]%N true) (addressee_new (B "u"))).
  assert (Hf : fits exT V40 a) by (apply fits_spec; vm_compute; reflexivity). exists a. eexists.
  split; [exact Hf|]. split; [split; [discriminate|apply BaseFacts.mem_false; reflexivity]|].
  split; [apply trip_at; [constructor; [exact Hf|constructor]|cbv; reflexivity]|]. split; [reflexivity|]. split; cbv; discriminate.
Qed.
Print Assumptions C37_version40_refuted.
(** reading a short embedded picture has no defined behaviour *)
Theorem C37_short_data_refuted :
  exists text : bytes, forall (T : Tool) (E : Ext), parse_text T E 10 text = Undefined.
Proof.
  exists (B "BEGIN:VCARD" ++ [10%N] ++ B "PHOTO:data:a;base64," ++ [10%N] ++ B "END:VCARD" ++ [10%N]). intros T E. cbv. reflexivity.
Qed.
Print Assumptions C37_short_data_refuted.
Example C37_case : let a := ex_contact in
  Forall picture_safe (a_photo a :: a_xphotos a) /\ picture_full exT (a_photo a) = true /\ Forall sound_safe (a_sound a :: a_xsounds a) /\ sound_full (a_sound a) = true /\
  Forall key_safe (a_keys a) /\ filter key_full (a_keys a) = [ex_key].
Proof.
  cbv zeta. split; [constructor; [|constructor]; split; [discriminate|apply BaseFacts.mem_false; reflexivity]|]. split; [reflexivity|].
  split; [constructor; [|constructor]; intros H; discriminate|]. split; [reflexivity|]. split; [|reflexivity].
  constructor; [|constructor]. split; [discriminate|]. intros _. split; [discriminate|]. split; [apply BaseFacts.mem_false; reflexivity|]. cbv. intuition discriminate.
Qed.

(** ** C38: secrecy, gender, version *)
Theorem C38_secrecy :
  forall (T : Tool) (E : Ext) (export : bool) (l res : list addressee), Forall (fits T V30) l -> round_trip T E V30 export l res ->
    Forall2 (fun a b => a_secrecy b = a_secrecy a) l res.
Proof. intros T E export l res Hf Hr. apply (trip_each E T V30 export l res _ Hf Hr). intros a b Ha Hab. exact (field_secrecy E T export a b Ha Hab). Qed.
Print Assumptions C38_secrecy.
Theorem C38_gender :
  forall (T : Tool) (E : Ext) (export : bool) (l res : list addressee), Forall (fits T V40) l -> round_trip T E V40 export l res ->
    Forall2 (fun a b => (length (ge_gender (a_gender a)) <= 1)%nat -> ge_gender (a_gender a) <> [cSEMI] ->
      text_safe (ge_gender (a_gender a)) -> text_safe (ge_comment (a_gender a)) -> a_gender b = a_gender a) l res.
Proof. intros T E export l res Hf Hr. apply (trip_each E T V40 export l res _ Hf Hr). intros a b Ha Hab. exact (field_gender E T export a b Ha Hab). Qed.
Print Assumptions C38_gender.
Theorem C38_version :
  forall (T : Tool) (E : Ext) (v : version) (export : bool) (l : list addressee), Forall (fits T v) l ->
    exists cards, parses_to E (create_text T E v export l) cards /\ length cards = length l /\ Forall (fun c => card_version c = Some v) cards.
Proof. intros T E v export l. exact (trip_version E T v export l). Qed.
Print Assumptions C38_version.
(** a sex component of more than one letter *)
Theorem C38_long_gender_refuted :
  forall E : Ext, exists a b, fits exT V40 a /\ round_trip exT E V40 false [a] [b] /\ a_gender a = mkGender (B "female") [] /\ a_gender b = mkGender (B "f") [].
Proof.
  intros E. set (a := put_gender (mkGender (B "female") []) (addressee_new (B "u"))).
  assert (Hf : fits exT V40 a) by (apply fits_spec; vm_compute; reflexivity). exists a. eexists.
  split; [exact Hf|]. split; [apply trip_at; [constructor; [exact Hf|constructor]|cbv; reflexivity]|]. split; reflexivity.
Qed.
Print Assumptions C38_long_gender_refuted.
Example C38_case : let a := put_gender (mkGender (B "F") (B "a, b;c\")) (addressee_new (B "u")) in
  fits exT V40 a /\ text_safe (ge_comment (a_gender a)) /\ a_secrecy ex_contact = SConfidential.
Proof. cbv zeta. split; [apply fits_spec; vm_compute; reflexivity|]. split; [apply text_safe_spec; reflexivity|reflexivity]. Qed.

(** ** C39: custom fields *)
Theorem C39_customs :
  forall (T : Tool) (E : Ext) (v : version) (export : bool) (l res : list addressee), Forall (fits T v) l -> round_trip T E v export l res ->
    Forall2 (fun a b => special_free v a -> increasing (map fst (a_customs a)) ->
      Forall (fun e => text_safe (snd e) /\ (is_messaging e = true \/ custom_name (fst e))) (a_customs a) ->
      a_customs b = filter (fun e => negb (isnil (snd e)) && negb (is_messaging e)) (a_customs a)) l res.
Proof.
  intros T E v export l res Hf Hr. apply (trip_each E T v export l res _ Hf Hr). intros a b Ha Hab Hsp Hinc Hs. exact (field_customs E T v export a b Ha Hab Hsp Hinc Hs).
Qed.
Print Assumptions C39_customs.
(** messaging fields become messaging addresses, behind the existing ones *)
Theorem C39_messaging :
  forall (T : Tool) (E : Ext) (v : version) (export : bool) (l res : list addressee), Forall (fits T v) l -> round_trip T E v export l res -> paths_replace T ->
    Forall2 (fun a b => special_free v a ->
      Forall (fun e => text_safe (snd e) /\ (is_messaging e = true -> exists s, messaging_name (fst e) s) /\ (is_messaging e = false -> custom_name (fst e))) (a_customs a) ->
      Forall (fun i => text_safe (im_address i) /\ impp_valid (env_url (t_env T)) i = true /\ url_parse (env_url (t_env T)) (im_address i) = im_address i) (a_impps a) ->
      exists news, a_impps b = map impp_written (a_impps a) ++ concat news /\
        exists es, Permutation es (filter is_messaging (filter (fun e => negb (isnil (snd e))) (a_customs a))) /\
          Forall2 (fun e us => exists s, messaging_name (fst e) s /\ us = messaging_urls T s (snd e)) es news) l res.
Proof.
  intros T E v export l res Hf Hr HT. apply (trip_each E T v export l res _ Hf Hr). intros a b Ha Hab Hsp Hs Hi. exact (field_impps E T v export a b Ha Hab Hsp HT Hs Hi).
Qed.
Print Assumptions C39_messaging.
(** a name without dash comes back doubled: X-FOO is read as FOO-FOO *)
Theorem C39_no_dash_refuted :
  forall E : Ext, exists a b, fits exT V30 a /\ round_trip exT E V30 false [a] [b] /\ a_customs a = [(B "FOO", B "v")] /\ a_customs b = [(B "FOO-FOO", B "v")].
Proof.
  intros E. set (a := put_customs [(B "FOO", B "v")] (addressee_new (B "u"))).
  assert (Hf : fits exT V30 a) by (apply fits_spec; vm_compute; reflexivity). exists a. eexists.
  split; [exact Hf|]. split; [apply trip_at; [constructor; [exact Hf|constructor]|cbv; reflexivity]|]. split; reflexivity.
Qed.
Print Assumptions C39_no_dash_refuted.
Lemma custom_name_b app name : mem 45%N app = false -> app <> [] -> name <> [] -> starts_with (B "messaging/") (app ++ [45%N] ++ name) = false ->
  forallb (fun e => negb (leqb (fst e) (to_lower (B "X-" ++ app ++ [45%N] ++ name))) || leqb (snd e) (B "X-" ++ app ++ [45%N] ++ name)) import_names = true ->
  custom_name (app ++ [45%N] ++ name).
Proof.
  intros H1 H2 H3 H4 H5. split; [exists app, name; split; [reflexivity|]; split; [exact H2|]; split; [exact H3|apply BaseFacts.mem_false; exact H1]|]. split; [exact H4|].
  intros s Hs. rewrite forallb_forall in H5. specialize (H5 _ Hs). cbn [fst snd] in H5. apply orb_true_iff in H5 as [H5|H5].
  - apply negb_true_iff in H5. rewrite BaseFacts.leqb_refl in H5. discriminate.
  - apply BaseFacts.leqb_eq in H5. exact H5.
Qed.
Lemma ex_customs : Forall (fun e => text_safe (snd e) /\ snd e <> [] /\ custom_name (fst e)) (a_customs ex_contact2).
Proof.
  constructor; [|constructor; [|constructor]]; (split; [apply text_safe_spec; reflexivity|split; [discriminate|]]).
  - apply (custom_name_b (B "KADDRESSBOOK") (B "BlogFeed")); vm_compute; congruence.
  - apply (custom_name_b (B "MyApp") (B "Color")); vm_compute; congruence.
Qed.
Example C39_case : let a := ex_contact in
  increasing (map fst (a_customs a)) /\ Forall (fun e => text_safe (snd e) /\ (is_messaging e = true \/ custom_name (fst e))) (a_customs a) /\
  messaging_name (B "messaging/aim-All") (B "aim") /\ paths_replace exT /\
  map im_address (messaging_urls exT (B "aim") (B "joe" ++ [57344%N] ++ B "jim")) = [B "aim:joe"; B "aim:jim"].
Proof.
  cbv zeta. split; [apply increasing_b_spec; reflexivity|]. split.
  { pose proof ex_customs as H. inversion_clear H as [|? ? H1 H2]. inversion_clear H2 as [|? ? H3 _]. constructor; [split; [apply H1|right; apply H1]|]. constructor; [split; [apply H3|right; apply H3]|].
    constructor; [|constructor]. split; [apply text_safe_spec; reflexivity|left; reflexivity]. }
  split; [exists (B "All"); split; [reflexivity|apply BaseFacts.mem_false; reflexivity]|]. split; [exact ex_paths|]. reflexivity.
Qed.

(** ** C44: whole contacts in version 3.0 *)
Theorem C44_whole_contact :
  forall (T : Tool) (E : Ext) (export : bool) (l : list addressee), Forall (fits T V30) l -> Forall (safe30 T) l -> fresh_ids T ->
    exists res, round_trip T E V30 export l res /\ Forall2 same30 l res.
Proof.
  intros T E export l Hf Hs HT. destruct (trip_exists E T V30 export l Hf) as (res & Hr & H2). exists res. split; [exact Hr|].
  rewrite Forall_forall in Hs, Hf. eapply Forall2_imp; [|exact H2]. intros a b Hin Hab. apply (whole30 E T export a b); auto.
Qed.
Print Assumptions C44_whole_contact.
Example C44_case : fits exT V30 ex_contact2 /\ safe30 exT ex_contact2.
Proof.
  pose proof ex_fits30 as Hf. inversion_clear Hf as [|? ? _ Hf']. inversion_clear Hf' as [|? ? Hf _]. split; [exact Hf|].
  constructor.
  all: repeat match goal with |- context [?f ex_contact2] => let x := eval vm_compute in (f ex_contact2) in let H := fresh in assert (H : f ex_contact2 = x) by (vm_cast_no_check (eq_refl x)); rewrite H; clear H end.
  - repeat (apply Forall_cons; [apply text_safe_spec; reflexivity|]). apply Forall_nil.
  - discriminate.
  - apply parts_b; reflexivity.
  - repeat (apply Forall_cons; [split; [apply text_safe_spec; reflexivity|discriminate]|]). apply Forall_nil.
  - repeat (apply Forall_cons; [split; [apply text_safe_spec; reflexivity|discriminate]|]). apply Forall_nil.
  - repeat (apply Forall_cons; [split; [apply text_safe_spec; reflexivity|discriminate]|]). apply Forall_nil.
  - split; [apply parts_b; reflexivity|discriminate].
  - repeat (apply Forall_cons; [split; [discriminate|split; [apply parts_b; reflexivity|cbv; intuition discriminate]]|]). apply Forall_nil.
  - discriminate.
  - right. exists (mkDate 1970 2 28). split; [reflexivity|]. split; [left; cbn; lia|reflexivity].
  - right. exists (mkDate 2024 2 29), (mkTime 23 59 58 0), TUtc. split; [reflexivity|]. split; [split; [left; cbn; lia|reflexivity]|]. split; [cbv; intuition discriminate|exact I].
  - reflexivity.
  - repeat (apply Forall_cons; [split; [apply text_safe_spec; reflexivity|split; [discriminate|split; reflexivity]]|]). apply Forall_nil.
  - split; [repeat (apply Forall_cons; [split; [apply text_safe_spec; reflexivity|discriminate]|]); apply Forall_nil|]. split.
    + repeat constructor; cbv; intuition discriminate.
    + repeat constructor.
  - repeat (apply Forall_cons; [split; [apply text_safe_spec; reflexivity|split; [reflexivity|split; [discriminate|split; [reflexivity|discriminate]]]]|]). apply Forall_nil.
  - split; [|exact ex_labels]. repeat (apply Forall_cons; [split; [apply parts_b; reflexivity|split; [reflexivity|split; [apply text_safe_spec; reflexivity|reflexivity]]]|]). apply Forall_nil.
  - split; [apply increasing_b_spec; reflexivity|exact ex_customs].
Qed.
