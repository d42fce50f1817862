(** Reading back the value classes and contacts. *)
From Verif Require Import Base BaseFacts M_ParamMap M_Values M_Date M_Addressee M_Stream S_Card S_Stream P_Assoc P_Addressee P_Values S_Addressee P_AddrEq P_Stream.
Local Open Scope list_scope.
Local Open Scope N_scope.

Lemma reads_end {A C} (r : reader A) (f : A -> C) w x y : reads r w x -> f x = y -> reads (bind r (fun z => ret (f z))) w y.
Proof. intros H <-. apply reads_last. exact H. Qed.
Lemma codec_reads {A} (w : A -> bytes) (r : reader A) x : codec w r -> reads r (w x) x.
Proof. intros (H1 & H2 & _). split; [apply H1|]. intros p q. apply H2. Qed.
Lemma codec_stays {A} (w : A -> bytes) (r : reader A) : codec w r -> stays_bad r.
Proof. intros (_ & _ & H). exact H. Qed.

Global Hint Resolve stays_ret stays_u32 stays_i32 stays_bool stays_bytes stays_string stays_list stays_pmap : stays.
Ltac stays := repeat first [progress intros | solve [eauto 2 with stays] | apply stays_bind].
Ltac step H := eapply reads_bind; [apply H; tauto| |intros; stays].
Ltac last_ H := eapply reads_end; [apply H; tauto|reflexivity].

Lemma stays_phone : stays_bad rd_phone. Proof. unfold rd_phone. stays. Qed.
Lemma reads_phone p : phone_ok p -> reads rd_phone (wr_phone p) p.
Proof.
  destruct p as [i n t m]. unfold phone_ok, flags_ok, wr_phone, rd_phone. cbn [ph_id ph_type ph_number ph_params]. intros H.
  step reads_string. step reads_u32. step reads_string. last_ reads_pmap.
Qed.
Lemma stays_email : stays_bad rd_email. Proof. unfold rd_email. stays. Qed.
Lemma reads_email e : email_ok e -> reads rd_email (wr_email e) e.
Proof. destruct e as [m s]. unfold email_ok, wr_email, rd_email. cbn [em_params em_mail]. intros H. step reads_pmap. last_ reads_string. Qed.
Lemma stays_ptext : stays_bad rd_ptext. Proof. unfold rd_ptext. stays. Qed.
Lemma reads_ptext e : ptext_ok e -> reads rd_ptext (wr_ptext e) e.
Proof. destruct e as [m s]. unfold ptext_ok, wr_ptext, rd_ptext. cbn [pt_params pt_text]. intros H. step reads_pmap. last_ reads_string. Qed.
Lemma reads_keytype t : reads rd_u32 (wr_u32 (keytype_num t)) (keytype_num t).
Proof. apply reads_u32. destruct t; reflexivity. Qed.
Lemma stays_key : stays_bad rd_key. Proof. unfold rd_key. stays. Qed.
Lemma reads_key k : key_ok k -> reads rd_key (wr_key k) k.
Proof.
  destruct k as [i b x c t ib]. unfold key_ok, wr_key, rd_key. cbn [ke_id ke_bin ke_text ke_custom ke_type ke_isbin]. intros H.
  step reads_string. eapply reads_bind; [apply reads_keytype| |intros; stays]. step reads_bool. step reads_bytes. step reads_string.
  eapply reads_end; [apply reads_string; tauto|]. destruct t; reflexivity.
Qed.
Lemma stays_sound : stays_bad rd_sound. Proof. unfold rd_sound. stays. Qed.
Lemma reads_sound s : sound_ok s -> reads rd_sound (wr_sound s) s.
Proof.
  destruct s as [u t d i]. unfold sound_ok, wr_sound, rd_sound. cbn [so_intern so_url so_data so_type]. intros H.
  step reads_bool. step reads_string. step reads_bytes. last_ reads_string.
Qed.
Lemma stays_tz : stays_bad rd_tz. Proof. unfold rd_tz. stays. Qed.
Lemma reads_tz z : tz_ok z -> reads rd_tz (wr_tz z) z.
Proof. destruct z as [o v]. unfold tz_ok, wr_tz, rd_tz. cbn [tz_offset tz_valid]. intros H. step reads_i32. last_ reads_bool. Qed.
Lemma stays_gender : stays_bad rd_gender. Proof. unfold rd_gender. stays. Qed.
Lemma reads_gender g : gender_ok g -> reads rd_gender (wr_gender g) g.
Proof. destruct g as [x c]. unfold gender_ok, wr_gender, rd_gender. cbn [ge_gender ge_comment]. intros H. step reads_string. last_ reads_string. Qed.
Lemma stays_secrecy : stays_bad rd_secrecy. Proof. unfold rd_secrecy. stays. Qed.
Lemma reads_secrecy s : reads rd_secrecy (wr_secrecy s) s.
Proof.
  unfold wr_secrecy, rd_secrecy. eapply reads_end; [apply reads_u32; destruct s; reflexivity|]. destruct s; reflexivity.
Qed.
Lemma stays_fgroup : stays_bad rd_fgroup. Proof. unfold rd_fgroup. stays. Qed.
Lemma reads_fgroup f : fgroup_ok f -> reads rd_fgroup (wr_fgroup f) f.
Proof.
  destruct f as [m n v]. unfold fgroup_ok, wr_fgroup, rd_fgroup. cbn [fg_params fg_name fg_value]. intros H.
  step reads_pmap. step reads_string. last_ reads_string.
Qed.

(** URLs *)
Lemma stays_url U : stays_bad (rd_url U). Proof. unfold rd_url. stays. Qed.
Lemma reads_url U E u : sane_stream U E -> url_ok U E u -> reads (rd_url U) (wr_url U E u) u.
Proof.
  intros S [[H1 H2]|[H1 ->]]; unfold rd_url, wr_url; rewrite H1; (eapply reads_end; [apply reads_bytes|]).
  - exact H2.
  - apply (ss_url _ _ S). exact H1.
  - unfold data_ok. cbn. lia.
  - apply (ss_url_empty _ _ S).
Qed.
Global Hint Resolve stays_url : stays.
Lemma stays_calurl U : stays_bad (rd_calurl U). Proof. unfold rd_calurl. stays. Qed.
Lemma reads_calurl U E c : sane_stream U E -> calurl_ok U E c -> reads (rd_calurl U) (wr_calurl U E c) c.
Proof.
  intros S. destruct c as [m t u]. unfold calurl_ok, wr_calurl, rd_calurl. cbn [cu_params cu_type cu_url]. intros H.
  step reads_pmap. eapply reads_bind; [apply (reads_u32 (caltype_num t)); destruct t; reflexivity| |intros; stays].
  eapply reads_end; [apply reads_url; tauto|]. destruct t; reflexivity.
Qed.
Lemma stays_rurl U : stays_bad (rd_rurl U). Proof. unfold rd_rurl. stays. Qed.
Lemma reads_rurl U E r : sane_stream U E -> rurl_ok U E r -> reads (rd_rurl U) (wr_rurl U E r) r.
Proof.
  intros S. destruct r as [m u]. unfold rurl_ok, wr_rurl, rd_rurl. cbn [ru_params ru_url]. intros H.
  step reads_pmap. last_ reads_url.
Qed.
Lemma stays_impp U : stays_bad (rd_impp U). Proof. unfold rd_impp. stays. Qed.
Lemma reads_impp U E i : sane_stream U E -> impp_ok U E i -> reads (rd_impp U) (wr_impp U E i) i.
Proof.
  intros S. destruct i as [m u]. unfold impp_ok, wr_impp, rd_impp. cbn [im_params im_address]. intros H.
  step reads_pmap. step reads_url. eapply reads_end; [|reflexivity]. change (wr_u32 0) with (wr_i32 0). apply reads_i32. lia.
Qed.

(** geo, address, picture *)
Lemma stays_geo U E : sane_stream U E -> stays_bad (rd_geo E).
Proof. intros S. pose proof (codec_stays _ _ (ss_flt _ _ S)). unfold rd_geo. stays. Qed.
Lemma reads_geo U E g : sane_stream U E -> reads (rd_geo E) (wr_geo E g) g.
Proof.
  intros S. pose proof (codec_stays _ _ (ss_flt _ _ S)). pose proof (fun x => codec_reads _ _ x (ss_flt _ _ S)) as F.
  destruct g as [a o va vo]. unfold wr_geo, rd_geo. cbn [g_lat g_lon g_vlat g_vlon].
  step F. step reads_bool. step F. last_ reads_bool.
Qed.
Lemma stays_address U E : sane_stream U E -> stays_bad (rd_address E).
Proof. intros S. pose proof (stays_geo _ _ S). unfold rd_address. stays. Qed.
Lemma reads_address U E a : sane_stream U E -> address_ok a -> reads (rd_address E) (wr_address E a) a.
Proof.
  intros S. pose proof (stays_geo _ _ S). destruct a as [em i t g po ex st lo re pc co la].
  unfold address_ok, flags_ok, wr_address, rd_address. cbn [ad_empty ad_id ad_type ad_geo ad_pobox ad_extended ad_street ad_locality ad_region ad_postal ad_country ad_label].
  intros (H1 & H2 & H3). repeat match goal with H : Forall _ (_ :: _) |- _ => inversion H; clear H; subst end.
  step reads_string. step reads_u32. do 8 (step reads_string). step reads_bool.
  eapply reads_end; [apply (reads_geo U E); exact S|reflexivity].
Qed.
Lemma stays_picture U E o : sane_stream U E -> stays_bad (rd_picture E o).
Proof. intros S. pose proof (codec_stays _ _ (ss_img _ _ S)). unfold rd_picture. stays. Qed.
Lemma reads_picture U I E o p : sane_stream U E -> picture_ok p -> reads (rd_picture E o) (wr_picture I E p) (picture_back I o p).
Proof.
  intros S. pose proof (codec_stays _ _ (ss_img _ _ S)). pose proof (fun x => codec_reads _ _ x (ss_img _ _ S)) as F.
  unfold picture_ok, picture_back, wr_picture, rd_picture. intros H0.
  step reads_bool. step reads_string. step reads_string. last_ F.
Qed.

(** contacts *)
Definition back (V : Env) (old a : addressee) : addressee :=
  set_customs (customs_of a)
    (mkAddressee (a_uid a) (a_name a) (a_formatted a) (a_family a) (a_given a) (a_additional a) (a_prefix a) (a_suffix a)
       (a_birthday a) (a_mailer a) (a_tz a) (a_geo a) (a_department a) (a_note a) (a_prodid a) (a_revision a) (a_sortstring a)
       (a_secrecy a) (picture_back (env_img V) (a_logo old) (a_logo a)) (picture_back (env_img V) (a_photo old) (a_photo a)) (a_sound a)
       (a_deathdate a) (a_phones a) (a_addresses a) (a_keys a) (a_emails a) (a_langs a) (a_impps a) (a_gender a) (a_kind a)
       (a_categories a) [] (a_calurls a) (a_xsounds a) (map (picture_back (env_img V) picture_new) (a_xphotos a))
       (map (picture_back (env_img V) picture_new) (a_xlogos a)) (a_urls a) (a_sources a) (a_members a) (a_related a) (a_fgroups a)
       (a_titles a) (a_roles a) (a_orgs a) (a_nicks a) (a_pidmaps a) false (a_changed old) (a_bdaytime a)).

Global Hint Resolve stays_phone stays_email stays_ptext stays_key stays_sound stays_tz stays_gender stays_secrecy stays_fgroup
  stays_calurl stays_rurl stays_impp : stays.

Lemma stays_addressee V E o : sane_stream (env_url V) E -> stays_bad (rd_addressee V E o).
Proof.
  intros S. pose proof (stays_geo _ _ S). pose proof (fun p => stays_picture _ _ p S). pose proof (codec_stays _ _ (ss_dt _ _ S)).
  unfold rd_addressee. stays.
Qed.
Ltac list_ L P := eapply reads_bind; [apply (reads_list _ _ P); [intros; apply L; assumption|assumption]| |intros; stays].

Lemma reads_addressee V E o a : sane_stream (env_url V) E -> streamable V E a ->
  reads (rd_addressee V E o) (wr_addressee V E a) (back V o a).
Proof.
  intros S H. pose proof (stays_geo _ _ S). pose proof (fun p => stays_picture _ _ p S). pose proof (codec_stays _ _ (ss_dt _ _ S)).
  pose proof (fun x => codec_reads _ _ x (ss_dt _ _ S)) as D.
  destruct H as [Ht Hz [Hp1 Hp2] Hs Hg Hph Had Hem Hke Him Hca Hxs Hxp Hxl Hur Hso Hct Hme Hpt Hfg Hcu Hsr Hnm].
  repeat match goal with H : Forall _ (_ :: _) |- _ => inversion H; clear H; subst end.
  unfold wr_addressee, rd_addressee. cbv zeta.
  do 8 (step reads_string). step D. step reads_bool. step reads_string. step reads_tz.
  eapply reads_bind; [apply (reads_geo (env_url V) E); exact S| |intros; stays].
  do 3 (step reads_string). step D. step reads_string. step reads_secrecy.
  eapply reads_bind; [apply (reads_picture (env_url V) (env_img V) E); [exact S|assumption]| |intros; stays].
  eapply reads_bind; [apply (reads_picture (env_url V) (env_img V) E); [exact S|assumption]| |intros; stays].
  step reads_sound.
  list_ reads_phone phone_ok.
  eapply reads_bind; [apply (reads_list _ _ address_ok); [intros; apply (reads_address (env_url V)); assumption|assumption]| |intros; stays].
  list_ reads_email email_ok. list_ reads_string str_ok. list_ reads_string str_ok. list_ reads_key key_ok. list_ reads_ptext ptext_ok.
  step reads_gender. step reads_string.
  list_ (reads_calurl (env_url V) E) (calurl_ok (env_url V) E).
  list_ reads_sound sound_ok.
  do 2 (eapply reads_bind; [apply (reads_list_map _ _ (picture_back (env_img V) picture_new) picture_ok); [intros; apply (reads_picture (env_url V)); assumption|assumption]| |intros; stays]).
  list_ (reads_rurl (env_url V) E) (rurl_ok (env_url V) E).
  list_ reads_string str_ok. list_ reads_ptext ptext_ok.
  list_ (reads_url (env_url V) E) (url_ok (env_url V) E).
  list_ (reads_impp (env_url V) E) (impp_ok (env_url V) E).
  list_ reads_fgroup fgroup_ok.
  do 5 (list_ reads_ptext ptext_ok).
  eapply reads_end; [apply D|reflexivity].
Qed.

Lemma back_streamed V E o a : streamable V E a -> streamed V o a (back V o a).
Proof.
  intros H. pose proof (set_customs_customs a) as C.
  constructor; try reflexivity. unfold back. apply C; [exact (st_sorted _ _ _ H)|exact (st_names _ _ _ H)].
Qed.

(** ** The contact read is equal to the one written *)
Lemma picture_back_eq I o p : has_image I p -> pi_raw o = [] ->
  picture_eq I p (picture_back I o p) = true /\ picture_eq I (picture_back I o p) p = true.
Proof.
  intros H Ho. unfold has_image in H. unfold picture_eq, picture_back. cbn [pi_intern pi_type pi_data pi_raw pi_url].
  rewrite eqb_reflx, !leqb_refl, Ho. cbn [andb isnil negb]. destruct (pi_intern p); [|auto]. specialize (H eq_refl).
  unfold pi_data_of in *. cbn [pi_intern pi_type pi_data pi_raw pi_url]. destruct (pi_data p) as [d|] eqn:Ed.
  - cbn. rewrite leqb_refl. auto.
  - destruct (isnil (pi_raw p)); [congruence|]. destruct (img_load I (pi_raw p)) as [d|]; [|congruence].
    cbn. rewrite leqb_refl. auto.
Qed.
Lemma pictures_back_eq I l : Forall (has_image I) l ->
  list_equals (picture_eq I) l (map (picture_back I picture_new) l) = true.
Proof.
  intros H. unfold list_equals. rewrite map_length, Nat.eqb_refl. cbn [andb]. apply forallb_forall. intros x Hx.
  apply existsb_exists. exists (picture_back I picture_new x). split; [apply in_map; auto|].
  rewrite Forall_forall in H. apply (picture_back_eq I picture_new x (H x Hx) eq_refl).
Qed.
Lemma streamed_equal V old a b : streamed V old a b ->
  Forall (has_image (env_img V)) (a_logo a :: a_photo a :: a_xphotos a ++ a_xlogos a) ->
  pi_raw (a_logo old) = [] -> pi_raw (a_photo old) = [] ->
  proper_geo (a_geo a) -> Forall (fun x => proper_geo (ad_geo x)) (a_addresses a) ->
  addressee_eq V a b = true.
Proof.
  intros H HP Hl Hp H5 H6. inversion HP as [|? ? P1 HP1]; subst. inversion HP1 as [|? ? P2 HP2]; subst. apply Forall_app in HP2 as [P3 P4].
  destruct H. unfold addressee_eq.
  repeat match goal with E : _ b = _ |- _ => rewrite E; clear E end.
  rewrite !leqb_refl, !dt_eq_refl, eqb_reflx.
  rewrite (proj1 (picture_back_eq (env_img V) (a_logo old) _ P1 Hl)), (proj1 (picture_back_eq (env_img V) (a_photo old) _ P2 Hp)).
  rewrite !pictures_back_eq by auto.
  rewrite (refl_one _ _ tz_equiv), (refl_one _ _ secrecy_equiv), (refl_one _ _ sound_equiv), (refl_one _ _ gender_equiv).
  rewrite (geo_eq_refl _ H5).
  rewrite !(refl_all _ _ phone_equiv), !(refl_all _ _ key_equiv), !(refl_all _ _ email_equiv), !(refl_all _ _ text_equiv),
    !(refl_all' _ _ custom_equiv), !(refl_all' _ _ ptext_equiv), !(refl_all' _ _ impp_equiv), !(refl_all _ _ calurl_equiv),
    !(refl_all _ _ sound_equiv), !(refl_all _ _ rurl_equiv), !(refl_all _ _ ptext_equiv), !(refl_all _ _ fgroup_equiv).
  rewrite (list_equals_refl_on address_eq (a_addresses a)); auto.
  revert H6. apply Forall_impl. intros x. apply address_eq_refl.
Qed.

(** lists of contacts *)
Lemma streamed_list V E uid l : sane_stream (env_url V) E -> list_ok (streamable V E) l ->
  exists l', reads (rd_contacts V E uid) (wr_contacts V E l) l' /\ Forall2 (streamed V (addressee_new uid)) l l'.
Proof.
  intros S H. exists (map (back V (addressee_new uid)) l). split.
  - apply (reads_list_map _ _ _ (streamable V E)); auto. intros x Hx. apply reads_addressee; auto.
  - destruct H as [H _]. induction H as [|x l Hx _ IH]; cbn; constructor; auto. apply (back_streamed V E). exact Hx.
Qed.
