(** C31, C34, C35, C43, C45: the value classes. *)
From Coq Require Import QArith.
From Verif Require Import Base QtText M_ParamMap M_Values S_Values P_Values P_AddrEq.
Local Open Scope list_scope.
Local Open Scope nat_scope.

(** C31.  [normalizedNumber()]: the result consists of digits, except that the first
    character may be a plus sign; it has exactly the digits of the number, in order;
    a text of that form is not changed (so normalising is idempotent).  The digit
    predicate is arbitrary. *)
Theorem C31_only_digits :
  forall (isDigit : N -> bool) (number : ustring), dialable isDigit (normalized isDigit number).
Proof. exact normalized_dialable. Qed.
Print Assumptions C31_only_digits.
Theorem C31_same_digits :
  forall (isDigit : N -> bool) (number : ustring),
    filter isDigit (normalized isDigit number) = filter isDigit number.
Proof. exact normalized_digits. Qed.
Print Assumptions C31_same_digits.
Theorem C31_fixed_points :
  forall (isDigit : N -> bool) (number : ustring),
    dialable isDigit number -> normalized isDigit number = number.
Proof. exact dialable_normal. Qed.
Print Assumptions C31_fixed_points.
Theorem C31_idempotent :
  forall (isDigit : N -> bool) (number : ustring),
    normalized isDigit (normalized isDigit number) = normalized isDigit number.
Proof. intros d s. apply dialable_normal, normalized_dialable. Qed.
Print Assumptions C31_idempotent.
(** a plus sign is kept exactly if no digit and no other plus sign precedes it *)
Theorem C31_plus :
  forall (isDigit : N -> bool) (before after : ustring),
    Forall (fun c => isDigit c = false /\ c <> 43%N) before ->
    normalized isDigit (before ++ 43%N :: after) = 43%N :: filter isDigit after.
Proof.
  intros d b a H. rewrite normalized_spec. induction H as [|c b [H1 H2] _ IH]; cbn.
  - rewrite orb_true_r. auto.
  - rewrite H1. apply N.eqb_neq in H2. rewrite H2. cbn. exact IH.
Qed.
Print Assumptions C31_plus.
Example C31_case : normalized is_digit (B " (+49) 30/12+3-45") = B "+493012345".
Proof. vm_compute. auto. Qed.

(** C34.  An e-mail on which only [setType] (with the flags Home, Work, Other) and
    [setPreferred] have been called, in any order and number: [type()] is the last
    type set and [isPreferred()] the last preference set. *)
Theorem C34_last_set_is_read :
  forall (mail : ustring) (ops : list pm_op),
    Forall (fun o => match o with PType t => (t < 8)%N | PPref _ => True end) ops ->
    let e := mkEmail (fold_left do_pm ops []) mail in
    email_type e = last_type ops 0%N /\ email_preferred e = last_pref ops false.
Proof. intros mail ops H. exact (run_pm_ok ops [] api_new H). Qed.
Print Assumptions C34_last_set_is_read.
(** For arbitrary parameters (for example read from a vCard) the exact conditions. *)
Theorem C34_type_iff :
  forall (e : email) (t : N), (t < 8)%N ->
    (email_type (email_set_type t e) = t <-> removable_types t (em_params e)).
Proof.
  intros e t H. unfold email_type, email_set_type. cbn [em_params].
  rewrite (pm_set_type_type _ _ email_tab_ok t _ (email_bits t H)).
  unfold removable_types. split; intros K s; [intros Hs n f Hi Hu Hl|intros n f Hs Hi Hu Hl]; eauto.
Qed.
Print Assumptions C34_type_iff.
Theorem C34_preferred_iff :
  forall (e : email) (p : bool), names_distinct (em_params e) ->
    (email_preferred (email_set_preferred p e) = p <->
     email_preferred e = p \/ (p = true /\ find_param (B "pref") (em_params e) = None)
     \/ (p = false /\ pref_in_capitals (em_params e))).
Proof. intros e p H. exact (set_preferred_iff p (em_params e) H). Qed.
Print Assumptions C34_preferred_iff.
(** Setting one leaves the other as it is, for all parameters. *)
Theorem C34_independent :
  forall (e : email) (t : N) (p : bool), names_distinct (em_params e) ->
    email_preferred (email_set_type t e) = email_preferred e /\
    email_type (email_set_preferred p e) = email_type e.
Proof.
  intros e t p H. split.
  - apply (set_type_preferred to_upper email_type_names); [exact email_tab_ok|].
    cbn. intros n f [X|[X|[X|[]]]]; injection X as <- <-; discriminate.
  - apply set_preferred_type; [exact email_tab_ok|reflexivity| |exact H].
    cbn. intros [X|[X|[X|[]]]]; discriminate.
Qed.
Print Assumptions C34_independent.
(** The unconditional claim is false: EMAIL;TYPE=home and EMAIL;PREF=2. *)
Theorem C34_unconditional_refuted :
  (exists e, email_type (email_set_type 0 e) <> 0%N) /\
  (exists e, email_preferred (email_set_preferred true e) = false) /\
  (exists e, email_preferred (email_set_preferred false e) = true).
Proof.
  repeat split.
  - exists (mkEmail [(B "type", [B "home"])] (B "a@b")). vm_compute. discriminate.
  - exists (mkEmail [(B "pref", [B "2"])] (B "a@b")). vm_compute. reflexivity.
  - exists (mkEmail [(B "type", [B "pref"])] (B "a@b")). vm_compute. reflexivity.
Qed.
Print Assumptions C34_unconditional_refuted.
Example C34_case :
  let e := mkEmail (fold_left do_pm [PType 3; PPref true; PType 4] []) (B "a@b") in
  em_params e = [(B "type", [B "PREF"; B "OTHER"])] /\ email_type e = 4%N /\ email_preferred e = true.
Proof. vm_compute. auto. Qed.
Example C34_conditions_case :
  let m := [(B "type", [B "HOME"; B "x"; B "PREF"])] in
  names_distinct m /\ removable_types 2 m /\ pref_in_capitals m.
Proof.
  repeat split.
  - repeat constructor. intros [].
  - intros s Hs n f [E|[E|[E|[]]]]; injection E as <- <-; cbn in Hs; destruct Hs as [<-|[<-|[<-|[]]]]; vm_compute; congruence.
  - intros s Hs. cbn in Hs. destruct Hs as [<-|[<-|[<-|[]]]]; vm_compute; congruence.
Qed.

(** C35.  The same for the URL class, where no condition on the type values is
    needed because names are compared with case, and for the messaging class. *)
Theorem C35_url_type :
  forall (r : rurl) (t : N), (t < 128)%N -> rurl_type (rurl_set_type t r) = t.
Proof.
  intros r t H. unfold rurl_type, rurl_set_type. cbn [ru_params].
  apply (pm_set_type_type _ _ url_tab_ok t _ (url_bits t H)). auto.
Qed.
Print Assumptions C35_url_type.
Theorem C35_url_preferred_iff :
  forall (r : rurl) (p : bool), names_distinct (ru_params r) ->
    (rurl_preferred (rurl_set_preferred p r) = p <->
     rurl_preferred r = p \/ (p = true /\ find_param (B "pref") (ru_params r) = None)
     \/ (p = false /\ pref_in_capitals (ru_params r))).
Proof. intros r p H. exact (set_preferred_iff p (ru_params r) H). Qed.
Print Assumptions C35_url_preferred_iff.
Theorem C35_messaging_preferred :
  forall (i : impp) (p : bool), names_distinct (im_params i) ->
    impp_preferred (impp_set_preferred p i) = p.
Proof. intros i p H. exact (impp_set_preferred_pref p i H). Qed.
Print Assumptions C35_messaging_preferred.
Theorem C35_other_parameters :
  forall (r : rurl) (t : N) (i : impp) (p : bool) (name : ustring), names_distinct (im_params i) ->
    (name <> B "type" -> find_param name (ru_params (rurl_set_type t r)) = find_param name (ru_params r)) /\
    (name <> B "pref" -> find_param name (im_params (impp_set_preferred p i)) = find_param name (im_params i)) /\
    ru_url (rurl_set_type t r) = ru_url r /\ im_address (impp_set_preferred p i) = im_address i.
Proof.
  intros r t i p name Hn. repeat split.
  - intros H. apply pm_set_type_other. exact H.
  - intros H. apply BaseFacts.leqb_neq in H. unfold impp_set_preferred. cbn [im_params]. destruct p; cbn [negb].
    + destruct (find_param kPREF (im_params i)) eqn:F; [rewrite find_update|rewrite find_insert by auto];
      change kPREF with (B "pref"); rewrite H; auto.
    + rewrite find_erase by auto. change kPREF with (B "pref"). rewrite H. auto.
Qed.
Print Assumptions C35_other_parameters.
Example C35_case :
  let r := mkRurl [(B "pref", [B "3"]); (B "type", [B "home"; B "FTP"; B "WORK"])] (B "http://x") in
  rurl_type r = 10%N /\ rurl_type (rurl_set_type 3 r) = 3%N /\
  ru_params (rurl_set_type 3 r) = [(B "pref", [B "3"]); (B "type", [B "home"; B "WORK"; B "HOME"])].
Proof. vm_compute. auto. Qed.
Example C35_messaging_case :
  let i := mkImpp [(B "pref", [B "3"]); (B "x", [B "y"])] (B "skype:a") in
  names_distinct (im_params i) /\ im_params (impp_set_preferred true i) = [(B "pref", [B "1"]); (B "x", [B "y"])].
Proof. split; [|vm_compute; auto]. nodup. Qed.

(** C43.  Any sequence of calls on a new position, with any numbers including NaN and
    the infinities: if the position is valid its coordinates are in range; a call of
    [setLatitude] with a number in range makes the latitude valid and equal to it, and
    with any other number makes the position invalid; equality of such positions is
    an equivalence. *)
Theorem C43_valid_in_range :
  forall (ops : list geo_op), let g := fold_left do_geo ops geo_new in
    geo_valid g = true -> in_range (g_lat g) (-90) 90 /\ in_range (g_lon g) (-180) 180.
Proof.
  intros ops g H. destruct (run_geo_ok ops geo_new geo_new_ok) as [H1 H2]. unfold geo_valid in H.
  apply andb_true_iff in H as [A1 A2]. auto.
Qed.
Print Assumptions C43_valid_in_range.
Theorem C43_setters :
  forall (g : geo) (v : flt),
    (in_range v (-90) 90 -> g_lat (geo_set_lat v g) = v /\ g_vlat (geo_set_lat v g) = true) /\
    (~ in_range v (-90) 90 -> geo_valid (geo_set_lat v g) = false) /\
    (in_range v (-180) 180 -> g_lon (geo_set_lon v g) = v /\ g_vlon (geo_set_lon v g) = true) /\
    (~ in_range v (-180) 180 -> geo_valid (geo_set_lon v g) = false) /\
    g_lon (geo_set_lat v g) = g_lon g /\ g_vlon (geo_set_lat v g) = g_vlon g /\
    g_lat (geo_set_lon v g) = g_lat g /\ g_vlat (geo_set_lon v g) = g_vlat g.
Proof.
  intros g v. pose proof (range_check v (-90) 90) as R1. pose proof (range_check v (-180) 180) as R2.
  unfold geo_set_lat, geo_set_lon, geo_valid.
  destruct (f_le (f_of_Z (-90)) v && f_le v (f_of_Z 90)); destruct (f_le (f_of_Z (-180)) v && f_le v (f_of_Z 180));
  cbn; rewrite ?andb_false_r; intuition congruence.
Qed.
Print Assumptions C43_setters.
Theorem C43_equality :
  equivalence_on (fun g => exists ops, g = fold_left do_geo ops geo_new) geo_eq.
Proof.
  repeat split.
  - intros g (ops & ->). apply geo_eq_refl, run_geo_ok, geo_new_ok.
  - apply geo_eq_sym.
  - intros x y z _. apply geo_eq_trans.
Qed.
Print Assumptions C43_equality.
Example C43_case :
  let g := fold_left do_geo [GLat (Fin (181 # 2)); GLon (Fin 13); GLat (Fin (105 # 2))] geo_new in
  geo_valid g = true /\ geo_valid (geo_set_lat NaN g) = false /\ in_range (Fin 13) (-180) 180.
Proof. repeat split; try reflexivity. exists 13%Q. repeat split; discriminate. Qed.

(** C45.  Equality is an equivalence relation. *)
Theorem C45_equivalences :
  equivalence key_eq /\ equivalence sound_eq /\ equivalence tz_eq /\ equivalence secrecy_eq /\
  equivalence gender_eq /\ equivalence ptext_eq /\ equivalence fgroup_eq /\ equivalence email_eq /\
  equivalence impp_eq /\ equivalence rurl_eq /\ equivalence calurl_eq /\ equivalence phone_eq.
Proof.
  exact (conj key_equiv (conj sound_equiv (conj tz_equiv (conj secrecy_equiv (conj gender_equiv (conj ptext_equiv
    (conj fgroup_equiv (conj email_equiv (conj impp_equiv (conj rurl_equiv (conj calurl_equiv phone_equiv))))))))))).
Qed.
Print Assumptions C45_equivalences.
(** Equal values have the same members. *)
Theorem C45_equal_means_same :
  (forall a b, gender_eq a b = true <-> a = b) /\ (forall a b, secrecy_eq a b = true <-> a = b) /\
  (forall a b, ptext_eq a b = true <-> a = b) /\ (forall a b, fgroup_eq a b = true <-> a = b) /\
  (forall a b, email_eq a b = true <-> a = b) /\ (forall a b, impp_eq a b = true <-> a = b) /\
  (forall a b, rurl_eq a b = true <-> a = b) /\ (forall a b, calurl_eq a b = true <-> a = b) /\
  (forall a b, phone_eq a b = true <-> a = b) /\
  (forall a b, tz_eq a b = true <-> tz_valid a = tz_valid b /\ (tz_valid a = true -> tz_offset a = tz_offset b)).
Proof.
  repeat (split; [first [exact gender_eq_eq | exact secrecy_eq_eq | exact ptext_eq_eq | exact fgroup_eq_eq | exact email_eq_eq
    | exact impp_eq_eq | exact rurl_eq_eq | exact calurl_eq_eq | exact phone_eq_eq]|]).
  intros a b. rewrite tz_eq_view. unfold tz_view. destruct (tz_valid a), (tz_valid b); intuition congruence.
Qed.
Print Assumptions C45_equal_means_same.
(** Keys and sounds: everything except the representation that is not in use. *)
Theorem C45_key_members :
  forall a b, key_eq a b = true <->
    ke_id a = ke_id b /\ ke_type a = ke_type b /\ ke_custom a = ke_custom b /\ ke_isbin a = ke_isbin b /\
    (ke_isbin a = true -> ke_bin a = ke_bin b) /\ (ke_isbin a = false -> ke_text a = ke_text b).
Proof.
  intros a b. rewrite key_eq_view. unfold key_view. split.
  - intros H. injection H as H1 H2 H3 H4 H5. rewrite <- H3 in H4. repeat split; auto; intros E; rewrite E in H4; auto.
  - intros (-> & -> & -> & E & H1 & H2). rewrite <- E. destruct (ke_isbin a); [rewrite H1|rewrite H2]; auto.
Qed.
Print Assumptions C45_key_members.
Theorem C45_sound_members :
  forall a b, sound_eq a b = true <->
    so_intern a = so_intern b /\ so_type a = so_type b /\
    (so_intern a = true -> so_data a = so_data b) /\ (so_intern a = false -> so_url a = so_url b).
Proof.
  intros a b. rewrite sound_eq_view. unfold sound_view. split.
  - intros H. injection H as H1 H2 H3. rewrite <- H1 in H3. repeat split; auto; intros E; rewrite E in H3; auto.
  - intros (E & -> & H1 & H2). rewrite <- E. destruct (so_intern a); [rewrite H1|rewrite H2]; auto.
Qed.
Print Assumptions C45_sound_members.
(** "Equal keys are observably equal" is false: after [setTextData] and then
    [setBinaryData] the text remains readable and is not compared. *)
Theorem C45_observable_refuted :
  exists a b, key_eq a b = true /\ ke_text a <> ke_text b.
Proof.
  exists (ke_set_bin [1%N] (key_of (B "k") (B "x") KPGP)), (ke_set_bin [1%N] (key_of (B "k") (B "y") KPGP)).
  split; [reflexivity|discriminate].
Qed.
Print Assumptions C45_observable_refuted.
(** Pictures: symmetric; reflexive exactly if an embedded picture has data. *)
Theorem C45_picture_symmetric : forall I a b, picture_eq I a b = picture_eq I b a.
Proof. exact picture_eq_sym. Qed.
Print Assumptions C45_picture_symmetric.
Theorem C45_picture_reflexive_iff :
  forall I p, picture_eq I p p = true <-> (pi_intern p = true -> pi_data p <> None \/ pi_raw p <> []).
Proof. exact picture_eq_refl_iff. Qed.
Print Assumptions C45_picture_reflexive_iff.
(** On links and on pictures given as images that have not been encoded it is an
    equivalence that compares kind, type, and image or link. *)
Theorem C45_picture_plain :
  forall I a b, S_Addressee.plain_picture a -> S_Addressee.plain_picture b ->
    (picture_eq I a b = true <->
     pi_intern a = pi_intern b /\ pi_type a = pi_type b /\
     (pi_intern a = true -> pi_data a = pi_data b) /\ (pi_intern a = false -> pi_url a = pi_url b)).
Proof.
  intros I a b Ha Hb. rewrite plain_eq by auto. unfold pic_view. split.
  - intros H. injection H as H1 H2 H3 H4. rewrite <- H1 in H3, H4. repeat split; auto; intros E; rewrite E in *; auto.
  - intros (E & -> & H1 & H2). rewrite <- E. destruct (pi_intern a); [rewrite H1|rewrite H2]; auto.
Qed.
Print Assumptions C45_picture_plain.
(** In general it is not transitive, and calling [rawData()] on a picture changes
    what it is equal to; the witnesses use an encoder that loses information. *)
Theorem C45_picture_transitive_refuted :
  exists (I : ImgExt) (a b c : picture),
    picture_eq I a b = true /\ picture_eq I b c = true /\ picture_eq I a c = false.
Proof.
  set (I := {| img_load := fun _ => Some [7%N]; img_save := fun _ _ => [1%N; 2%N] |}).
  exists I, (pi_set_data (Some [7%N]) false picture_new), (pi_set_raw [1%N; 2%N] (B "jpeg") picture_new),
    (pi_after_raw I (pi_set_data (Some [8%N]) false picture_new)).
  vm_compute. auto.
Qed.
Print Assumptions C45_picture_transitive_refuted.
Theorem C45_picture_reading_changes_equality_refuted :
  exists (I : ImgExt) (a b : picture),
    picture_eq I a b = false /\ picture_eq I (pi_after_raw I a) b = true.
Proof.
  set (I := {| img_load := fun _ => Some [7%N]; img_save := fun _ _ => [1%N; 2%N] |}).
  exists I, (pi_set_data (Some [8%N]) false picture_new), (pi_set_raw [1%N; 2%N] (B "jpeg") picture_new).
  vm_compute. auto.
Qed.
Print Assumptions C45_picture_reading_changes_equality_refuted.
Example C45_case :
  key_eq (key_of (B "k") (B "x") KPGP) (key_of (B "k") (B "y") KPGP) = false /\
  tz_eq (tz_set 60) (tz_set 90) = false /\
  S_Addressee.plain_picture (pi_set_data (Some [7%N]) true picture_new).
Proof. repeat split. discriminate. Qed.
