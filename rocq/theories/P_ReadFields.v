(** What reading one line does to each field of a contact. *)
From Verif Require Import Base BaseFacts QtText Utf8 M_ParamMap M_VCard M_VCardText M_Split M_Values M_Date M_Addressee M_VCardTool.

Definition ins_custom (app name value : ustring) (l : list (ustring * ustring)) : list (ustring * ustring) :=
  if isnil value || isnil name || isnil app then l
  else match find_custom (qualified app name) l with
       | Some _ => update_custom (qualified app name) value l
       | None => insert_sorted (qualified app name) value l
       end.
Definition add_first (t : ptext) (l : list ptext) : list ptext := if ptext_valid t then l ++ [t] else l.
Definition add_impp (V : Env) (i : impp) (l : list impp) : list impp := if impp_valid (env_url V) i then l ++ [i] else l.
Definition put_adr (x : address) (l : list address) : list address := replace_or (fun q => leqb (ad_id q) (ad_id x)) x true l.
Definition label_addresses (id : ustring) (l : vline) (ads : list address) : list address :=
  let t := address_type_of l in
  match find (fun x => N.eqb (ad_type x) t) ads with
  | Some x => put_adr (ad_set_label (lvalue l) (address_detach x)) ads
  | None => put_adr (ad_set_label (lvalue l) (address_new id t)) ads
  end.
Definition part (i : nat) (parts : list ustring) (old : ustring) : ustring :=
  match nth_error parts i with Some s => s | None => old end.
Definition parts_of (sep : N) (l : vline) : list ustring :=
  match split_string sep (lvalue l) with Some p => p | None => [] end.
Definition sort_as (l : vline) (old : ustring) : ustring :=
  let s := vl_parameter (B "sort-as") l in if isnil s then old else s.
Definition geo_parts (l : vline) : list ustring :=
  let s := lvalue l in
  if starts_with (B "geo:") s then split cCOMMA (remove_str (B "geo:") s) else split cSEMI s.

(** the key of an X- line *)
Definition custom_key (l : vline) : ustring := skipn 2 (spelled import_names (to_lower (vl_id l)) (vl_id l)).
Definition custom_impps (T : Tool) (l : vline) (is : list impp) : list impp :=
  let key := custom_key l in
  if starts_with (B "messaging/") key then
    let service := match index_of 45%N key with Some d => mid_len 10 (d - 10) key | None => mid 10 key end in
    fst (fold_left (fun (acc : list impp * qurl) value =>
                      let url := t_set_path T value (snd acc) in
                      (add_impp (t_env T) (mkImpp (vl_params l) url) (fst acc), url))
                   (filter (fun s => negb (isnil s)) (split 57344%N (lvalue l))) (is, t_set_scheme T (normalize_impp service) []))
  else is.
Definition custom_customs (l : vline) (cs : list (ustring * ustring)) : list (ustring * ustring) :=
  let key := custom_key l in
  if starts_with (B "messaging/") key then cs
  else match index_of 45%N key with
       | Some d => ins_custom (firstn d key) (skipn (S d) key) (lvalue l) cs
       | None => ins_custom key key (lvalue l) cs
       end.

Definition eff (T : Tool) (id : ustring) (l : vline) (a : addressee) : addressee :=
  let V := t_env T in
  let url := url_parse (env_url V) (lvalue l) in
  let cal t := let c := mkCalurl (vl_params l) t url in
               put_calurls (if calurl_valid (env_url V) c then a_calurls a ++ [c] else a_calurls a) a in
  match line_kind l with
  | LGroup => put_fgroups (a_fgroups a ++ [mkFgroup (vl_params l) (vl_group l ++ [cDOT] ++ vl_id l) (lvalue l)]) a
  | LAdr => put_addresses match parse_address T id l with Some x => put_adr x (a_addresses a) | None => a_addresses a end a
  | LAnniversary => put_customs (ins_custom vendor_id x_anniversary (t_date_iso T (dt_date (fst (parse_datetime (lvalue l))))) (a_customs a)) a
  | LBday =>
      let b := fst (parse_datetime (lvalue l)) in
      let t := snd (parse_datetime (lvalue l)) in
      let same := dt_eq V b (a_birthday a) && Bool.eqb (a_bdaytime a) t in
      put_bdaytime (if same then a_bdaytime a else t)
        (put_birthday (if same then a_birthday a else if t then b else dt_set_time None b) a)
  | LDeathdate => let d := fst (parse_datetime (lvalue l)) in put_deathdate (if dt_eq V d (a_deathdate a) then a_deathdate a else d) a
  | LCategories => put_categories match split_string cCOMMA (lvalue l) with Some p => p | None => a_categories a end a
  | LFburl => cal CalFBUrl
  | LCaladruri => cal CalCALADRUri
  | LCaluri => cal CalCALUri
  | LImpp =>
      let service := vl_parameter (B "x-service-type") l in
      let url := if negb (isnil service) && isnil (url_scheme (env_url V) url)
                 then t_set_scheme T (normalize_impp (to_lower service)) url else url in
      put_impps (add_impp V (mkImpp (vl_params l) url) (a_impps a)) a
  | LClass => put_secrecy (parse_secrecy l) a
  | LGender => put_gender match parse_gender (lvalue l) with Some g => g | None => a_gender a end a
  | LLang => put_langs (if isnil (simplified (lvalue l)) then a_langs a else insert_lang_list (line_ptext l) (a_langs a)) a
  | LEmail => put_emails (add_email_list (mkEmail (vl_params l) (lvalue l)) (a_emails a)) a
  | LKind => put_kind (lvalue l) a
  | LFn => put_formatted (lvalue l) a
  | LGeo => match geo_parts l with
            | lat :: lon :: _ =>
                let g := geo_set_lon (t_float T lon) (geo_set_lat (t_float T lat) geo_new) in
                put_geo (if geo_eq g (a_geo a) then a_geo a else g) a
            | _ => a
            end
  | LKey => put_keys (replace_or (fun q => leqb (ke_id q) (ke_id (parse_key id l))) (parse_key id l) true (a_keys a)) a
  | LLabel => put_addresses (label_addresses id l (a_addresses a)) a
  | LLogo => match parse_picture l with
             | Some p => if picture_empty (a_logo a)
                         then put_logo (if picture_eq (env_img V) p (a_logo a) then a_logo a else p) a
                         else put_xlogos (a_xlogos a ++ [p]) a
             | None => a
             end
  | LMailer => put_mailer (lvalue l) a
  | LN => let ps := parts_of cSEMI l in
          put_sortstring (sort_as l (a_sortstring a))
            (put_suffix (part 4 ps (a_suffix a)) (put_prefix (part 3 ps (a_prefix a)) (put_additional (part 2 ps (a_additional a))
              (put_given (part 1 ps (a_given a)) (put_family (part 0 ps (a_family a)) a)))))
  | LName => put_name (lvalue l) a
  | LNickname => put_nicks (add_first (line_ptext l) (a_nicks a)) a
  | LNote => put_note (lvalue l) a
  | LOrg => let ps := parts_of cSEMI l in
          put_sortstring (sort_as l (a_sortstring a))
            (put_department (part 1 ps (a_department a))
              (put_orgs match nth_error ps 0 with Some s => add_first (mkPtext (vl_params l) s) (a_orgs a) | None => a_orgs a end a))
  | LPhoto => match parse_picture l with
             | Some p => if picture_empty (a_photo a)
                         then put_photo (if picture_eq (env_img V) p (a_photo a) then a_photo a else p) a
                         else put_xphotos (a_xphotos a ++ [p]) a
             | None => a
             end
  | LProdid => put_prodid (lvalue l) a
  | LRev => let d := fst (parse_datetime (lvalue l)) in put_revision (if dt_eq V d (a_revision a) then a_revision a else d) a
  | LRole => put_roles (add_first (line_ptext l) (a_roles a)) a
  | LSortstring => put_sortstring (lvalue l) a
  | LSound => let s := parse_sound l in
              if sound_empty (a_sound a) then put_sound (if sound_eq s (a_sound a) then a_sound a else s) a
              else put_xsounds (a_xsounds a ++ [s]) a
  | LTel => let p := parse_phone id l in
            put_phones (replace_or (fun q => leqb (ph_id q) (ph_id p)) p (negb (isnil (simplified (ph_number p)))) (a_phones a)) a
  | LTitle => put_titles (add_first (line_ptext l) (a_titles a)) a
  | LTz => put_tz match parse_tz (lvalue l) with Some o => if tz_eq (tz_set o) (a_tz a) then a_tz a else tz_set o | None => a_tz a end a
  | LUid => put_uid (lvalue l) a
  | LUrl => let u := mkRurl (vl_params l) url in
            put_urls (if rurl_valid (env_url V) u then a_urls a ++ [u] else a_urls a) a
  | LSource => put_sources (a_sources a ++ [url]) a
  | LMember => put_members (if contains (lvalue l) (a_members a) then a_members a else a_members a ++ [lvalue l]) a
  | LRelated => put_related (if existsb (fun x => ptext_eq x (line_ptext l)) (a_related a) then a_related a else a_related a ++ [line_ptext l]) a
  | LClientpidmap => put_pidmaps (add_first (line_ptext l) (a_pidmaps a)) a
  | LX => put_impps (custom_impps T l (a_impps a)) (put_customs (custom_customs l (a_customs a)) a)
  | LOther => a
  end.

Lemma keep_empty a : put_empty (a_empty a) a = a. Proof. destruct a; reflexivity. Qed.

(** one setter changes its member and possibly the empty flag *)
Definition upto (a b : addressee) : Prop := exists e, b = put_empty e a.
Lemma upto_refl a : upto a a. Proof. exists (a_empty a). symmetry. apply keep_empty. Qed.
Lemma upto_touch a : upto a (touch a). Proof. exists false. reflexivity. Qed.
Lemma upto_trans a b c : upto a b -> upto b c -> upto a c.
Proof. intros [e ->] [f ->]. exists f. destruct a; reflexivity. Qed.

Ltac eta a := destruct a; reflexivity.
Ltac same_text H := apply leqb_eq in H; subst; exists (a_empty _); try reflexivity.

(** text setters *)
Lemma set_text_upto get put v a :
  (forall a, put (get a) a = a) -> (forall v e a, put v (put_empty e a) = put_empty e (put v a)) ->
  upto (put v a) (set_text get put v a).
Proof.
  intros H1 H2. unfold set_text, guarded. destruct (leqb_spec v (get a)) as [->|_].
  - rewrite H1. apply upto_refl.
  - unfold touch. rewrite H2. exists false. auto.
Qed.
Ltac text_upto := apply set_text_upto; [(let x := fresh in intros x; destruct x; reflexivity)|(let x := fresh in intros ? ? x; destruct x; reflexivity)].

Lemma up_uid v a : upto (put_uid v a) (set_uid v a). Proof. text_upto. Qed.
Lemma up_name v a : upto (put_name v a) (set_name v a). Proof. text_upto. Qed.
Lemma up_kind v a : upto (put_kind v a) (set_kind v a). Proof. text_upto. Qed.
Lemma up_formatted v a : upto (put_formatted v a) (set_formatted v a). Proof. text_upto. Qed.
Lemma up_family v a : upto (put_family v a) (set_family v a). Proof. text_upto. Qed.
Lemma up_given v a : upto (put_given v a) (set_given v a). Proof. text_upto. Qed.
Lemma up_additional v a : upto (put_additional v a) (set_additional v a). Proof. text_upto. Qed.
Lemma up_prefix v a : upto (put_prefix v a) (set_prefix v a). Proof. text_upto. Qed.
Lemma up_suffix v a : upto (put_suffix v a) (set_suffix v a). Proof. text_upto. Qed.
Lemma up_mailer v a : upto (put_mailer v a) (set_mailer v a). Proof. text_upto. Qed.
Lemma up_department v a : upto (put_department v a) (set_department v a). Proof. text_upto. Qed.
Lemma up_note v a : upto (put_note v a) (set_note v a). Proof. text_upto. Qed.
Lemma up_prodid v a : upto (put_prodid v a) (set_prodid v a). Proof. text_upto. Qed.
Lemma up_sortstring v a : upto (put_sortstring v a) (set_sortstring v a). Proof. text_upto. Qed.

Lemma fold_impps T m : forall vs a url,
  exists e, fst (fold_left (fun (acc : addressee * qurl) value =>
                      let url := t_set_path T value (snd acc) in
                      (insert_impp (t_env T) (mkImpp m url) (fst acc), url)) vs (a, url))
  = put_empty e (put_impps (fst (fold_left (fun (acc : list impp * qurl) value =>
                      let url := t_set_path T value (snd acc) in
                      (add_impp (t_env T) (mkImpp m url) (fst acc), url)) vs (a_impps a, url))) a).
Proof.
  induction vs as [|v vs IH]; intros a url.
  - exists (a_empty a). destruct a; reflexivity.
  - cbn [fold_left fst snd]. unfold insert_impp at 2. unfold add_impp at 2. cbv zeta.
    destruct (impp_valid (env_url (t_env T)) (mkImpp m (t_set_path T v url))).
    + edestruct IH as [e He]. rewrite He. exists e. destruct a; reflexivity.
    + apply IH.
Qed.

Lemma ins_custom_upto p n v a : upto (put_customs (ins_custom p n v (a_customs a)) a) (insert_custom p n v a).
Proof.
  unfold insert_custom, ins_custom. destruct (isnil v || isnil n || isnil p).
  - exists (a_empty a). destruct a; reflexivity.
  - cbv zeta. destruct (find_custom (qualified p n) (a_customs a)); exists false; destruct a; reflexivity.
Qed.

Lemma parse_address_nonempty T id l x : parse_address T id l = Some x -> ad_empty x = false.
Proof.
  unfold parse_address. destruct (split_string cSEMI (lvalue l)); [|discriminate]. cbv zeta. intros H.
  injection H as <-.
  set (y := set_part 6 _ _ _). clearbody y.
  assert (H : forall z, ad_empty (ad_set_type (address_type_of l) z) = false) by reflexivity.
  destruct (isnil (vl_parameter (B "label") l));
  (destruct (negb (isnil (vl_parameter (B "geo") l)) && mem cCOMMA (remove_str (B "geo:") (remove_ch cDQ (vl_parameter (B "geo") l))));
   [destruct (split cCOMMA _) as [|? [|? ?]]|]); reflexivity.
Qed.

Lemma insert_address_upto x a : ad_empty x = false -> upto (put_addresses (put_adr x (a_addresses a)) a) (insert_address x a).
Proof. intros H. unfold insert_address. rewrite H. exists false. destruct a; reflexivity. Qed.

Lemma guarded_upto {X} (same : bool) (get : addressee -> X) (put : X -> addressee -> addressee) v a :
  (forall a, put (get a) a = a) -> (forall v e a, put v (put_empty e a) = put_empty e (put v a)) ->
  upto (put (if same then get a else v) a) (guarded same put v a).
Proof.
  intros H1 H2. unfold guarded. destruct same.
  - rewrite H1. apply upto_refl.
  - unfold touch. rewrite H2. exists false. auto.
Qed.
Ltac guard_upto := apply guarded_upto; [(let x := fresh in intros x; destruct x; reflexivity)|(let x := fresh in intros ? ? x; destruct x; reflexivity)].

Lemma add_first_upto get put t a :
  (forall a, put (get a) a = a) -> (forall v e a, put v (put_empty e a) = put_empty e (put v a)) ->
  upto (put (add_first t (get a)) a) (insert_first_class get put t a).
Proof.
  intros H1 H2. unfold add_first, insert_first_class. destruct (ptext_valid t).
  - unfold touch. rewrite H2. exists false. auto.
  - rewrite H1. apply upto_refl.
Qed.
Ltac first_upto := apply add_first_upto; [(let x := fresh in intros x; destruct x; reflexivity)|(let x := fresh in intros ? ? x; destruct x; reflexivity)].

Lemma upto_put {X} (put : X -> addressee -> addressee) v a b :
  (forall v e a, put v (put_empty e a) = put_empty e (put v a)) -> upto a b -> upto (put v a) (put v b).
Proof. intros H [e ->]. rewrite H. exists e. auto. Qed.

Lemma upto_fields a b : upto a b -> exists e, b = put_empty e a.
Proof. auto. Qed.

(** a text setter applied to an object equal up to the flag *)
Lemma set_text_up2 get put v a b :
  (forall a, put (get a) a = a) -> (forall v e a, put v (put_empty e a) = put_empty e (put v a)) ->
  upto a b -> upto (put v a) (set_text get put v b).
Proof. intros H1 H2 H. eapply upto_trans; [apply (upto_put put v _ _ H2 H)|apply set_text_upto; auto]. Qed.
Lemma part_up get put i ps a b :
  (forall a, put (get a) a = a) -> (forall v e a, put v (put_empty e a) = put_empty e (put v a)) ->
  upto a b -> upto (put (part i ps (get a)) a) (set_part_of i (set_text get put) ps b).
Proof.
  intros H1 H2 H. unfold set_part_of, part. destruct (nth_error ps i).
  - apply set_text_up2; auto.
  - rewrite H1. auto.
Qed.
Lemma sort_up l a b : upto a b -> upto (put_sortstring (sort_as l (a_sortstring a)) a) (read_sort_as l b).
Proof.
  intros H. unfold sort_as, read_sort_as. cbv zeta. destruct (isnil (vl_parameter (B "sort-as") l)).
  - replace (put_sortstring (a_sortstring a) a) with a by (destruct a; reflexivity). auto.
  - apply set_text_up2; [(let x := fresh in intros x; destruct x; reflexivity)|(let x := fresh in intros ? ? x; destruct x; reflexivity)|exact H].
Qed.
Ltac etas := first [(let x := fresh in intros x; destruct x; reflexivity) | (let x := fresh in intros ? ? x; destruct x; reflexivity)].

Lemma read_line_eff T id l a b : read_line T id l a = Some b -> upto (eff T id l a) b.
Proof.
  unfold read_line, eff. cbv zeta. destruct (line_kind l) eqn:K; intros H.
  - injection H as <-. unfold insert_fgroup.
    assert (Hv : fgroup_valid (mkFgroup (vl_params l) (vl_group l ++ cDOT :: vl_id l) (lvalue l)) = true)
      by (unfold fgroup_valid; cbn [fg_name]; destruct (vl_group l); reflexivity).
    rewrite Hv. exists false. destruct a; reflexivity.
  - destruct (parse_address T id l) as [x|] eqn:E; [|discriminate]. injection H as <-. apply insert_address_upto. eapply parse_address_nonempty; eauto.
  - injection H as <-. apply ins_custom_upto.
  - destruct (parse_datetime (lvalue l)) as [d t]. injection H as <-. unfold set_birthday. cbn [fst snd].
    destruct (dt_eq (t_env T) d (a_birthday a) && Bool.eqb (a_bdaytime a) t).
    + exists (a_empty a). destruct a; reflexivity.
    + exists false. destruct a; reflexivity.
  - injection H as <-. guard_upto.
  - destruct (split_string cCOMMA (lvalue l)); [|discriminate]. injection H as <-. exists false. destruct a; reflexivity.
  - injection H as <-. unfold read_calurl, insert_calurl. destruct (calurl_valid _ _); exists false; destruct a; reflexivity.
  - injection H as <-. unfold read_calurl, insert_calurl. destruct (calurl_valid _ _); exists false; destruct a; reflexivity.
  - injection H as <-. unfold read_calurl, insert_calurl. destruct (calurl_valid _ _); exists false; destruct a; reflexivity.
  - injection H as <-. unfold insert_impp, add_impp. destruct (impp_valid _ _); [exists false|exists (a_empty a)]; destruct a; reflexivity.
  - injection H as <-. unfold set_secrecy, guarded. destruct (secrecy_eq (parse_secrecy l) (a_secrecy a)) eqn:E.
    + assert (Es : parse_secrecy l = a_secrecy a) by (destruct (parse_secrecy l), (a_secrecy a); (reflexivity || discriminate)).
      rewrite Es. exists (a_empty a). destruct a; reflexivity.
    + exists false. destruct a; reflexivity.
  - injection H as <-. destruct (parse_gender (lvalue l)) as [g|].
    + unfold set_gender, guarded. destruct (gender_eq g (a_gender a)) eqn:E.
      * unfold gender_eq in E. apply andb_true_iff in E as [E1 E2]. apply leqb_eq in E1, E2.
        assert (Eg : g = a_gender a) by (destruct g, (a_gender a); cbn in *; congruence).
        rewrite Eg. exists (a_empty a). destruct a; reflexivity.
      * exists false. destruct a; reflexivity.
    + exists (a_empty a). destruct a; reflexivity.
  - injection H as <-. unfold insert_lang. cbn [line_ptext pt_text]. destruct (isnil (simplified (lvalue l))); [exists (a_empty a)|exists false]; destruct a; reflexivity.
  - injection H as <-. unfold add_email. cbn [em_mail]. destruct (has_email (lvalue l) (a_emails a)); [exists (a_empty a)|exists false]; destruct a; reflexivity.
  - injection H as <-. apply up_kind.
  - injection H as <-. apply up_formatted.
  - injection H as <-. unfold read_geo. change (if starts_with (B "geo:") (lvalue l) then split cCOMMA (remove_str (B "geo:") (lvalue l)) else split cSEMI (lvalue l)) with (geo_parts l). cbv zeta.
    destruct (geo_parts l) as [|lat [|lon r]]; try apply upto_refl. guard_upto.
  - injection H as <-. exists false. destruct a; reflexivity.
  - injection H as <-. unfold read_label, label_addresses. cbv zeta.
    destruct (find (fun x => N.eqb (ad_type x) (address_type_of l)) (a_addresses a)); apply insert_address_upto; reflexivity.
  - destruct (parse_picture l) as [p|]; [|discriminate]. injection H as <-. destruct (picture_empty (a_logo a)).
    + guard_upto.
    + exists false. destruct a; reflexivity.
  - injection H as <-. apply up_mailer.
  - unfold parts_of. destruct (split_string cSEMI (lvalue l)) as [ps|]; [|discriminate]. injection H as <-.
    eapply upto_trans; [|apply sort_up; apply upto_refl].
    match goal with |- upto (put_sortstring (sort_as l ?s) ?x) (put_sortstring (sort_as l (a_sortstring ?y)) ?y) =>
      assert (Hu : upto x y) end.
    { repeat first [apply upto_refl | match goal with
        | |- upto (put_suffix (part 4 ps (a_suffix ?z)) ?x) (set_part_of 4 set_suffix ps ?y) => change (a_suffix z) with (a_suffix x); apply (part_up a_suffix put_suffix); [etas|etas|]
        | |- upto (put_prefix (part 3 ps (a_prefix ?z)) ?x) (set_part_of 3 set_prefix ps ?y) => change (a_prefix z) with (a_prefix x); apply (part_up a_prefix put_prefix); [etas|etas|]
        | |- upto (put_additional (part 2 ps (a_additional ?z)) ?x) (set_part_of 2 set_additional ps ?y) => change (a_additional z) with (a_additional x); apply (part_up a_additional put_additional); [etas|etas|]
        | |- upto (put_given (part 1 ps (a_given ?z)) ?x) (set_part_of 1 set_given ps ?y) => change (a_given z) with (a_given x); apply (part_up a_given put_given); [etas|etas|]
        | |- upto (put_family (part 0 ps (a_family ?z)) ?x) (set_part_of 0 set_family ps ?y) => change (a_family z) with (a_family x); apply (part_up a_family put_family); [etas|etas|]
        end]. }
    destruct Hu as [e Hu]. rewrite Hu. exists e. reflexivity.
  - injection H as <-. apply up_name.
  - injection H as <-. first_upto.
  - injection H as <-. apply up_note.
  - unfold parts_of. destruct (split_string cSEMI (lvalue l)) as [ps|]; [|discriminate]. injection H as <-.
    eapply upto_trans; [|apply sort_up; apply upto_refl].
    match goal with |- upto (put_sortstring (sort_as l ?s) ?x) (put_sortstring (sort_as l (a_sortstring ?y)) ?y) =>
      assert (Hu : upto x y) end.
    { match goal with |- upto (put_department (part 1 ps (a_department ?z)) ?x) (set_part_of 1 set_department ps ?y) =>
        change (a_department z) with (a_department x); apply (part_up a_department put_department); [etas|etas|] end.
      unfold set_part_of. destruct (nth_error ps 0).
      - first_upto.
      - exists (a_empty a). destruct a; reflexivity. }
    destruct Hu as [e Hu]. rewrite Hu. exists e. reflexivity.
  - destruct (parse_picture l) as [p|]; [|discriminate]. injection H as <-. destruct (picture_empty (a_photo a)).
    + guard_upto.
    + exists false. destruct a; reflexivity.
  - injection H as <-. apply up_prodid.
  - injection H as <-. guard_upto.
  - injection H as <-. first_upto.
  - injection H as <-. apply up_sortstring.
  - injection H as <-. destruct (sound_empty (a_sound a)).
    + guard_upto.
    + exists false. destruct a; reflexivity.
  - injection H as <-. exists false. destruct a; reflexivity.
  - injection H as <-. first_upto.
  - injection H as <-. destruct (parse_tz (lvalue l)); [guard_upto|exists (a_empty a); destruct a; reflexivity].
  - injection H as <-. apply up_uid.
  - injection H as <-. unfold insert_url. destruct (rurl_valid _ _); [exists false|exists (a_empty a)]; destruct a; reflexivity.
  - injection H as <-. exists false. destruct a; reflexivity.
  - injection H as <-. unfold insert_member. destruct (contains (lvalue l) (a_members a)); exists false; destruct a; reflexivity.
  - injection H as <-. unfold insert_related. destruct (existsb _ (a_related a)); exists false; destruct a; reflexivity.
  - injection H as <-. unfold insert_pidmap, add_first. destruct (ptext_valid (line_ptext l)); [exists false|exists (a_empty a)]; destruct a; reflexivity.
  - injection H as <-. unfold read_custom, custom_impps, custom_customs. cbv zeta.
    fold (custom_key l). destruct (starts_with (B "messaging/") (custom_key l)).
    + edestruct (fold_impps T (vl_params l)) as [e He]. rewrite He. exists e. destruct a; reflexivity.
    + destruct (index_of 45 (custom_key l)).
      * destruct (ins_custom_upto (firstn n (custom_key l)) (skipn (S n) (custom_key l)) (lvalue l) a) as [e He].
        rewrite He. exists e. destruct a; reflexivity.
      * destruct (ins_custom_upto (custom_key l) (custom_key l) (lvalue l) a) as [e He].
        rewrite He. exists e. destruct a; reflexivity.
  - injection H as <-. apply upto_refl.
Qed.

(** reading fails only for pictures of undefined behaviour *)
Lemma read_line_total T id l a :
  (line_kind l = LLogo \/ line_kind l = LPhoto -> parse_picture l <> None) ->
  (forall sep, sep <> cBS -> split_string sep (lvalue l) <> None) ->
  exists b, read_line T id l a = Some b.
Proof.
  intros Hp Hs. unfold read_line, parse_address. cbv zeta.
  pose proof (Hs cSEMI ltac:(discriminate)) as H1. pose proof (Hs cCOMMA ltac:(discriminate)) as H2.
  destruct (line_kind l); try (eexists; reflexivity);
  try (destruct (parse_picture l); [eexists; reflexivity|exfalso; apply Hp; auto]);
  try (destruct (split_string cSEMI (lvalue l)); [eexists; reflexivity|congruence]).
  - destruct (parse_datetime (lvalue l)). eexists; reflexivity.
  - destruct (split_string cCOMMA (lvalue l)); [eexists; reflexivity|congruence].
Qed.
