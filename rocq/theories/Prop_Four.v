(** C60: what version 4.0 keeps in properties and parameters of its own, and
    C59 for version 4.0.

    [round_trip], [fits] (S_Contact), [safe40] (S_Whole), [rest_in40], [address_geo],
    [iso_custom], [spouse_related] (S_Four). *)
From Verif Require Import Base BaseFacts QtText Utf8 M_ParamMap M_VCard M_VCardText S_Escape S_Card S_Parse S_RoundTrip S_Split P_Split P_RoundTrip3
  M_Split M_Values M_Date S_Date M_Addressee M_VCardTool S_Contact S_Whole S_Orderly P_Orderly2 S_Stable P_Stable P_Stable2 P_ReadBack P_Fields2 P_Fields6
  P_Lines P_Contact P_Contact2 P_ContactCase P_Addr P_Whole S_Four P_Four P_Stable4 P_Own Prop_Contact Prop_Contact2 Prop_Whole Prop_Stable.

(** ** keys *)
Theorem C60_keys :
  forall (T : Tool) (E : Ext) (export : bool) (l res : list addressee), Forall (fits T V40) l -> fresh_ids T -> round_trip T E V40 export l res ->
    Forall2 (fun a b => Forall (fun k => ke_type k <> KCustom /\ (ke_isbin k = false -> text_safe (ke_text k))) (a_keys a) ->
      Forall2 key_back (filter key_full (a_keys a)) (a_keys b)) l res.
Proof. intros T E export l res Hf HT Hr. apply (trip_each E T V40 export l res _ Hf Hr). intros a b Ha Hab. exact (field_keys40 E T export a b Ha Hab HT). Qed.
Print Assumptions C60_keys.
(** the reader looks for the name of the type in a parameter that is not there *)
Theorem C60_custom_key_refuted :
  forall E : Ext, exists a b k q, fits exT V40 a /\ round_trip exT E V40 false [a] [b] /\ a_keys a = [k] /\ a_keys b = [q] /\
    ke_type k = KCustom /\ ke_custom k = B "MyKey" /\ ke_type q = KCustom /\ ke_custom q = [] /\ ke_bin q = ke_bin k.
Proof.
  intros E. set (a := put_keys [ex_key] (addressee_new (B "u"))).
  assert (Hf : fits exT V40 a) by (apply fits_spec; vm_compute; reflexivity). exists a. do 3 eexists.
  split; [exact Hf|]. split; [apply trip_at; [constructor; [exact Hf|constructor]|cbv; reflexivity]|]. split; [reflexivity|]. split; [reflexivity|]. repeat split.
Qed.
Print Assumptions C60_custom_key_refuted.

(** ** the position of an address *)
Theorem C60_position :
  forall (T : Tool) (E : Ext) (export : bool) (l res : list addressee), Forall (fits T V40) l -> fresh_ids T -> round_trip T E V40 export l res ->
    Forall2 (fun a b => Forall (fun x => address_safe x /\ address_blank x = false /\ (geo_valid (ad_geo x) = true -> geo_text_ok T (ad_geo x))) (a_addresses a) ->
      map ad_geo (a_addresses b) = map (fun x => address_geo T (ad_geo x)) (a_addresses a)) l res.
Proof.
  intros T E export l res Hf HT Hr. apply (trip_each E T V40 export l res _ Hf Hr). intros a b Ha Hab Hs. symmetry. apply map_forall2.
  eapply Forall2_imp; [|apply (field_addresses E T V40 export a b Ha Hab HT)].
  - intros x y Hx (_ & _ & Hy). destruct (Hy eq_refl) as [id Hid]. rewrite Forall_forall in Hs. symmetry. apply (adr_position E T x id y); [|apply Hs; exact Hx|exact Hid].
    intros _. destruct (fit_40 _ _ _ Ha eq_refl) as [H4 _]. rewrite Forall_forall in H4. apply H4. exact Hx.
  - eapply Forall_impl; [|exact Hs]. intros x (H1 & H2 & _). split; [exact H1|]. split; [exact H2|congruence].
  - congruence.
Qed.
Print Assumptions C60_position.
(** older versions have no place for it *)
Theorem C60_position_refuted :
  forall E : Ext, exists a b x y, fits exT V30 a /\ round_trip exT E V30 false [a] [b] /\ a_addresses a = [x] /\ a_addresses b = [y] /\
    address_back x y /\ geo_valid (ad_geo x) = true /\ ad_geo y = geo_new.
Proof.
  intros E. set (a := put_addresses [ad_set_geo (geo_of (Fin (QArith_base.Qmake 3 2)) (Fin (QArith_base.Qmake 3 2))) ex_address2] (addressee_new (B "u"))).
  assert (Hf : fits exT V30 a) by (apply fits_spec; vm_compute; reflexivity). exists a. do 3 eexists.
  split; [exact Hf|]. split; [apply trip_at; [constructor; [exact Hf|constructor]|cbv; reflexivity]|]. split; [reflexivity|]. split; [reflexivity|]. repeat split.
Qed.
Print Assumptions C60_position_refuted.

(** ** the sort string *)
Theorem C60_sort :
  forall (T : Tool) (E : Ext) (export : bool) (l res : list addressee), Forall (fits T V40) l -> round_trip T E V40 export l res ->
    Forall2 (fun a b => ~ In cCOMMA (a_sortstring a) ->
      Forall (fun o => parts_safe (pt_text o :: (if isnil (a_department a) then [] else [a_department a]))) (a_orgs a) ->
      Forall (fun o => ~ In (B "sort-as") (map fst (pt_params o))) (a_orgs a) -> a_sortstring b = a_sortstring a) l res.
Proof. intros T E export l res Hf Hr. apply (trip_each E T V40 export l res _ Hf Hr). intros a b Ha Hab. exact (field_sortstring40 E T export a b Ha Hab). Qed.
Print Assumptions C60_sort.
Theorem C60_sort_refuted :
  forall E : Ext, exists a b, fits exT V40 a /\ round_trip exT E V40 false [a] [b] /\ a_sortstring a = B "Doe, Jane" /\ a_sortstring b = B "Doe".
Proof.
  intros E. set (a := put_sortstring (B "Doe, Jane") (addressee_new (B "u"))).
  assert (Hf : fits exT V40 a) by (apply fits_spec; vm_compute; reflexivity). exists a. eexists.
  split; [exact Hf|]. split; [apply trip_at; [constructor; [exact Hf|constructor]|cbv; reflexivity]|]. split; reflexivity.
Qed.
Print Assumptions C60_sort_refuted.

(** ** custom fields with a property of their own *)
Theorem C60_customs :
  forall (T : Tool) (E : Ext) (export : bool) (l res : list addressee), Forall (fits T V40) l -> round_trip T E V40 export l res ->
    Forall2 (fun a b => increasing (map fst (a_customs a)) -> Forall (fun e => text_safe (snd e) /\ snd e <> [] /\ custom_name (fst e)) (a_customs a) ->
      Forall (fun e => is_anniversary e = true -> iso_custom T e) (a_customs a) ->
      a_customs b = filter (fun e => negb (is_spouse e)) (a_customs a)) l res.
Proof.
  intros T E export l res Hf Hr. apply (trip_each E T V40 export l res _ Hf Hr). intros a b Ha Hab Hi Hs Han.
  rewrite (field_customs40 E T export a b Ha Hab Hi).
  - apply filter_ext_in'. intros e He. rewrite Forall_forall in Hs. destruct (Hs e He) as (_ & Hne & _ & Hm & _).
    unfold kept_own, kept_custom, full_custom, is_messaging. rewrite (proj2 (isnil_false _) Hne), Hm. reflexivity.
  - eapply Forall_impl; [|exact Hs]. intros e (H1 & _ & H2). auto.
  - eapply Forall_impl; [|exact Han]. intros e H Ho. apply H. unfold own_ann in Ho. apply andb_true_iff in Ho. apply Ho.
Qed.
Print Assumptions C60_customs.
(** the name of the spouse is read as a relation; other relations stay *)
Theorem C60_related :
  forall (T : Tool) (E : Ext) (export : bool) (l res : list addressee), Forall (fits T V40) l -> round_trip T E V40 export l res ->
    Forall2 (fun a b => Forall (fun t => text_safe (pt_text t) /\ pt_text t <> []) (a_related a) ->
      Forall (fun e => is_spouse e = true -> snd e <> [] /\ ~ In cCOMMA (snd e)) (a_customs a) ->
      NoDup (a_related a ++ map spouse_related (filter is_spouse (a_customs a))) ->
      a_related b = a_related a ++ map spouse_related (filter is_spouse (a_customs a))) l res.
Proof.
  intros T E export l res Hf Hr. apply (trip_each E T V40 export l res _ Hf Hr). intros a b Ha Hab Hs Hc Hn.
  assert (Hsp : filter own_spouse (a_customs a) = filter is_spouse (a_customs a)).
  { apply filter_ext_in'. intros e He. unfold own_spouse. rewrite Forall_forall in Hc. specialize (Hc e He). destruct (is_spouse e); [|apply andb_false_r].
    unfold full_custom. rewrite (proj2 (isnil_false _) (proj1 (Hc eq_refl))). reflexivity. }
  rewrite (field_related_own E T export a b Ha Hab).
  - rewrite Hsp. f_equal. apply filter_all. intros t Ht. rewrite Forall_forall in Hs. unfold ptext_valid. rewrite (proj2 (isnil_false _) (proj2 (Hs t Ht))). reflexivity.
  - eapply Forall_impl; [|exact Hs]. intros t Ht. apply Ht.
  - eapply Forall_impl; [|exact Hc]. intros e H Ho. apply H. unfold own_spouse in Ho. apply andb_true_iff in Ho. apply Ho.
  - rewrite Hsp. exact Hn.
Qed.
Print Assumptions C60_related.
Theorem C60_spouse_refuted :
  forall E : Ext, exists a b, fits exT V40 a /\ round_trip exT E V40 false [a] [b] /\
    custom vendor_id (B "X-SpousesName") a = B "Eva" /\ custom vendor_id (B "X-SpousesName") b = [] /\ map pt_text (a_related b) = [B ";"].
Proof.
  intros E. set (a := put_customs [(qualified vendor_id (B "X-SpousesName"), B "Eva")] (addressee_new (B "u"))).
  assert (Hf : fits exT V40 a) by (apply fits_spec; vm_compute; reflexivity). exists a. eexists.
  split; [exact Hf|]. split; [apply trip_at; [constructor; [exact Hf|constructor]|cbv; reflexivity]|]. repeat split.
Qed.
Print Assumptions C60_spouse_refuted.

(** the library of [exT] with one date *)
Definition exI : Tool := {| t_env := t_env exT; t_set_scheme := t_set_scheme exT; t_set_path := t_set_path exT; t_display := t_display exT; t_fmt6 := t_fmt6 exT;
  t_float := t_float exT; t_double := t_double exT; t_date_iso := fun _ => B "2001-02-03"; t_iso_date := fun _ => Some (mkDate 2001 2 3); t_newid := t_newid exT |}.
Definition ex_place : geo := geo_of (Fin (QArith_base.Qmake 3 2)) (Fin (QArith_base.Qmake 3 2)).
Definition ex_four : addressee :=
  put_keys [mkKey (B "k") [250; 0; 1]%N [] [] KX509 true; mkKey (B "k2") [] (B "a,b;c") [] KPGP false]
  (put_addresses [ad_set_geo ex_place ex_address2] (put_sortstring (B "Doe Jane") (put_related [mkPtext [(B "type", [B "friend"])] (B "x;y")]
  (put_customs [(qualified vendor_id (B "ABC"), B "v;w"); (qualified vendor_id x_anniversary, B "2001-02-03"); (qualified vendor_id (B "X-SpousesName"), B "Eva Doe")] (addressee_new (B "u")))))).
Lemma custom_at n app name : n = app ++ [45%N] ++ name -> app <> [] -> name <> [] -> ~ In 45%N app -> starts_with (B "messaging/") n = false ->
  forallb (fun e => negb (leqb (fst e) (to_lower (B "X-" ++ n))) || leqb (snd e) (B "X-" ++ n)) import_names = true -> custom_name n.
Proof.
  intros H1 H2 H3 H4 H5 H6. split; [exists app, name; auto|]. split; [exact H5|]. intros s Hin. rewrite forallb_forall in H6. specialize (H6 _ Hin). cbn [fst snd] in H6.
  rewrite leqb_refl in H6. cbn [negb orb] in H6. apply leqb_eq. exact H6.
Qed.
Example C60_case : fits exI V40 ex_four /\ fresh_ids exI /\
  Forall (fun k => ke_type k <> KCustom /\ (ke_isbin k = false -> text_safe (ke_text k))) (a_keys ex_four) /\
  Forall (fun x => address_safe x /\ address_blank x = false /\ (geo_valid (ad_geo x) = true -> geo_text_ok exI (ad_geo x))) (a_addresses ex_four) /\
  ~ In cCOMMA (a_sortstring ex_four) /\
  increasing (map fst (a_customs ex_four)) /\ Forall (fun e => text_safe (snd e) /\ snd e <> [] /\ custom_name (fst e)) (a_customs ex_four) /\
  Forall (fun e => is_anniversary e = true -> iso_custom exI e) (a_customs ex_four) /\
  Forall (fun e => is_spouse e = true -> snd e <> [] /\ ~ In cCOMMA (snd e)) (a_customs ex_four) /\
  NoDup (a_related ex_four ++ map spouse_related (filter is_spouse (a_customs ex_four))).
Proof.
  split; [apply fits_spec; vm_compute; reflexivity|]. split; [exact ex_fresh|].
  assert (Ha : a_addresses ex_four = [ad_set_geo ex_place ex_address2]) by reflexivity. rewrite Ha. clear Ha. show ex_four.
  split; [each ltac:(split; [discriminate|first [discriminate|intros _; apply text_safe_spec; reflexivity]])|].
  split; [each ltac:(split; [apply parts_b; reflexivity|split; [reflexivity|intros _; split; each ltac:(cbv; intuition discriminate)]])|].
  split; [apply mem_false; reflexivity|]. split; [apply increasing_b_spec; reflexivity|].
  split; [each ltac:(split; [apply text_safe_spec; reflexivity|split; [discriminate|eapply (custom_at _ vendor_id); [reflexivity|discriminate|discriminate|apply mem_false; reflexivity|reflexivity|reflexivity]]])|].
  split; [each ltac:(first [discriminate|intros _; exists (mkDate 2001 2 3); split; [reflexivity|]; split; [split; [left; cbn; lia|reflexivity]|reflexivity]])|].
  split; [each ltac:(first [discriminate|intros _; split; [discriminate|apply mem_false; reflexivity]])|].
  match goal with |- NoDup ?l => let x := eval vm_compute in l in change l with x end. repeat constructor; cbv; intuition discriminate.
Qed.

(** ** C59: version 4.0 *)
Theorem C59_stable40 :
  forall (T : Tool) (E : Ext) (export : bool) (l : list addressee),
    Forall (fits T V40) l -> Forall (safe40 T) l -> Forall (rest_in40 T) l -> fresh_ids T -> paths_replace T ->
    exists res, round_trip T E V40 export l res /\ create_text T E V40 export res = create_text T E V40 export l /\
                round_trip T E V40 export res res.
Proof.
  intros T E export l Hf Hs Hrest HT HP. destruct (trip_exists E T V40 export l Hf) as (res & Hr & _). exists res. split; [exact Hr|].
  assert (Ht : create_text T E V40 export res = create_text T E V40 export l); [|split; [exact Ht|exact (trip_again _ _ _ _ _ _ Hr Ht)]].
  apply same_texts. pose proof (trip_reads E T V40 export l res Hf Hr) as H2. pose proof (trip_orderly T E V40 export l res HT Hr) as Ho.
  clear Hr. revert Hf Hs Hrest Ho. induction H2 as [|a b l res Hab H2 IH]; intros Hf Hs Hrest Ho; constructor.
  - apply written_agree. apply chunks_agree40; auto; [exact (Forall_inv Hf)|exact (Forall_inv Hs)|apply Forall_inv in Ho; apply o_params in Ho; exact Ho|exact (Forall_inv Hrest)].
  - apply IH; [exact (Forall_inv_tail Hf)|exact (Forall_inv_tail Hs)|exact (Forall_inv_tail Hrest)|exact (Forall_inv_tail Ho)].
Qed.
Print Assumptions C59_stable40.
(** the type of an embedded picture grows each time *)
Theorem C59_picture40_refuted :
  forall E : Ext, exists a b c, fits exT V40 a /\ fits exT V40 b /\ round_trip exT E V40 false [a] [b] /\ round_trip exT E V40 false [b] [c] /\
    pi_type (a_photo a) = B "png" /\ pi_type (a_photo b) = B "image/png;" /\ create_text exT E V40 false [b] <> create_text exT E V40 false [a].
Proof.
  intros E. set (c := put_photo (mkPicture [] (B "png") None [1; 2; 3]%N true) (addressee_new (B "u"))).
  let r := eval cbv in (read_cards exT 0 (map (fun a => reread_card E (create_card exT V40 false a)) [c])) in
  match r with Some [?b] =>
    let r' := eval cbv in (read_cards exT 0 (map (fun a => reread_card E (create_card exT V40 false a)) [b])) in
    match r' with Some [?a] => exists c, b, a; set (b' := b); set (a' := a) end
  end.
  assert (Ha : fits exT V40 c) by (apply fits_spec; vm_compute; reflexivity). assert (Hb : fits exT V40 b') by (apply fits_spec; vm_compute; reflexivity).
  split; [exact Ha|]. split; [exact Hb|]. split; [apply trip_at; [constructor; [exact Ha|constructor]|cbv; reflexivity]|].
  split; [apply trip_at; [constructor; [exact Hb|constructor]|cbv; reflexivity]|]. split; [reflexivity|]. split; [reflexivity|]. vm_compute. discriminate.
Qed.
Print Assumptions C59_picture40_refuted.
(** [ex_whole] with everything that [rest_in40] is about *)
Definition with_four (ks : list key) (g : geo) (so : ustring) (ph lo : picture) (cs : list calurl) (rs : list ptext) (fs : list fgroup) (is : list impp) (a : addressee) : addressee :=
  put_keys ks (put_geo g (put_sortstring so (put_photo ph (put_logo lo (put_calurls cs (put_related rs (put_fgroups fs (put_impps is (put_addresses (map (ad_set_geo g) (a_addresses a)) a))))))))).
Lemma with_four_safe T ks g so ph lo cs rs fs is a : safe40 T a -> safe40 T (with_four ks g so ph lo cs rs fs is a).
Proof.
  intros [[] ? ? ? ? ? ? ? ? ? ?]. constructor; [|assumption..]. constructor; try assumption. destruct w_addresses as [H1 H2]. split; [|congruence].
  change (Forall (fun x => address_safe x /\ address_blank x = false /\ (V40 <> V40 -> text_safe (ad_label x)) /\ N.land (ad_type x) address_vocabulary = ad_type x) (map (ad_set_geo g) (a_addresses a))).
  rewrite Forall_map. eapply Forall_impl; [|exact H1]. intros x Hx. exact Hx.
Qed.
Definition ex_whole4 : addressee :=
  with_four (a_keys ex_four) ex_place (B "Doe Jane") (mkPicture (B "http://p/1;2") [] None [] false) picture_new
    [mkCalurl [] CalFBUrl (B "http://f"); mkCalurl [(B "pref", [B "1"])] CalCALADRUri (B "http://c"); mkCalurl [] CalFBUrl (B "http://g")]
    [mkPtext [(B "type", [B "friend"])] (B "x;y"); mkPtext [] []] [mkFgroup [] (B "item2.X-AB") (B "v,1"); mkFgroup [] (B "item1.X-AB") (B "w")]
    [mkImpp [(B "type", [B "home"]); (B "x-service-type", [B "skype"])] (B "skype:me")] ex_whole.
Example C59_case40 : fits exT V40 ex_whole4 /\ safe40 exT ex_whole4 /\ rest_in40 exT ex_whole4.
Proof.
  split; [apply fits_spec; vm_compute; reflexivity|]. split; [apply with_four_safe; apply C44_case40|].
  constructor; show ex_whole4.
  - split; [split; each ltac:(cbv; intuition discriminate)|]. intros _. repeat split.
  - each ltac:(intros _; split; [split; each ltac:(cbv; intuition discriminate)|repeat split]).
  - split; [apply mem_false; reflexivity|]. each ltac:(cbv; intuition discriminate).
  - each ltac:(split; [discriminate|first [discriminate|intros _; apply text_safe_spec; reflexivity]]).
  - split; reflexivity.
  - split; reflexivity.
  - each ltac:(split; [apply text_safe_spec; reflexivity|split; [discriminate|split; reflexivity]]).
  - split; [each ltac:(apply text_safe_spec; reflexivity)|]. repeat constructor; cbv; intuition discriminate.
  - split; [each ltac:(apply text_safe_spec; reflexivity)|]. repeat constructor; cbv; intuition discriminate.
  - each ltac:(split; [apply text_safe_spec; reflexivity|split; reflexivity]).
Qed.
