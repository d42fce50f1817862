(** Contacts that have been read from version 4.0 are written in the same way again. *)
From Coq Require Import Permutation.
From Verif Require Import Base BaseFacts QtText Utf8 Utf8Facts M_ParamMap M_VCard M_VCardText
  S_Escape P_Escape S_Fold P_Fold S_CardText P_CardText S_Card P_Assoc P_Card S_Parse P_Parse P_Parse2
  S_RoundTrip P_RoundTrip P_RoundTrip2 P_RoundTrip3 P_ReadBack P_Items P_Order
  M_Split S_Split P_Split M_Values M_Date M_Addressee P_Addressee M_VCardTool S_Contact P_Seen P_ReadFields P_Lines P_Contact P_Chunks
  P_Fields P_Fields2 P_Fields3 P_Fields4 P_Fields5 P_Fields6 P_Fields7 P_Types P_Addr P_Pic40 P_Contact2 S_Whole P_Whole S_Orderly S_Stable P_Stable P_Stable2 S_Four P_Four.

Definition same_place (T : Tool) (x y : address) : Prop :=
  geo_valid (ad_geo y) = geo_valid (ad_geo x) /\
  (geo_valid (ad_geo x) = true -> t_fmt6 T (g_lat (ad_geo y)) = t_fmt6 T (g_lat (ad_geo x)) /\ t_fmt6 T (g_lon (ad_geo y)) = t_fmt6 T (g_lon (ad_geo x))).
Lemma address_same40 T x y : same_address x y -> same_place T x y -> address_lines T V40 y = address_lines T V40 x.
Proof.
  intros (H1 & H2 & H3 & H4 & H5 & H6 & H7 & H8 & H9) [G1 G2]. unfold address_lines, address_value, address_blank. rewrite H1, H2, H3, H4, H5, H6, H7, H8, H9, G1.
  destruct (geo_valid (ad_geo x)); [destruct (G2 eq_refl) as [-> ->]|]; reflexivity.
Qed.
Lemma key_same40 k q : ke_type k <> KCustom -> key_back k q -> key_line V40 q = key_line V40 k.
Proof. intros Hk (H1 & H2 & H3 & H4). unfold key_line. rewrite H1, H2. destruct (ke_isbin k); rewrite H4; destruct (ke_type k); congruence. Qed.
Lemma geo_same40 T g r : (geo_valid g = true -> geo_valid (geo_rounded T g) = true /\
     t_fmt6 T (g_lat (geo_rounded T g)) = t_fmt6 T (g_lat g) /\ t_fmt6 T (g_lon (geo_rounded T g)) = t_fmt6 T (g_lon g)) ->
  r = (if geo_valid (geo_rounded T g) then geo_rounded T g else geo_new) -> geo_lines T V40 r = geo_lines T V40 g.
Proof.
  intros H ->. unfold geo_lines. destruct (geo_valid g) eqn:Eg.
  - destruct (H eq_refl) as (H1 & H2 & H3). rewrite H1, H1, H2, H3. reflexivity.
  - assert (Hr : geo_rounded T g = geo_new) by (unfold geo_rounded; rewrite Eg; reflexivity). rewrite Hr. reflexivity.
Qed.
(** addresses of calendars: read in the order of their kinds *)
Definition calurl_id (c : calurl) : ustring := match cu_type c with CalFBUrl => B "FBURL" | CalCALUri => B "CALURI" | CalCALADRUri => B "CALADRURI" | _ => [] end.
Lemma calurls_named T id l : of_id id (flat_map (calurl_lines T) l) = flat_map (calurl_lines T) (filter (fun c => leqb (calurl_id c) id) l).
Proof.
  induction l as [|c l IH]; [reflexivity|]. cbn [flat_map filter]. rewrite of_id_app, IH.
  assert (H : of_id id (calurl_lines T c) = if leqb (calurl_id c) id then calurl_lines T c else []).
  { unfold calurl_lines, calurl_id. destruct (calurl_valid _ c); [|destruct (leqb _ _); reflexivity].
    destruct (cu_type c); cbv beta zeta; unfold of_id; cbn [filter]; rewrite ?add_params_id; try (destruct (leqb _ _); reflexivity);
      unfold text_line; cbn [vline_new vl_id]; match goal with |- context [leqb ?x ?y] => destruct (leqb x y) end; reflexivity. }
  rewrite H. destruct (leqb (calurl_id c) id); reflexivity.
Qed.
Lemma of_type_again t u l : filter (of_type t) (filter (of_type u) l) = if caltype_eq u t then filter (of_type t) l else [].
Proof.
  rewrite filter_filter. destruct (caltype_eq u t) eqn:E.
  - apply filter_ext. intros c. unfold of_type. destruct (cu_type c), u, t; try discriminate; reflexivity.
  - apply filter_none. intros c _. unfold of_type. destruct (cu_type c), u, t; try discriminate; reflexivity.
Qed.
Lemma calurls_agree E T l m : m = filter (of_type CalCALADRUri) l ++ filter (of_type CalCALUri) l ++ filter (of_type CalFBUrl) l ->
  agree E (flat_map (calurl_lines T) l) (flat_map (calurl_lines T) m).
Proof.
  intros -> id. unfold said. rewrite !calurls_named. f_equal.
  assert (Ht : forall t, In t [CalFBUrl; CalCALUri; CalCALADRUri] -> id = cal_name t -> forall l, filter (fun c => leqb (calurl_id c) id) l = filter (of_type t) l).
  { intros t Hin -> l'. apply filter_ext. intros c. unfold calurl_id, of_type. destruct Hin as [<-|[<-|[<-|[]]]]; destruct (cu_type c); reflexivity. }
  assert (Hn : ~ In id (map cal_name [CalFBUrl; CalCALUri; CalCALADRUri]) -> forall l, flat_map (calurl_lines T) (filter (fun c => leqb (calurl_id c) id) l) = []).
  { intros Hid. induction l0 as [|c l' IH]; [reflexivity|]. cbn [filter]. destruct (leqb_spec (calurl_id c) id) as [<-|_]; [|exact IH]. cbn [flat_map]. rewrite IH, app_nil_r.
    unfold calurl_lines. destruct (calurl_valid _ c); [|reflexivity]. unfold calurl_id in Hid. destruct (cu_type c); try reflexivity; exfalso; apply Hid; cbn; auto. }
  destruct (leqb_spec id (cal_name CalFBUrl)) as [E1|N1]; [|destruct (leqb_spec id (cal_name CalCALUri)) as [E2|N2]; [|destruct (leqb_spec id (cal_name CalCALADRUri)) as [E3|N3]]].
  - rewrite !(Ht CalFBUrl) by (cbn; auto). rewrite !filter_app, !of_type_again. reflexivity.
  - rewrite !(Ht CalCALUri) by (cbn; auto). rewrite !filter_app, !of_type_again. cbn [caltype_eq app]. rewrite app_nil_r. reflexivity.
  - rewrite !(Ht CalCALADRUri) by (cbn; auto). rewrite !filter_app, !of_type_again. cbn [caltype_eq app]. rewrite app_nil_r. reflexivity.
  - rewrite !Hn; [reflexivity| |]; cbn [map In]; intros [H|[H|[H|[]]]]; congruence.
Qed.
Lemma picture40_agree T i p q : pi_intern p = false -> q = (if picture_full T p then pic40 T p else picture_new) ->
  picture_line T V40 i q = picture_line T V40 i p.
Proof.
  intros Hi ->. unfold picture_full, pic40, picture_line, picture_line4. rewrite Hi. destruct (pi_url p); reflexivity.
Qed.
Lemma forall2_and {X Y} (P Q : X -> Y -> Prop) l m : Forall2 P l m -> Forall2 Q l m -> Forall2 (fun x y => P x y /\ Q x y) l m.
Proof. induction 1 as [|x y l m H _ IH]; intros H2; [constructor|]. inversion H2; subst. constructor; auto. Qed.

Lemma chunks_agree40 E T export a b : fits T V40 a -> reads_as E T V40 export a b -> fresh_ids T -> paths_replace T ->
  safe40 T a -> Forall params_orderly (all_params b) -> rest_in40 T a ->
  Forall2 (fun c d => agree E (snd c) (snd d)) (chunks T V40 export a) (chunks T V40 export b).
Proof.
  intros Hf Hr HT HP Hs Ho [R1 R2 R3 R4 R5 R6 R7 R8 R9 R10]. pose proof (whole40 E T export a b Hf Hr HT Hs) as [[K1 K2 K3 K4 [K5 K5'] [K6 K6'] K7 K8 K9 K10 K11 K12 K13] Q1 Q2 Q3 Q4 Q5 Q6 Q7 Q8 Q9].
  injection K1 as K1a K1b K1c. injection K2 as K2a K2b K2c K2d K2e. injection Q1 as Q1a Q1b.
  pose proof (params_facts a (fit_params _ _ _ Hf)) as Hpar. destruct Hs as [Hs _ _ _ _ _ _ _ _ _ _].
  destruct (w_customs _ _ _ Hs) as (_ & Hcu & Hsp).
  assert (Hpo : Forall (fun o => parts_safe (org_parts (a_department a) o)) (a_orgs a)).
  { eapply Forall_impl; [|exact (w_orgs _ _ _ Hs)]. intros o [_ Ho']. exact Ho'. }
  destruct R3 as [R3 R3']. pose proof (field_sortstring40 E T export a b Hf Hr R3 Hpo R3') as Hso.
  unfold chunks. repeat apply Forall2_cons; [..|apply Forall2_nil]; cbn [snd].
  all: try (apply agree_eq; unfold bday_line, n_line; rewrite ?K1a, ?K1b, ?K1c, ?K2a, ?K2b, ?K2c, ?K2d, ?K2e, ?K3, ?K4, ?K5, ?K5', ?K6, ?K6', ?K7, ?K8, ?K9, ?K10, ?K13, ?Q1a, ?Q1b, ?Q2, ?Q3, ?Q4, ?Q5, ?Q6, ?Q7, ?Q8, ?Q9, ?Hso; reflexivity).
  - apply agree_eq. apply flat_map_forall2. destruct (w_addresses _ _ _ Hs) as [Had _].
    assert (H2 : Forall2 (same_place T) (a_addresses a) (a_addresses b)).
    { assert (Hfa := field_addresses E T V40 export a b Hf Hr HT). eapply Forall2_imp; [|apply Hfa].
      - intros x y Hx (_ & _ & Hy). destruct (Hy eq_refl) as [id Hid]. rewrite Forall_forall in R2. specialize (R2 x Hx).
        assert (Hh : address_heads T V40 x). { intros _. destruct (fit_40 _ _ _ Hf eq_refl) as [H4 _]. rewrite Forall_forall in H4. apply H4. exact Hx. }
        pose proof (adr_position E T x id y Hh (fun G => proj1 (R2 G)) Hid) as Hpos. unfold same_place. rewrite Hpos.
        destruct (geo_valid (ad_geo x)) eqn:Eg.
        + destruct (R2 eq_refl) as (_ & G1 & G2 & G3). rewrite G1. auto.
        + unfold address_geo. rewrite Eg. split; [reflexivity|discriminate].
      - eapply Forall_impl; [|exact Had]. intros x (H1 & H2 & H3 & _). auto.
      - congruence. }
    eapply Forall2_imp; [|exact (forall2_and _ _ _ _ K12 H2)]. intros x y _ [Hxy Hxy']. symmetry. apply address_same40; auto.
  - destruct R8 as [R8 R8']. rewrite (field_related40 E T export a b Hf Hr Hsp R8 R8'). rewrite Forall_forall in R8. apply (agree_map E _ ptext_valid); [|reflexivity].
    intros t Ht Hn. unfold params_line. destruct (seen_params_safe E (B "RELATED") (pt_params t) (pt_text t)) as [L _]; [in_known|apply Hpar; in_app|apply R8; auto|].
    rewrite L. exact Hn.
  - destruct R1 as [R1 R1']. apply agree_eq. symmetry. apply geo_same40; auto. apply (field_geo E T V40 export a b Hf Hr R1).
  - pose proof (field_keys40 E T export a b Hf Hr HT R4) as Hk. pose proof (fit_keys _ _ _ Hf) as Hk'. rewrite Forall_forall in R4, Hk'.
    apply (agree_map E _ key_full).
    + intros k Hin Hn. destruct (key_read40 E k [] (Hk' k Hin) (proj1 (R4 k Hin)) (proj2 (R4 k Hin))) as [-> _]. exact Hn.
    + apply map_forall2. eapply Forall2_imp; [|exact Hk]. intros k q Hin Hq. symmetry. apply filter_In in Hin as [Hin _]. apply key_same40; auto. apply R4; auto.
  - destruct R5 as [R5 R5']. pose proof (field_logo40 E T export a b Hf Hr R5') as H. rewrite R5 in H. specialize (H ltac:(discriminate)). injection H as H1 H2.
    rewrite R5', H2. apply agree_eq. f_equal. symmetry. apply picture40_agree; auto.
  - destruct R6 as [R6 R6']. pose proof (field_photo40 E T export a b Hf Hr R6') as H. rewrite R6 in H. specialize (H ltac:(discriminate)). injection H as H1 H2.
    rewrite R6', H2. apply agree_eq. f_equal. symmetry. apply picture40_agree; auto.
  - apply agree_eq. apply map_forall2. assert (Hq : Forall (fun q => params_orderly (ph_params q)) (a_phones b)).
    { unfold all_params in Ho. rewrite !Forall_app in Ho. destruct Ho as (_ & Ho & _). rewrite Forall_map in Ho. exact Ho. }
    clear - K11 Hq Hpar. destruct Hpar as (_ & Hp & _). revert Hp Hq. induction K11 as [|p q l m H _ IH]; intros Hp Hq; constructor.
    + symmetry. apply phone_same; [apply Hp; left; auto|apply Forall_inv in Hq; exact Hq|exact H].
    + apply IH; [intros; apply Hp; right; auto|apply Forall_inv_tail in Hq; exact Hq].
  - cbn [is40 when]. apply calurls_agree. exact (field_calurls E T export a b Hf Hr R7).
  - destruct R9 as [R9 R9']. apply (fgroups_agree E (a_fgroups a)); auto; [|apply (field_fgroups E T V40 export a b Hf Hr R9)].
    intros f Hin. apply (fgroup_seen E T V40 a f Hf Hin).
  - destruct (field_impps E T V40 export a b Hf Hr) as (news & Hi & es & Hes & H2); auto.
    + eapply Forall_impl; [|exact Hcu]. intros e (He1 & He2 & He3). split; [exact He1|]. split; [|auto]. intros Hm. unfold is_messaging in Hm. destruct He3 as (_ & He3 & _). congruence.
    + assert (Hnil : filter is_messaging (filter full_custom (a_customs a)) = []).
      { apply filter_none. intros e He. apply filter_In in He as [He _]. rewrite Forall_forall in Hcu. destruct (Hcu e He) as (_ & _ & _ & Hm & _). exact Hm. }
      rewrite Hnil in Hes. apply Permutation_sym, Permutation_nil in Hes. subst es. inversion H2. subst news. cbn [concat] in Hi. rewrite app_nil_r in Hi.
      apply agree_eq. rewrite Hi, map_map. apply map_ext. intros i. symmetry. apply impp_same.
  - apply agree_eq. unfold customs_of. rewrite K13. reflexivity.
Qed.
