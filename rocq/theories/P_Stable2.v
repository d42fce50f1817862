(** Contacts that have been read from version 2.1 or 3.0 are written in the same way again. *)
From Coq Require Import Permutation.
From Verif Require Import Base BaseFacts QtText Utf8 Utf8Facts M_ParamMap M_VCard M_VCardText
  S_Escape P_Escape S_Fold P_Fold S_CardText P_CardText S_Card P_Assoc P_Card S_Parse P_Parse P_Parse2
  S_RoundTrip P_RoundTrip P_RoundTrip2 P_RoundTrip3 P_ReadBack P_Items P_Order
  M_Split S_Split P_Split M_Values M_Date M_Addressee P_Addressee M_VCardTool S_Contact P_Seen P_ReadFields P_Lines P_Contact P_Chunks
  P_Fields P_Fields2 P_Fields3 P_Fields4 P_Fields5 P_Fields6 P_Fields7 P_Types P_Addr P_Contact2 S_Whole P_Whole S_Orderly S_Stable P_Stable.

(** ** lists of lines *)
Lemma agree_map {X} E (f : X -> vline) (full : X -> bool) l m :
  (forall x, In x l -> full x = false -> loud E (f x) = false) -> map f (filter full l) = m -> agree E (map f l) m.
Proof.
  intros H <-. eapply agree_trans; [apply agree_loud|]. eapply agree_trans; [|apply agree_sym, agree_loud]. apply agree_eq.
  induction l as [|x l IH]; [reflexivity|]. cbn [map filter]. rewrite IH by (intros; apply H; [right|]; auto).
  destruct (full x) eqn:Ex; cbn [map filter]; [reflexivity|]. rewrite (H x (or_introl eq_refl) Ex). reflexivity.
Qed.
Lemma map_forall2 {X Y Z} (f : X -> Z) (g : Y -> Z) l m : Forall2 (fun x y => f x = g y) l m -> map f l = map g m.
Proof. induction 1; cbn; congruence. Qed.
Lemma flat_map_forall2 {X Y Z} (f : X -> list Z) (g : Y -> list Z) l m : Forall2 (fun x y => f x = g y) l m -> flat_map f l = flat_map g m.
Proof. induction 1; cbn; congruence. Qed.

(** ** telephone numbers *)
Lemma find_filter (p : ustring -> bool) k m : find_param k (filter (fun e => p (fst e)) m) = if p k then find_param k m else None.
Proof.
  induction m as [|[q vs] m IH]; cbn [filter find_param fst]; [destruct (p k); reflexivity|].
  destruct (p q) eqn:Eq; cbn [find_param]; destruct (leqb_spec q k) as [->|N]; rewrite ?Eq; auto. rewrite IH, Eq. reflexivity.
Qed.
Lemma phone_same v p q : plain_params (ph_params p) -> params_orderly (ph_params q) -> same_phone p q -> phone_line v q = phone_line v p.
Proof.
  intros [[Hs _] _] [Hq _] (H1 & H2 & H3).
  assert (Hp : filter not_type (ph_params q) = filter not_type (ph_params p)).
  { apply asorted_ext; [apply increasing_filtered; auto..|]. intros k. rewrite <- !find_param_afind.
    rewrite !(find_filter (fun k => negb (leqb (to_upper k) (B "TYPE")))). destruct (leqb_spec (to_upper k) (B "TYPE")) as [Hk|Hk]; cbn [negb]; [reflexivity|].
    apply H3. intros ->. apply Hk. reflexivity. }
  rewrite !phone_line_eq. unfold phone_kvs, phone_names. rewrite Hp, H2, H1. reflexivity.
Qed.
Lemma address_same T v x y : v <> V40 -> same_address x y -> address_lines T v y = address_lines T v x.
Proof.
  intros Hv (H1 & H2 & H3 & H4 & H5 & H6 & H7 & H8 & H9). unfold address_lines, address_value, address_blank. rewrite H1, H2, H3, H4, H5, H6, H7, H8, H9.
  destruct v; [reflexivity|reflexivity|congruence].
Qed.
(** ** keys, pictures, sounds *)
Lemma key_same v k q : v <> V40 -> key_back k q -> key_line v q = key_line v k.
Proof.
  intros Hv (H1 & H2 & H3 & H4). unfold key_line. rewrite H1, H2. destruct (ke_isbin k); rewrite H4; destruct (ke_type k) eqn:Et; try rewrite (H3 eq_refl); reflexivity.
Qed.
Lemma picture_same T v i p q : v <> V40 -> picture_full T p = true -> picture_back T p q -> picture_line T v i q = picture_line T v i p.
Proof.
  intros Hv Hf [H1 H2]. unfold picture_full in Hf.
  assert (He : forall x, pi_intern x = true -> pi_raw_of (env_img (t_env T)) x <> [] -> picture_empty x = false).
  { intros x Hx Hr. unfold picture_empty, pi_raw_of in *. rewrite Hx. cbn [negb andb orb]. destruct (pi_data x), (pi_raw x); auto. destruct (Hr eq_refl). }
  assert (Hl : picture_empty q = false /\ picture_empty p = false).
  { destruct (pi_intern p) eqn:Ei.
    - destruct H2 as [H2 H3]. split; apply He; auto; rewrite ?H2; intros X; rewrite X in Hf; discriminate.
    - unfold picture_empty. rewrite H1, Ei, H2. cbn [negb andb orb]. rewrite orb_false_r. apply negb_true_iff in Hf. auto. }
  destruct Hl as [L1 L2]. unfold picture_line. rewrite L1, L2, H1. destruct (pi_intern p); [destruct H2 as [-> ->]|rewrite H2]; destruct v; congruence.
Qed.
Lemma sound_same v s q : sound_back s q -> sound_line v q = sound_line v s.
Proof. intros [H1 H2]. unfold sound_line. rewrite H1. destruct (so_intern s); rewrite H2; reflexivity. Qed.
Lemma media_agree {A} E (line : A -> vline) (full : A -> bool) (back : A -> A -> Prop) none x xs y ys :
  (forall z, In z (x :: xs) -> full z = false -> loud E (line z) = false) -> loud E (line none) = false ->
  (forall p q, full p = true -> back p q -> line q = line p) -> media_back full back none x xs y ys ->
  agree E (line x :: map line xs) (line y :: map line ys).
Proof.
  intros Hl Hn Hs Hm. change (agree E (map line (x :: xs)) (map line (y :: ys))). unfold media_back in Hm.
  destruct (filter full (x :: xs)) as [|f fs] eqn:Ef.
  - destruct Hm as [-> ->]. eapply agree_trans; [apply (agree_map E line full _ []); [exact Hl|rewrite Ef; reflexivity]|].
    eapply agree_trans; [|apply agree_sym, agree_loud]. cbn [map filter]. rewrite Hn. apply agree_refl.
  - destruct Hm as [Hb Hbs]. apply (agree_map E line full); [exact Hl|]. rewrite Ef.
    assert (Hfull : forall z, In z (f :: fs) -> full z = true) by (intros z Hz; rewrite <- Ef in Hz; apply filter_In in Hz; apply Hz).
    apply map_forall2. constructor; [symmetry; apply Hs; auto; apply Hfull; left; auto|].
    eapply Forall2_imp; [|exact Hbs]. intros p q Hp Hpq. symmetry. apply Hs; auto. apply Hfull. right; auto.
Qed.

(** ** position, sources, relations, field groups, messaging addresses *)
Lemma geo_same T v g r : v <> V40 -> (geo_valid g = true -> geo_valid (geo_rounded T g) = true /\
     t_fmt6 T (g_lat (geo_rounded T g)) = t_fmt6 T (g_lat g) /\ t_fmt6 T (g_lon (geo_rounded T g)) = t_fmt6 T (g_lon g)) ->
  r = (if geo_valid (geo_rounded T g) then geo_rounded T g else geo_new) -> geo_lines T v r = geo_lines T v g.
Proof.
  intros Hv H ->. unfold geo_lines. destruct (geo_valid g) eqn:Eg.
  - destruct (H eq_refl) as (H1 & H2 & H3). rewrite H1, H1, H2, H3. reflexivity.
  - assert (Hr : geo_rounded T g = geo_new) by (unfold geo_rounded; rewrite Eg; reflexivity). rewrite Hr. reflexivity.
Qed.
Lemma impp_same i : impp_line (impp_written i) = impp_line i.
Proof.
  rewrite !impp_line_all. unfold impp_written. cbn [im_params im_address]. f_equal. rewrite filter_filter. apply filter_ext. intros [k vs]. cbn [fst].
  destruct (leqb_spec k (B "x-service-type")) as [->|N]; [reflexivity|]. reflexivity.
Qed.
Definition fgroup_line (f : fgroup) : vline := vl_add_params (fg_params f) (text_line (fg_name f) (fg_value f)).
Lemma fgroup_line_id f : vl_id (fgroup_line f) = fg_name f.
Proof. unfold fgroup_line. rewrite add_params_id. reflexivity. Qed.
Lemma fgroup_named id l : of_id id (map fgroup_line l) = map fgroup_line (filter (fun f => leqb (fg_name f) id) l).
Proof. unfold of_id. rewrite filter_map'. f_equal. apply filter_ext. intros f. rewrite fgroup_line_id. reflexivity. Qed.
Lemma nodup_one {X} (f : X -> ustring) id l : NoDup (map f l) -> (length (filter (fun x => leqb (f x) id) l) <= 1)%nat.
Proof.
  induction l as [|x l IH]; intros H; [cbn; lia|]. inversion_clear H as [|? ? Hx Hl]. cbn [filter]. destruct (leqb_spec (f x) id) as [<-|N]; [|auto].
  replace (filter _ l) with (@nil X); [cbn; lia|]. symmetry. apply filter_none. intros y Hy. apply leqb_neq. intros E. apply Hx. rewrite <- E. apply in_map. auto.
Qed.
Lemma perm_short {X} (l m : list X) : Permutation l m -> (length l <= 1)%nat -> l = m.
Proof.
  intros H Hl. destruct l as [|x [|y l]]; [|apply Permutation_length_1_inv in H; auto|cbn in Hl; lia]. symmetry. apply Permutation_nil. exact H.
Qed.
Lemma fgroups_agree E l m : (forall f, In f l -> loud E (fgroup_line f) = negb (isnil (fg_value f))) -> NoDup (map fg_name l) ->
  Permutation m (filter (fun f => negb (isnil (fg_value f))) l) -> agree E (map fgroup_line l) (map fgroup_line m).
Proof.
  intros Hl Hn Hp. eapply agree_trans; [apply (agree_map E fgroup_line (fun f => negb (isnil (fg_value f))) l _ (fun f Hf H => eq_trans (Hl f Hf) H) eq_refl)|].
  intros id. unfold said. rewrite !fgroup_named. do 2 f_equal. symmetry. apply perm_short; [apply perm_filter; exact Hp|].
  rewrite (Permutation_length (perm_filter (fun f => leqb (fg_name f) id) _ _ Hp)). apply nodup_one. clear - Hn.
  induction l as [|f l IH]; [constructor|]. inversion_clear Hn as [|? ? H1 H2]. cbn [filter]. destruct (negb _); [|auto]. cbn [map]. constructor; auto.
  intros H. apply H1. apply in_map_iff in H as (g & <- & Hg). apply filter_In in Hg as [Hg _]. apply in_map. auto.
Qed.

(** ** all properties *)
Record kept (v : version) (a b : addressee) : Prop := {
  kp_in : same_in a b;
  kp_name : a_name b = a_name a;
  kp_mailer : a_mailer b = a_mailer a;
  kp_categories : v <> V21 -> a_categories b = a_categories a;
  kp_nicks : v <> V21 -> a_nicks b = a_nicks a;
  kp_prodid : v <> V21 -> a_prodid b = a_prodid a;
  kp_secrecy : v = V30 -> a_secrecy b = a_secrecy a;
  kp_sort : v = V30 -> a_sortstring b = a_sortstring a
}.
Lemma kept30 a b : same30 a b -> kept V30 a b.
Proof.
  intros []. injection e_texts as ? ? ? ? ? ? ?. constructor; auto. constructor; auto. congruence.
Qed.
Lemma kept21 a b : same21 a b -> kept V21 a b.
Proof. intros (H1 & H2 & H3). constructor; auto; congruence. Qed.

Lemma chunks_agree E T v export a b : v <> V40 -> fits T v a -> reads_as E T v export a b -> fresh_ids T -> paths_replace T ->
  Forall (fun e => text_safe (snd e) /\ snd e <> [] /\ custom_name (fst e)) (a_customs a) ->
  Forall params_orderly (all_params b) -> kept v a b -> rest_in T v a ->
  Forall2 (fun c d => agree E (snd c) (snd d)) (chunks T v export a) (chunks T v export b).
Proof.
  intros Hv Hf Hr HT HP Hcu Ho [[K1 K2 K3 K4 [K5 K5'] [K6 K6'] K7 K8 K9 K10 K11 K12 K13] Q1 Q2 Q3 Q4 Q5 Q6 Q7] [R1 R2 R3 R4 R5 R6 R7 R8 R9].
  injection K1 as K1a K1b K1c. injection K2 as K2a K2b K2c K2d K2e.
  pose proof (params_facts a (fit_params _ _ _ Hf)) as Hpar.
  unfold chunks. repeat apply Forall2_cons; [..|apply Forall2_nil]; cbn [snd].
  all: try (apply agree_eq; unfold bday_line, n_line; rewrite ?K1a, ?K1b, ?K1c, ?K2a, ?K2b, ?K2c, ?K2d, ?K2e, ?K3, ?K4, ?K5, ?K5', ?K6, ?K6', ?K7, ?K8, ?K9, ?K10, ?K13, ?Q1, ?Q2; reflexivity).
  all: try (apply agree_eq; destruct v; [reflexivity| |congruence]; rewrite ?Q3, ?Q4, ?Q5, ?Q6, ?Q7 by (auto; discriminate); reflexivity).
  - apply agree_eq. apply flat_map_forall2. eapply Forall2_imp; [|exact K12]. intros x y _ Hxy. symmetry. apply address_same; auto.
  - assert (Rs : Forall text_safe (a_sources a)) by (eapply Forall_impl; [|exact R6]; intros u Hu; apply Hu).
    rewrite (field_sources E T v export a b Hf Hr Rs). rewrite Forall_forall in R6. apply (agree_map E _ (fun u => negb (isnil u))).
    + intros u Hu Hn. destruct (text_seen E (B "SOURCE") u ltac:(in_known) (proj1 (R6 u Hu))) as [-> _]. exact Hn.
    + rewrite map_map. apply map_ext_in. intros u Hu. apply filter_In in Hu as [Hu _]. rewrite (proj2 (R6 u Hu)). reflexivity.
  - destruct R7 as [R7 R7']. rewrite (field_related E T v export a b Hf Hr Hv R7 R7'). rewrite Forall_forall in R7. apply (agree_map E _ ptext_valid); [|reflexivity].
    intros t Ht Hn. unfold params_line. destruct (seen_params_safe E (B "RELATED") (pt_params t) (pt_text t)) as [L _]; [in_known|apply Hpar; in_app|apply R7; auto|].
    rewrite L. exact Hn.
  - destruct R1 as [R1 R1']. apply agree_eq. symmetry. apply geo_same; auto. apply (field_geo E T v export a b Hf Hr R1).
  - pose proof (field_keys E T v export a b Hf Hr HT Hv R2) as Hk. pose proof (fit_keys _ _ _ Hf) as Hk'. rewrite Forall_forall in R2, Hk'.
    apply (agree_map E _ key_full).
    + intros k Hin Hn. destruct (key_read E v k [] Hv (proj2 (R2 k Hin)) (Hk' k Hin) (proj1 (R2 k Hin))) as [-> _]. exact Hn.
    + apply map_forall2. eapply Forall2_imp; [|exact Hk]. intros k q _ Hq. symmetry. apply key_same; auto.
  - pose proof (fit_pictures _ _ _ Hf) as Hk'. pose proof (field_logos E T v export a b Hf Hr Hv R3) as Hm. rewrite Forall_forall in R3, Hk'.
    eapply (media_agree E (picture_line T v (B "LOGO"))); [| | |exact Hm].
    + intros p Hin Hn. destruct (picture_read E T v (B "LOGO") p ltac:(cbn; auto) Hv (proj2 (R3 p Hin))) as [-> _]; [|apply R3; auto|exact Hn].
      apply Hk'. destruct Hin as [<-|Hin]; [left; auto|]. right. right. in_app.
    + destruct v; reflexivity || congruence.
    + intros p q Hfull Hb. apply picture_same; auto.
  - apply agree_eq. unfold n_line. rewrite K2a, K2b, K2c, K2d, K2e. destruct v; [reflexivity|reflexivity|congruence].
  - pose proof (fit_pictures _ _ _ Hf) as Hk'. pose proof (field_photos E T v export a b Hf Hr Hv R4) as Hm. rewrite Forall_forall in R4, Hk'.
    eapply (media_agree E (picture_line T v (B "PHOTO"))); [| | |exact Hm].
    + intros p Hin Hn. destruct (picture_read E T v (B "PHOTO") p ltac:(cbn; auto) Hv (proj2 (R4 p Hin))) as [-> _]; [|apply R4; auto|exact Hn].
      apply Hk'. destruct Hin as [<-|Hin]; [right; left; auto|]. right. right. in_app.
    + destruct v; reflexivity || congruence.
    + intros p q Hfull Hb. apply picture_same; auto.
  - replace (is40 v) with false by (destruct v; auto; congruence). cbn [negb when].
    pose proof (fit_sounds _ _ _ Hf) as Hk'. pose proof (field_sounds E T v export a b Hf Hr Hv R5) as Hm. rewrite Forall_forall in R5, Hk'.
    eapply (media_agree E (sound_line v)); [| | |exact Hm].
    + intros p Hin Hn. destruct (sound_read E v p Hv (proj2 (R5 p Hin))) as [-> _]; [|apply R5; auto|exact Hn]. apply Hk'. exact Hin.
    + reflexivity.
    + intros p q _ Hb. apply sound_same; auto.
  - apply agree_eq. apply map_forall2. assert (Hq : Forall (fun q => params_orderly (ph_params q)) (a_phones b)).
    { unfold all_params in Ho. rewrite !Forall_app in Ho. destruct Ho as (_ & Ho & _). rewrite Forall_map in Ho. exact Ho. }
    clear - K11 Hq Hpar. destruct Hpar as (_ & Hp & _). revert Hp Hq. induction K11 as [|p q l m H _ IH]; intros Hp Hq; constructor.
    + symmetry. apply phone_same; [apply Hp; left; auto|apply Forall_inv in Hq; exact Hq|exact H].
    + apply IH; [intros; apply Hp; right; auto|apply Forall_inv_tail in Hq; exact Hq].
  - destruct R8 as [R8 R8']. apply (fgroups_agree E (a_fgroups a)); auto; [|apply (field_fgroups E T v export a b Hf Hr R8)].
    intros f Hin. apply (fgroup_seen E T v a f Hf Hin).
  - destruct (field_impps E T v export a b Hf Hr) as (news & Hi & es & Hes & H2); auto.
    + intros ->. congruence.
    + eapply Forall_impl; [|exact Hcu]. intros e (He1 & He2 & He3). split; [exact He1|]. split; [|auto]. intros Hm. unfold is_messaging in Hm. destruct He3 as (_ & He3 & _). congruence.
    + assert (Hnil : filter is_messaging (filter full_custom (a_customs a)) = []).
      { apply filter_none. intros e He. apply filter_In in He as [He _]. rewrite Forall_forall in Hcu. destruct (Hcu e He) as (_ & _ & _ & Hm & _). exact Hm. }
      rewrite Hnil in Hes. apply Permutation_sym, Permutation_nil in Hes. subst es. inversion H2. subst news. cbn [concat] in Hi. rewrite app_nil_r in Hi.
      apply agree_eq. rewrite Hi, map_map. apply map_ext. intros i. symmetry. apply impp_same.
  - apply agree_eq. unfold customs_of. rewrite K13. reflexivity.
Qed.
