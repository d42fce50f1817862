(** Contacts in order: the calls of the API keep them so (C58). *)
From Verif Require Import Base BaseFacts QtText M_ParamMap M_VCard S_Card P_Assoc P_Card M_Values M_Date M_Addressee M_VCardTool S_Contact
  P_Lists P_Values P_Addressee S_Orderly.

Lemma forall_map {A B} (f : A -> B) (P : B -> Prop) l : Forall P (map f l) <-> Forall (fun x => P (f x)) l.
Proof. rewrite Forall_map. reflexivity. Qed.
Lemma forall_incl {A} (P : A -> Prop) l l' : (forall x, In x l' -> In x l) -> Forall P l -> Forall P l'.
Proof. rewrite !Forall_forall. auto. Qed.
Lemma forall_new {A} (P : A -> Prop) y l l' : (forall x, In x l' -> x = y \/ In x l) -> P y -> Forall P l -> Forall P l'.
Proof. rewrite !Forall_forall. intros H Hy Hl x Hx. destruct (H x Hx) as [->|]; auto. Qed.

Lemma replace_or_in {A} (p : A -> bool) x app l y : In y (replace_or p x app l) -> y = x \/ In y l.
Proof.
  unfold replace_or. destruct (find_split p l) as [[[b z] t]|] eqn:F.
  - apply find_split_Some in F as (-> & _ & _). rewrite !in_app_iff. cbn. intuition.
  - destruct app; auto. rewrite in_app_iff. cbn. intuition.
Qed.
Lemma erase_first_in {A} (p : A -> bool) l y : In y (erase_first p l) -> In y l.
Proof.
  unfold erase_first. destruct (find_split p l) as [[[b z] t]|] eqn:F; auto.
  apply find_split_Some in F as (-> & _ & _). rewrite !in_app_iff. cbn. intuition.
Qed.
Lemma erase_first_nodup {A} (key : A -> ustring) p l : NoDup (map key l) -> NoDup (map key (erase_first p l)).
Proof.
  unfold erase_first. destruct (find_split p l) as [[[b z] t]|] eqn:F; auto.
  apply find_split_Some in F as (-> & _ & _). rewrite !map_app. cbn. apply NoDup_remove_1.
Qed.
Lemma skip_remove_in {A} (p : A -> bool) l y : In y (skip_remove p l) -> In y l.
Proof.
  pattern l. apply (skip_remove_ind p); cbn; auto.
  - intros x. destruct (p x); cbn; auto.
  - intros x z r H1 H2. destruct (p x); cbn; [intuition|]. intros [->|H]; auto.
Qed.
Lemma skip_remove_nodup {A} (key : A -> ustring) p l : NoDup (map key l) -> NoDup (map key (skip_remove p l)).
Proof.
  pattern l. apply (skip_remove_ind p); cbn; auto.
  - intros x. destruct (p x); cbn; auto. constructor.
  - intros x z r H1 H2 H. inversion H as [|? ? Hx Hr]; subst. inversion Hr as [|? ? Hz Hr']; subst.
    destruct (p x); cbn.
    + constructor; auto. intros Hi. apply Hz. apply in_map_iff in Hi as (w & <- & Hw). apply in_map, (skip_remove_in p), Hw.
    + constructor; auto. intros Hi. apply Hx. apply in_map_iff in Hi as (w & E & Hw).
      apply (skip_remove_in p (z :: r)) in Hw. rewrite <- E. change (In (key w) (map key (z :: r))). apply in_map, Hw.
Qed.

Ltac whole := intros []; constructor; assumption.
Lemma touch_orderly Q V a : orderly_with Q V a -> orderly_with Q V (touch a). Proof. whole. Qed.

Section Keep.
Variables (Q : ptext -> Prop) (V : Env).
Hypothesis HQ : forall x, pt_text x <> [] -> Q x.
Implicit Types a : addressee.
Definition keeps (f : addressee -> addressee) : Prop := forall a, orderly_with Q V a -> orderly_with Q V (f a).

(** single values *)
Lemma text_keeps set v : In set text_setters -> keeps (set v).
Proof.
  intros H a Ha. cbn [text_setters In] in H. repeat destruct H as [<-|H]; try tauto;
  match goal with |- orderly_with _ _ (?s _ _) => unfold s end; unfold set_text, guarded;
  match goal with |- context [if ?b then _ else _] => destruct b end; auto; revert Ha; whole.
Qed.
Ltac single := intros a Ha; unfold guarded; match goal with |- context [if ?b then _ else _] => destruct b end; auto; revert Ha; whole.
Lemma birthday_keeps d t : keeps (set_birthday V d t). Proof. unfold set_birthday. single. Qed.
Lemma birthday_date_keeps d : keeps (set_birthday_date d). Proof. unfold set_birthday_date. single. Qed.
Lemma deathdate_keeps d : keeps (set_deathdate V d). Proof. unfold set_deathdate. single. Qed.
Lemma revision_keeps d : keeps (set_revision V d). Proof. unfold set_revision. single. Qed.
Lemma tz_keeps d : keeps (set_tz d). Proof. unfold set_tz. single. Qed.
Lemma geo_keeps d : keeps (set_geo d). Proof. unfold set_geo. single. Qed.
Lemma secrecy_keeps d : keeps (set_secrecy d). Proof. unfold set_secrecy. single. Qed.
Lemma logo_keeps d : keeps (set_logo V d). Proof. unfold set_logo. single. Qed.
Lemma photo_keeps d : keeps (set_photo V d). Proof. unfold set_photo. single. Qed.
Lemma sound_keeps d : keeps (set_sound d). Proof. unfold set_sound. single. Qed.
Lemma gender_keeps d : keeps (set_gender d). Proof. unfold set_gender. single. Qed.
Lemma xlogo_keeps d : keeps (insert_xlogo d). Proof. intros a. unfold insert_xlogo. whole. Qed.
Lemma xphoto_keeps d : keeps (insert_xphoto d). Proof. intros a. unfold insert_xphoto. whole. Qed.
Lemma xsound_keeps d : keeps (insert_xsound d). Proof. intros a. unfold insert_xsound. whole. Qed.
Lemma source_keeps d : keeps (insert_source d). Proof. intros a. unfold insert_source. whole. Qed.
Lemma category_keeps d : keeps (insert_category d). Proof. intros a. unfold insert_category. destruct (contains _ _); whole. Qed.
Lemma no_category_keeps d : keeps (remove_category d). Proof. intros a. unfold remove_category. destruct (contains _ _); auto; whole. Qed.
Lemma categories_keeps d : keeps (set_categories d). Proof. intros a. unfold set_categories. whole. Qed.

(** the parts of [o_params] *)
Definition P := params_orderly.
Lemma all_params_iff a : Forall P (all_params a) <->
  Forall P (map em_params (a_emails a)) /\ Forall P (map ph_params (a_phones a)) /\
  (Forall P (map pt_params (a_related a)) /\ Forall P (map pt_params (a_langs a)) /\ Forall P (map pt_params (a_pidmaps a)) /\
   Forall P (map pt_params (a_nicks a)) /\ Forall P (map pt_params (a_orgs a)) /\ Forall P (map pt_params (a_roles a)) /\
   Forall P (map pt_params (a_titles a))) /\
  Forall P (map ru_params (a_urls a)) /\ Forall P (map cu_params (a_calurls a)) /\ Forall P (map fg_params (a_fgroups a)) /\
  Forall P (map im_params (a_impps a)).
Proof. unfold all_params. rewrite !map_app, !Forall_app. reflexivity. Qed.
Lemma texts_iff a : Forall Q (a_titles a ++ a_roles a ++ a_orgs a ++ a_nicks a ++ a_pidmaps a) <->
  Forall Q (a_titles a) /\ Forall Q (a_roles a) /\
  Forall Q (a_orgs a) /\ Forall Q (a_nicks a) /\ Forall Q (a_pidmaps a).
Proof. rewrite !Forall_app. reflexivity. Qed.

(** one list is replaced: what remains to be shown about it *)
Ltac open H := destruct H as [Oe Ol Op Oa Ok Om Or Oc Ot Ou Ou2 Oi Of Oq];
  apply all_params_iff in Oq; apply texts_iff in Ot; destruct Oq as (Q1 & Q2 & (Q3 & Q4 & Q5 & Q6 & Q7 & Q8 & Q9) & Q10 & Q11 & Q12 & Q13);
  destruct Ot as (T1 & T2 & T3 & T4 & T5).
Ltac close := constructor;
  [..|apply all_params_iff; repeat apply conj];
  first [assumption | match goal with |- Forall _ (_ ++ _) => apply texts_iff; repeat apply conj; try assumption end | idtac].

Lemma put_emails_orderly l a : NoDup (map em_mail l) -> Forall P (map em_params l) -> orderly_with Q V a -> orderly_with Q V (put_emails l a).
Proof. intros H1 H2 Ha. open Ha. close. Qed.
Lemma put_langs_orderly l a : NoDup (map pt_text l) -> Forall (fun x => simplified (pt_text x) <> []) l -> Forall P (map pt_params l) ->
  orderly_with Q V a -> orderly_with Q V (put_langs l a).
Proof. intros H1 H2 H3 Ha. open Ha. close. auto. Qed.
Lemma put_phones_orderly l a : NoDup (map ph_id l) -> Forall (fun p => ph_number p <> [] /\ simplified (ph_number p) = ph_number p) l ->
  Forall P (map ph_params l) -> orderly_with Q V a -> orderly_with Q V (put_phones l a).
Proof. intros H1 H2 H3 Ha. open Ha. close. auto. Qed.
Lemma put_addresses_orderly l a : NoDup (map ad_id l) -> Forall (fun x => ad_empty x = false) l -> orderly_with Q V a -> orderly_with Q V (put_addresses l a).
Proof. intros H1 H2 Ha. open Ha. close. auto. Qed.
Lemma put_keys_orderly l a : NoDup (map ke_id l) -> orderly_with Q V a -> orderly_with Q V (put_keys l a).
Proof. intros H1 Ha. open Ha. close. Qed.
Lemma put_members_orderly l a : NoDup l -> orderly_with Q V a -> orderly_with Q V (put_members l a).
Proof. intros H1 Ha. open Ha. close. Qed.
Lemma put_related_orderly l a : NoDup l -> Forall P (map pt_params l) -> orderly_with Q V a -> orderly_with Q V (put_related l a).
Proof. intros H1 H2 Ha. open Ha. close. Qed.
Lemma put_customs_orderly l a : increasing (map fst l) ->
  Forall (fun e => snd e <> [] /\ exists app name, app <> [] /\ name <> [] /\ fst e = app ++ [45%N] ++ name) l ->
  orderly_with Q V a -> orderly_with Q V (put_customs l a).
Proof. intros H1 H2 Ha. open Ha. close. auto. Qed.
Lemma put_urls_orderly l a : Forall (fun u => url_valid (env_url V) (ru_url u) = true) l -> Forall P (map ru_params l) ->
  orderly_with Q V a -> orderly_with Q V (put_urls l a).
Proof. intros H1 H2 Ha. open Ha. close. Qed.
Lemma put_calurls_orderly l a : Forall (fun u => cu_type u <> CalUnknown /\ url_valid (env_url V) (cu_url u) = true) l -> Forall P (map cu_params l) ->
  orderly_with Q V a -> orderly_with Q V (put_calurls l a).
Proof. intros H1 H2 Ha. open Ha. close. Qed.
Lemma put_impps_orderly l a : Forall (fun i => im_address i <> [] /\ url_scheme (env_url V) (im_address i) <> []) l -> Forall P (map im_params l) ->
  orderly_with Q V a -> orderly_with Q V (put_impps l a).
Proof. intros H1 H2 Ha. open Ha. close. Qed.
Lemma put_fgroups_orderly l a : Forall (fun f => fg_name f <> []) l -> Forall P (map fg_params l) -> orderly_with Q V a -> orderly_with Q V (put_fgroups l a).
Proof. intros H1 H2 Ha. open Ha. close. Qed.
Lemma put_titles_orderly l a : Forall Q l -> Forall P (map pt_params l) -> orderly_with Q V a -> orderly_with Q V (put_titles l a).
Proof. intros H1 H2 Ha. open Ha. close. Qed.
Lemma put_roles_orderly l a : Forall Q l -> Forall P (map pt_params l) -> orderly_with Q V a -> orderly_with Q V (put_roles l a).
Proof. intros H1 H2 Ha. open Ha. close. Qed.
Lemma put_orgs_orderly l a : Forall Q l -> Forall P (map pt_params l) -> orderly_with Q V a -> orderly_with Q V (put_orgs l a).
Proof. intros H1 H2 Ha. open Ha. close. Qed.
Lemma put_nicks_orderly l a : Forall Q l -> Forall P (map pt_params l) -> orderly_with Q V a -> orderly_with Q V (put_nicks l a).
Proof. intros H1 H2 Ha. open Ha. close. Qed.
Lemma put_pidmaps_orderly l a : Forall Q l -> Forall P (map pt_params l) -> orderly_with Q V a -> orderly_with Q V (put_pidmaps l a).
Proof. intros H1 H2 Ha. open Ha. close. Qed.

Lemma parts a : orderly_with Q V a ->
  Forall P (map em_params (a_emails a)) /\ Forall P (map ph_params (a_phones a)) /\
  (Forall P (map pt_params (a_related a)) /\ Forall P (map pt_params (a_langs a)) /\ Forall P (map pt_params (a_pidmaps a)) /\
   Forall P (map pt_params (a_nicks a)) /\ Forall P (map pt_params (a_orgs a)) /\ Forall P (map pt_params (a_roles a)) /\
   Forall P (map pt_params (a_titles a))) /\
  Forall P (map ru_params (a_urls a)) /\ Forall P (map cu_params (a_calurls a)) /\ Forall P (map fg_params (a_fgroups a)) /\
  Forall P (map im_params (a_impps a)).
Proof. intros H. apply all_params_iff, H. Qed.
Ltac has := match goal with H : orderly_with Q V ?a |- _ => pose proof (parts a H); pose proof (proj1 (texts_iff a) (o_texts Q V a H)) end.
Lemma forall_snoc {A} (R : A -> Prop) l x : Forall R l -> R x -> Forall R (l ++ [x]).
Proof. intros. apply Forall_app. split; auto. Qed.
Ltac more := first [apply forall_snoc; [tauto|]| rewrite map_app; apply forall_snoc; [tauto|]]; auto.

Lemma url_keeps u : P (ru_params u) -> keeps (insert_url V u).
Proof.
  intros Hu a Ha. unfold insert_url, rurl_valid. destruct (url_valid _ _) eqn:E; auto. has.
  apply put_urls_orderly; [| |apply touch_orderly, Ha]; [apply forall_snoc; [apply Ha|auto]|more].
Qed.
Lemma fgroup_keeps f : P (fg_params f) -> keeps (insert_fgroup f).
Proof.
  intros Hu a Ha. unfold insert_fgroup, fgroup_valid. destruct (isnil (fg_name f)) eqn:E; auto. has.
  apply put_fgroups_orderly; [| |apply touch_orderly, Ha]; [apply forall_snoc; [apply Ha|]|more].
  destruct (fg_name f); discriminate.
Qed.
Lemma impp_keeps i : P (im_params i) -> keeps (insert_impp V i).
Proof.
  intros Hu a Ha. unfold insert_impp, impp_valid. destruct (isnil (im_address i)) eqn:E; auto.
  destruct (isnil (url_scheme _ _)) eqn:E2; auto. has.
  apply put_impps_orderly; [| |apply touch_orderly, Ha]; [apply forall_snoc; [apply Ha|]|more].
  destruct (im_address i); [discriminate|]. split; [discriminate|]. destruct (url_scheme _ _); discriminate.
Qed.
Lemma calurl_keeps c : P (cu_params c) -> keeps (insert_calurl V c).
Proof.
  intros Hu a Ha. unfold insert_calurl, calurl_valid. destruct (caltype_eq (cu_type c) CalUnknown) eqn:E; [apply touch_orderly, Ha|].
  destruct (url_valid _ _) eqn:E2; [|apply touch_orderly, Ha]. has.
  apply put_calurls_orderly; [| |apply touch_orderly, Ha]; [apply forall_snoc; [apply Ha|]|more].
  split; auto. intros E3. rewrite E3 in E. discriminate.
Qed.
Ltac text_list lem := intros Hu a Ha; unfold insert_first_class, ptext_valid; destruct (isnil (pt_text _)) eqn:E; auto; has;
  apply lem; [| |apply touch_orderly, Ha]; [apply forall_snoc; [tauto|]|more];
  apply HQ; let E' := fresh in intros E'; rewrite E' in E; discriminate.
Lemma pidmap_keeps t : P (pt_params t) -> keeps (insert_pidmap t).
Proof. unfold insert_pidmap. text_list put_pidmaps_orderly. Qed.
Lemma title_keeps t : P (pt_params t) -> keeps (insert_title t).
Proof. unfold insert_title. text_list put_titles_orderly. Qed.
Lemma role_keeps t : P (pt_params t) -> keeps (insert_role t).
Proof. unfold insert_role. text_list put_roles_orderly. Qed.
Lemma org_keeps t : P (pt_params t) -> keeps (insert_org t).
Proof. unfold insert_org. text_list put_orgs_orderly. Qed.
Lemma nick_keeps t : P (pt_params t) -> keeps (insert_nick t).
Proof. unfold insert_nick. text_list put_nicks_orderly. Qed.

Lemma add_email_list_only e l x : In x (add_email_list e l) -> x = e \/ In x l.
Proof.
  unfold add_email_list. destruct (find_split _ l) as [[[b z] t]|] eqn:F.
  - apply find_split_Some in F as (-> & _ & _). destruct (email_preferred e); cbn; rewrite !in_app_iff; cbn; intuition.
  - destruct (email_preferred e); cbn; rewrite ?in_app_iff; cbn; intuition.
Qed.
Lemma email_keeps e : P (em_params e) -> keeps (add_email e).
Proof.
  intros He a Ha. rewrite add_email_fields. has.
  apply put_emails_orderly; [apply add_email_list_nodup, Ha| |destruct (has_email _ _); [auto|apply touch_orderly, Ha]].
  apply forall_map. apply (forall_new _ e (a_emails a)); [apply add_email_list_only|auto|apply forall_map; tauto].
Qed.
Lemma no_email_keeps m : keeps (remove_email m).
Proof.
  intros a Ha. unfold remove_email. has. rewrite remove_email_skip. apply put_emails_orderly; auto.
  - apply skip_remove_nodup, Ha.
  - apply forall_map. apply (forall_incl _ (a_emails a)); [intros x; apply skip_remove_in|apply forall_map; tauto].
Qed.
Lemma lang_keeps t : P (pt_params t) -> keeps (insert_lang t).
Proof.
  intros Ht a Ha. unfold insert_lang. destruct (isnil (simplified (pt_text t))) eqn:E; auto. has.
  assert (Hs : simplified (pt_text t) <> []) by (intros E'; rewrite E' in E; discriminate).
  pose proof (o_langs Q V a Ha) as [Hn Hf]. unfold insert_lang_list.
  change (fun y => leqb (pt_text y) (pt_text t)) with (keyed pt_text (pt_text t)).
  destruct (find_split _ _) as [[[b y] r]|] eqn:F.
  - assert (F2 := F). apply find_split_Some in F2 as (El & Hy & _). apply keyed_eq in Hy.
    apply put_langs_orderly; [| | |apply touch_orderly, Ha].
    + rewrite El in Hn. rewrite map_app in *. exact Hn.
    + rewrite El in Hf. apply Forall_app in Hf as [Hb Hr]. inversion Hr; subst. apply Forall_app. split; auto.
    + destruct H as (_ & _ & (_ & Hl & _) & _). rewrite El in Hl. rewrite map_app in *. apply Forall_app in Hl as [Hb Hr].
      inversion Hr; subst. apply Forall_app. split; auto. constructor; auto.
  - apply find_split_keyed_None in F. apply put_langs_orderly; [| | |apply touch_orderly, Ha].
    + rewrite map_app. apply NoDup_snoc; auto.
    + apply forall_snoc; auto.
    + more.
Qed.
Lemma no_lang_keeps m : keeps (remove_lang m).
Proof.
  intros a Ha. unfold remove_lang. has. rewrite remove_lang_skip. pose proof (o_langs Q V a Ha) as [Hn Hf]. apply put_langs_orderly; auto.
  - apply skip_remove_nodup, Hn.
  - apply (forall_incl _ (a_langs a)); [intros x; apply skip_remove_in|auto].
  - apply forall_map. apply (forall_incl _ (a_langs a)); [intros x; apply skip_remove_in|apply forall_map; tauto].
Qed.
(** a number that is blank is dropped if its identifier is new *)
Lemma phone_keeps' p a : P (ph_params p) -> simplified (ph_number p) = ph_number p ->
  (ph_number p = [] -> ~ In (ph_id p) (map ph_id (a_phones a))) -> orderly_with Q V a -> orderly_with Q V (insert_phone p a).
Proof.
  intros Hp Hs Hi Ha. unfold insert_phone. has. pose proof (o_phones Q V a Ha) as [Hn Hf].
  change (fun q => leqb (ph_id q) (ph_id p)) with (keyed ph_id (ph_id p)).
  apply put_phones_orderly; [| | |apply touch_orderly, Ha].
  - apply replace_or_nodup, Hn.
  - rewrite Hs. destruct (ph_number p) as [|c r] eqn:E.
    + unfold replace_or. destruct (find_split _ _) as [[[b y] t]|] eqn:F; auto.
      apply find_split_Some in F as (El & Hy & _). apply keyed_eq in Hy. exfalso. apply Hi; auto. rewrite El, map_app.
      apply in_app_iff. cbn. auto.
    + apply (forall_new _ p (a_phones a)); [intros x; apply replace_or_in| |auto]. rewrite E. split; [discriminate|exact Hs].
  - apply forall_map. apply (forall_new _ p (a_phones a)); [intros x; apply replace_or_in|auto|apply forall_map; tauto].
Qed.
Lemma no_phone_keeps p : keeps (remove_phone p).
Proof.
  intros a Ha. unfold remove_phone. has. pose proof (o_phones Q V a Ha) as [Hn Hf]. apply put_phones_orderly; auto.
  - apply erase_first_nodup, Hn.
  - apply (forall_incl _ (a_phones a)); [intros x; apply erase_first_in|auto].
  - apply forall_map. apply (forall_incl _ (a_phones a)); [intros x; apply erase_first_in|apply forall_map; tauto].
Qed.
Lemma address_keeps x : keeps (insert_address x).
Proof.
  intros a Ha. unfold insert_address. destruct (ad_empty x) eqn:E; auto. pose proof (o_addresses Q V a Ha) as [Hn Hf].
  change (fun q => leqb (ad_id q) (ad_id x)) with (keyed ad_id (ad_id x)).
  apply put_addresses_orderly; [apply replace_or_nodup, Hn| |apply touch_orderly, Ha].
  apply (forall_new _ x (a_addresses a)); [intros y; apply replace_or_in|auto|auto].
Qed.
Lemma no_address_keeps x : keeps (remove_address x).
Proof.
  intros a Ha. unfold remove_address. pose proof (o_addresses Q V a Ha) as [Hn Hf]. apply put_addresses_orderly; auto.
  - apply erase_first_nodup, Hn.
  - apply (forall_incl _ (a_addresses a)); [intros y; apply erase_first_in|auto].
Qed.
Lemma key_keeps k : keeps (insert_key k).
Proof.
  intros a Ha. unfold insert_key. change (fun q => leqb (ke_id q) (ke_id k)) with (keyed ke_id (ke_id k)).
  apply put_keys_orderly; [apply replace_or_nodup, Ha|apply touch_orderly, Ha].
Qed.
Lemma nodup_map_filter {A} (key : A -> ustring) p l : NoDup (map key l) -> NoDup (map key (filter p l)).
Proof.
  induction l as [|x r IH]; cbn; auto. intros H. inversion H; subst. destruct (p x); cbn; auto. constructor; auto.
  intros Hi. apply in_map_iff in Hi as (w & E & Hw). apply filter_In in Hw as [Hw _]. apply H2. rewrite <- E. apply in_map, Hw.
Qed.
Lemma no_key_keeps k : keeps (remove_key k).
Proof. intros a Ha. unfold remove_key. apply put_keys_orderly; auto. apply nodup_map_filter, Ha. Qed.
Lemma member_keeps m : keeps (insert_member m).
Proof.
  intros a Ha. unfold insert_member. destruct (contains m (a_members a)) eqn:E; [apply touch_orderly, Ha|].
  apply put_members_orderly; [|apply touch_orderly, Ha]. apply NoDup_snoc; [apply Ha|]. rewrite <- contains_In. congruence.
Qed.
Lemma related_keeps t : P (pt_params t) -> keeps (insert_related t).
Proof.
  intros Ht a Ha. unfold insert_related. destruct (existsb _ _) eqn:E; [apply touch_orderly, Ha|]. has.
  apply put_related_orderly; [| |apply touch_orderly, Ha].
  - assert (~ In t (a_related a)).
    { intros Hi. apply not_true_iff_false in E. apply E, existsb_exists. exists t. split; auto.
      unfold ptext_eq. rewrite (proj2 (pmap_eqb_eq _ _)) by reflexivity. apply leqb_refl. }
    pose proof (o_related Q V a Ha) as Hn. clear E H H0. revert H1. induction Hn as [|x l Hx Hn IH]; intros Hi; cbn.
    + constructor; auto. constructor.
    + constructor; [rewrite in_app_iff; cbn; intros [H|[H|[]]]; [auto|subst; apply Hi; cbn; auto]|]. apply IH. intros H. apply Hi. cbn. auto.
  - more.
Qed.
Lemma custom_keeps app n v : keeps (insert_custom app n v).
Proof.
  intros a Ha. unfold insert_custom. destruct (isnil v || isnil n || isnil app) eqn:E; auto. cbv zeta.
  apply orb_false_iff in E as [E E3]. apply orb_false_iff in E as [E1 E2].
  pose proof (o_customs Q V a Ha) as [Hs Hf].
  assert (Hn : v <> [] /\ exists p m, p <> [] /\ m <> [] /\ qualified app n = p ++ [45%N] ++ m).
  { split; [destruct v; discriminate|]. exists app, n. split; [destruct app; discriminate|]. split; [destruct n; discriminate|reflexivity]. }
  rewrite find_custom_afind, update_custom_aupd, insert_sorted_ains.
  destruct (afind (qualified app n) (a_customs a)) eqn:F; (apply put_customs_orderly; [| |apply touch_orderly, Ha]).
  - apply aupd_sorted. exact Hs.
  - rewrite <- update_custom_aupd. clear F Hs. induction Hf as [|[q w] l Hx Hf IH]; cbn; auto.
    destruct (leqb q (qualified app n)); constructor; auto. cbn in *. split; [apply Hn|apply Hx].
  - apply ains_sorted; auto.
  - apply (forall_new _ (qualified app n, v) (a_customs a)); [intros x; apply ains_In|exact Hn|exact Hf].
Qed.
Lemma no_custom_keeps app n : keeps (remove_custom app n).
Proof.
  intros a Ha. pose proof (o_customs Q V a Ha) as [Hs Hf]. unfold remove_custom. apply put_customs_orderly; auto.
  - pose proof (remove_custom_list app n a Hs) as E. change (a_customs (remove_custom app n a)) with
      (erase_first (fun e => leqb (fst e) (qualified app n)) (a_customs a)) in E. rewrite E. apply aerase_sorted. exact Hs.
  - apply (forall_incl _ (a_customs a)); [intros y; apply erase_first_in|auto].
Qed.

Lemma edit_keeps e : edit_ok e -> keeps (do_edit V e).
Proof.
  destruct e; cbn [edit_ok do_edit]; intros H a Ha.
  - apply text_keeps; auto.
  - apply birthday_keeps, Ha.
  - apply birthday_date_keeps, Ha.
  - apply deathdate_keeps, Ha.
  - apply revision_keeps, Ha.
  - apply tz_keeps, Ha.
  - apply geo_keeps, Ha.
  - apply secrecy_keeps, Ha.
  - apply logo_keeps, Ha.
  - apply photo_keeps, Ha.
  - apply sound_keeps, Ha.
  - apply gender_keeps, Ha.
  - apply xlogo_keeps, Ha.
  - apply xphoto_keeps, Ha.
  - apply xsound_keeps, Ha.
  - apply url_keeps; auto.
  - apply source_keeps, Ha.
  - apply fgroup_keeps; auto.
  - apply pidmap_keeps; auto.
  - apply impp_keeps; auto.
  - apply calurl_keeps; auto.
  - apply title_keeps; auto.
  - apply role_keeps; auto.
  - apply org_keeps; auto.
  - apply nick_keeps; auto.
  - apply email_keeps; auto.
  - apply no_email_keeps, Ha.
  - apply lang_keeps; auto.
  - apply no_lang_keeps, Ha.
  - destruct H as (H1 & H2 & H3). apply phone_keeps'; tauto.
  - apply no_phone_keeps, Ha.
  - apply address_keeps, Ha.
  - apply no_address_keeps, Ha.
  - apply key_keeps, Ha.
  - apply no_key_keeps, Ha.
  - apply category_keeps, Ha.
  - apply no_category_keeps, Ha.
  - apply categories_keeps, Ha.
  - apply member_keeps, Ha.
  - apply related_keeps; auto.
  - apply custom_keeps, Ha.
  - apply no_custom_keeps, Ha.
Qed.
Lemma edits_keep es a : Forall edit_ok es -> orderly_with Q V a -> orderly_with Q V (fold_left (fun a e => do_edit V e a) es a).
Proof. intros H. revert a. induction H; cbn; auto. intros a Ha. apply IHForall. apply edit_keeps; auto. Qed.
Lemma new_orderly id : orderly_with Q V (addressee_new id).
Proof. constructor; cbn; repeat constructor. Qed.
End Keep.
