(** C91: contacts converted from one version to the other. *)
From Verif Require Import Base BaseFacts Utf8 QtText M_ParamMap M_VCard M_VCardText S_Escape S_Split S_Date M_Split M_Values M_Date M_Addressee M_VCardTool
  S_Contact S_Whole S_Versions P_Lists P_Lines P_Contact P_Fields P_Fields2 P_Contact2 P_Whole P_ContactCase Prop_Contact Prop_Contact2 Prop_Whole.

Lemma Forall2_same {A} (R : A -> A -> Prop) : (forall x, R x x) -> forall l, Forall2 R l l.
Proof. intros H l. induction l; constructor; auto. Qed.
Lemma same_in_refl a : same_in a a.
Proof.
  constructor; auto.
  - apply Forall2_same. intros p. unfold same_phone. auto.
  - apply Forall2_same. intros x. unfold same_address. tauto.
Qed.
Lemma forall2_trans {A} (R : A -> A -> Prop) : (forall x y z, R x y -> R y z -> R x z) -> forall l m r, Forall2 R l m -> Forall2 R m r -> Forall2 R l r.
Proof.
  intros H l m r F. revert r. induction F as [|x y l m Rxy F IH]; intros r G; inversion G; subst; constructor; eauto.
Qed.
Lemma same_phone_trans p q r : same_phone p q -> same_phone q r -> same_phone p r.
Proof. intros (A1 & A2 & A3) (B1 & B2 & B3). split; [congruence|]. split; [congruence|]. intros k K. rewrite B3, A3 by exact K. reflexivity. Qed.
Lemma same_address_trans p q r : same_address p q -> same_address q r -> same_address p r.
Proof. unfold same_address. intros. intuition congruence. Qed.
Lemma same_in_trans a b c : same_in a b -> same_in b c -> same_in a c.
Proof.
  intros A C. destruct A, C. constructor; try congruence.
  - destruct k_orgs, k_orgs0. split; congruence.
  - destruct k_birthday, k_birthday0. split; congruence.
  - exact (forall2_trans _ same_phone_trans _ _ _ k_phones k_phones0).
  - exact (forall2_trans _ same_address_trans _ _ _ k_addresses k_addresses0).
Qed.
Lemma forall_moves {A} (R : A -> A -> Prop) (P : A -> Prop) : (forall x y, R x y -> P x -> P y) -> forall l m, Forall2 R l m -> Forall P l -> Forall P m.
Proof. intros H l m F. induction F as [|x y l m Rxy F IH]; intros G; inversion G; subst; constructor; eauto. Qed.
Lemma labels_move l m : Forall2 same_address l m -> labels_told_apart l -> labels_told_apart m.
Proof.
  intros F H m1 y m2 -> L. apply Forall2_app_inv_r in F. destruct F as (l1 & l2 & F1 & F2 & ->). inversion F2 as [|x ? l2' ? Sxy F3]; subst.
  destruct Sxy as (_ & _ & _ & _ & _ & _ & _ & LB & TY). rewrite LB in L. specialize (H l1 x l2' eq_refl L).
  clear - F1 H TY. induction F1 as [|u w l m S F IH]; [constructor|]. inversion H; subst. constructor; [|apply IH; assumption].
  unfold same_kind in *. destruct S as (_ & _ & _ & _ & _ & _ & _ & _ & TU). rewrite TU, TY. assumption.
Qed.
Lemma safe_moves T v a b : same_in a b -> safe_in T v a -> safe_in T v b.
Proof.
  intros S H. destruct S, H. destruct k_orgs as (O1 & O2). destruct k_birthday as (B1 & B2). constructor.
  - rewrite k_texts. exact w_texts.
  - injection k_texts as _ _ U. rewrite U. exact w_uid.
  - rewrite k_n. exact w_n.
  - rewrite k_titles. exact w_titles.
  - rewrite k_roles. exact w_roles.
  - rewrite O1, O2. exact w_orgs.
  - rewrite O1, O2. exact w_department.
  - rewrite B1, B2. exact w_birthday.
  - rewrite k_revision. exact w_revision.
  - rewrite k_tz. exact w_tz.
  - rewrite k_urls. exact w_urls.
  - rewrite k_emails. exact w_emails.
  - refine (forall_moves _ _ _ _ _ k_phones w_phones). intros p q (P1 & P2 & _). rewrite P1, P2. auto.
  - destruct w_addresses as (A1 & A2). split; [|intros V; exact (labels_move _ _ k_addresses (A2 V))].
    refine (forall_moves _ _ _ _ _ k_addresses A1). intros x y (X1 & X2 & X3 & X4 & X5 & X6 & X7 & X8 & X9).
    unfold address_safe, address_blank. rewrite X1, X2, X3, X4, X5, X6, X7, X8, X9. auto.
  - unfold special_free. rewrite k_customs. exact w_customs.
Qed.

(** Contacts saved and loaded in any versions, in any order and any number of times:
    names, titles, roles, organisations, dates, time zone, addresses of all kinds, phone
    numbers, notes and custom fields are at the end what they were at the beginning, if
    their texts can be told apart in each of these versions at the beginning. *)
Theorem C91_versions :
  forall (T : Tool) (E : Ext) (steps : list (version * bool)) (l r : list addressee),
    fresh_ids T -> (forall v export, In (v, export) steps -> Forall (safe_in T v) l) ->
    converted T E steps l r -> Forall2 same_in l r.
Proof.
  intros T E steps l r HT HS C. induction C as [l|v export steps l m r F R C IH].
  - apply Forall2_same. exact same_in_refl.
  - assert (S : Forall2 same_in l m).
    { pose proof (HS v export (or_introl eq_refl)) as H. clear IH HS C. pose proof (trip_reads E T v export l m F R) as K. clear R.
      induction K as [|a b l m Hab K IH]; [constructor|]. inversion F; subst. inversion H; subst. constructor; [|auto].
      apply (whole_in E T v export); assumption. }
    apply (forall2_trans _ same_in_trans _ _ _ S). apply IH. intros w e I.
    refine (forall_moves _ _ _ _ _ S (HS w e (or_intror I))). intros a b. apply safe_moves.
Qed.
Print Assumptions C91_versions.
Lemma kept_through {X} (f : addressee -> X) (Q : X -> Prop) (okv : version -> Prop) T E :
  (forall v export a b, okv v -> fits T v a -> reads_as E T v export a b -> Q (f a) -> f b = f a) ->
  forall steps l r, converted T E steps l r -> (forall v export, In (v, export) steps -> okv v) -> Forall2 (fun a b => Q (f a) -> f b = f a) l r.
Proof.
  intros H steps l r C. induction C as [l|v export steps l m r F R C IH]; intros K; [apply Forall2_same; auto|].
  apply (fun F1 => forall2_trans (fun a b => Q (f a) -> f b = f a) (fun x y z A B q => eq_trans (B (eq_ind_r Q q (A q))) (A q)) l m r F1 (IH (fun w e I => K w e (or_intror I)))).
  pose proof (trip_reads E T v export l m F R) as G. clear R C IH. induction G as [|a b l m Hab G IH]; [constructor|]. inversion F; subst. constructor; [|auto].
  apply (H v export); auto. apply (K v export). left. reflexivity.
Qed.
Lemma forall2_both {A} (R S : A -> A -> Prop) l m : Forall2 R l m -> Forall2 S l m -> Forall2 (fun a b => R a b /\ S a b) l m.
Proof. intros F. induction F as [|x y l m Rxy F IH]; intros G; inversion G; subst; constructor; auto. Qed.
Lemma forall2_when {A} (P : Prop) (R : A -> A -> Prop) l m : length l = length m -> (P -> Forall2 R l m) -> Forall2 (fun a b => P -> R a b) l m.
Proof.
  revert m. induction l as [|x l IH]; intros [|y m] L H; try discriminate L; constructor.
  - intros p. specialize (H p). inversion H; assumption.
  - apply IH; [injection L; auto|]. intros p. specialize (H p). inversion H; assumption.
Qed.
Lemma converted_length T E steps l r : converted T E steps l r -> length l = length r.
Proof.
  intros C. induction C as [l|w e more l m r F R C IH]; [reflexivity|]. rewrite <- IH.
  pose proof (trip_reads E T w e l m F R) as K. clear - K. induction K; cbn [length]; congruence.
Qed.
(** Nicknames, categories and the name of the program stay if version 2.1 is not among
    the versions; name and mailer if version 4.0 is not; sources always. *)
Theorem C91_other :
  forall (T : Tool) (E : Ext) (steps : list (version * bool)) (l r : list addressee), converted T E steps l r ->
    let without w := forall v export, In (v, export) steps -> v <> w in
    Forall2 (fun a b =>
      (without V21 -> texts_full (a_nicks a) -> a_nicks b = a_nicks a) /\
      (without V21 -> parts_safe (a_categories a) /\ a_categories a <> [[]] -> a_categories b = a_categories a) /\
      (without V21 -> text_safe (a_prodid a) -> a_prodid b = a_prodid a) /\
      (without V40 -> text_safe (a_name a) -> a_name b = a_name a) /\
      (without V40 -> text_safe (a_mailer a) -> a_mailer b = a_mailer a) /\
      (Forall (fun u => text_safe u /\ u <> [] /\ url_parse (env_url (t_env T)) u = u) (a_sources a) -> a_sources b = a_sources a)) l r.
Proof.
  intros T E steps l r C without. pose proof (converted_length _ _ _ _ _ C) as L.
  repeat (apply forall2_both; [apply forall2_when; [exact L|]|]); try intros W.
  - refine (kept_through a_nicks texts_full (fun v => v <> V21) T E _ steps l r C W). intros v e a b V F R Q.
    rewrite (field_nicks E T v e a b F R V (texts_full_safe _ Q)). apply texts_full_valid, Q.
  - refine (kept_through a_categories (fun c => parts_safe c /\ c <> [[]]) (fun v => v <> V21) T E _ steps l r C W). intros v e a b V F R (Q1 & Q2).
    exact (field_categories E T v e a b F R V Q1 Q2).
  - refine (kept_through a_prodid text_safe (fun v => v <> V21) T E _ steps l r C W). intros v e a b V F R Q. exact (field_prodid E T v e a b F R V Q).
  - refine (kept_through a_name text_safe (fun v => v <> V40) T E _ steps l r C W). intros v e a b V F R Q. exact (field_name E T v e a b F R V Q).
  - refine (kept_through a_mailer text_safe (fun v => v <> V40) T E _ steps l r C W). intros v e a b V F R Q. exact (field_mailer E T v e a b F R V Q).
  - refine (kept_through a_sources (Forall (fun u => text_safe u /\ u <> [] /\ url_parse (env_url (t_env T)) u = u)) (fun _ => True) T E _ steps l r C (fun _ _ _ => I)).
    intros v e a b _ F R Q. rewrite (field_sources E T v e a b F R) by (eapply Forall_impl; [|exact Q]; intros u (U & _); exact U).
    clear - Q. induction Q as [|u us (_ & U1 & U2) Q IH]; [reflexivity|]. cbn [filter]. destruct u as [|c u]; [congruence|]. cbn [isnil negb map].
    rewrite U2, IH. reflexivity.
Qed.
Print Assumptions C91_other.
(** The next step is always possible for contacts that can be written. *)
Theorem C91_next :
  forall (T : Tool) (E : Ext) (steps : list (version * bool)) (v : version) (export : bool) (l m : list addressee),
    converted T E steps l m -> Forall (fits T v) m -> exists r, converted T E (steps ++ [(v, export)]) l r /\ length r = length l.
Proof.
  intros T E steps v export l m C F. assert (X : exists r, converted T E (steps ++ [(v, export)]) l r).
  { induction C as [l|w e steps l m r F1 R C IH].
    - destruct (trip_exists E T v export l F) as (r & R & _). exists r. econstructor; [exact F|exact R|constructor].
    - destruct (IH F) as (x & X). exists x. cbn [app]. econstructor; eassumption. }
  destruct X as (r & X). exists r. split; [exact X|]. clear - X. induction X as [l|w e more l m r F R C IH]; [reflexivity|].
  rewrite IH. pose proof (trip_reads E T w e l m F R) as K. clear - K. induction K; cbn [length]; congruence.
Qed.
Print Assumptions C91_next.

(** ** A contact that meets the hypotheses *)
Lemma safe_newer T v a : special_free v a -> safe_in T V21 a -> safe_in T v a.
Proof.
  intros S []. constructor; try assumption.
  - destruct w_addresses as (A1 & A2). split; [|intros _; apply A2; discriminate]. eapply Forall_impl; [|exact A1]. intros x (X1 & X2 & X3 & X4).
    split; [exact X1|]. split; [exact X2|]. split; [intros _; apply X3; discriminate|exact X4].
  - destruct w_customs as (C1 & C2 & _). auto.
Qed.

Ltac one_step := eapply conv_more; [constructor; [apply fits_spec; vm_compute; reflexivity|constructor]|apply trip_at; [constructor; [apply fits_spec; vm_compute; reflexivity|constructor]|cbv; reflexivity]|].
Lemma ex_old_safe v : safe_in exT v ex_old.
Proof.
  apply safe_newer; [|apply C44_case21]. intros _. assert (K : a_customs ex_old = a_customs ex_contact2) by (vm_compute; reflexivity). rewrite K.
  repeat constructor; intros H; cbv in H; intuition discriminate.
Qed.
Example C91_case : forall E : Ext,
  (forall v export, In (v, export) [(V21, false); (V40, true); (V30, false)] -> Forall (safe_in exT v) [ex_old])
  /\ exists r, converted exT E [(V21, false); (V40, true); (V30, false)] [ex_old] [r] /\ a_note r = B "see; a, b" /\ length (a_addresses r) = 2%nat.
Proof.
  intros E. split; [intros v export _; constructor; [apply ex_old_safe|constructor]|].
  eexists. split; [do 3 one_step; constructor|]. split; reflexivity.
Qed.
(** What version 2.1 has no place for is lost on the way through it. *)
Theorem C91_nicknames_refuted :
  forall E : Ext, exists a b c, a_nicks a <> [] /\ (forall v, safe_in exT v a) /\
    converted exT E [(V40, false); (V30, false)] [a] [b] /\ a_nicks b = a_nicks a /\ converted exT E [(V21, false); (V30, false)] [a] [c] /\ a_nicks c = [].
Proof.
  intros E. exists ex_old. do 2 eexists. split; [vm_compute; discriminate|]. split; [exact ex_old_safe|].
  split; [do 2 one_step; constructor|]. split; [reflexivity|]. split; [do 2 one_step; constructor|]. reflexivity.
Qed.
Print Assumptions C91_nicknames_refuted.
Example C91_other_case : a_nicks ex_old <> [] /\ texts_full (a_nicks ex_old) /\ a_categories ex_old <> [] /\ parts_safe (a_categories ex_old) /\ a_categories ex_old <> [[]]
  /\ text_safe (a_prodid ex_old) /\ text_safe (a_name ex_old) /\ text_safe (a_mailer ex_old).
Proof.
  split; [vm_compute; discriminate|]. split; [repeat (apply Forall_cons; [split; [apply text_safe_spec; reflexivity|discriminate]|]); apply Forall_nil|].
  split; [vm_compute; discriminate|]. split; [apply parts_b; reflexivity|]. split; [vm_compute; discriminate|]. repeat split; apply text_safe_spec; reflexivity.
Qed.
