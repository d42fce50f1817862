(** Contacts read from any LDIF text are in order, apart from empty titles and the like (C58). *)
From Verif Require Import Base BaseFacts QtText Utf8 M_ParamMap M_VCard S_Card P_Assoc P_Card M_Split M_Values M_Date M_Addressee
  M_VCardTool S_Contact P_Lists P_Values P_Types P_Addressee M_ContactGroup M_Ldif S_Orderly P_Orderly.

Definition any (x : ptext) : Prop := True.
Lemma any_ok x : pt_text x <> [] -> any x. Proof. exact (fun _ => I). Qed.
Lemma all_any l : Forall any l. Proof. apply Forall_forall. intros; exact I. Qed.
#[local] Hint Resolve any_ok all_any : core.
Lemma params_none : params_orderly []. Proof. split; constructor. Qed.
#[local] Hint Resolve params_none : core.

Section Ldif.
Variable E : LdifExt.
Let V := le_env E.
Let good := orderly_with any V.
Ltac texts := apply text_keeps; [cbn; tauto|auto].

Lemma first_params s t r : Forall params_orderly (map pt_params (t :: r)) -> Forall params_orderly (map pt_params (ptext_set s t :: r)).
Proof. intros H. inversion H; subst. constructor; auto. Qed.
Ltac first_text lem get := intros a Ha; unfold set_first_text; pose proof (parts any V a Ha) as Hp; destruct (get a) as [|t r] eqn:F;
  [|apply touch_orderly; apply lem; [auto|apply first_params; tauto|auto]].
Lemma set_title_keeps s : keeps any V (set_title s).
Proof. unfold set_title. first_text put_titles_orderly a_titles. apply title_keeps; auto. exact params_none. Qed.
Lemma set_role_keeps s : keeps any V (set_role s).
Proof. unfold set_role. first_text put_roles_orderly a_roles. apply role_keeps; auto. exact params_none. Qed.
Lemma set_org_keeps s : keeps any V (set_organization s).
Proof. unfold set_organization. first_text put_orgs_orderly a_orgs. apply org_keeps; auto. exact params_none. Qed.
Lemma set_nick_keeps s : keeps any V (set_nickname s).
Proof. unfold set_nickname. first_text put_nicks_orderly a_nicks. apply nick_keeps; auto. exact params_none. Qed.

Definition drawn (k : nat) (a : addressee) : Prop := Forall (fun p => exists j, j < k /\ ph_id p = le_newid E j) (a_phones a).
Definition lgood (r : rstate) : Prop := (good (r_a r) /\ drawn (r_k r) (r_a r)) /\ Forall good (r_contacts r).

Lemma set_a_good a r : lgood r -> good a -> a_phones a = a_phones (r_a r) -> lgood (r_set_a a r).
Proof. intros [[_ H] Hc] Ha E1. split; [|exact Hc]. split; [exact Ha|]. unfold drawn. cbn. rewrite E1. exact H. Qed.
Lemma phone_good v t r : (forall i j, le_newid E i = le_newid E j -> i = j) -> lgood r -> lgood (r_phone E v t r).
Proof.
  intros Hfr [[Ha Hd] Hc]. split; [|exact Hc]. cbn [r_phone r_set_k r_set_a r_a r_k]. split.
  - apply phone_keeps'; auto; cbn [phone_of ph_number ph_params ph_id].
    + exact params_none.
    + apply simplified_idem.
    + intros _ Hi. apply in_map_iff in Hi as (p & E1 & Hp). unfold drawn in Hd. rewrite Forall_forall in Hd.
      apply Hd in Hp as (j & Hj & E2). rewrite E2 in E1. apply Hfr in E1. lia.
  - unfold drawn, insert_phone. cbn [put_phones a_phones].
    apply (forall_new _ (phone_of (le_newid E (r_k r)) v t) (a_phones (r_a r))); [intros x; apply replace_or_in| |].
    + exists (r_k r). split; auto.
    + eapply Forall_impl; [|exact Hd]. intros p (j & Hj & Ej). exists j. split; auto.
Qed.

Lemma set_text_phones set v a : In set text_setters -> a_phones (set v a) = a_phones a.
Proof.
  intros H. cbn [text_setters In] in H. repeat destruct H as [<-|H]; try tauto;
  match goal with |- a_phones (?s _ _) = _ => unfold s end; unfold set_text, guarded;
  match goal with |- context [if ?b then _ else _] => destruct b end; reflexivity.
Qed.
Lemma first_phones s : forall a, a_phones (set_title s a) = a_phones a /\ a_phones (set_role s a) = a_phones a /\
  a_phones (set_organization s a) = a_phones a /\ a_phones (set_nickname s a) = a_phones a.
Proof.
  intros a. unfold set_title, set_role, set_organization, set_nickname, set_first_text, insert_first_class.
  repeat split; match goal with |- context [match ?g with [] => _ | _ => _ end] => destruct g end; try reflexivity; destruct (ptext_valid _); reflexivity.
Qed.
Ltac field r H := apply set_a_good; [exact H| |].

Lemma rest_good f v r : (forall i j, le_newid E i = le_newid E j -> i = j) -> lgood r -> lgood (evaluate_rest E f v r).
Proof.
  intros Hfr H. assert (Ha := proj1 (proj1 H)). unfold evaluate_rest. cbv zeta.
  repeat match goal with |- lgood (if ?b then _ else _) => destruct b end;
  try (apply phone_good; auto); try exact H.
  - field r H; [apply set_role_keeps, Ha|apply (first_phones v)].
  - field r H; [texts|apply (set_text_phones set_department); cbn; tauto].
  - field r H; [apply revision_keeps, Ha|]. unfold set_revision, guarded. destruct (dt_eq _ _ _); reflexivity.
  - destruct (mk_date _ _ _) as [d|]; [|exact H]. field r H; [apply birthday_date_keeps, Ha|].
    unfold set_birthday_date. destruct (_ && _); reflexivity.
Qed.
Lemma pair_good f v r : (forall i j, le_newid E i = le_newid E j -> i = j) -> lgood r -> lgood (evaluate_pair E f v r).
Proof.
  intros Hfr H. assert (Ha := proj1 (proj1 H)). unfold evaluate_pair. cbv zeta.
  repeat match goal with |- lgood (if ?b then _ else _) => destruct b end; try exact H.
  - field r H; [texts|apply (set_text_phones set_note); cbn; tauto].
  - field r H; [texts|apply (set_text_phones set_given); cbn; tauto].
  - field r H; [apply set_nick_keeps, Ha|apply (first_phones v)].
  - field r H; [texts|apply (set_text_phones set_family); cbn; tauto].
  - field r H; [texts|apply (set_text_phones set_uid); cbn; tauto].
  - field r H; [apply email_keeps; auto; exact params_none|]. rewrite add_email_fields. destruct (has_email _ _); reflexivity.
  - field r H; [apply set_title_keeps, Ha|apply (first_phones v)].
  - field r H; [texts|apply (set_text_phones set_prefix); cbn; tauto].
  - field r H; [texts|apply (set_text_phones set_formatted); cbn; tauto].
  - field r H; [apply set_org_keeps, Ha|apply (first_phones v)].
  - assert (good (if isnil (a_note (r_a r)) then r_a r else set_note (a_note (r_a r) ++ [cLF]) (r_a r))) as H1
      by (destruct (isnil _); [exact Ha|texts]).
    field r H; [texts|]. rewrite (set_text_phones set_note) by (cbn; tauto). destruct (isnil _); auto.
    apply (set_text_phones set_note); cbn; tauto.
  - field r H; [apply url_keeps; auto; exact params_none|]. unfold insert_url. destruct (rurl_valid _ _); reflexivity.
  - apply rest_good; auto.
Qed.
Lemma reset_good rev r : Forall good (r_contacts r) -> lgood (r_reset E rev r).
Proof.
  intros H. split; [|exact H]. cbn [r_reset r_a r_k]. split; [apply revision_keeps, new_orderly|].
  unfold drawn, set_revision, guarded. destruct (dt_eq _ _ _); constructor.
Qed.
Lemma end_good rev r : lgood r -> lgood (end_entry E rev r).
Proof.
  intros [[Ha Hd] Hc]. unfold end_entry. cbv zeta. apply reset_good.
  destruct (Nat.eqb _ 0); [|exact Hc].
  assert (Hb : good match mk_date (r_byear r) (r_bmon r) (r_bday r) with
               | Some d => set_birthday_date (Some d) (r_a r) | None => r_a r end).
  { destruct (mk_date _ _ _); [apply birthday_date_keeps, Ha|exact Ha]. }
  destruct (_ || _); [|exact Hc]. cbn [r_set_lists r_contacts]. apply Forall_app. split; [exact Hc|]. constructor; [|constructor].
  destruct (ad_empty (r_work r)), (ad_empty (r_home r)); repeat apply address_keeps; exact Hb.
Qed.
Lemma read_loop_good rev : (forall i j, le_newid E i = le_newid E j -> i = j) -> forall fuel ended s r r', lgood r ->
  read_loop fuel E rev ended s r = Some r' -> lgood r'.
Proof.
  intros Hfr. induction fuel as [|f IH]; intros ended s r r' H; cbn [read_loop]; [discriminate|].
  destruct (next_item s) as [ret s1]. destruct ret.
  all: first [apply IH; solve [exact H|apply pair_good; auto|apply end_good; auto]|
              destruct ended; [intros E1; injection E1 as <-; exact H|apply IH; exact H]].
Qed.
Lemma ldif_orderly str dt cs gs cs' gs' : (forall i j, le_newid E i = le_newid E j -> i = j) -> Forall good cs ->
  ldif_to_addressee E str dt cs gs = Some (cs', gs') -> Forall good cs'.
Proof.
  intros Hfr Hc. unfold ldif_to_addressee. destruct (isnil str); [intros E1; injection E1 as <- <-; exact Hc|]. cbv zeta.
  destruct (read_loop _ _ _ _ _ _) as [r|] eqn:El; [|discriminate]. intros E1. injection E1 as <- <-.
  assert (H : lgood r); [|apply H]. eapply read_loop_good; [exact Hfr| |exact El]. unfold r_start. apply reset_good. exact Hc.
Qed.
End Ldif.
