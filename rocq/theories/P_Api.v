(** Proofs for C61: setters and getters. *)
From Verif Require Import Base BaseFacts QtText M_ParamMap M_Values M_Date M_Addressee S_Card S_Addressee P_Addressee M_Api S_Api S_Orderly.

Definition custom_field (f : field) : bool :=
  match f with FAssistant | FManager | FOffice | FProfession | FSpouse | FAnniversary | FBlogfeed => true | _ => false end.
Definition custom_key (f : field) : ustring :=
  match f with
  | FAssistant => x_assistants | FManager => x_managers | FOffice => x_office | FProfession => x_profession | FSpouse => x_spouses
  | FAnniversary => x_anniversary | _ => x_blogfeed
  end.

Ltac api := cbn [write read]; unfold set_uid, set_name, set_kind, set_formatted, set_family, set_given, set_additional, set_prefix, set_suffix, set_mailer,
  set_department, set_note, set_prodid, set_sortstring, set_text, set_birthday, set_deathdate, set_revision, set_tz, set_geo, set_secrecy, set_logo,
  set_photo, set_sound, set_gender, guarded;
  try match goal with |- context [if ?c then _ else _] => destruct c eqn:? end.

(** members *)
Lemma write_customs L f v a : custom_field f = false -> a_customs (write L f v a) = a_customs a.
Proof. destruct f; intros H; try discriminate H; api; reflexivity. Qed.
Lemma write_other L f g v a : custom_field f = false -> custom_field g = false -> f <> g -> read L g (write L f v a) = read L g a.
Proof. intros Hf Hg H. destruct f; try discriminate Hf; api; destruct g; try discriminate Hg; solve [reflexivity|destruct (H eq_refl)]. Qed.
Lemma write_same L f v a : custom_field f = false -> read L f (write L f v a) = kept f v \/ equal_to L f v (read L f (write L f v a)).
Proof.
  destruct f; intros H; try discriminate H; api; cbn [kept equal_to fst snd]; try (left; reflexivity); right; try assumption;
    try (apply leqb_eq in Heqb; auto).
  apply andb_true_iff in Heqb as [Hb Ht]. apply Bool.eqb_prop in Ht. auto.
Qed.

(** custom entries *)
Lemma read_customs L g a b : custom_field g = true -> a_customs a = a_customs b -> read L g a = read L g b.
Proof. destruct g; intros H E; try discriminate H; cbn [read]; unfold anniversary, blogfeed, custom, find_custom; rewrite E; reflexivity. Qed.
(** what is stored by a setter of a custom entry *)
Definition custom_call (L : Lib) (f : field) : value_of f -> custom_op :=
  match f with
  | FAssistant => fun v => if isnil v then OpErase vendor_id x_assistants else OpInsert vendor_id x_assistants v
  | FManager => fun v => if isnil v then OpErase vendor_id x_managers else OpInsert vendor_id x_managers v
  | FOffice => fun v => if isnil v then OpErase vendor_id x_office else OpInsert vendor_id x_office v
  | FProfession => fun v => if isnil v then OpErase vendor_id x_profession else OpInsert vendor_id x_profession v
  | FSpouse => fun v => if isnil v then OpErase vendor_id x_spouses else OpInsert vendor_id x_spouses v
  | FBlogfeed => fun v => if isnil v then OpErase vendor_id x_blogfeed else OpInsert vendor_id x_blogfeed v
  | FAnniversary => fun v => match v with Some d => OpInsert vendor_id x_anniversary (l_iso L d) | None => OpErase vendor_id x_anniversary end
  | _ => fun _ => OpErase [] []
  end.
Lemma write_custom L f v a : custom_field f = true -> write L f v a = do_custom a (custom_call L f v).
Proof.
  destruct f; intros H; try discriminate H; cbn [write custom_call]; unfold set_text_custom, set_blogfeed, set_text_custom, set_anniversary;
    try (destruct (isnil v); reflexivity). destruct v; reflexivity.
Qed.
Lemma members_custom L g o a : custom_field g = false -> read L g (do_custom a o) = read L g a.
Proof.
  intros Hg. destruct o as [p n v|p n]; cbn [do_custom]; unfold insert_custom, remove_custom.
  - match goal with |- context [if ?c then _ else _] => destruct c end; [reflexivity|]. destruct (find_custom _ _); destruct g; try discriminate Hg; reflexivity.
  - destruct g; try discriminate Hg; reflexivity.
Qed.
Lemma write_ok L f v a : customs_ok a -> customs_ok (write L f v a).
Proof.
  intros H. destruct (custom_field f) eqn:Hf; [rewrite write_custom by exact Hf; apply do_custom_ok; exact H|].
  unfold customs_ok in *. rewrite write_customs; auto.
Qed.
Definition at_key (k : ustring) (a : addressee) : ustring := stored (qualified vendor_id k) a.
Lemma stored_write L f v a k : customs_ok a -> custom_field f = true ->
  at_key k (write L f v a) = custom_effect (qualified vendor_id k) (at_key k a) (custom_call L f v).
Proof. intros H Hf. unfold at_key. rewrite write_custom by exact Hf. apply do_custom_stored. exact H. Qed.

Lemma effect_other L f g v cur : custom_field f = true -> custom_field g = true -> f <> g ->
  custom_effect (qualified vendor_id (custom_key g)) cur (custom_call L f v) = cur.
Proof.
  intros Hf Hg H. assert (E : forall f g, custom_field f = true -> custom_field g = true -> f <> g ->
    leqb (vendor_id ++ B "-" ++ custom_key f) (qualified vendor_id (custom_key g)) = false).
  { clear. intros f g Hf Hg H. destruct f; try discriminate Hf; destruct g; try discriminate Hg; solve [reflexivity|destruct (H eq_refl)]. }
  specialize (E f g Hf Hg H).
  destruct f; try discriminate Hf; cbn [custom_call custom_key] in *; try destruct v; cbn [isnil custom_effect]; rewrite E; reflexivity.
Qed.
Lemma read_key L g a b : custom_field g = true -> at_key (custom_key g) a = at_key (custom_key g) b -> read L g a = read L g b.
Proof.
  intros Hg H. unfold at_key in H. rewrite <- !custom_stored in H.
  destruct g; try discriminate Hg; cbn [read custom_key] in *; unfold anniversary, blogfeed; rewrite H; reflexivity.
Qed.
Lemma write_read_other L f g v a : customs_ok a -> f <> g -> read L g (write L f v a) = read L g a.
Proof.
  intros Hok H. destruct (custom_field f) eqn:Hf, (custom_field g) eqn:Hg.
  - apply read_key; [exact Hg|]. rewrite stored_write by auto. apply effect_other; auto.
  - rewrite write_custom by exact Hf. apply members_custom. exact Hg.
  - apply read_customs; [exact Hg|]. apply write_customs. exact Hf.
  - apply write_other; auto.
Qed.
Lemma write_read_same L f v a : customs_ok a -> writable L f v ->
  read L f (write L f v a) = kept f v \/ equal_to L f v (read L f (write L f v a)).
Proof.
  intros Hok Hw. destruct (custom_field f) eqn:Hf; [|apply write_same; exact Hf]. left.
  pose proof (stored_write L f v a (custom_key f) Hok Hf) as Hs. unfold at_key in Hs. rewrite <- !custom_stored in Hs. revert Hs. generalize (write L f v a). intros b Hs.
  destruct f; try discriminate Hf; cbn [read kept custom_key custom_call writable] in *; unfold anniversary, blogfeed; rewrite Hs.
  1-5: destruct v; reflexivity.
  - destruct Hw as [H0 Hw]. destruct v as [d|]; [|exact H0]. destruct Hw as [Hne Hr]. cbn [custom_effect].
    destruct (l_iso L d) eqn:Ed; [congruence|]. exact Hr.
  - destruct v; exact Hw.
Qed.

(** sequences *)
Lemma calls_app L xs ys a : calls L (xs ++ ys) a = calls L ys (calls L xs a).
Proof. apply fold_left_app. Qed.
Lemma calls_ok L cs : forall a, customs_ok a -> customs_ok (calls L cs a).
Proof. induction cs as [|c cs IH]; cbn; auto. intros a H. apply IH. apply write_ok. exact H. Qed.
Lemma calls_untouched L f cs : forall a, customs_ok a -> Forall (fun c => projT1 c <> f) cs -> read L f (calls L cs a) = read L f a.
Proof.
  induction cs as [|c cs IH]; intros a Hok H; [reflexivity|]. change (read L f (calls L cs (write L (projT1 c) (projT2 c) a)) = read L f a). rewrite IH; [|apply write_ok; exact Hok|exact (Forall_inv_tail H)].
  apply write_read_other; [exact Hok|exact (Forall_inv H)].
Qed.

(** ** the empty flag *)
Lemma empty_edit V e uid : (match e with EText set _ => In set text_setters | _ => True end) ->
  a_empty (do_edit V e (addressee_new uid)) = true -> do_edit V e (addressee_new uid) = addressee_new uid.
Proof.
  assert (TX : forall get put v, a_empty (set_text get put v (addressee_new uid)) = true ->
    (forall v a, a_empty (put v (touch a)) = false) -> set_text get put v (addressee_new uid) = addressee_new uid).
  { intros get put v H Hp. unfold set_text, guarded in *. destruct (leqb v (get (addressee_new uid))); [reflexivity|]. rewrite Hp in H. discriminate. }
  destruct e; intros Hin H; cbn [do_edit] in *;
    try (cbn in H; discriminate H); try reflexivity.
  - unfold text_setters in Hin. cbn [In] in Hin.
    repeat (destruct Hin as [<-|Hin]; [apply TX; [exact H|reflexivity]|]). destruct Hin.
  - revert H. unfold set_birthday. destruct (_ && _); [reflexivity|discriminate].
  - revert H. unfold set_birthday_date. destruct (_ && _); [reflexivity|discriminate].
  - revert H. unfold set_deathdate, guarded. destruct (dt_eq _ _ _); [reflexivity|discriminate].
  - revert H. unfold set_revision, guarded. destruct (dt_eq _ _ _); [reflexivity|discriminate].
  - revert H. unfold set_tz, guarded. destruct (tz_eq _ _); [reflexivity|discriminate].
  - revert H. unfold set_geo, guarded. destruct (geo_eq _ _); [reflexivity|discriminate].
  - revert H. unfold set_secrecy, guarded. destruct (secrecy_eq _ _); [reflexivity|discriminate].
  - revert H. unfold set_logo, guarded. destruct (picture_eq _ _ _); [reflexivity|discriminate].
  - revert H. unfold set_photo, guarded. destruct (picture_eq _ _ _); [reflexivity|discriminate].
  - revert H. unfold set_sound, guarded. destruct (sound_eq _ _); [reflexivity|discriminate].
  - revert H. unfold set_gender, guarded. destruct (gender_eq _ _); [reflexivity|discriminate].
  - revert H. unfold insert_url. destruct (rurl_valid _ _); [discriminate|reflexivity].
  - revert H. unfold insert_fgroup. destruct (fgroup_valid _); [discriminate|reflexivity].
  - revert H. unfold insert_pidmap. destruct (ptext_valid _); [discriminate|reflexivity].
  - revert H. unfold insert_impp. destruct (impp_valid _ _); [discriminate|reflexivity].
  - revert H. unfold insert_calurl. destruct (calurl_valid _ _); discriminate.
  - revert H. unfold insert_title, insert_first_class. destruct (ptext_valid _); [discriminate|reflexivity].
  - revert H. unfold insert_role, insert_first_class. destruct (ptext_valid _); [discriminate|reflexivity].
  - revert H. unfold insert_org, insert_first_class. destruct (ptext_valid _); [discriminate|reflexivity].
  - revert H. unfold insert_nick, insert_first_class. destruct (ptext_valid _); [discriminate|reflexivity].
  - revert H. unfold insert_lang. destruct (isnil _); [reflexivity|discriminate].
  - revert H. unfold insert_address. destruct (ad_empty _); [reflexivity|discriminate].
  - revert H. unfold insert_custom. destruct (_ || _); [reflexivity|]. destruct (find_custom _ _); discriminate.
Qed.
Definition setter_known (e : edit) : Prop := match e with EText set _ => In set text_setters | _ => True end.
Lemma touched_edit V e a : setter_known e -> a_empty a = false -> a_empty (do_edit V e a) = false.
Proof.
  intros Hin H.
  assert (TX : forall get put v, (forall v a, a_empty (put v a) = a_empty a) -> a_empty (set_text get put v a) = false).
  { intros get put v Hp. unfold set_text, guarded. destruct (leqb v (get a)); [exact H|]. rewrite Hp. reflexivity. }
  destruct e; cbn [do_edit setter_known] in *;
    try (unfold set_birthday, set_birthday_date, set_deathdate, set_revision, set_tz, set_geo, set_secrecy, set_logo, set_photo, set_sound, set_gender, guarded,
           insert_url, insert_fgroup, insert_pidmap, insert_impp, insert_calurl, insert_title, insert_role, insert_org, insert_nick, insert_first_class,
           insert_lang, insert_address, insert_custom, insert_category, insert_member, insert_related;
         repeat match goal with |- context [if ?c then _ else _] => destruct c end; first [exact H|reflexivity]);
    try solve [exact H|reflexivity].
  - unfold text_setters in Hin. cbn [In] in Hin. repeat (destruct Hin as [<-|Hin]; [apply TX; reflexivity|]). destruct Hin.
  - unfold add_email. destruct (has_email _ _); [exact H|reflexivity].
  - unfold remove_category. repeat match goal with |- context [if ?c then _ else _] => destruct c end; first [exact H|reflexivity].
Qed.
Lemma empty_edits V es : forall uid, Forall setter_known es ->
  a_empty (fold_left (fun a e => do_edit V e a) es (addressee_new uid)) = true -> fold_left (fun a e => do_edit V e a) es (addressee_new uid) = addressee_new uid.
Proof.
  assert (K : forall es a, Forall setter_known es -> a_empty a = false -> a_empty (fold_left (fun a e => do_edit V e a) es a) = false).
  { induction es0 as [|e es0 IH]; cbn; auto. intros a Hk Ha. apply IH; [exact (Forall_inv_tail Hk)|]. apply touched_edit; [exact (Forall_inv Hk)|exact Ha]. }
  induction es as [|e es IH]; cbn [fold_left]; auto. intros uid Hk H. destruct (a_empty (do_edit V e (addressee_new uid))) eqn:E.
  - rewrite (empty_edit V e uid (Forall_inv Hk) E) in *. apply IH; [exact (Forall_inv_tail Hk)|exact H].
  - rewrite (K es _ (Forall_inv_tail Hk) E) in H. discriminate.
Qed.
