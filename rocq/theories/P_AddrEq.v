(** Proofs about the equality of contacts. *)
From Coq Require Import SetoidList Permutation QArith.
From Verif Require Import Base BaseFacts QtText M_ParamMap M_Values M_Date M_Addressee
  S_Values S_Addressee P_Lists P_Values P_Addressee.
Local Open Scope list_scope.
Local Open Scope nat_scope.

Lemma dt_eq_refl V d : dt_eq V d d = true.
Proof. unfold dt_eq. destruct (dt_valid d); cbn; auto. apply Z.eqb_refl. Qed.
Lemma dt_eq_sym V a b : dt_eq V a b = dt_eq V b a.
Proof. unfold dt_eq. destruct (dt_valid a), (dt_valid b); cbn; auto. apply Z.eqb_sym. Qed.
Lemma dt_eq_trans V a b c : dt_eq V a b = true -> dt_eq V b c = true -> dt_eq V a c = true.
Proof.
  unfold dt_eq. destruct (dt_valid a), (dt_valid b), (dt_valid c); cbn; auto; try discriminate.
  rewrite !Z.eqb_eq. congruence.
Qed.

Section Lists.
Context {A : Type} (eqb : A -> A -> bool).
Lemma list_equals_refl_on l : Forall (fun x => eqb x x = true) l -> list_equals eqb l l = true.
Proof.
  intros H. rewrite Forall_forall in H. unfold list_equals. rewrite Nat.eqb_refl. cbn. apply forallb_forall. intros x Hx.
  apply existsb_exists. exists x. auto.
Qed.
Lemma list_eqb_refl_on l : Forall (fun x => eqb x x = true) l -> list_eqb eqb l l = true.
Proof. induction 1; cbn; auto. rewrite H. auto. Qed.
Lemma list_eqb_sym : (forall x y, eqb x y = eqb y x) -> forall a b, list_eqb eqb a b = list_eqb eqb b a.
Proof. intros H. induction a as [|x a IH]; intros [|y b]; cbn; auto. rewrite H, IH. auto. Qed.
Lemma list_eqb_trans : (forall x y z, eqb x y = true -> eqb y z = true -> eqb x z = true) ->
  forall a b c, list_eqb eqb a b = true -> list_eqb eqb b c = true -> list_eqb eqb a c = true.
Proof.
  intros H. induction a as [|x a IH]; intros [|y b] [|z c]; cbn; auto; try discriminate.
  rewrite !andb_true_iff. intros [H1 H2] [H3 H4]. split; eauto.
Qed.
(** only the values on the elements matter *)
Lemma list_equals_ext (eqb' : A -> A -> bool) l p :
  (forall x y, In x l -> In y p -> eqb y x = eqb' y x) -> list_equals eqb l p = list_equals eqb' l p.
Proof.
  intros H. unfold list_equals. f_equal. apply eq_true_iff_eq. rewrite !forallb_forall.
  split; intros H1 x Hx; specialize (H1 x Hx); apply existsb_exists in H1 as (y & Hy & E);
  apply existsb_exists; exists y; split; auto; [rewrite <- H|rewrite H]; auto.
Qed.
End Lists.

(** ** Pictures without raw data *)
Definition pic_view (p : picture) := (pi_intern p, pi_type p, if pi_intern p then pi_data p else None, if pi_intern p then [] else pi_url p).
Lemma plain_eq I a b : plain_picture a -> plain_picture b -> (picture_eq I a b = true <-> pic_view a = pic_view b).
Proof.
  destruct a as [u t d r i], b as [u' t' d' r' i']. unfold plain_picture, picture_eq, pic_view. cbn.
  intros [-> Ha] [-> Hb]. rewrite !andb_true_iff, leqb_eq, eqb_true_iff. split.
  - intros [[-> ->] H]. destruct i'.
    + destruct d as [x|]; [|destruct (Ha eq_refl eq_refl)]. destruct d' as [x'|]; [|destruct (Hb eq_refl eq_refl)].
      cbn in H. apply leqb_eq in H. subst. auto.
    + apply leqb_eq in H. subst. auto.
  - intros H. injection H as -> -> H1 H2. split; auto. destruct i'; subst.
    + destruct d' as [x'|]; [|destruct (Hb eq_refl eq_refl)]. cbn. apply leqb_refl.
    + apply leqb_refl.
Qed.
Definition pic_eqb (a b : picture) : bool :=
  Bool.eqb (pi_intern a) (pi_intern b) && leqb (pi_type a) (pi_type b)
  && (if pi_intern a then image_eq (pi_data a) (pi_data b) else leqb (pi_url a) (pi_url b)).
Lemma pic_eqb_view a b : pic_eqb a b = true <-> pic_view a = pic_view b.
Proof.
  destruct a as [u t d r i], b as [u' t' d' r' i']. unfold pic_eqb, pic_view. cbn.
  rewrite !andb_true_iff, leqb_eq, eqb_true_iff. split.
  - intros [[-> ->] H]. destruct i'; [apply image_eq_eq in H|apply leqb_eq in H]; subst; auto.
  - intros H. injection H as -> -> H1 H2. split; auto. destruct i'; subst; [apply image_eq_eq|apply leqb_refl]; auto.
Qed.
Lemma plain_eqb I a b : plain_picture a -> plain_picture b -> picture_eq I a b = pic_eqb a b.
Proof. intros Ha Hb. apply eq_true_iff_eq. rewrite plain_eq, pic_eqb_view by auto. tauto. Qed.

Lemma distinct_NoDupA {A} (eqb : A -> A -> bool) l : distinct_by eqb l -> NoDupA (R eqb) l.
Proof.
  induction l as [|x l IH]; cbn; [constructor|]. intros [H1 H2]. constructor; auto.
  intros H. apply InA_alt in H as (y & E & Hy). unfold R in E. rewrite H1 in E by auto. discriminate.
Qed.
Lemma equiv_list_sym {A} (eqb : A -> A -> bool) l p : equivalence eqb -> distinct_by eqb l ->
  list_equals eqb l p = true -> list_equals eqb p l = true.
Proof.
  intros (E1 & E2 & E3) Hd. apply list_equals_sym; auto. apply distinct_NoDupA; auto.
Qed.
Lemma equiv_list_trans {A} (eqb : A -> A -> bool) l p q : equivalence eqb ->
  list_equals eqb l p = true -> list_equals eqb p q = true -> list_equals eqb l q = true.
Proof. intros (E1 & E2 & E3). apply list_equals_trans; auto. Qed.

Lemma eq_equiv {A} (eqb : A -> A -> bool) : (forall x y, eqb x y = true <-> x = y) -> equivalence eqb.
Proof. intros H. exact (view_equiv eqb (fun x => x) H). Qed.
Definition phone_equiv := eq_equiv phone_eq phone_eq_eq.
Definition email_equiv := eq_equiv email_eq email_eq_eq.
Definition text_equiv := eq_equiv (@leqb) (fun x y => leqb_eq x y).
Definition calurl_equiv := eq_equiv calurl_eq calurl_eq_eq.
Definition rurl_equiv := eq_equiv rurl_eq rurl_eq_eq.
Definition ptext_equiv := eq_equiv ptext_eq ptext_eq_eq.
Definition fgroup_equiv := eq_equiv fgroup_eq fgroup_eq_eq.
Definition impp_equiv := eq_equiv impp_eq impp_eq_eq.
Definition gender_equiv := eq_equiv gender_eq gender_eq_eq.
Definition secrecy_equiv := eq_equiv secrecy_eq secrecy_eq_eq.
Definition key_equiv := view_equiv key_eq key_view key_eq_view.
Definition sound_equiv := view_equiv sound_eq sound_view sound_eq_view.
Definition tz_equiv := view_equiv tz_eq tz_view tz_eq_view.
Definition pic_equiv := view_equiv pic_eqb pic_view pic_eqb_view.
Lemma custom_eq_eq x y : custom_eq x y = true <-> x = y.
Proof. destruct x, y. unfold custom_eq. cbn. beq. split; [intros [-> ->]|intros H; injection H]; auto. Qed.
Definition custom_equiv := eq_equiv custom_eq custom_eq_eq.

Lemma refl_all {A} (eqb : A -> A -> bool) l : equivalence eqb -> list_equals eqb l l = true.
Proof. intros (H & _). apply list_equals_refl_on. apply Forall_forall. auto. Qed.
Lemma refl_all' {A} (eqb : A -> A -> bool) l : equivalence eqb -> list_eqb eqb l l = true.
Proof. intros (H & _). apply list_eqb_refl_on. apply Forall_forall. auto. Qed.
Lemma refl_one {A} (eqb : A -> A -> bool) x : equivalence eqb -> eqb x x = true.
Proof. intros (H & _). auto. Qed.

Lemma contact_eq_refl V a : well_formed a -> addressee_eq V a a = true.
Proof.
  intros (H1 & H2 & H3 & H4 & H5 & H6). unfold addressee_eq.
  assert (P : forall p, readable p -> picture_eq (env_img V) p p = true) by (intros p H; apply picture_eq_refl_iff; exact H).
  rewrite !leqb_refl, !dt_eq_refl, eqb_reflx, (P _ H1), (P _ H2).
  rewrite (refl_one _ _ tz_equiv), (refl_one _ _ secrecy_equiv), (refl_one _ _ sound_equiv), (refl_one _ _ gender_equiv).
  rewrite (geo_eq_refl _ H5).
  rewrite !(refl_all _ _ phone_equiv), !(refl_all _ _ key_equiv), !(refl_all _ _ email_equiv), !(refl_all _ _ text_equiv),
    !(refl_all' _ _ custom_equiv), !(refl_all' _ _ ptext_equiv), !(refl_all' _ _ impp_equiv), !(refl_all _ _ calurl_equiv),
    !(refl_all _ _ sound_equiv), !(refl_all _ _ rurl_equiv), !(refl_all _ _ ptext_equiv), !(refl_all _ _ fgroup_equiv).
  rewrite (list_equals_refl_on (picture_eq (env_img V)) (a_xphotos a)), (list_equals_refl_on (picture_eq (env_img V)) (a_xlogos a)),
    (list_equals_refl_on address_eq (a_addresses a)); auto.
  - revert H6. apply Forall_impl. intros x. apply address_eq_refl.
  - revert H4. apply Forall_impl. auto.
  - revert H3. apply Forall_impl. auto.
Qed.

Lemma plain_list_eq I l p : Forall plain_picture l -> Forall plain_picture p ->
  list_equals (picture_eq I) l p = list_equals pic_eqb l p.
Proof.
  rewrite !Forall_forall. intros Hl Hp. apply list_equals_ext. intros x y Hx Hy. apply plain_eqb; auto.
Qed.
Lemma plain_distinct I l : Forall plain_picture l -> distinct_by (picture_eq I) l -> distinct_by pic_eqb l.
Proof.
  induction 1 as [|x l Hx Hl IH]; cbn; auto. intros [H1 H2]. split; auto. intros y Hy.
  rewrite <- (plain_eqb I); auto. rewrite Forall_forall in Hl. auto.
Qed.
Lemma plain_list_sym I l p : Forall plain_picture l -> Forall plain_picture p -> distinct_by (picture_eq I) l ->
  list_equals (picture_eq I) l p = true -> list_equals (picture_eq I) p l = true.
Proof.
  intros Hl Hp Hd. rewrite !plain_list_eq by auto. apply equiv_list_sym; [apply pic_equiv|]. eapply plain_distinct; eauto.
Qed.
Lemma address_list_sym l p : Forall (fun x => proper_geo (ad_geo x)) l -> Forall (fun x => proper_geo (ad_geo x)) p ->
  distinct_by address_eq l -> list_equals address_eq l p = true -> list_equals address_eq p l = true.
Proof.
  intros Hl Hp Hd.
  (* off the well-formed addresses replace the test by a reflexive one *)
  set (q := fun x y : address => address_eq x y || (negb (address_eq x x) && negb (address_eq y y))).
  assert (Hq : equivalence q).
  { unfold q. repeat split.
    - intros x. destruct (address_eq x x); auto.
    - intros x y. rewrite address_eq_sym, (andb_comm (negb (address_eq x x))). auto.
    - intros x y z. rewrite !orb_true_iff, !andb_true_iff, !negb_true_iff.
      assert (K : forall u v, address_eq u v = true -> address_eq u u = true /\ address_eq v v = true).
      { intros u v H. pose proof H as H'. rewrite address_eq_sym in H'. split; eapply address_eq_trans; eauto. }
      intros [H1|[H1 H1']] [H2|[H2 H2']].
      + left. eapply address_eq_trans; eauto.
      + apply K in H1. destruct H1. congruence.
      + apply K in H2. destruct H2. congruence.
      + auto. }
  assert (Ha : forall x y, proper_geo (ad_geo x) -> address_eq y x = q y x).
  { intros x y H. unfold q. rewrite (address_eq_refl x) by auto. cbn. rewrite andb_false_r, orb_false_r. auto. }
  rewrite Forall_forall in Hl, Hp.
  rewrite (list_equals_ext _ q l p), (list_equals_ext _ q p l) by auto.
  apply equiv_list_sym; auto. clear - Hl Hd Ha.
  induction l as [|x l IH]; cbn in *; auto. destruct Hd as [H1 H2]. split; auto. intros y Hy. rewrite <- Ha; auto.
Qed.

Lemma contact_eq_sym V a b : well_formed a -> well_formed b -> plain_pictures a -> plain_pictures b -> no_equal_elements V a ->
  addressee_eq V a b = true -> addressee_eq V b a = true.
Proof.
  intros (_ & _ & _ & _ & _ & Wa) (_ & _ & _ & _ & _ & Wb) (_ & _ & Pa1 & Pa2) (_ & _ & Pb1 & Pb2) D.
  unfold no_equal_elements in D. decompose [and] D. clear D.
  unfold addressee_eq. rewrite !andb_true_iff. intros E. decompose [and] E. clear E.
  repeat split;
  try (rewrite leqb_sym; assumption); try (rewrite dt_eq_sym; assumption); try (rewrite picture_eq_sym; assumption);
  try (rewrite geo_eq_sym; assumption); try (apply address_list_sym; assumption); try (apply plain_list_sym; assumption).
  all: try match goal with
  | |- list_equals ?q _ _ = true => apply equiv_list_sym;
      [solve [apply phone_equiv | apply key_equiv | apply email_equiv | apply text_equiv | apply calurl_equiv | apply sound_equiv
             | apply rurl_equiv | apply ptext_equiv | apply fgroup_equiv] | assumption | assumption]
  | |- list_eqb ?q _ _ = true => rewrite list_eqb_sym; [assumption|solve [apply custom_equiv | apply ptext_equiv | apply impp_equiv]]
  end.
  - apply eqb_true_iff. symmetry. apply eqb_true_iff. assumption.
  - destruct tz_equiv as (_ & S & _). rewrite S. assumption.
  - destruct secrecy_equiv as (_ & S & _). rewrite S. assumption.
  - destruct sound_equiv as (_ & S & _). rewrite S. assumption.
  - destruct gender_equiv as (_ & S & _). rewrite S. assumption.
Qed.
Lemma plain_pic_trans I a b c : plain_picture a -> plain_picture b -> plain_picture c ->
  picture_eq I a b = true -> picture_eq I b c = true -> picture_eq I a c = true.
Proof. intros Ha Hb Hc. rewrite !plain_eq by auto. congruence. Qed.
Lemma plain_list_trans I l p q : Forall plain_picture l -> Forall plain_picture p -> Forall plain_picture q ->
  list_equals (picture_eq I) l p = true -> list_equals (picture_eq I) p q = true -> list_equals (picture_eq I) l q = true.
Proof. intros Ha Hb Hc. rewrite !plain_list_eq by auto. apply equiv_list_trans. apply pic_equiv. Qed.
Lemma address_list_trans l p q : 
  list_equals address_eq l p = true -> list_equals address_eq p q = true -> list_equals address_eq l q = true.
Proof.
  rewrite !list_equals_spec. intros [E1 H1] [E2 H2]. split; [congruence|]. intros x Hx.
  destruct (H1 x Hx) as (y & Hy & Hr). destruct (H2 y Hy) as (z & Hz & Hr'). exists z. split; auto.
  eapply address_eq_trans; eauto.
Qed.
Lemma trans_one {A} (eqb : A -> A -> bool) : equivalence eqb -> forall x y z, eqb x y = true -> eqb y z = true -> eqb x z = true.
Proof. intros (_ & _ & H). exact H. Qed.
Lemma contact_eq_trans V a b c : plain_pictures a -> plain_pictures b -> plain_pictures c ->
  addressee_eq V a b = true -> addressee_eq V b c = true -> addressee_eq V a c = true.
Proof.
  intros (Pa1 & Pa2 & Pa3 & Pa4) (Pb1 & Pb2 & Pb3 & Pb4) (Pc1 & Pc2 & Pc3 & Pc4).
  unfold addressee_eq. rewrite !andb_true_iff. intros E F. decompose [and] E. clear E. decompose [and] F. clear F.
  repeat split;
  match goal with
  | |- leqb _ _ = true => eapply (trans_one _ text_equiv); eassumption
  | |- dt_eq _ _ _ = true => eapply dt_eq_trans; eassumption
  | |- picture_eq _ _ _ = true => eapply plain_pic_trans; [| | |eassumption|eassumption]; assumption
  | |- geo_eq _ _ = true => eapply geo_eq_trans; eassumption
  | |- Bool.eqb _ _ = true => apply eqb_true_iff; etransitivity; apply eqb_true_iff; eassumption
  | |- tz_eq _ _ = true => eapply (trans_one _ tz_equiv); eassumption
  | |- secrecy_eq _ _ = true => eapply (trans_one _ secrecy_equiv); eassumption
  | |- sound_eq _ _ = true => eapply (trans_one _ sound_equiv); eassumption
  | |- gender_eq _ _ = true => eapply (trans_one _ gender_equiv); eassumption
  | |- list_equals address_eq _ _ = true => eapply address_list_trans; eassumption
  | |- list_equals (picture_eq _) _ _ = true => eapply plain_list_trans; [| | |eassumption|eassumption]; assumption
  | |- list_equals _ _ _ = true => eapply equiv_list_trans;
      [solve [apply phone_equiv | apply key_equiv | apply email_equiv | apply text_equiv | apply calurl_equiv | apply sound_equiv
             | apply rurl_equiv | apply ptext_equiv | apply fgroup_equiv] | eassumption | eassumption]
  | |- list_eqb _ _ _ = true => eapply list_eqb_trans; [apply trans_one; solve [apply custom_equiv | apply ptext_equiv | apply impp_equiv]|eassumption|eassumption]
  end.
Qed.
