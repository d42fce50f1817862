(** Proofs about the value classes. *)
From Coq Require Import QArith.
From Verif Require Import Base BaseFacts QtText M_ParamMap M_VCard M_Values S_Card S_Values P_Assoc P_Lists.
Local Open Scope list_scope.
Local Open Scope nat_scope.

(** ** Element equality *)
Lemma list_leqb_eq a b : list_leqb a b = true <-> a = b.
Proof.
  revert b. induction a as [|x a IH]; intros [|y b]; cbn; split; intros H; try discriminate; auto.
  - apply andb_true_iff in H as [H1 H2]. apply leqb_eq in H1. apply IH in H2. congruence.
  - injection H as -> ->. rewrite leqb_refl. apply IH. auto.
Qed.
Lemma pmap_eqb_eq a b : pmap_eqb a b = true <-> a = b.
Proof.
  revert b. induction a as [|[p vs] a IH]; intros [|[q ws] b]; cbn; split; intros H; try discriminate; auto.
  - rewrite !andb_true_iff in H. destruct H as [[H1 H2] H3]. apply leqb_eq in H1.
    apply list_leqb_eq in H2. apply IH in H3. congruence.
  - injection H as -> -> ->. rewrite leqb_refl, (proj2 (list_leqb_eq ws ws)), (proj2 (IH b)); auto.
Qed.

(** an equality test that compares views is an equivalence *)
Lemma view_equiv {A B} (eqb : A -> A -> bool) (view : A -> B) :
  (forall x y, eqb x y = true <-> view x = view y) -> equivalence eqb.
Proof.
  intros H. repeat split.
  - intros x. apply H. reflexivity.
  - intros x y. apply eq_true_iff_eq. rewrite !H. split; congruence.
  - intros x y z H1 H2. apply H in H1. apply H in H2. apply H. congruence.
Qed.

Ltac beq := rewrite ?andb_true_iff, ?leqb_eq, ?N.eqb_eq, ?pmap_eqb_eq, ?Z.eqb_eq, ?Bool.eqb_true_iff.

Lemma ptext_eq_eq x y : ptext_eq x y = true <-> x = y.
Proof. destruct x, y. unfold ptext_eq. cbn. beq. split; [intros [-> ->]|intros H; injection H]; auto. Qed.
Lemma email_eq_eq x y : email_eq x y = true <-> x = y.
Proof. destruct x, y. unfold email_eq. cbn. beq. split; [intros [-> ->]|intros H; injection H]; auto. Qed.
Lemma impp_eq_eq x y : impp_eq x y = true <-> x = y.
Proof. destruct x, y. unfold impp_eq. cbn. beq. split; [intros [-> ->]|intros H; injection H]; auto. Qed.
Lemma rurl_eq_eq x y : rurl_eq x y = true <-> x = y.
Proof. destruct x, y. unfold rurl_eq. cbn. beq. split; [intros [-> ->]|intros H; injection H]; auto. Qed.
Lemma fgroup_eq_eq x y : fgroup_eq x y = true <-> x = y.
Proof.
  destruct x, y. unfold fgroup_eq. cbn. beq. split; [intros [[-> ->] ->]|intros H; injection H]; auto.
Qed.
Lemma caltype_eq_eq x y : caltype_eq x y = true <-> x = y.
Proof. destruct x, y; cbn; split; congruence. Qed.
Lemma calurl_eq_eq x y : calurl_eq x y = true <-> x = y.
Proof.
  destruct x, y. unfold calurl_eq. cbn. beq. rewrite caltype_eq_eq.
  split; [intros [[-> ->] ->]|intros H; injection H]; auto.
Qed.
Lemma phone_eq_eq x y : phone_eq x y = true <-> x = y.
Proof.
  destruct x, y. unfold phone_eq. cbn. beq. split; [intros [[[-> ->] ->] ->]|intros H; injection H]; auto.
Qed.
Lemma gender_eq_eq x y : gender_eq x y = true <-> x = y.
Proof. destruct x, y. unfold gender_eq. cbn. beq. split; [intros [-> ->]|intros H; injection H]; auto. Qed.
Lemma secrecy_eq_eq x y : secrecy_eq x y = true <-> x = y.
Proof. destruct x, y; cbn; split; congruence. Qed.
Lemma keytype_eq_eq x y : keytype_eq x y = true <-> x = y.
Proof. destruct x, y; cbn; split; congruence. Qed.

Definition tz_view (t : tzone) : option Z := if tz_valid t then Some (tz_offset t) else None.
Lemma tz_eq_view x y : tz_eq x y = true <-> tz_view x = tz_view y.
Proof.
  destruct x as [o1 []], y as [o2 []]; unfold tz_eq, tz_view; cbn; rewrite ?Z.eqb_eq; split; congruence.
Qed.
Definition key_view (k : key) := (ke_id k, ke_type k, ke_isbin k, if ke_isbin k then ke_bin k else ke_text k, ke_custom k).
Lemma key_eq_view x y : key_eq x y = true <-> key_view x = key_view y.
Proof.
  destruct x as [i b t c ty ib], y as [i' b' t' c' ty' ib']. unfold key_eq, key_view. cbn. beq. rewrite keytype_eq_eq.
  split.
  - intros [[[[-> ->] ->] H] ->]. destruct ib'; apply leqb_eq in H; subst; auto.
  - intros H. injection H as -> -> -> H ->. destruct ib'; subst; rewrite ?leqb_refl; auto.
Qed.
Definition sound_view (s : sound) := (so_intern s, so_type s, if so_intern s then so_data s else so_url s).
Lemma sound_eq_view x y : sound_eq x y = true <-> sound_view x = sound_view y.
Proof.
  destruct x as [u t d i], y as [u' t' d' i']. unfold sound_eq, sound_view. cbn. beq. split.
  - intros [[-> ->] H]. destruct i'; apply leqb_eq in H; subst; auto.
  - intros H. injection H as -> -> H. destruct i'; subst; rewrite ?leqb_refl; auto.
Qed.

(** ** Geo *)
Definition geo_ok (g : geo) : Prop :=
  (g_vlat g = true -> in_range (g_lat g) (-90) 90) /\ (g_vlon g = true -> in_range (g_lon g) (-180) 180).
Lemma range_check v lo hi : f_le (f_of_Z lo) v && f_le v (f_of_Z hi) = true <-> in_range v lo hi.
Proof.
  unfold in_range. destruct v as [q| | |]; cbn; split; intros H; try discriminate;
    try (destruct H as (q' & E & _); discriminate).
  - apply andb_true_iff in H as [H1 H2]. apply Qle_bool_iff in H1, H2. eauto.
  - destruct H as (q' & E & H1 & H2). injection E as <-. apply andb_true_iff. split; apply Qle_bool_iff; auto.
Qed.
Lemma do_geo_ok g o : geo_ok g -> geo_ok (do_geo g o).
Proof.
  intros [H1 H2]. destruct o as [v|v|]; cbn.
  - unfold geo_set_lat. destruct (f_le (f_of_Z (-90)) v && f_le v (f_of_Z 90)) eqn:E; split; cbn; intros H; auto.
    + apply range_check; auto.
    + discriminate.
  - unfold geo_set_lon. destruct (f_le (f_of_Z (-180)) v && f_le v (f_of_Z 180)) eqn:E; split; cbn; intros H; auto.
    + apply range_check; auto.
    + discriminate.
  - split; cbn; discriminate.
Qed.
Lemma run_geo_ok ops : forall g, geo_ok g -> geo_ok (fold_left do_geo ops g).
Proof. induction ops as [|o ops IH]; cbn; intros g H; auto. apply IH, do_geo_ok, H. Qed.
Lemma geo_new_ok : geo_ok geo_new. Proof. split; discriminate. Qed.
Lemma f_eq_sym a b : f_eq a b = f_eq b a.
Proof. destruct a, b; cbn; auto. apply eq_true_iff_eq. rewrite !Qeq_bool_iff. split; intros H; rewrite H; reflexivity. Qed.
Lemma f_eq_trans a b c : f_eq a b = true -> f_eq b c = true -> f_eq a c = true.
Proof.
  destruct a, b, c; cbn; auto; try discriminate. rewrite !Qeq_bool_iff. intros H1 H2. rewrite H1. auto.
Qed.
Lemma f_eq_fin q : f_eq (Fin q) (Fin q) = true. Proof. cbn. apply Qeq_bool_iff. reflexivity. Qed.
Lemma geo_eq_sym a b : geo_eq a b = geo_eq b a.
Proof.
  unfold geo_eq. destruct (geo_valid a), (geo_valid b); cbn; auto.
  rewrite (f_eq_sym (g_lat b)), (f_eq_sym (g_lon b)). auto.
Qed.
Lemma geo_eq_trans a b c : geo_eq a b = true -> geo_eq b c = true -> geo_eq a c = true.
Proof.
  unfold geo_eq. destruct (geo_valid a), (geo_valid b), (geo_valid c); cbn; auto; try discriminate.
  rewrite !andb_true_iff. intros [H1 H2] [H3 H4]. split; eapply f_eq_trans; eauto.
Qed.
Lemma geo_eq_refl g : geo_ok g -> geo_eq g g = true.
Proof.
  intros [H1 H2]. unfold geo_eq. destruct (geo_valid g) eqn:E; cbn; auto.
  unfold geo_valid in E. apply andb_true_iff in E as [E1 E2].
  destruct (H1 E1) as (q & -> & _). destruct (H2 E2) as (q' & -> & _). rewrite !f_eq_fin. auto.
Qed.
Lemma address_eq_sym a b : address_eq a b = address_eq b a.
Proof.
  unfold address_eq. rewrite (geo_eq_sym (ad_geo a)), (N.eqb_sym (ad_type a)).
  rewrite (leqb_sym (ad_id a)), (leqb_sym (ad_pobox a)), (leqb_sym (ad_extended a)), (leqb_sym (ad_street a)),
    (leqb_sym (ad_locality a)), (leqb_sym (ad_region a)), (leqb_sym (ad_postal a)), (leqb_sym (ad_country a)),
    (leqb_sym (ad_label a)). reflexivity.
Qed.
Definition address_view (a : address) :=
  (ad_id a, ad_type a, (ad_pobox a, ad_extended a, ad_street a, ad_locality a), (ad_region a, ad_postal a, ad_country a, ad_label a)).
Lemma address_eq_view a b : address_eq a b = true <-> address_view a = address_view b /\ geo_eq (ad_geo a) (ad_geo b) = true.
Proof.
  unfold address_eq, address_view. beq. split.
  - intros [[[[[[[[[[-> ->] ->] ->] ->] ->] ->] ->] ->] ->] H]. auto.
  - intros [H1 H2]. injection H1 as -> -> -> -> -> -> -> -> -> ->. repeat split; auto.
Qed.
Lemma address_eq_trans a b c : address_eq a b = true -> address_eq b c = true -> address_eq a c = true.
Proof.
  rewrite !address_eq_view. intros [E1 G1] [E2 G2]. split; [congruence|]. eapply geo_eq_trans; eauto.
Qed.
Lemma address_eq_refl a : geo_ok (ad_geo a) -> address_eq a a = true.
Proof. intros H. apply address_eq_view. split; auto. apply geo_eq_refl; auto. Qed.

(** ** Pictures *)
Lemma image_eq_eq a b : image_eq a b = true <-> a = b.
Proof.
  destruct a, b; cbn; split; intros H; try discriminate; auto.
  - apply leqb_eq in H. congruence.
  - injection H as ->. apply leqb_refl.
Qed.
Lemma image_eq_sym a b : image_eq a b = image_eq b a.
Proof. apply eq_true_iff_eq. rewrite !image_eq_eq. split; congruence. Qed.
Lemma picture_eq_sym I a b : picture_eq I a b = picture_eq I b a.
Proof.
  unfold picture_eq. rewrite (leqb_sym (pi_type a)).
  destruct (pi_intern a), (pi_intern b); cbn [Bool.eqb andb]; auto.
  - f_equal. rewrite (andb_comm (negb (isnull (pi_data a)))).
    rewrite (andb_comm (negb (isnil (pi_raw a))) (negb (isnil (pi_raw b)))).
    rewrite (image_eq_sym (pi_data a)), (leqb_sym (pi_raw a)), (image_eq_sym (pi_data_of I a)).
    rewrite (andb_comm (negb (isnull (pi_data a)) || negb (isnil (pi_raw a)))). reflexivity.
  - f_equal. apply leqb_sym.
Qed.
Lemma picture_eq_refl_iff I p : picture_eq I p p = true <-> (pi_intern p = true -> pi_data p <> None \/ pi_raw p <> []).
Proof.
  unfold picture_eq. rewrite leqb_refl. destruct p as [u t d r i]; cbn. destruct i; cbn.
  - destruct d as [im|]; cbn.
    + rewrite leqb_refl. split; auto. intros _ _. left. discriminate.
    + destruct r as [|c r]; cbn.
      * split; [discriminate|]. intros H. destruct (H eq_refl); congruence.
      * rewrite N.eqb_refl. pose proof (leqb_refl r) as Hr. cbn. rewrite Hr. split; auto. intros _ _. right. discriminate.
  - rewrite leqb_refl. split; auto. discriminate.
Qed.

(** ** Normalised phone numbers *)
Lemma normalized_acc isDigit s : forall r, r <> [] ->
  fold_left (fun r c => if isDigit c || (N.eqb c 43 && isnil r) then r ++ [c] else r) s r
  = r ++ filter isDigit s.
Proof.
  induction s as [|c s IH]; cbn; intros r H; [symmetry; apply app_nil_r|].
  assert (isnil r = false) as Hn by (destruct r; [exfalso; apply H|]; reflexivity). rewrite Hn, andb_false_r, orb_false_r.
  destruct (isDigit c); [|auto]. rewrite IH by (destruct r; discriminate). rewrite <- app_assoc. reflexivity.
Qed.
(** up to the first digit or plus sign everything is dropped, then only digits are kept *)
Fixpoint norm_spec (isDigit : N -> bool) (s : ustring) : ustring :=
  match s with
  | [] => []
  | c :: r => if isDigit c || N.eqb c 43 then c :: filter isDigit r else norm_spec isDigit r
  end.
Lemma normalized_spec isDigit s : normalized isDigit s = norm_spec isDigit s.
Proof.
  unfold normalized. induction s as [|c s IH]; cbn; auto. rewrite andb_true_r.
  destruct (isDigit c || N.eqb c 43); auto. apply (normalized_acc isDigit s [c]). discriminate.
Qed.
Lemma filter_all {A} (f : A -> bool) l : Forall (fun x => f x = true) l -> filter f l = l.
Proof. induction 1 as [|x l H _ IH]; cbn; auto. rewrite H. congruence. Qed.
Lemma normalized_dialable isDigit s : dialable isDigit (normalized isDigit s).
Proof.
  rewrite normalized_spec. induction s as [|c s IH]; cbn; auto.
  destruct (isDigit c) eqn:E1; cbn; [|destruct (N.eqb_spec c 43); cbn; auto]; split; auto;
  apply Forall_forall; intros x Hx; apply filter_In in Hx; tauto.
Qed.
Lemma dialable_normal isDigit s : dialable isDigit s -> normalized isDigit s = s.
Proof.
  rewrite normalized_spec. destruct s as [|c s]; cbn; auto. intros [H1 H2].
  assert (isDigit c || N.eqb c 43 = true) as ->.
  { apply orb_true_iff. destruct H1 as [H1 | ->]; auto. }
  rewrite filter_all; auto.
Qed.
Lemma filter_idem {A} (f : A -> bool) l : filter f (filter f l) = filter f l.
Proof. apply filter_all. apply Forall_forall. intros x Hx. apply filter_In in Hx. tauto. Qed.
Lemma normalized_digits isDigit s : filter isDigit (normalized isDigit s) = filter isDigit s.
Proof.
  rewrite normalized_spec. induction s as [|c s IH]; cbn; auto.
  destruct (isDigit c) eqn:E1; cbn.
  - rewrite E1, filter_idem. auto.
  - destruct (N.eqb c 43); cbn; auto. rewrite E1, filter_idem. auto.
Qed.

(** ** Parameter maps *)
Lemma find_update p vs m q : find_param q (update_param p vs m) =
  if leqb q p then match find_param p m with Some _ => Some vs | None => None end else find_param q m.
Proof.
  rewrite update_param_aupd, find_param_afind, aupd_find. destruct (leqb q p); auto.
Qed.
Lemma find_insert p vs m q : find_param p m = None ->
  find_param q (insert_param p vs m) = if leqb q p then Some vs else find_param q m.
Proof. intros H. rewrite insert_param_ains, find_param_afind, ains_find; auto. Qed.
Lemma find_erase p m q : names_distinct m ->
  find_param q (erase_param p m) = if leqb q p then None else find_param q m.
Proof.
  unfold names_distinct. induction m as [|[r ws] m IH]; intros Hn.
  - cbn. destruct (leqb q p); auto.
  - inversion Hn as [|? ? H1 H2]; subst. cbn. destruct (leqb_spec r p) as [E|E].
    + subst. destruct (leqb_spec q p) as [E'|E'].
      * subst. apply afind_None. auto.
      * assert (leqb p q = false) as Hpq by (apply leqb_neq; congruence). rewrite Hpq. auto.
    + cbn. rewrite IH by auto. destruct (leqb_spec r q) as [E'|E']; auto.
      subst. apply leqb_neq in E. rewrite E. auto.
Qed.
Lemma contains_ci_existsb v l : contains_ci v l = existsb (fun x => leqb_ci x v) l.
Proof. induction l; cbn; congruence. Qed.
(** the outcome of [setPreferred] on e-mails and resource locators *)
Lemma set_preferred_iff p m : names_distinct m ->
  (pm_preferred (pm_set_preferred p m) = p <->
   pm_preferred m = p \/ (p = true /\ find_param kPREF m = None) \/ (p = false /\ pref_in_capitals m)).
Proof.
  intros Hn. unfold pm_set_preferred. destruct (Bool.eqb p (pm_preferred m)) eqn:E.
  - apply eqb_prop in E. rewrite <- E. tauto.
  - assert (Hne : pm_preferred m <> p) by (intros H; rewrite H, eqb_reflx in E; discriminate).
    fold (values_of kTYPE m).
    destruct p; cbn [negb].
    + assert (H : forall v, find_param kTYPE (match find_param kTYPE m with Some _ => update_param kTYPE v m
                                | None => insert_param kTYPE v m end) = Some v).
      { intros v. destruct (find_param kTYPE m) eqn:F; [rewrite find_update, leqb_refl, F|rewrite find_insert, leqb_refl]; auto. }
      assert (H' : forall v, find_param kPREF (match find_param kTYPE m with Some _ => update_param kTYPE v m
                                | None => insert_param kTYPE v m end) = find_param kPREF m).
      { intros v. destruct (find_param kTYPE m) eqn:F; [rewrite find_update|rewrite find_insert by auto]; auto. }
      unfold pm_preferred at 1. rewrite H, H'. unfold pm_preferred in Hne. destruct (find_param kPREF m) as [[|v vs]|] eqn:F.
      * split; [discriminate|]. intros [X|[[_ X]|[X _]]]; try congruence. unfold pm_preferred in X. rewrite F in X. discriminate.
      * split; [congruence|]. intros [X|[[_ X]|[X _]]]; try congruence. unfold pm_preferred in X. rewrite F in X. auto.
      * split; [auto|]. intros _. rewrite contains_ci_existsb, existsb_app. cbn. rewrite orb_true_r. auto.
    + assert (Ht : find_param kTYPE (erase_param kPREF m) = find_param kTYPE m) by (rewrite find_erase; auto).
      rewrite Ht.
      assert (H : forall v, find_param kTYPE (match find_param kTYPE m with Some _ => update_param kTYPE v (erase_param kPREF m)
                                | None => insert_param kTYPE v (erase_param kPREF m) end) = Some v).
      { intros v. destruct (find_param kTYPE m) eqn:F; [rewrite find_update, leqb_refl, Ht|rewrite find_insert, leqb_refl]; auto. }
      assert (H' : forall v, find_param kPREF (match find_param kTYPE m with Some _ => update_param kTYPE v (erase_param kPREF m)
                                | None => insert_param kTYPE v (erase_param kPREF m) end) = None).
      { intros v. destruct (find_param kTYPE m) eqn:F; [rewrite find_update|rewrite find_insert by auto]; cbn [leqb];
        change (leqb kPREF kTYPE) with false; cbv iota; rewrite find_erase by auto; rewrite leqb_refl; auto. }
      unfold pm_preferred at 1. rewrite H, H'.
      assert (K : contains_ci vPREF (remove_all vPREF (values_of kTYPE m)) = false <-> pref_in_capitals m).
      { unfold pref_in_capitals. rewrite contains_ci_existsb, <- not_true_iff_false, existsb_exists. split.
        - intros X s Hs Hl. destruct (list_eq_dec_N s (B "PREF")) as [|Ne]; auto. exfalso. apply X. exists s. split.
          + unfold remove_all. apply filter_In. split; auto. apply negb_true_iff, leqb_neq. exact Ne.
          + unfold leqb_ci. rewrite Hl. reflexivity.
        - intros X (s & Hs & Hl). unfold remove_all in Hs. apply filter_In in Hs as [Hs1 Hs2].
          apply negb_true_iff, leqb_neq in Hs2. apply Hs2. apply X; auto.
          unfold leqb_ci in Hl. apply leqb_eq in Hl. rewrite <- Hl || rewrite Hl. reflexivity. }
      rewrite K. split; auto. intros [X|[[X _]|[_ X]]]; auto; [tauto|discriminate].
Qed.
Lemma impp_set_preferred_pref p i : names_distinct (im_params i) ->
  impp_preferred (impp_set_preferred p i) = p.
Proof.
  intros Hn. unfold impp_preferred, impp_set_preferred. cbn [im_params im_address]. destruct p; cbn [negb].
  - destruct (find_param kPREF (im_params i)) eqn:F.
    + rewrite find_update, leqb_refl, F. reflexivity.
    + rewrite find_insert, leqb_refl by auto. reflexivity.
  - rewrite find_erase, leqb_refl by auto. reflexivity.
Qed.

(** ** Types *)
Lemma pow2_testbit k i : N.testbit (2 ^ k) i = N.eqb i k.
Proof. rewrite N.pow2_bits_eqb. apply N.eqb_sym. Qed.
Lemma land_pow2 x k : N.eqb (N.land x (2 ^ k)) 0 = negb (N.testbit x k).
Proof.
  destruct (N.testbit x k) eqn:E; cbn.
  - apply N.eqb_neq. intros H. assert (N.testbit (N.land x (2 ^ k)) k = true) as Hb.
    { rewrite N.land_spec, pow2_testbit, E, N.eqb_refl. auto. }
    rewrite H, N.bits_0 in Hb. discriminate.
  - apply N.eqb_eq. apply N.bits_inj. intros i. rewrite N.land_spec, pow2_testbit, N.bits_0.
    destruct (N.eqb_spec i k) as [->|N]; [rewrite E; auto|apply andb_false_r].
Qed.

Definition step_type (old new : N) (ws : list ustring) (nf : ustring * N) : list ustring :=
  if N.eqb (N.land (N.lxor new old) (snd nf)) 0 then ws
  else if negb (N.eqb (N.land new (snd nf)) 0) then ws ++ [fst nf] else remove_all (fst nf) ws.
Lemma remove_all_In v l s : In s (remove_all v l) <-> In s l /\ s <> v.
Proof.
  unfold remove_all. rewrite filter_In, negb_true_iff. rewrite leqb_neq. tauto.
Qed.
Definition gone (old new : N) (t : list (ustring * N)) (s : ustring) : Prop :=
  exists f, In (s, f) t /\ N.testbit old (N.log2 f) = true /\ N.testbit new (N.log2 f) = false.
Definition new_in (old new : N) (t : list (ustring * N)) (s : ustring) : Prop :=
  exists f, In (s, f) t /\ N.testbit old (N.log2 f) = false /\ N.testbit new (N.log2 f) = true.
Lemma set_types_In old new : forall t, NoDup (map fst t) -> Forall (fun e => snd e = 2 ^ N.log2 (snd e))%N t ->
  forall vs s, In s (fold_left (step_type old new) t vs) <-> (In s vs /\ ~ gone old new t s) \/ new_in old new t s.
Proof.
  induction t as [|[n f] t IH]; cbn [fold_left map]; intros Hn Hp vs s.
  - unfold gone, new_in. cbn. firstorder.
  - inversion Hn as [|? ? Hn1 Hn2]; subst. inversion Hp as [|? ? Hp1 Hp2]; subst. cbn [fst snd] in *.
    rewrite IH by auto. unfold step_type. cbn [fst snd].
    assert (Hl : forall x, N.eqb (N.land x f) 0 = negb (N.testbit x (N.log2 f)))
      by (intros x; rewrite Hp1 at 1; apply land_pow2).
    rewrite !Hl, N.lxor_spec.
    assert (Hg : gone old new ((n, f) :: t) s <->
       (s = n /\ N.testbit old (N.log2 f) = true /\ N.testbit new (N.log2 f) = false) \/ gone old new t s).
    { unfold gone. cbn. split.
      - intros (f' & [H|H] & H1 & H2); [injection H as <- <-; auto|right; eauto].
      - intros [(-> & H1 & H2)|(f' & H & H1)]; eauto. }
    assert (Ha : new_in old new ((n, f) :: t) s <->
       (s = n /\ N.testbit old (N.log2 f) = false /\ N.testbit new (N.log2 f) = true) \/ new_in old new t s).
    { unfold new_in. cbn. split.
      - intros (f' & [H|H] & H1 & H2); [injection H as <- <-; auto|right; eauto].
      - intros [(-> & H1 & H2)|(f' & H & H1)]; eauto. }
    rewrite Hg, Ha.
    assert (Hnt : s = n -> ~ gone old new t s).
    { intros -> (f' & Hi & _). apply Hn1. apply in_map_iff. exists (n, f'). auto. }
    destruct (N.testbit new (N.log2 f)) eqn:En, (N.testbit old (N.log2 f)) eqn:Eo; cbn.
    + intuition congruence.
    + rewrite in_app_iff. cbn. intuition (subst; try congruence; auto).
    + rewrite remove_all_In. destruct (list_eq_dec_N s n) as [->|Ne]; intuition congruence.
    + intuition congruence.
Qed.

Section Types.
Variable up : ustring -> ustring.
Variable tab : list (ustring * N).
Definition bit_of (f : N) : option N := if N.eqb f (2 ^ N.log2 f) then Some (N.log2 f) else None.
Definition tab_ok : Prop :=
  NoDup (map fst tab) /\ NoDup (map snd tab) /\
  Forall (fun e => snd e = 2 ^ N.log2 (snd e))%N tab /\ Forall (fun e => up (fst e) = fst e) tab.
Hypothesis Htab : tab_ok.

Lemma lookup_In (s : ustring) t : lookup_type (fun n => leqb n s) t <> 0%N -> In (s, lookup_type (fun n => leqb n s) t) t.
Proof.
  induction t as [|[n f] t IH]; cbn; [congruence|]. destruct (leqb_spec n s) as [->|N]; auto.
Qed.
Lemma lookup_hit (t : list (ustring * N)) n f : NoDup (map fst t) -> In (n, f) t -> lookup_type (fun x => leqb x n) t = f.
Proof.
  induction t as [|[m g] t IH]; cbn; [tauto|]. intros Hn [H|H].
  - injection H as -> ->. rewrite leqb_refl. auto.
  - inversion Hn; subst. destruct (leqb_spec m n) as [E|E]; auto. subst. exfalso. apply H2.
    apply in_map_iff. exists (n, f). auto.
Qed.
Lemma entry_pow n f : In (n, f) tab -> f = (2 ^ N.log2 f)%N.
Proof. intros H. destruct Htab as (_ & _ & H3 & _). rewrite Forall_forall in H3. apply (H3 _ H). Qed.
Lemma entry_up n f : In (n, f) tab -> up n = n.
Proof. intros H. destruct Htab as (_ & _ & _ & H3). rewrite Forall_forall in H3. apply (H3 _ H). Qed.
Lemma entry_same n f n' f' : In (n, f) tab -> In (n', f') tab -> N.log2 f = N.log2 f' -> n = n' /\ f = f'.
Proof.
  intros H1 H2 E. assert (f = f') as <-.
  { rewrite (entry_pow _ _ H1), (entry_pow _ _ H2). congruence. }
  split; auto. destruct Htab as (_ & Hn & _). clear - H1 H2 Hn.
  induction tab as [|[m g] t IH]; [destruct H1|]. cbn in Hn. inversion Hn; subst.
  destruct H1 as [H1|H1], H2 as [H2|H2].
  - congruence.
  - exfalso. injection H1 as -> ->. apply H3. apply in_map_iff. exists (n', f). auto.
  - exfalso. injection H2 as -> ->. apply H3. apply in_map_iff. exists (n, f). auto.
  - auto.
Qed.

Lemma types_of_acc vs : forall a i,
  N.testbit (fold_left (fun t s => N.lor t (lookup_type (fun n => leqb n (up s)) tab)) vs a) i
  = N.testbit a i || existsb (fun s => N.testbit (lookup_type (fun n => leqb n (up s)) tab) i) vs.
Proof.
  induction vs as [|s vs IH]; cbn; intros a i; [rewrite orb_false_r; auto|].
  rewrite IH, N.lor_spec, orb_assoc. reflexivity.
Qed.
Lemma types_of_bit vs i : N.testbit (types_of up tab vs) i = true <->
  exists n f s, In (n, f) tab /\ N.log2 f = i /\ In s vs /\ up s = n.
Proof.
  unfold types_of. rewrite types_of_acc, N.bits_0. cbn. rewrite existsb_exists. split.
  - intros (s & Hs & Hb). set (f := lookup_type (fun n => leqb n (up s)) tab) in *.
    assert (f <> 0%N) as Hf by (intros E; rewrite E, N.bits_0 in Hb; discriminate).
    apply lookup_In in Hf. fold f in Hf. exists (up s), f, s. repeat split; auto.
    rewrite (entry_pow _ _ Hf), pow2_testbit in Hb. apply N.eqb_eq in Hb. auto.
  - intros (n & f & s & H1 & H2 & H3 & H4). exists s. split; auto. rewrite H4.
    rewrite (lookup_hit tab n f); auto; [|apply Htab]. rewrite (entry_pow _ _ H1), pow2_testbit. apply N.eqb_eq. auto.
Qed.
Lemma types_of_bit_entry vs n f : In (n, f) tab ->
  (N.testbit (types_of up tab vs) (N.log2 f) = true <-> exists s, In s vs /\ up s = n).
Proof.
  intros H. rewrite types_of_bit. split.
  - intros (n' & f' & s & H1 & H2 & H3 & H4). destruct (entry_same _ _ _ _ H1 H H2) as [-> ->]. eauto.
  - intros (s & H1 & H2). exists n, f, s. auto.
Qed.

(** what [type()] returns after [setType(new)], given the values before *)
Lemma set_types_types new vs :
  (forall i, N.testbit new i = true -> exists n f, In (n, f) tab /\ N.log2 f = i) ->
  (types_of up tab (set_types tab (types_of up tab vs) new vs) = new <->
   forall s n f, In s vs -> In (n, f) tab -> up s = n -> N.land new f = 0%N -> s = n).
Proof.
  intros Hnew. change (set_types tab (types_of up tab vs) new vs) with (fold_left (step_type (types_of up tab vs) new) tab vs).
  set (old := types_of up tab vs). set (ws := fold_left (step_type old new) tab vs).
  destruct Htab as (T1 & T2 & T3 & T4).
  assert (Hin : forall s, In s ws <-> (In s vs /\ ~ gone old new tab s) \/ new_in old new tab s)
    by (intros s; apply set_types_In; auto).
  assert (Hbit : forall n f, In (n, f) tab -> (N.land new f = 0%N <-> N.testbit new (N.log2 f) = false)).
  { intros n f H. rewrite (entry_pow _ _ H) at 1. rewrite <- N.eqb_eq, land_pow2, negb_true_iff. tauto. }
  split.
  - intros E s n f Hs Hnf Hup Hl.
    apply (Hbit n f Hnf) in Hl.
    destruct (list_eq_dec_N s n) as [|Ne]; auto. exfalso.
    assert (Hw : In s ws).
    { apply Hin. left. split; auto. intros (f' & H1 & H2 & H3). apply Ne. pose proof (entry_up _ _ H1). congruence. }
    assert (N.testbit (types_of up tab ws) (N.log2 f) = true) by (apply (types_of_bit_entry ws n f Hnf); eauto).
    congruence.
  - intros Hc. apply N.bits_inj. intros i. apply eq_true_iff_eq. rewrite types_of_bit. split.
    + intros (n & f & s & H1 & H2 & H3 & H4). subst i. destruct (N.testbit new (N.log2 f)) eqn:En; auto. exfalso.
      apply Hin in H3 as [[H3 H5]|H3].
      * assert (s = n) by (eapply Hc; eauto; apply (Hbit n f H1); auto). subst s.
        apply H5. exists f. repeat split; auto. apply (types_of_bit_entry vs n f H1). eauto.
      * destruct H3 as (f' & H5 & H6 & H7). pose proof (entry_up _ _ H5) as Hu. rewrite H4 in Hu. subst s.
        assert (f' = f).
        { pose proof (lookup_hit tab n f T1 H1). pose proof (lookup_hit tab n f' T1 H5). congruence. }
        congruence.
    + intros Hi. destruct (Hnew i Hi) as (n & f & H1 & H2). subst i. exists n, f.
      destruct (N.testbit old (N.log2 f)) eqn:Eo.
      * apply (types_of_bit_entry vs n f H1) in Eo as (s & H3 & H4). exists s. repeat split; auto.
        apply Hin. left. split; auto. intros (f' & H5 & H6 & H7). pose proof (entry_up _ _ H5) as Hu. rewrite H4 in Hu. subst s.
        assert (f' = f).
        { pose proof (lookup_hit tab n f T1 H1). pose proof (lookup_hit tab n f' T1 H5). congruence. }
        congruence.
      * exists n. repeat split; auto.
        -- apply Hin. right. exists f. auto.
        -- apply (entry_up _ _ H1).
Qed.

Lemma pm_set_type_values t m :
  find_param kTYPE (pm_set_type up tab t m) = Some (set_types tab (types_of up tab (values_of kTYPE m)) t (values_of kTYPE m)).
Proof.
  unfold pm_set_type, pm_type, values_of. destruct (find_param kTYPE m) as [vs|] eqn:F.
  - rewrite F, find_update, leqb_refl, F. reflexivity.
  - rewrite find_insert, leqb_refl, find_update, leqb_refl, find_insert, leqb_refl by auto. reflexivity.
Qed.
Lemma pm_set_type_other t m p : p <> kTYPE -> find_param p (pm_set_type up tab t m) = find_param p m.
Proof.
  intros H. apply leqb_neq in H. unfold pm_set_type. destruct (find_param kTYPE m) as [vs|] eqn:F.
  - rewrite F, find_update, H. reflexivity.
  - rewrite find_insert, leqb_refl, find_update, H, find_insert, H by auto. reflexivity.
Qed.
Lemma pm_set_type_type t m :
  (forall i, N.testbit t i = true -> exists n f, In (n, f) tab /\ N.log2 f = i) ->
  (pm_type up tab (pm_set_type up tab t m) = t <->
   forall s n f, In s (values_of kTYPE m) -> In (n, f) tab -> up s = n -> N.land t f = 0%N -> s = n).
Proof. intros H. unfold pm_type. rewrite pm_set_type_values. apply set_types_types. auto. Qed.
End Types.

Lemma bits_below t k i : (t < 2 ^ k)%N -> N.testbit t i = true -> (i < k)%N.
Proof.
  intros H Hb. destruct (N.lt_ge_cases i k) as [|Hge]; auto. exfalso.
  destruct (N.eq_dec t 0) as [->|Nz]; [rewrite N.bits_0 in Hb; discriminate|].
  rewrite N.bits_above_log2 in Hb; [discriminate|].
  apply N.lt_le_trans with k; auto. apply N.log2_lt_pow2; lia.
Qed.
Ltac nodup := repeat (constructor; [cbn; intros H; repeat (destruct H as [H|H]; [discriminate|]); exact H|]); constructor.
Lemma email_tab_ok : tab_ok to_upper email_type_names.
Proof. repeat split; cbn; try nodup; repeat constructor. Qed.
Lemma url_tab_ok : tab_ok (fun s => s) url_type_names.
Proof. repeat split; cbn; try nodup; repeat constructor. Qed.
Lemma email_bits t : (t < 8)%N -> forall i, N.testbit t i = true -> exists n f, In (n, f) email_type_names /\ N.log2 f = i.
Proof.
  intros H i Hb. apply (bits_below t 3) in Hb; auto.
  assert (i = 0 \/ i = 1 \/ i = 2)%N as [-> | [-> | ->]] by lia.
  - exists (B "HOME"), 1%N. cbn. auto 10.
  - exists (B "WORK"), 2%N. cbn. auto 10.
  - exists (B "OTHER"), 4%N. cbn. auto 10.
Qed.
Lemma url_bits t : (t < 128)%N -> forall i, N.testbit t i = true -> exists n f, In (n, f) url_type_names /\ N.log2 f = i.
Proof.
  intros H i Hb. apply (bits_below t 7) in Hb; auto. cbn.
  assert (i = 0 \/ i = 1 \/ i = 2 \/ i = 3 \/ i = 4 \/ i = 5 \/ i = 6)%N as [-> | [-> | [-> | [-> | [-> | [-> | ->]]]]]] by lia.
  - exists (B "HOME"), 1%N. cbn. auto 10.
  - exists (B "WORK"), 2%N. cbn. auto 10.
  - exists (B "PROFILE"), 4%N. cbn. auto 10.
  - exists (B "FTP"), 8%N. cbn. auto 10.
  - exists (B "RESERVATION"), 16%N. cbn. auto 10.
  - exists (B "APPINSTALLPAGE"), 32%N. cbn. auto 10.
  - exists (B "OTHER"), 64%N. cbn. auto 10.
Qed.

(** ** Independence of type and preference *)
Lemma set_preferred_values p m : names_distinct m ->
  values_of kTYPE (pm_set_preferred p m) =
  if Bool.eqb p (pm_preferred m) then values_of kTYPE m
  else if p then values_of kTYPE m ++ [vPREF] else remove_all vPREF (values_of kTYPE m).
Proof.
  intros Hn. unfold pm_set_preferred. destruct (Bool.eqb p (pm_preferred m)) eqn:E; auto.
  fold (values_of kTYPE m). destruct p; cbn [negb].
  - unfold values_of at 1. destruct (find_param kTYPE m) eqn:F.
    + rewrite find_update, leqb_refl, F. auto.
    + rewrite find_insert, leqb_refl; auto.
  - assert (Ht : find_param kTYPE (erase_param kPREF m) = find_param kTYPE m) by (rewrite find_erase; auto).
    rewrite Ht. unfold values_of at 1. destruct (find_param kTYPE m) eqn:F.
    + rewrite find_update, leqb_refl, Ht. auto.
    + rewrite find_insert, leqb_refl; auto.
Qed.
Lemma pm_type_values up tab m : pm_type up tab m = types_of up tab (values_of kTYPE m).
Proof. unfold pm_type, values_of. destruct (find_param kTYPE m); auto. Qed.
Lemma set_preferred_type up tab p m : tab_ok up tab -> up vPREF = vPREF -> ~ In vPREF (map fst tab) -> names_distinct m ->
  pm_type up tab (pm_set_preferred p m) = pm_type up tab m.
Proof.
  intros Ht Hu Hp Hn. rewrite !pm_type_values, set_preferred_values by auto.
  destruct (Bool.eqb p (pm_preferred m)); auto.
  assert (Hne : forall n f s, In (n, f) tab -> up s = n -> s <> vPREF).
  { intros n f s H1 H2 ->. apply Hp. rewrite Hu in H2. subst n. apply in_map_iff. exists (vPREF, f). auto. }
  apply N.bits_inj. intros i. apply eq_true_iff_eq. rewrite !(types_of_bit up tab Ht).
  split; intros (n & f & s & H1 & H2 & H3 & H4); exists n, f, s; repeat split; auto; destruct p.
  - apply in_app_iff in H3 as [H3|[H3|[]]]; auto. symmetry in H3. destruct (Hne n f s H1 H4 H3).
  - apply remove_all_In in H3. tauto.
  - apply in_app_iff. auto.
  - apply remove_all_In. split; auto. eauto.
Qed.
Lemma set_type_preferred up tab t m : tab_ok up tab -> (forall n f, In (n, f) tab -> to_lower n <> B "pref") ->
  pm_preferred (pm_set_type up tab t m) = pm_preferred m.
Proof.
  intros Ht Hl. unfold pm_preferred. rewrite pm_set_type_other by discriminate. rewrite pm_set_type_values.
  destruct (find_param kPREF m); auto.
  assert (forall P : bool, contains_ci vPREF (values_of kTYPE m) = P -> match find_param kTYPE m with Some vs => contains_ci vPREF vs | None => false end = P) as X.
  { unfold values_of. intros P. destruct (find_param kTYPE m); auto. }
  symmetry. apply X. clear X. apply eq_true_iff_eq. rewrite !contains_ci_existsb, !existsb_exists.
  set (old := types_of up tab (values_of kTYPE m)).
  change (set_types tab old t (values_of kTYPE m)) with (fold_left (step_type old t) tab (values_of kTYPE m)).
  assert (Hg : forall s, leqb_ci s vPREF = true -> forall f, ~ In (s, f) tab).
  { intros s H f Hi. apply (Hl s f Hi). unfold leqb_ci in H. apply leqb_eq in H. exact H. }
  destruct Ht as (T1 & _ & T3 & _).
  split; intros (s & Hs & Hc); exists s; split; auto.
  - apply (proj2 (set_types_In old t tab T1 T3 (values_of kTYPE m) s)). left. split; auto. intros (f & Hi & _). exact (Hg s Hc f Hi).
  - apply (proj1 (set_types_In old t tab T1 T3 (values_of kTYPE m) s)) in Hs as [[Hs _]|(f & Hi & _)]; auto. destruct (Hg s Hc f Hi).
Qed.

Lemma in_keys_find p m : In p (map fst m) <-> find_param p m <> None.
Proof.
  change (find_param p m) with (afind p m). destruct (in_dec list_eq_dec_N p (map fst m)) as [H|H].
  - split; auto. intros _ E. apply (proj1 (afind_None p m) E). auto.
  - split; [tauto|]. intros E. exfalso. apply E. apply afind_None. auto.
Qed.
Lemma update_keys p vs m : map fst (update_param p vs m) = map fst m.
Proof. rewrite update_param_aupd. apply aupd_keys. Qed.
Lemma insert_distinct p vs m : find_param p m = None -> names_distinct m -> names_distinct (insert_param p vs m).
Proof.
  unfold names_distinct. change (find_param p m) with (afind p m). rewrite insert_param_ains.
  induction m as [|[r ws] m IH]; intros Hf Hn.
  - repeat constructor. intros [].
  - cbn [afind] in Hf. destruct (leqb_spec r p) as [E|E]; [discriminate|].
    cbn [ains]. destruct (lltb r p).
    + cbn [map fst] in *. inversion Hn; subst. constructor; auto. intros H. apply ains_keys_in in H as [H|H]; auto.
    + constructor; auto. intros H. cbn [map fst] in H. destruct H as [H|H]; [auto|].
      apply (proj1 (afind_None p m) Hf H).
Qed.
Lemma erase_distinct p m : names_distinct m -> names_distinct (erase_param p m).
Proof.
  unfold names_distinct. induction m as [|[r ws] m IH]; cbn; intros Hn; auto. inversion Hn; subst.
  destruct (leqb r p); auto. cbn. constructor; auto. intros H. apply H1. clear - H.
  induction m as [|[q vs] m IH]; cbn in *; auto. destruct (leqb q p); cbn in *; auto. destruct H; auto.
Qed.
Lemma set_type_distinct up tab t m : names_distinct m -> names_distinct (pm_set_type up tab t m).
Proof.
  intros Hn. unfold pm_set_type. destruct (find_param kTYPE m) as [vs|] eqn:F.
  - rewrite F. unfold names_distinct. rewrite update_keys. auto.
  - rewrite find_insert, leqb_refl by auto. unfold names_distinct. rewrite update_keys. apply insert_distinct; auto.
Qed.
Lemma set_preferred_distinct p m : names_distinct m -> names_distinct (pm_set_preferred p m).
Proof.
  intros Hn. unfold pm_set_preferred. destruct (Bool.eqb p (pm_preferred m)); auto. destruct p; cbn [negb].
  - destruct (find_param kTYPE m) eqn:F; [unfold names_distinct; rewrite update_keys; auto|apply insert_distinct; auto].
  - destruct (find_param kTYPE (erase_param kPREF m)) eqn:F.
    + unfold names_distinct. rewrite update_keys. apply erase_distinct; auto.
    + apply insert_distinct; auto. apply erase_distinct; auto.
Qed.

(** a map built by [setType] and [setPreferred] alone *)
Definition api_made (m : pmap) : Prop :=
  names_distinct m /\ find_param kPREF m = None /\
  forall s, In s (values_of kTYPE m) -> In s [B "HOME"; B "WORK"; B "OTHER"; B "PREF"].
Lemma api_new : api_made [].
Proof. repeat split; [constructor|intros s []]. Qed.
Lemma api_set_type t m : api_made m -> api_made (pm_set_type to_upper email_type_names t m).
Proof.
  intros (H1 & H2 & H3). split; [apply set_type_distinct; auto|]. split.
  - rewrite pm_set_type_other; [auto|discriminate].
  - intros s. unfold values_of. rewrite pm_set_type_values.
    set (old := types_of _ _ _). change (set_types email_type_names old t (values_of kTYPE m)) with (fold_left (step_type old t) email_type_names (values_of kTYPE m)).
    rewrite set_types_In; [|apply email_tab_ok|apply email_tab_ok].
    intros [[H _]|(f & Hi & _)]; auto. cbn in Hi. cbn.
    destruct Hi as [Hi|[Hi|[Hi|[]]]]; injection Hi as <- <-; auto.
Qed.
Lemma api_set_preferred p m : api_made m -> api_made (pm_set_preferred p m).
Proof.
  intros (H1 & H2 & H3). split; [apply set_preferred_distinct; auto|]. split.
  - unfold pm_set_preferred. destruct (Bool.eqb p (pm_preferred m)); auto. destruct p; cbn [negb].
    + destruct (find_param kTYPE m) eqn:F; [rewrite find_update|rewrite find_insert by auto]; auto.
    + destruct (find_param kTYPE (erase_param kPREF m)) eqn:F; [rewrite find_update|rewrite find_insert by auto];
      change (leqb kPREF kTYPE) with false; cbv iota; rewrite find_erase by auto; rewrite leqb_refl; auto.
  - intros s. rewrite set_preferred_values by auto. destruct (Bool.eqb p (pm_preferred m)); auto. destruct p.
    + rewrite in_app_iff. intros [H|[<-|[]]]; auto. cbn. auto.
    + rewrite remove_all_In. intros [H _]; auto.
Qed.
Lemma api_removable t m : api_made m -> forall s n f, In s (values_of kTYPE m) -> In (n, f) email_type_names -> to_upper s = n -> N.land t f = 0%N -> s = n.
Proof.
  intros (_ & _ & H) s n f Hs _ <- _. apply H in Hs. cbn in Hs.
  destruct Hs as [<-|[<-|[<-|[<-|[]]]]]; reflexivity.
Qed.
Lemma api_pref_capitals m : api_made m -> pref_in_capitals m.
Proof.
  intros (_ & _ & H) s Hs Hl. apply H in Hs. cbn in Hs.
  destruct Hs as [<-|[<-|[<-|[<-|[]]]]]; auto; discriminate.
Qed.
Lemma do_pm_ok m o : api_made m -> (match o with PType t => (t < 8)%N | _ => True end) ->
  api_made (do_pm m o) /\
  pm_type to_upper email_type_names (do_pm m o) = (match o with PType t => t | _ => pm_type to_upper email_type_names m end) /\
  pm_preferred (do_pm m o) = (match o with PPref p => p | _ => pm_preferred m end).
Proof.
  intros Hm Ho. destruct o as [t|p]; cbn [do_pm].
  - split; [apply api_set_type; auto|]. split.
    + apply pm_set_type_type; [apply email_tab_ok|apply email_bits; auto|]. apply api_removable; auto.
    + apply set_type_preferred; [apply email_tab_ok|]. cbn. intros n f [H|[H|[H|[]]]]; injection H as <- <-; discriminate.
  - split; [apply api_set_preferred; auto|]. split.
    + apply set_preferred_type; [apply email_tab_ok|reflexivity| |apply Hm].
      cbn. intros [H|[H|[H|[]]]]; discriminate.
    + apply set_preferred_iff; [apply Hm|]. destruct p; [right; left|right; right]; split; auto; [apply Hm|apply api_pref_capitals; auto].
Qed.
Lemma run_pm_ok ops : forall m, api_made m -> Forall (fun o => match o with PType t => (t < 8)%N | _ => True end) ops ->
  pm_type to_upper email_type_names (fold_left do_pm ops m) = last_type ops (pm_type to_upper email_type_names m) /\
  pm_preferred (fold_left do_pm ops m) = last_pref ops (pm_preferred m).
Proof.
  induction ops as [|o ops IH]; cbn [fold_left last_type last_pref]; intros m Hm Ho; auto.
  inversion Ho; subst. destruct (do_pm_ok m o Hm) as (H3 & H4 & H5); auto.
  destruct (IH (do_pm m o) H3) as (H6 & H7); auto. rewrite H6, H7, H4, H5. destruct o; auto.
Qed.
