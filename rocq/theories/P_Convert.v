(** Proofs for [adaptIMAttributes]. *)
From Coq Require Import Sorted.
From Verif Require Import Base BaseFacts M_Convert S_Convert.

Notation cX := 88%N.
Definition apart (a b : list N) : bool := negb (starts_with a b) && negb (starts_with b a).
Definition headed (a : list N) : bool := match a with c :: r => N.eqb c cX && negb (mem cX r) | [] => false end.
(** names and short forms start with their only X, no name or short form is the
    beginning of another name *)
Fixpoint tidy (tab : list (bytes * bytes)) : bool :=
  match tab with
  | [] => true
  | (p, r) :: tab' => headed p && headed r && forallb (fun e => apart p (fst e) && apart r (fst e) && apart (snd e) p && apart (fst e) p) tab'
                      && apart r p && tidy tab'
  end.
Lemma im_tidy : tidy im_names = true. Proof. vm_compute. reflexivity. Qed.

Lemma starts_with_app p s : starts_with p s = true <-> exists u, s = p ++ u.
Proof.
  revert s. induction p as [|c p IH]; intros s; cbn [starts_with app].
  - split; eauto.
  - destruct s as [|d s]; [split; [discriminate|intros [u H]; discriminate]|]. rewrite andb_true_iff, N.eqb_eq, IH. split.
    + intros [-> [u ->]]. eauto.
    + intros [u H]. injection H as -> ->. eauto.
Qed.
Lemma apart_spec a b u v : apart a b = true -> a ++ u <> b ++ v.
Proof.
  unfold apart. rewrite andb_true_iff, !negb_true_iff. intros [H1 H2] H.
  assert (K : forall x y : list N, (exists w, y = x ++ w) -> starts_with x y = true) by (intros x y; apply starts_with_app).
  revert b H1 H2 H K. induction a as [|c a IH]; intros b H1 H2 H K.
  - rewrite K in H1 by (exists b; reflexivity). discriminate.
  - destruct b as [|d b]; [cbn in H2; discriminate|]. cbn [app] in H. injection H as -> H. cbn [starts_with] in H1, H2. rewrite N.eqb_refl in H1, H2. exact (IH b H1 H2 H K).
Qed.
Lemma headed_spec a : headed a = true -> exists r, a = cX :: r /\ ~ In cX r.
Proof.
  destruct a as [|c r]; [discriminate|]. cbn [headed]. rewrite andb_true_iff, N.eqb_eq, negb_true_iff. intros [-> H]. exists r. split; [reflexivity|]. apply mem_false. exact H.
Qed.

(** ** one replacement *)
Lemma rep_skip k p r s : replace_from k p r s = replace_from 0 p r (skipn k s).
Proof.
  revert s. induction k as [|k IH]; intros s; [reflexivity|]. destruct s as [|c s]; [reflexivity|]. cbn [replace_from skipn]. apply IH.
Qed.
Lemma rep_hit p r u : p <> [] -> replace_bytes p r (p ++ u) = r ++ replace_bytes p r u.
Proof.
  intros Hp. destruct p as [|c p]; [congruence|]. unfold replace_bytes. cbn [app replace_from].
  assert (H : starts_with (c :: p) (c :: p ++ u) = true) by (apply starts_with_app; exists u; reflexivity). rewrite H.
  rewrite rep_skip. do 2 f_equal. cbn [length]. rewrite Nat.sub_0_r || replace (S (length p) - 1) with (length p) by lia.
  rewrite skipn_app, skipn_all, Nat.sub_diag. reflexivity.
Qed.
Lemma rep_miss p r c u : starts_with p (c :: u) = false -> replace_bytes p r (c :: u) = c :: replace_bytes p r u.
Proof. intros H. unfold replace_bytes. cbn [replace_from]. rewrite H. reflexivity. Qed.
Lemma no_start p c u : headed p = true -> c <> cX -> starts_with p (c :: u) = false.
Proof. intros H Hc. apply headed_spec in H as (p0 & -> & _). cbn [starts_with]. destruct (N.eqb_spec cX c); [congruence|reflexivity]. Qed.
Lemma rep_over p r x u : headed p = true -> ~ In cX x -> replace_bytes p r (x ++ u) = x ++ replace_bytes p r u.
Proof.
  intros Hp. induction x as [|c x IH]; intros Hx; [reflexivity|]. cbn [app]. rewrite rep_miss.
  - rewrite IH; [reflexivity|]. intros H. apply Hx. right. exact H.
  - apply no_start; [exact Hp|]. intros ->. apply Hx. left. reflexivity.
Qed.
(** a beginning without X of the result is a beginning of the text *)
Lemma rep_prefix p r x s : headed p = true -> headed r = true -> ~ In cX x -> starts_with x (replace_bytes p r s) = true -> starts_with x s = true.
Proof.
  intros Hp Hr. revert s. induction x as [|c x IH]; intros s Hx H; [reflexivity|].
  destruct s as [|d s]; [exact H|].
  destruct (starts_with p (d :: s)) eqn:E.
  - apply starts_with_app in E as [u E]. rewrite E, rep_hit in H by (intros ->; discriminate).
    apply headed_spec in Hr as (r0 & -> & _). cbn [app starts_with] in H. apply andb_true_iff in H as [H _]. apply N.eqb_eq in H. subst c. exfalso. apply Hx. left. reflexivity.
  - rewrite rep_miss in H by exact E. cbn [starts_with] in *. apply andb_true_iff in H as [H1 H2]. rewrite H1. cbn [andb]. apply IH; [|exact H2].
    intros K. apply Hx. right. exact K.
Qed.

(** ** following [adapted] *)
Definition good (tab : list (bytes * bytes)) : Prop := forall p r, In (p, r) tab -> headed p = true.
Lemma adapted_char tab c s t : (forall p r u, In (p, r) tab -> c :: s <> p ++ u) -> adapted tab (c :: s) t -> exists t', t = c :: t' /\ adapted tab s t'.
Proof.
  intros H A. inversion A as [|p r s' t' Hin A' E|c' s' t' Hc A' E]; subst.
  - exfalso. eapply H; [exact Hin|]. symmetry. eassumption.
  - eauto.
Qed.
Lemma adapted_over tab x s t : good tab -> ~ In cX x -> adapted tab (x ++ s) t -> exists t', t = x ++ t' /\ adapted tab s t'.
Proof.
  intros G. revert t. induction x as [|c x IH]; intros t Hx A; [exists t; auto|]. cbn [app] in A.
  apply adapted_char in A as (t1 & -> & A).
  - destruct (IH t1) as (t' & -> & A'); [intros K; apply Hx; right; exact K|exact A|]. exists t'. auto.
  - intros p r u Hin E. apply G in Hin. apply headed_spec in Hin as (p0 & -> & _). injection E as -> _. apply Hx. left. reflexivity.
Qed.
Lemma adapted_nil tab t : good tab -> adapted tab [] t -> t = [].
Proof.
  intros G A. inversion A as [|p r s' t' Hin A' E|]; subst; [reflexivity|].
  apply app_eq_nil in E as [-> _]. apply G in Hin. discriminate.
Qed.

Definition tab_tidy (p r : bytes) tab :=
  headed p = true /\ headed r = true /\ apart r p = true /\ good tab /\
  (forall q r', In (q, r') tab -> apart p q = true /\ apart r q = true /\ apart r' p = true /\ apart q p = true) /\
  (forall q r1 q' r2 u v, In (q, r1) tab -> In (q', r2) tab -> q ++ u = q' ++ v -> (q, r1) = (q', r2)).
Lemma tidy_parts p r tab : tidy ((p, r) :: tab) = true -> tab_tidy p r tab /\ tidy tab = true.
Proof.
  cbn [tidy]. rewrite !andb_true_iff. intros ((((H1 & H2) & H3) & H4) & H5). split; [|exact H5].
  assert (G : forall tab, tidy tab = true -> good tab).
  { clear. induction tab as [|[p r] tab IH]; intros H q s Hin; [destruct Hin|]. cbn [tidy] in H. rewrite !andb_true_iff in H. destruct H as ((((H1 & _) & _) & _) & H5).
    destruct Hin as [E|Hin]; [injection E as <- <-; exact H1|exact (IH H5 q s Hin)]. }
  assert (U : forall tab, tidy tab = true -> forall q r1 q' r2 u v, In (q, r1) tab -> In (q', r2) tab -> q ++ u = q' ++ v -> (q, r1) = (q', r2)).
  { clear. induction tab as [|[p r] tab IH]; intros H q r1 q' r2 u v I1 I2 E; [destruct I1|]. cbn [tidy] in H. rewrite !andb_true_iff in H. destruct H as ((((_ & _) & H3) & _) & H5).
    rewrite forallb_forall in H3. destruct I1 as [I1|I1], I2 as [I2|I2].
    - congruence.
    - injection I1 as -> ->. apply H3 in I2. rewrite !andb_true_iff in I2. destruct I2 as (((I2 & _) & _) & _). exfalso. exact (apart_spec _ _ u v I2 E).
    - injection I2 as -> ->. apply H3 in I1. rewrite !andb_true_iff in I1. destruct I1 as (_ & I1). exfalso. exact (apart_spec _ _ u v I1 E).
    - exact (IH H5 q r1 q' r2 u v I1 I2 E). }
  rewrite forallb_forall in H3. repeat split; auto; try (intros q r' Hin; apply H3 in Hin; cbn [fst snd] in Hin; rewrite !andb_true_iff in Hin; tauto).
  - apply H3 in H. cbn [fst snd] in H. rewrite !andb_true_iff in H. tauto.
  - apply H3 in H. cbn [fst snd] in H. rewrite !andb_true_iff in H. tauto.
  - apply H3 in H. cbn [fst snd] in H. rewrite !andb_true_iff in H. tauto.
  - apply H3 in H. cbn [fst snd] in H. rewrite !andb_true_iff in H. tauto.
  - exact (U tab H5).
Qed.

Lemma name_or_not (tab : list (bytes * bytes)) s : (exists q r u, In (q, r) tab /\ s = q ++ u) \/ (forall q r u, In (q, r) tab -> s <> q ++ u).
Proof.
  induction tab as [|[p r] tab IH]; [right; intros q r u []|].
  destruct (starts_with p s) eqn:E.
  - left. apply starts_with_app in E as [u ->]. exists p, r, u. split; [left|]; reflexivity.
  - destruct IH as [(q & r' & u & Hin & ->)|IH]; [left; exists q, r', u; split; [right; exact Hin|reflexivity]|].
    right. intros q r' u [H|H] K; [|exact (IH q r' u H K)]. injection H as -> ->. rewrite (proj2 (starts_with_app q s)) in E by eauto. discriminate.
Qed.

Lemma adapt_step p r tab n : tab_tidy p r tab -> forall s t, length s <= n -> adapted tab (replace_bytes p r s) t -> adapted ((p, r) :: tab) s t.
Proof.
  intros (Hp & Hr & Hrp & G & Hap & Hun).
  assert (Hp0 : p <> []) by (intros ->; discriminate).
  induction n as [|n IH]; intros s t Hn A.
  { destruct s; [|cbn in Hn; lia]. apply adapted_nil in A; [|exact G]. subst. constructor. }
  destruct s as [|c s]; [apply adapted_nil in A; [|exact G]; subst; constructor|].
  destruct (starts_with p (c :: s)) eqn:E.
  - apply starts_with_app in E as [u E]. rewrite E, rep_hit in A by exact Hp0. rewrite E.
    destruct (headed_spec r Hr) as (r0 & Er & Hr0).
    assert (K : exists t', t = r ++ t' /\ adapted tab (replace_bytes p r u) t').
    { rewrite Er in A. cbn [app] in A. apply adapted_char in A as (t1 & -> & A).
      - apply adapted_over in A as (t' & -> & A'); auto. exists t'. rewrite Er. auto.
      - intros q r' v Hin K. destruct (Hap q r' Hin) as (_ & K2 & _). apply (apart_spec _ _ (replace_bytes p (cX :: r0) u) v K2). rewrite Er. exact K. }
    destruct K as (t' & -> & A'). apply ad_name; [left; reflexivity|]. apply IH; [|exact A'].
    apply (f_equal (@length N)) in E. rewrite app_length in E. cbn [length] in E, Hn. destruct p; [congruence|]. cbn [length] in E. lia.
  - destruct (name_or_not tab (c :: s)) as [(q & r' & u & Hin & K)|K].
    + destruct (headed_spec q (G q r' Hin)) as (q0 & Eq & Hq0).
      assert (A2 : replace_bytes p r (c :: s) = q ++ replace_bytes p r u).
      { rewrite rep_miss by exact E. rewrite Eq in K |- *. cbn [app] in *. injection K as -> ->. f_equal. apply rep_over; auto. }
      rewrite A2 in A. rewrite K. inversion A as [|q' r2 s' t' Hin' A' E'|c' s' t' Hc A' E']; subst t.
      * symmetry in H. apply app_eq_nil in H as [-> _]. discriminate.
      * pose proof (Hun _ _ _ _ _ _ Hin' Hin E') as Q. injection Q as -> ->. apply app_inv_head in E'. subst s'.
        apply ad_name; [right; exact Hin|]. apply IH; [|exact A'].
        apply (f_equal (@length N)) in K. rewrite app_length, Eq in K. cbn [length] in K, Hn. lia.
      * exfalso. apply (Hc q r' (replace_bytes p r u) Hin). exact E'.
    + rewrite rep_miss in A by exact E. apply adapted_char in A as (t' & -> & A).
      * apply ad_char.
        -- intros q r' u [H|H] Q; [|exact (K q r' u H Q)]. injection H as -> ->. rewrite (proj2 (starts_with_app q (c :: s))) in E by eauto. discriminate.
        -- apply IH; [cbn [length] in Hn; lia|exact A].
      * intros q r' u Hin Q. destruct (headed_spec q (G q r' Hin)) as (q0 & Eq & Hq0). subst q. cbn [app] in Q. injection Q as -> Q.
        assert (Q1 : starts_with q0 (replace_bytes p r s) = true) by (apply starts_with_app; eauto).
        apply rep_prefix in Q1; auto. apply starts_with_app in Q1 as [v ->]. exact (K (cX :: q0) r' v Hin eq_refl).
Qed.
Lemma adapted_none s : adapted [] s s.
Proof. induction s; constructor; auto. Qed.
Lemma adapt_all tab s : tidy tab = true -> adapted tab s (fold_left (fun d e => replace_bytes (fst e) (snd e) d) tab s).
Proof.
  revert s. induction tab as [|[p r] tab IH]; intros s H; [apply adapted_none|].
  cbn [fold_left fst snd]. apply tidy_parts in H as [H1 H2]. eapply adapt_step; [exact H1|apply le_n|]. apply IH. exact H2.
Qed.
Lemma adapted_adapt s : adapted im_names s (adapt_im s).
Proof. apply adapt_all, im_tidy. Qed.
(** two tables' readings of one text agree *)
Lemma tidy_all tab : tidy tab = true -> good tab /\ (forall q r1 q' r2 u v, In (q, r1) tab -> In (q', r2) tab -> q ++ u = q' ++ v -> (q, r1) = (q', r2)).
Proof.
  destruct tab as [|[p r] tab]; [intros _; split; [intros p r []|intros q r1 q' r2 u v []]|].
  intros H. assert (K := H). apply tidy_parts in H as [(Hp & _ & _ & G & A & U) _]. split.
  - intros q s [E|Hin]; [injection E as <- <-; exact Hp|exact (G q s Hin)].
  - intros q r1 q' r2 u v [I1|I1] [I2|I2] E.
    + congruence.
    + injection I1 as -> ->. apply A in I2 as (I2 & _). exfalso. exact (apart_spec _ _ u v I2 E).
    + injection I2 as -> ->. apply A in I1 as (_ & _ & _ & I1). exfalso. exact (apart_spec _ _ u v I1 E).
    + exact (U q r1 q' r2 u v I1 I2 E).
Qed.
Lemma adapted_fun tab s t t' : tidy tab = true -> adapted tab s t -> adapted tab s t' -> t = t'.
Proof.
  intros H A. apply tidy_all in H as [G U]. revert t'. induction A as [|p r s t Hin A IH|c s t Hc A IH]; intros t' A'.
  - symmetry. exact (adapted_nil tab t' G A').
  - inversion A' as [E|q r2 s' t2 Hin' A2 E|c' s' t2 Hc A2 E].
    + symmetry in E. apply app_eq_nil in E as [-> _]. apply G in Hin. discriminate.
    + pose proof (U _ _ _ _ _ _ Hin' Hin E) as Q. injection Q as -> ->. apply app_inv_head in E. subst. rewrite (IH t2 A2). reflexivity.
    + exfalso. exact (Hc p r s Hin E).
  - apply adapted_char in A' as (t2 & -> & A2); [|exact Hc]. rewrite (IH t2 A2). reflexivity.
Qed.
Lemma adapted_iff s t : adapted im_names s t <-> t = adapt_im s.
Proof.
  split; [|intros ->; apply adapted_adapt]. intros A. exact (adapted_fun im_names s t _ im_tidy A (adapted_adapt s)).
Qed.

(** short forms are headed and apart from all names *)
Lemma im_forms p r : In (p, r) im_names -> headed p = true /\ headed r = true /\ forall q r', In (q, r') im_names -> apart r q = true.
Proof.
  assert (H : forallb (fun e => headed (fst e) && headed (snd e) && forallb (fun f => apart (snd e) (fst f)) im_names) im_names = true) by (vm_compute; reflexivity).
  rewrite forallb_forall in H. intros Hin. apply H in Hin. cbn [fst snd] in Hin. rewrite !andb_true_iff in Hin. destruct Hin as ((H1 & H2) & H3).
  split; [exact H1|]. split; [exact H2|]. rewrite forallb_forall in H3. intros q r' K. exact (H3 _ K).
Qed.
Lemma adapted_prefix x s t : adapted im_names s t -> ~ In cX x -> starts_with x t = true -> starts_with x s = true.
Proof.
  intros A. revert x. induction A as [|p r s t Hin A IH|c s t Hc A IH]; intros x Hx H; [exact H| |].
  - destruct (im_forms p r Hin) as (_ & Hr & _). apply headed_spec in Hr as (r0 & -> & _). destruct x as [|c x]; [reflexivity|].
    cbn [app starts_with] in H. apply andb_true_iff in H as [H _]. apply N.eqb_eq in H. subst c. exfalso. apply Hx. left. reflexivity.
  - destruct x as [|d x]; [reflexivity|]. cbn [starts_with] in *. apply andb_true_iff in H as [H1 H2]. rewrite H1. apply IH; [|exact H2]. intros K. apply Hx. right. exact K.
Qed.
Lemma inside_cons p c s : inside p (c :: s) -> (exists v, c :: s = p ++ v) \/ inside p s.
Proof.
  intros ([|d u] & v & E); [left; eauto|]. right. cbn [app] in E. injection E as -> ->. exists u, v. reflexivity.
Qed.
Lemma inside_over q x t : headed q = true -> ~ In cX x -> inside q (x ++ t) -> inside q t.
Proof.
  intros Hq. induction x as [|c x IH]; intros Hx H; [exact H|]. cbn [app] in H. apply inside_cons in H as [[v H]|H].
  - exfalso. apply headed_spec in Hq as (q0 & -> & _). injection H as -> _. apply Hx. left. reflexivity.
  - apply IH; [|exact H]. intros K. apply Hx. right. exact K.
Qed.
Lemma adapted_gone s t q r : adapted im_names s t -> In (q, r) im_names -> ~ inside q t.
Proof.
  intros A Hq. induction A as [|p r' s t Hin A IH|c s t Hc A IH]; intros H.
  - destruct H as (u & v & E). symmetry in E. apply app_eq_nil in E as [-> E]. apply app_eq_nil in E as [-> _]. apply im_forms in Hq as [Hq _]. discriminate.
  - apply IH. destruct (im_forms p r' Hin) as (_ & Hr & Ha). destruct (headed_spec r' Hr) as (r0 & -> & Hr0). cbn [app] in H.
    apply inside_cons in H as [[v H]|H]; [exfalso; exact (apart_spec _ _ t v (Ha q r Hq) H)|].
    apply (inside_over q r0); auto. exact (proj1 (im_forms q r Hq)).
  - apply inside_cons in H as [[v H]|H]; [|exact (IH H)].
    destruct (headed_spec q (proj1 (im_forms q r Hq))) as (q0 & -> & Hq0). cbn [app] in H. injection H as -> ->.
    assert (K : starts_with q0 s = true) by (apply (adapted_prefix q0 s (q0 ++ v) A Hq0), starts_with_app; eauto).
    apply starts_with_app in K as [w ->]. exact (Hc (cX :: q0) r w Hq eq_refl).
Qed.
Lemma adapted_same tab s : (forall q r, In (q, r) tab -> ~ inside q s) -> adapted tab s s.
Proof.
  induction s as [|c s IH]; intros H; [constructor|]. apply ad_char.
  - intros q r u Hin E. apply (H q r Hin). exists [], u. exact E.
  - apply IH. intros q r Hin (u & v & ->). apply (H q r Hin). exists (c :: u), v. reflexivity.
Qed.
(** a character that is in no name ends every name *)
Lemma adapted_app tab s t k s2 t2 : adapted tab s t -> (forall q r, In (q, r) tab -> ~ In k q) -> good tab -> adapted tab s2 t2 -> adapted tab (s ++ k :: s2) (t ++ k :: t2).
Proof.
  intros A Hk G A2. induction A as [|p r s t Hin A IH|c s t Hc A IH].
  - apply ad_char; [|exact A2]. intros q r u Hin E. destruct q as [|d q]; [apply G in Hin; discriminate|]. injection E as -> _. apply (Hk (d :: q) r Hin). left. reflexivity.
  - rewrite <- !app_assoc. apply ad_name; assumption.
  - cbn [app]. apply ad_char; [|exact IH]. intros q r u Hin E.
    assert (K : exists w, c :: s = q ++ w).
    { clear - E Hk Hin. assert (K := Hk q r Hin). clear Hk Hin. revert E. change (c :: s ++ k :: s2) with ((c :: s) ++ k :: s2). generalize (c :: s) as x. intros x. revert x.
      induction q as [|d q IH]; intros x E; [exists x; reflexivity|]. destruct x as [|e x].
      - cbn [app] in E. injection E as -> _. exfalso. apply K. left. reflexivity.
      - cbn [app] in E. injection E as -> E. destruct (IH (fun H => K (or_intror H)) x E) as [w ->]. exists w. reflexivity. }
    destruct K as [w K]. exact (Hc q r w Hin K).
Qed.

(** ** names of services *)
Lemma after_last cur s x : after_last_dot cur s = Some x <->
  (exists u, s = u ++ cDOT :: x /\ ~ In cDOT x) \/ (~ In cDOT s /\ exists c, cur = Some c /\ x = c ++ s).
Proof.
  revert cur. induction s as [|c s IH]; intros cur; cbn [after_last_dot].
  - split.
    + intros ->. right. split; [intros []|]. exists x. rewrite app_nil_r. auto.
    + intros [(u & H & _)|(_ & y & -> & ->)]; [destruct u; discriminate|]. rewrite app_nil_r. reflexivity.
  - destruct (N.eqb_spec c cDOT) as [->|Hc].
    + rewrite IH. split.
      * intros [(u & -> & H)|(H & y & E & ->)]; [left; exists (cDOT :: u); auto|]. injection E as <-. left. exists []. auto.
      * intros [(u & E & H)|(H & _)]; [|exfalso; apply H; left; reflexivity]. destruct u as [|d u].
        -- injection E as ->. right. split; [exact H|]. exists []. auto.
        -- injection E as _ ->. left. exists u. auto.
    + rewrite IH. split.
      * intros [(u & -> & H)|(H & y & E & ->)]; [left; exists (c :: u); auto|]. destruct cur as [z|]; [|discriminate]. injection E as <-.
        right. split; [intros [K|K]; [congruence|exact (H K)]|]. exists z. rewrite <- app_assoc. auto.
      * intros [(u & E & H)|(H & y & -> & ->)].
        -- destruct u as [|d u]; [injection E as -> _; congruence|]. injection E as _ ->. left. exists u. auto.
        -- right. split; [intros K; apply H; right; exact K|]. exists (y ++ [c]). rewrite <- app_assoc. auto.
Qed.
Lemma suffix_desktop f : leqb (suffix f) (B "desktop") = true <-> exists stem, f = stem ++ B ".desktop".
Proof.
  rewrite leqb_eq. unfold suffix. change (B ".desktop") with (cDOT :: B "desktop").
  assert (D : ~ In cDOT (B "desktop")) by (apply mem_false; reflexivity). split.
  - destruct (after_last_dot None f) as [x|] eqn:E; [|discriminate]. intros ->. apply after_last in E as [(u & -> & _)|(_ & c & K & _)]; [eauto|discriminate].
  - intros (u & ->). assert (K : after_last_dot None (u ++ cDOT :: B "desktop") = Some (B "desktop")) by (apply after_last; left; eauto). rewrite K. reflexivity.
Qed.
Lemma base_name_dot t r : ~ In cDOT t -> base_name (t ++ cDOT :: r) = t.
Proof.
  intros H. unfold base_name. rewrite index_of_app_notin by exact H. rewrite firstn_app, firstn_all, Nat.sub_diag. cbn [firstn]. apply app_nil_r.
Qed.
Lemma service_of f t : (leqb (suffix f) (B "desktop") = true /\ base_name f = t) <-> service_file f t.
Proof.
  unfold service_file. rewrite suffix_desktop. change ([cDOT] ++ ?r) with (cDOT :: r). split.
  - intros [[u ->] E]. split; [eauto|]. change (B ".desktop") with (cDOT :: B "desktop") in *.
    assert (K : exists v w, u ++ cDOT :: B "desktop" = v ++ cDOT :: w /\ ~ In cDOT v).
    { clear E. induction u as [|c u (v & w & E & H)]; [exists [], (B "desktop"); auto|].
      destruct (N.eqb_spec c cDOT) as [->|Hc]; [exists [], (u ++ cDOT :: B "desktop"); auto|].
      exists (c :: v), w. cbn [app]. rewrite E. split; [reflexivity|]. intros [K|K]; [congruence|exact (H K)]. }
    destruct K as (v & w & K & Hv). rewrite K in *. rewrite base_name_dot in E by exact Hv. subst v. split; [exact Hv|]. exists w. reflexivity.
  - intros (H & Ht & rest & ->). split; [exact H|]. apply base_name_dot. exact Ht.
Qed.
Lemma insert_in x l y : In y (insert_sorted x l) <-> y = x \/ In y l.
Proof.
  induction l as [|z l IH]; cbn [insert_sorted]; [cbn; intuition congruence|]. destruct (lltb z x); cbn [In]; [rewrite IH|]; intuition congruence.
Qed.
Lemma sort_in l y : In y (sort_strings l) <-> In y l.
Proof. induction l as [|x l IH]; cbn [sort_strings fold_right]; [reflexivity|]. fold (sort_strings l). rewrite insert_in, IH. cbn. intuition congruence. Qed.
Definition ascending (l : list ustring) : Prop := StronglySorted (fun a b => lltb b a = false) l.
Lemma insert_ascending x l : ascending l -> ascending (insert_sorted x l).
Proof.
  induction 1 as [|y l H IH F]; cbn [insert_sorted]; [repeat constructor|]. destruct (lltb y x) eqn:E.
  - constructor; [exact IH|]. rewrite Forall_forall in *. intros z Hz. apply insert_in in Hz as [->|Hz]; [apply lltb_asym; exact E|exact (F z Hz)].
  - constructor; [constructor; assumption|]. constructor; [exact E|]. rewrite Forall_forall in *. intros z Hz. specialize (F z Hz).
    destruct (lltb z x) eqn:K; [|reflexivity]. destruct (lltb y z) eqn:L; [rewrite (lltb_trans y z x L K) in E; discriminate|].
    rewrite (lltb_total y z L F) in E. congruence.
Qed.
Lemma sort_ascending l : ascending (sort_strings l).
Proof. induction l as [|x l IH]; [constructor|]. apply insert_ascending. exact IH. Qed.
Lemma unique_in l y : In y (unique l) <-> In y l.
Proof.
  induction l as [|x l IH]; [reflexivity|]. destruct l as [|z l]; [reflexivity|]. cbn [unique]. change (unique (z :: l)) with (unique (z :: l)) in IH.
  destruct (leqb x z) eqn:E.
  - apply leqb_eq in E. subst z. fold (unique (x :: l)). rewrite IH. cbn [In]. intuition congruence.
  - cbn [In] in *. rewrite IH. reflexivity.
Qed.
Lemma unique_increasing l : ascending l -> StronglySorted (fun a b => lltb a b = true) (unique l).
Proof.
  induction 1 as [|x l H IH F]; [constructor|]. destruct l as [|z l]; [repeat constructor|]. change (unique (x :: z :: l)) with (if leqb x z then unique (z :: l) else x :: unique (z :: l)).
  destruct (leqb x z) eqn:E; [exact IH|]. constructor; [exact IH|]. apply Forall_forall. intros y Hy. rewrite unique_in in Hy.
  inversion H as [|z' l' Hl Fl]; subst. rewrite Forall_forall in F, Fl.
  assert (L : lltb x z = true). { destruct (lltb x z) eqn:K; [reflexivity|]. rewrite (lltb_total x z K (F z (or_introl eq_refl))) in E. assert (Q : leqb z z = true) by (apply leqb_eq; reflexivity). congruence. }
  destruct Hy as [<-|Hy]; [exact L|]. specialize (Fl y Hy). destruct (lltb z y) eqn:K; [exact (lltb_trans x z y L K)|]. rewrite <- (lltb_total z y K Fl). exact L.
Qed.
Lemma increasing_sorted l : StronglySorted (fun a b => lltb a b = true) l -> sorted l.
Proof.
  intros H l1. revert l H. induction l1 as [|a l1 IH]; intros l H x y l2 ->.
  - inversion H as [|? ? _ F]; subst. inversion F; assumption.
  - cbn [app] in H. inversion H; subst. eapply IH; [eassumption|reflexivity].
Qed.
Lemma types_in X t : In t (service_types X) <-> exists files f, In files (ix_dirs X) /\ In f files /\ service_file f t.
Proof.
  unfold service_types. rewrite unique_in, sort_in, in_flat_map. split.
  - intros (files & H1 & H2). apply in_map_iff in H2 as (f & H2 & H3). apply filter_In in H3 as [H3 H4]. exists files, f. split; [exact H1|]. split; [exact H3|]. apply service_of. auto.
  - intros (files & f & H1 & H2 & H3). exists files. split; [exact H1|]. apply in_map_iff. exists f. apply service_of in H3 as [H3 H4]. split; [exact H4|]. apply filter_In. auto.
Qed.
