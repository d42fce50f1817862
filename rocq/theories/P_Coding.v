(** The coding of a value does not matter (C76). *)
From Verif Require Import Base BaseFacts Utf8 Utf8Facts M_ParamMap M_VCard M_VCardText S_Card P_Assoc P_Card S_Escape P_Escape
  S_Parse P_Parse P_Parse2 S_Soft P_Soft P_SoftLoop M_Split P_Split M_Values M_Date M_Addressee M_VCardTool P_ReadBack S_Order P_CardOrder P_Unknown S_Case P_Case
  P_Foreign P_RoundTrip P_RoundTrip2 S_Coding P_Unescape.

(** ** What the parameters do to a line, its coding and its character set *)
Definition core := (vline * bytes * bytes)%type.
Definition core_of (x : pctx) : core := (px_line x, px_enc x, px_charset x).
Definition add1 (k v : bytes) (t : core) : core :=
  let '(l, e, c) := t in
  (vl_add_param k v l, if leqb k (B "encoding") then to_lower v else e,
   if leqb k (B "encoding") then c else if leqb k (B "charset") then to_lower v else c).
Lemma core_add k v x : core_of (px_add_param k v x) = add1 k v (core_of x).
Proof. reflexivity. Qed.
Lemma core_goto s acc x : core_of (px_goto s acc x) = core_of x.
Proof. reflexivity. Qed.
Lemma core_key k x : core_of (px_set_key k x) = core_of x.
Proof. reflexivity. Qed.
Definition bare_key (p : bytes) : bytes :=
  if leqb (to_lower p) (B "quoted-printable") || leqb (to_lower p) (B "base64") then B "encoding" else B "type".
(** the key under which the values of a parameter are stored *)
Definition stored_key (p : bytes) : bytes := match index_of 61%N p with None => bare_key p | Some i => to_lower (firstn i p) end.
Definition items (k w : bytes) : list bytes :=
  match index_of 34%N w with
  | None => split 44%N w
  | Some j => removelast (split 44%N (firstn j w)) ++
      (if leqb k (B "type") then split 44%N (removelast (skipn (S j) w)) else [removelast (skipn (S j) w)])
  end.
Definition values (p : bytes) : list bytes := match index_of 61%N p with None => [p] | Some i => items (stored_key p) (skipn (S i) p) end.
Definition eat (p : bytes) (t : core) : core := fold_left (fun t v => add1 (stored_key p) v t) (values p) t.
Lemma cut_at (c : N) (a r : bytes) : firstn (length a) (a ++ c :: r) = a /\ skipn (S (length a)) (a ++ c :: r) = r.
Proof.
  split; [rewrite firstn_app, firstn_all, Nat.sub_diag, firstn_O, app_nil_r; reflexivity|].
  rewrite skipn_app, skipn_all2 by lia. replace (S (length a) - length a) with 1 by lia. reflexivity.
Qed.
Lemma key_parts k w : ~ In 61%N k -> stored_key (k ++ 61%N :: w) = to_lower k /\ values (k ++ 61%N :: w) = items (to_lower k) w.
Proof.
  intros H. unfold values, stored_key. rewrite index_of_app_notin by auto. destruct (cut_at 61%N k w) as [-> ->]. auto.
Qed.
Lemma split_some c s : split c s <> [].
Proof. destruct s as [|x s]; cbn; [discriminate|]. destruct (x =? c)%N; [discriminate|]. destruct (split c s); discriminate. Qed.
Lemma removelast_commas vs : Forall (fun v => param_text v /\ ~ In 44%N v) vs -> removelast (split 44%N (flat_map (fun v => v ++ [44%N]) vs)) = vs.
Proof.
  induction 1 as [|v vs [_ Hv] _ IH]; [reflexivity|]. cbn [flat_map]. rewrite <- app_assoc. cbn [app]. rewrite split_app by auto.
  cbn [removelast]. rewrite IH. pose proof (split_some 44%N (flat_map (fun v => v ++ [44%N]) vs)) as K. destruct (split 44%N (flat_map (fun v => v ++ [44%N]) vs)); [contradiction|reflexivity].
Qed.
Lemma commas_text vs : Forall (fun v => param_text v /\ ~ In 44%N v) vs -> param_text (flat_map (fun v => v ++ [44%N]) vs).
Proof.
  intros H. rewrite Forall_forall in H. unfold param_text. repeat split; intros K; apply in_flat_map in K as (v & V1 & V2); destruct (H v V1) as [(A1 & A2 & A3) _];
    apply in_app_iff in V2 as [V2|[V2|[]]]; try discriminate; contradiction.
Qed.
Lemma parts_quoted k vs q p : in_quotes k vs q p -> stored_key p = to_lower k /\
  values p = vs ++ (if leqb (to_lower k) (B "type") then split 44%N q else [q]).
Proof.
  intros (-> & H1 & H2 & H3 & H4). destruct (key_parts k (flat_map (fun v => v ++ [44%N]) vs ++ 34%N :: q ++ [34%N]) H2) as [-> ->].
  split; [reflexivity|]. unfold items. destruct (commas_text vs H3) as (_ & _ & N34). rewrite index_of_app_notin by auto.
  destruct (cut_at 34%N (flat_map (fun v => v ++ [44%N]) vs) (q ++ [34%N])) as [-> ->]. rewrite removelast_commas, removelast_last by auto. reflexivity.
Qed.

Definition eaten (d : N) (r s : bytes) (x : pctx) (t : core) : Prop :=
  exists y, core_of y = t /\
    ((d = 59%N -> px_run (s ++ d :: r) x = px_run r y /\ px_state y = PParamKey /\ px_acc y = []) /\
     (d = 58%N -> px_run (s ++ d :: r) x = (y, Some r))).

Lemma eat_values d r : forall w x, param_text w -> px_state x = PParamValue -> ~ In 44%N (px_acc x) -> (d = 58 \/ d = 59)%N ->
  eaten d r w x (fold_left (fun t v => add1 (to_lower (px_key x)) v t) (split 44%N (px_acc x ++ w)) (core_of x)).
Proof.
  induction w as [|c w IH]; intros x Hw Hx Ha Hd.
  - rewrite app_nil_r, split_notin by auto. cbn [fold_left].
    set (y := px_goto PParamValue [] (px_add_param (to_lower (px_key x)) (px_acc x) x)).
    assert (Hst : px_run ([] ++ d :: r) x = if (d =? 59)%N then px_run r (px_goto PParamKey [] y) else (y, Some r)).
    { cbn [app px_run]. unfold px_step. rewrite Hx. fold y. destruct Hd as [->| ->]; reflexivity. }
    unfold eaten. rewrite Hst. destruct Hd as [->| ->].
    + exists y. split; [reflexivity|]. split; [discriminate|reflexivity].
    + exists (px_goto PParamKey [] y). split; [reflexivity|]. split; [auto|discriminate].
  - destruct Hw as (W1 & W2 & W3). cbn [In] in W1, W2, W3.
    assert (Hw' : param_text w) by (unfold param_text; tauto).
    destruct (N.eqb_spec c 44) as [->|N44].
    + assert (Hs : px_step 44 x = (px_goto PParamValue [] (px_add_param (to_lower (px_key x)) (px_acc x) x), true)).
      { unfold px_step. rewrite Hx. reflexivity. }
      destruct (IH (px_goto PParamValue [] (px_add_param (to_lower (px_key x)) (px_acc x) x)) Hw' eq_refl ltac:(auto) Hd) as (y & Y1 & Y2).
      exists y. split.
      * rewrite Y1. rewrite split_app by auto. cbn [fold_left px_goto px_acc px_key px_add_param app]. reflexivity.
      * cbn [app px_run]. rewrite Hs. exact Y2.
    + assert (Hs : px_step c x = (px_goto PParamValue (px_acc x ++ [c]) x, true)).
      { unfold px_step, px_after. rewrite Hx.
        rewrite (proj2 (N.eqb_neq c cSEMI)) by (intros ->; tauto).
        rewrite (proj2 (N.eqb_neq c cCOLON)) by (intros ->; tauto).
        rewrite (proj2 (N.eqb_neq c cCOMMA)) by auto.
        rewrite (proj2 (N.eqb_neq c cDQ)) by (intros ->; tauto). rewrite andb_false_r. reflexivity. }
      destruct (IH (px_goto PParamValue (px_acc x ++ [c]) x) Hw' eq_refl) as (y & Y1 & Y2); [|exact Hd|].
      * cbn [px_goto px_acc]. intros H. apply in_app_iff in H as [H|[H|[]]]; [auto|congruence].
      * exists y. split; [rewrite Y1; cbn [px_goto px_acc px_key]; rewrite <- app_assoc; reflexivity|]. cbn [app px_run]. rewrite Hs. exact Y2.
Qed.

Lemma eat_key d r : forall p x, param_text p -> px_state x = PParamKey -> param_text (px_acc x) -> ~ In 61%N (px_acc x) -> (d = 58 \/ d = 59)%N ->
  eaten d r p x (eat (px_acc x ++ p) (core_of x)).
Proof.
  induction p as [|c p IH]; intros x Hp Hx Hq Ha Hd.
  - rewrite app_nil_r. unfold eat, values, stored_key. rewrite (proj2 (index_of_None 61%N (px_acc x))) by auto. cbn [fold_left].
    set (y := px_goto PParamKey [] (px_add_param (bare_key (px_acc x)) (px_acc x) (px_set_key (bare_key (px_acc x)) x))).
    assert (Hst : px_run ([] ++ d :: r) x = if (d =? 59)%N then px_run r y else (y, Some r)).
    { cbn [app px_run]. unfold px_step. rewrite Hx. fold (bare_key (px_acc x)). fold y. destruct Hd as [->| ->]; reflexivity. }
    unfold eaten. rewrite Hst. exists y. split; [reflexivity|]. destruct Hd as [->| ->]; (split; [auto|auto]); discriminate.
  - destruct Hp as (W1 & W2 & W3). cbn [In] in W1, W2, W3.
    assert (Hp' : param_text p) by (unfold param_text; tauto).
    destruct (N.eqb_spec c 61) as [->|N61].
    + unfold eat. destruct (key_parts (px_acc x) p Ha) as [-> ->]. unfold items. rewrite (proj2 (index_of_None 34%N p)) by tauto.
      destruct (eat_values d r p (px_goto PParamValue [] (px_set_key (px_acc x) x)) Hp' eq_refl ltac:(auto) Hd) as (y & Y1 & Y2).
      exists y. split; [exact Y1|]. cbn [app px_run]. unfold px_step. rewrite Hx. exact Y2.
    + assert (Hs : px_step c x = (px_goto PParamKey (px_acc x ++ [c]) x, true)).
      { unfold px_step. rewrite Hx.
        rewrite (proj2 (N.eqb_neq c cSEMI)) by (intros ->; tauto).
        rewrite (proj2 (N.eqb_neq c cCOLON)) by (intros ->; tauto).
        rewrite (proj2 (N.eqb_neq c cEQ)) by auto. reflexivity. }
      destruct (IH (px_goto PParamKey (px_acc x ++ [c]) x) Hp' eq_refl) as (y & Y1 & Y2); [| |exact Hd|].
      * cbn [px_goto px_acc]. destruct Hq as (Q1 & Q2 & Q3). unfold param_text. rewrite !in_app_iff. cbn [In]. intuition congruence.
      * cbn [px_goto px_acc]. intros H. apply in_app_iff in H as [H|[H|[]]]; [auto|congruence].
      * exists y. split; [rewrite Y1; cbn [px_goto px_acc]; rewrite <- app_assoc; reflexivity|]. cbn [app px_run]. rewrite Hs. exact Y2.
Qed.

(** a parameter with a value in quotes *)
Lemma run_to_value r : forall k x, param_text k -> ~ In 61%N k -> px_state x = PParamKey ->
  px_run (k ++ 61%N :: r) x = px_run r (px_goto PParamValue [] (px_set_key (px_acc x ++ k) x)).
Proof.
  induction k as [|c k IH]; intros x Hk He Hx.
  - rewrite app_nil_r. cbn [app px_run]. unfold px_step. rewrite Hx. reflexivity.
  - destruct Hk as (W1 & W2 & W3). cbn [In] in W1, W2, W3, He.
    assert (Hs : px_step c x = (px_goto PParamKey (px_acc x ++ [c]) x, true)).
    { unfold px_step. rewrite Hx.
      rewrite (proj2 (N.eqb_neq c cSEMI)) by (intros ->; tauto).
      rewrite (proj2 (N.eqb_neq c cCOLON)) by (intros ->; tauto).
      rewrite (proj2 (N.eqb_neq c cEQ)) by (intros ->; tauto). reflexivity. }
    cbn [app px_run]. rewrite Hs. rewrite IH; [|unfold param_text; tauto|tauto|reflexivity]. cbn [px_goto px_acc]. rewrite <- app_assoc. reflexivity.
Qed.
Lemma run_item r : forall v x, param_text v -> ~ In 44%N v -> px_state x = PParamValue ->
  px_run (v ++ 44%N :: r) x = px_run r (px_goto PParamValue [] (px_add_param (to_lower (px_key x)) (px_acc x ++ v) x)).
Proof.
  induction v as [|c v IH]; intros x Hv Hc Hx.
  - rewrite app_nil_r. cbn [app px_run]. unfold px_step. rewrite Hx. reflexivity.
  - destruct Hv as (W1 & W2 & W3). cbn [In] in W1, W2, W3, Hc.
    assert (Hs : px_step c x = (px_goto PParamValue (px_acc x ++ [c]) x, true)).
    { unfold px_step, px_after. rewrite Hx.
      rewrite (proj2 (N.eqb_neq c cSEMI)) by (intros ->; tauto).
      rewrite (proj2 (N.eqb_neq c cCOLON)) by (intros ->; tauto).
      rewrite (proj2 (N.eqb_neq c cCOMMA)) by (intros ->; tauto).
      rewrite (proj2 (N.eqb_neq c cDQ)) by (intros ->; tauto). rewrite andb_false_r. reflexivity. }
    cbn [app px_run]. rewrite Hs. rewrite IH; [|unfold param_text; tauto|tauto|reflexivity]. cbn [px_goto px_acc px_key]. rewrite <- app_assoc. reflexivity.
Qed.
Lemma run_items r : forall vs x, Forall (fun v => param_text v /\ ~ In 44%N v) vs -> px_state x = PParamValue -> px_acc x = [] ->
  exists y, px_run (flat_map (fun v => v ++ [44%N]) vs ++ r) x = px_run r y /\ px_state y = PParamValue /\ px_acc y = [] /\ px_key y = px_key x /\
    core_of y = fold_left (fun t v => add1 (to_lower (px_key x)) v t) vs (core_of x).
Proof.
  induction vs as [|v vs IH]; intros x Hv Hx Ha; cbn [flat_map app fold_left].
  - exists x. auto.
  - apply Forall_cons_iff in Hv as [[V1 V2] Hv]. rewrite <- !app_assoc. cbn [app]. rewrite run_item by auto.
    destruct (IH (px_goto PParamValue [] (px_add_param (to_lower (px_key x)) (px_acc x ++ v) x)) Hv eq_refl eq_refl) as (y & Y1 & Y2 & Y3 & Y4 & Y5).
    exists y. split; [exact Y1|]. split; [exact Y2|]. split; [exact Y3|]. split; [exact Y4|]. rewrite Y5, Ha. reflexivity.
Qed.
Lemma run_quoted r : forall q x, ~ In 34%N q -> px_state x = PQuotedValue -> (leqb (to_lower (px_key x)) (B "type") = true -> ~ In 44%N (px_acc x)) ->
  exists y, px_run (q ++ 34%N :: r) x = px_run r y /\ px_state y = PAfterParamValue /\ px_acc y = [] /\
    core_of y = fold_left (fun t v => add1 (to_lower (px_key x)) v t)
      (if leqb (to_lower (px_key x)) (B "type") then split 44%N (px_acc x ++ q) else [px_acc x ++ q]) (core_of x).
Proof.
  induction q as [|c q IH]; intros x Hq Hx Ha.
  - rewrite app_nil_r. exists (px_goto PAfterParamValue [] (px_add_param (to_lower (px_key x)) (px_acc x) x)).
    split; [cbn [app px_run]; unfold px_step; rewrite Hx; reflexivity|]. split; [reflexivity|]. split; [reflexivity|].
    destruct (leqb (to_lower (px_key x)) (B "type")); [rewrite split_notin by auto|]; reflexivity.
  - cbn [In] in Hq. destruct ((c =? 44)%N && leqb (to_lower (px_key x)) (B "type")) eqn:C.
    + apply andb_true_iff in C as [C T]. apply N.eqb_eq in C. subst c.
      destruct (IH (px_goto PQuotedValue [] (px_add_param (to_lower (px_key x)) (px_acc x) x))) as (y & Y1 & Y2 & Y3 & Y4); [tauto|reflexivity|auto|].
      exists y. split; [cbn [app px_run]; unfold px_step; rewrite Hx; change (44 =? cDQ)%N with false; change (44 =? cCOMMA)%N with true; rewrite T; exact Y1|].
      split; [exact Y2|]. split; [exact Y3|]. rewrite Y4. cbn [px_goto px_key px_acc px_add_param]. rewrite T, split_app by auto. reflexivity.
    + assert (Hs : px_step c x = (px_goto PQuotedValue (px_acc x ++ [c]) x, true)).
      { unfold px_step. rewrite Hx, (proj2 (N.eqb_neq c cDQ)) by (intros ->; tauto). change cCOMMA with 44%N. rewrite C. reflexivity. }
      destruct (IH (px_goto PQuotedValue (px_acc x ++ [c]) x)) as (y & Y1 & Y2 & Y3 & Y4); [tauto|reflexivity| |].
      * cbn [px_goto px_key px_acc]. intros T K. rewrite T, andb_true_r in C. apply N.eqb_neq in C. apply in_app_iff in K as [K|[K|[]]]; [exact (Ha T K)|congruence].
      * exists y. split; [cbn [app px_run]; rewrite Hs; exact Y1|]. split; [exact Y2|]. split; [exact Y3|]. rewrite Y4. cbn [px_goto px_key px_acc].
        rewrite <- app_assoc. reflexivity.
Qed.
Lemma eat_quoted d r k vs q p x : in_quotes k vs q p -> px_state x = PParamKey -> px_acc x = [] -> (d = 58 \/ d = 59)%N ->
  eaten d r p x (eat p (core_of x)).
Proof.
  intros Hp Hx Ha Hd. unfold eat. destruct (parts_quoted k vs q p Hp) as [-> ->]. destruct Hp as (-> & H1 & H2 & H3 & H4).
  destruct (run_items (34%N :: q ++ [34%N] ++ d :: r) vs (px_goto PParamValue [] (px_set_key k x)) H3 eq_refl eq_refl) as (y & Y1 & Y2 & Y3 & Y4 & Y5).
  destruct (run_quoted (d :: r) q (px_goto PQuotedValue [] y)) as (z & Z1 & Z2 & Z3 & Z4); [exact H4|reflexivity|auto|].
  assert (R : px_run ((k ++ 61%N :: flat_map (fun v => v ++ [44%N]) vs ++ 34%N :: q ++ [34%N]) ++ d :: r) x = px_run (d :: r) z).
  { rewrite <- !app_assoc. cbn [app]. rewrite run_to_value by auto. rewrite Ha. cbn [app]. rewrite <- !app_assoc. cbn [app] in *. rewrite <- !app_assoc. cbn [app].
    rewrite Y1. cbn [px_run]. unfold px_step at 1, px_after. rewrite Y2, Y3. cbn. exact Z1. }
  cbn [px_goto px_key px_acc px_set_key app] in *. rewrite Y4 in Z4. change (core_of (px_goto PQuotedValue [] y)) with (core_of y) in Z4. rewrite Y5 in Z4.
  rewrite fold_left_app. unfold eaten. rewrite R.
  exists (if (d =? 59)%N then px_goto PParamKey [] z else z).
  split; [destruct (d =? 59)%N; exact Z4|]. cbn [px_run]. unfold px_step, px_after. rewrite Z2. split; intros ->; cbn; auto.
Qed.
Lemma eat_form d r p x : param_form p -> px_state x = PParamKey -> px_acc x = [] -> (d = 58 \/ d = 59)%N -> eaten d r p x (eat p (core_of x)).
Proof.
  intros [H|(k & vs & q & H)] Hx Ha Hd; [|exact (eat_quoted d r k vs q p x H Hx Ha Hd)].
  replace p with (px_acc x ++ p) at 2 by (rewrite Ha; reflexivity). apply eat_key; auto; rewrite Ha; [repeat split|]; auto.
Qed.

Lemma eat_params w : forall ps p x, Forall param_form (p :: ps) -> px_state x = PParamKey -> px_acc x = [] ->
  exists y, core_of y = fold_left (fun t p => eat p t) (p :: ps) (core_of x) /\
    px_run (p ++ flat_map (fun p => 59%N :: p) ps ++ 58%N :: w) x = (y, Some w).
Proof.
  induction ps as [|q ps IH]; intros p x Hf Hx Ha; cbn [flat_map app].
  - destruct (eat_form 58 w p x (Forall_inv Hf) Hx Ha ltac:(auto)) as (y & Y1 & _ & Y2).
    exists y. split; [exact Y1|]. apply Y2. reflexivity.
  - destruct (eat_form 59 (q ++ flat_map (fun p => 59%N :: p) ps ++ 58%N :: w) p x (Forall_inv Hf) Hx Ha ltac:(auto)) as (y & Y1 & Y2 & _).
    destruct (Y2 eq_refl) as (R & S1 & S2).
    destruct (IH q y (Forall_inv_tail Hf) S1 S2) as (z & Z1 & Z2). exists z. split.
    + rewrite Z1, Y1. reflexivity.
    + rewrite <- app_assoc. rewrite R. exact Z2.
Qed.

Definition start (n : bytes) : core := (vl_set_id n vline_empty, [], []).
Lemma run_property n ps w : name_chars n -> Forall param_form ps ->
  exists y, core_of y = fold_left (fun t p => eat p t) ps (start n) /\
    px_run (n ++ flat_map (fun p => 59%N :: p) ps ++ 58%N :: w) px_init = (y, Some w).
Proof.
  intros Hn Hp. rewrite run_ident by auto. change (px_acc px_init ++ n) with n.
  destruct ps as [|p ps]; cbn [flat_map app px_run].
  - unfold px_step. cbn. eexists. split; [|reflexivity]. reflexivity.
  - unfold px_step. cbn [px_goto px_state]. change (59 =? cSEMI)%N with true. cbn iota.
    destruct (eat_params w ps p (px_goto PParamKey [] (px_set_line (vl_set_id (from_latin1 n) (px_line (px_goto PInitial n px_init))) (px_goto PInitial n px_init))) Hp eq_refl eq_refl)
      as (y & Y1 & Y2). exists y. split; [exact Y1|]. rewrite <- app_assoc. exact Y2.
Qed.

(** ** Lines that differ in coding and character set *)
Definition free_key (k : bytes) : Prop := k <> B "encoding" /\ k <> B "charset".
Definition alike (l l' : vline) : Prop :=
  vl_id l = vl_id l' /\ vl_group l = vl_group l' /\ forall k, free_key k -> find_param k (vl_params l) = find_param k (vl_params l').
Lemma find_pm_add p v m q : find_param q (pm_add p v m) =
  if leqb q p then Some (match find_param p m with Some vs => if contains v vs then vs else vs ++ [v] | None => [v] end) else find_param q m.
Proof.
  unfold pm_add. destruct (find_param p m) as [vs|] eqn:F.
  - destruct (contains v vs).
    + destruct (leqb q p) eqn:Q; [|reflexivity]. apply leqb_eq in Q. subst. exact F.
    + rewrite update_param_aupd, !find_param_afind, aupd_find. rewrite find_param_afind in F. rewrite F. destruct (leqb q p); reflexivity.
  - rewrite insert_param_ains, find_param_afind, ains_find by (rewrite <- find_param_afind; exact F). destruct (leqb q p); reflexivity.
Qed.
Definition line_of (t : core) : vline := fst (fst t).
Definition enc_of (t : core) : bytes := snd (fst t).
Definition set_of (t : core) : bytes := snd t.
Lemma alike_add k v t t' : free_key k -> alike (line_of t) (line_of t') -> alike (line_of (add1 k v t)) (line_of (add1 k v t')).
Proof.
  intros Hk (H1 & H2 & H3). destruct t as [[l e] c], t' as [[l' e'] c']. unfold line_of in *. cbn [add1 fst] in *.
  split; [exact H1|]. split; [exact H2|]. intros q Hq. cbn [vl_add_param vl_set_params vl_params]. rewrite !find_pm_add, (H3 k Hk), (H3 q Hq). reflexivity.
Qed.
Lemma alike_coding k v t : ~ free_key k -> alike (line_of (add1 k v t)) (line_of t).
Proof.
  intros Hk. destruct t as [[l e] c]. unfold line_of. cbn [add1 fst]. split; [reflexivity|]. split; [reflexivity|].
  intros q Hq. cbn [vl_add_param vl_set_params vl_params]. rewrite find_pm_add.
  destruct (leqb q k) eqn:Q; [|reflexivity]. apply leqb_eq in Q. subst. contradiction.
Qed.
Lemma alike_refl l : alike l l.
Proof. repeat split; auto. Qed.
Lemma alike_sym l l' : alike l l' -> alike l' l.
Proof. intros (H1 & H2 & H3). split; [auto|]. split; [auto|]. intros k Hk. symmetry. auto. Qed.
Lemma alike_trans a b c : alike a b -> alike b c -> alike a c.
Proof. intros (H1 & H2 & H3) (K1 & K2 & K3). split; [congruence|]. split; [congruence|]. intros k Hk. rewrite H3, K3; auto. Qed.

Lemma key_cases p i : index_of 61%N p = Some i ->
  to_lower p = to_lower (firstn i p) ++ 61%N :: to_lower (skipn (S i) p) /\ ~ In 61%N (to_lower (firstn i p)).
Proof.
  intros H. apply index_of_Some in H as (a & t & -> & Ha & <-).
  rewrite firstn_app, firstn_all, Nat.sub_diag, firstn_O, app_nil_r.
  replace (skipn (S (length a)) (a ++ 61%N :: t)) with t
    by (rewrite skipn_app, skipn_all2 by lia; replace (S (length a) - length a) with 1 by lia; reflexivity).
  rewrite lower_eq61. split; [reflexivity|]. intros H. apply Ha. apply lower_in in H; [exact H|lia|lia].
Qed.

Lemma starts_with_app p s : starts_with p s = true <-> exists r, s = p ++ r.
Proof. apply starts_with_spec. Qed.
Lemma eat_fold p t : eat p t = fold_left (fun t v => add1 (stored_key p) v t) (values p) t.
Proof. reflexivity. Qed.

Lemma free_of p : about_coding p = false -> free_key (stored_key p).
Proof.
  unfold about_coding. intros H. apply orb_false_iff in H as [H H4]. apply orb_false_iff in H as [H H3]. apply orb_false_iff in H as [H1 H2].
  unfold stored_key. destruct (index_of 61%N p) as [i|] eqn:I.
  - apply key_cases in I as [I _]. split; intros K; rewrite K in I; rewrite I in H1, H2; cbn in H1, H2; discriminate.
  - unfold bare_key. rewrite H3, H4. split; discriminate.
Qed.
Lemma not_free_of p : about_coding p = true -> ~ free_key (stored_key p).
Proof.
  unfold about_coding, stored_key. intros H [F1 F2].
  assert (Hkey : forall k, ~ In 61%N k -> starts_with (k ++ [61%N]) (to_lower p) = true -> exists i, index_of 61%N p = Some i /\ to_lower (firstn i p) = k).
  { intros k Hk Hs. apply starts_with_spec in Hs as [r Hr]. rewrite <- app_assoc in Hr. cbn [app] in Hr. destruct (index_of 61%N p) as [i|] eqn:I.
    - exists i. split; [reflexivity|]. apply key_cases in I as [I1 I2]. rewrite I1 in Hr. destruct (split_at_eq _ _ _ _ I2 Hk Hr). auto.
    - exfalso. apply (proj1 (index_of_None 61%N p) I). apply (lower_in 61%N p); [lia| |lia]. rewrite Hr. apply in_app_iff. right. left. reflexivity. }
  apply orb_true_iff in H as [H|H]; [apply orb_true_iff in H as [H|H]; [apply orb_true_iff in H as [H|H]|]|].
  - destruct (Hkey (B "encoding")) as (i & I & K); [intros K; cbv in K; intuition discriminate|exact H|]. rewrite I in F1. auto.
  - destruct (Hkey (B "charset")) as (i & I & K); [intros K; cbv in K; intuition discriminate|exact H|]. rewrite I in F2. auto.
  - assert (I : index_of 61%N p = None).
    { apply index_of_None. intros K. apply leqb_eq in H. apply (in_lower 61%N p eq_refl) in K. rewrite H in K. cbv in K. intuition discriminate. }
    rewrite I in F1. unfold bare_key in F1. rewrite H in F1. auto.
  - assert (I : index_of 61%N p = None).
    { apply index_of_None. intros K. apply leqb_eq in H. apply (in_lower 61%N p eq_refl) in K. rewrite H in K. cbv in K. intuition discriminate. }
    rewrite I in F1. unfold bare_key in F1. rewrite H, orb_true_r in F1. auto.
Qed.

Lemma eat_alike p t t' : about_coding p = false -> alike (line_of t) (line_of t') -> alike (line_of (eat p t)) (line_of (eat p t')).
Proof.
  intros H. rewrite !eat_fold. apply free_of in H. generalize (values p) as vs. intros vs. revert t t'.
  induction vs as [|v vs IH]; intros t t' K; [exact K|]. cbn [fold_left]. apply IH. apply alike_add; auto.
Qed.
Lemma eat_coding p t : about_coding p = true -> alike (line_of (eat p t)) (line_of t).
Proof.
  intros H. rewrite eat_fold. apply not_free_of in H. generalize (values p) as vs. intros vs. revert t.
  induction vs as [|v vs IH]; intros t; [apply alike_refl|]. cbn [fold_left]. eapply alike_trans; [apply IH|]. apply alike_coding; auto.
Qed.
Definition eat_all (ps : list bytes) (t : core) : core := fold_left (fun t p => eat p t) ps t.
Lemma eat_others ps : forall t t', alike (line_of t) (line_of t') -> alike (line_of (eat_all ps t)) (line_of (eat_all (others ps) t')).
Proof.
  induction ps as [|p ps IH]; intros t t' K; [exact K|]. unfold eat_all in *. cbn [fold_left others filter].
  destruct (about_coding p) eqn:Hp; cbn [negb].
  - apply IH. eapply alike_trans; [apply eat_coding; auto|exact K].
  - cbn [fold_left]. apply IH. apply eat_alike; auto.
Qed.

(** ** The coding and the character set *)
Definition fits (c : coding) (e : bytes) : Prop :=
  match c with
  | Plain => e = []
  | Eight => e = B "8bit"
  | Base64 => e = B "b" \/ e = B "base64"
  | Quoted => e = B "quoted-printable"
  end.
Lemma add_enc k v t : enc_of (add1 k v t) = (if leqb k (B "encoding") then to_lower v else enc_of t) /\
  set_of (add1 k v t) = (if leqb k (B "encoding") then set_of t else if leqb k (B "charset") then to_lower v else set_of t).
Proof. destruct t as [[l e] c]. auto. Qed.
Lemma eat_neutral p t : about_coding p = false -> enc_of (eat p t) = enc_of t /\ set_of (eat p t) = set_of t.
Proof.
  intros H. rewrite eat_fold. apply free_of in H. destruct H as [H1 H2]. generalize (values p) as vs. intros vs. revert t.
  induction vs as [|v vs IH]; intros t; [auto|]. cbn [fold_left]. destruct (IH (add1 (stored_key p) v t)) as [A1 A2]. rewrite A1, A2.
  destruct (add_enc (stored_key p) v t) as [-> ->]. rewrite !(proj2 (leqb_neq _ _)) by auto. auto.
Qed.
Lemma key_value k p v : to_lower p = k ++ 61%N :: v -> ~ In 61%N k -> ~ In 44%N v -> ~ In 34%N v ->
  stored_key p = k /\ exists w, values p = [w] /\ to_lower w = v.
Proof.
  intros H Hk Hv Hq. assert (I : In 61%N p) by (apply (lower_in 61%N p); [lia| |lia]; rewrite H; apply in_app_iff; right; left; reflexivity).
  unfold stored_key, values. destruct (index_of 61%N p) as [i|] eqn:E; [|apply index_of_None in E; contradiction].
  apply key_cases in E as [E1 E2]. rewrite E1 in H. destruct (split_at_eq _ _ _ _ E2 Hk H) as [K1 K2]. split; [exact K1|].
  exists (skipn (S i) p). split; [|exact K2]. unfold items. rewrite (proj2 (index_of_None 34%N (skipn (S i) p))) by (intros K; apply Hq; rewrite <- K2; apply in_lower; auto).
  apply split_notin. intros K. apply Hv. rewrite <- K2. apply in_lower; auto.
Qed.
Lemma no_eq p v : to_lower p = v -> ~ In 61%N v -> index_of 61%N p = None.
Proof. intros H Hv. apply index_of_None. intros K. apply Hv. rewrite <- H. apply in_lower; auto. Qed.
Lemma eat_coded c p t : coding_param c p -> fits c (enc_of (eat p t)) /\ set_of (eat p t) = set_of t.
Proof.
  assert (HK : forall v, to_lower p = B "encoding" ++ 61%N :: v -> ~ In 44%N v -> ~ In 34%N v -> enc_of (eat p t) = v /\ set_of (eat p t) = set_of t).
  { intros v H Hv Hq. destruct (key_value (B "encoding") p v H) as (K1 & w & K2 & K3); auto.
    - intros K; cbv in K; intuition discriminate.
    - rewrite eat_fold, K1, K2. cbn [fold_left]. destruct (add_enc (B "encoding") w t) as [-> ->]. rewrite leqb_refl. auto. }
  assert (HB : forall v, to_lower p = v -> ~ In 61%N v -> leqb v (B "quoted-printable") || leqb v (B "base64") = true ->
    enc_of (eat p t) = v /\ set_of (eat p t) = set_of t).
  { intros v H Hv Hb. unfold eat, values, stored_key. rewrite (no_eq p v) by auto. cbn [fold_left]. unfold bare_key. rewrite H, Hb.
    destruct (add_enc (B "encoding") p t) as [-> ->]. rewrite leqb_refl, H. auto. }
  destruct c; cbn [coding_param fits]; intros H.
  - contradiction.
  - apply HK; [exact H| |]; intros K; cbv in K; intuition discriminate.
  - destruct H as [H|[H|H]].
    + destruct (HK (B "b")) as [-> ->]; auto; intros K; cbv in K; intuition discriminate.
    + destruct (HK (B "base64")) as [-> ->]; auto; intros K; cbv in K; intuition discriminate.
    + destruct (HB (B "base64")) as [-> ->]; auto; intros K; cbv in K; intuition discriminate.
  - destruct H as [H|H].
    + destruct (HK (B "quoted-printable")) as [-> ->]; auto; intros K; cbv in K; intuition discriminate.
    + destruct (HB (B "quoted-printable")) as [-> ->]; auto; intros K; cbv in K; intuition discriminate.
Qed.
Lemma eat_charset n p t : charset_param n p -> enc_of (eat p t) = enc_of t /\ set_of (eat p t) = n.
Proof.
  intros (H & _ & Hn & Hq). destruct (key_value (B "charset") p n H) as (K1 & w & K2 & K3); auto.
  - intros K; cbv in K; intuition discriminate.
  - rewrite eat_fold, K1, K2. cbn [fold_left]. destruct (add_enc (B "charset") w t) as [-> ->]. auto.
Qed.
Definition sets (k : option bytes) (s : bytes) : Prop := match k with None => s = [] | Some n => s = n end.
Lemma eat_announced c k ps : forall t,
  Forall (fun p => about_coding p = false \/ coding_param c p \/ exists n, k = Some n /\ charset_param n p) ps ->
  (fits c (enc_of t) \/ Exists (coding_param c) ps) -> (sets k (set_of t) \/ exists n, k = Some n /\ Exists (charset_param n) ps) ->
  fits c (enc_of (eat_all ps t)) /\ sets k (set_of (eat_all ps t)).
Proof.
  induction ps as [|p ps IH]; intros t Hf H1 H2.
  - split; [destruct H1 as [H1|H1]; [exact H1|inversion H1]|]. destruct H2 as [H2|(n & _ & H2)]; [exact H2|inversion H2].
  - unfold eat_all. cbn [fold_left]. apply IH; [apply Forall_inv_tail in Hf; exact Hf| |]; apply Forall_inv in Hf.
    + destruct Hf as [Hf|[Hf|(n & -> & Hf)]].
      * destruct (eat_neutral p t Hf) as [-> _]. destruct H1 as [H1|H1]; [auto|]. inversion H1 as [? ? K|]; subst; [|auto].
        exfalso. clear - Hf K. unfold about_coding in Hf. apply orb_false_iff in Hf as [Hf H4]. apply orb_false_iff in Hf as [Hf H3]. apply orb_false_iff in Hf as [H5 H6].
        destruct c; cbn in K; [contradiction|rewrite K in H5; discriminate| |]; repeat (destruct K as [K|K]); rewrite K in *; discriminate.
      * left. apply eat_coded. exact Hf.
      * destruct (eat_charset n p t Hf) as [-> _]. destruct H1 as [H1|H1]; [auto|]. inversion H1 as [? ? K|]; subst; [|auto].
        exfalso. clear - Hf K. destruct Hf as (Hf & _). destruct c; cbn in K; [contradiction|rewrite K in Hf; discriminate| |]; repeat (destruct K as [K|K]); rewrite K in Hf; discriminate.
    + destruct Hf as [Hf|[Hf|(n & -> & Hf)]].
      * destruct (eat_neutral p t Hf) as [_ ->]. destruct H2 as [H2|(n & -> & H2)]; [auto|]. inversion H2 as [? ? K|]; subst; [|eauto].
        exfalso. clear - Hf K. unfold about_coding in Hf. apply orb_false_iff in Hf as [Hf H4]. apply orb_false_iff in Hf as [Hf H3]. apply orb_false_iff in Hf as [H5 H6].
        destruct K as (K & _). rewrite K in H6. cbn in H6. discriminate.
      * destruct (eat_coded c p t Hf) as [_ ->]. destruct H2 as [H2|(n & -> & H2)]; [auto|]. inversion H2 as [? ? K|]; subst; [|eauto].
        exfalso. clear - Hf K. destruct K as (K & _). destruct c; cbn in Hf; [contradiction|rewrite Hf in K; discriminate| |]; repeat (destruct Hf as [Hf|Hf]); rewrite Hf in K; discriminate.
      * left. cbn [sets]. apply eat_charset. exact Hf.
Qed.

(** ** The value *)
Lemma escaped_tok v : escaped v = add_escapes false v.
Proof.
  rewrite add_escapes_tok. unfold escaped. apply flat_map_ext. intros c. unfold tok.
  destruct (N.eqb_spec c 92) as [->|]; [reflexivity|]. destruct (N.eqb_spec c 44) as [->|]; [reflexivity|].
  destruct (N.eqb_spec c 13) as [->|]; [reflexivity|]. destruct (N.eqb_spec c 10) as [->|]; reflexivity.
Qed.
Lemma plainly w v : unescapes w v -> remove_escapes w = v.
Proof. exact (unescapes_read w v). Qed.
Definition lcode (E : Ext) (n : bytes) (ps : list bytes) (s : ustring) (l : vline) : Prop :=
  alike l (line_of (eat_all (others ps) (start n))) /\ lvalue l = s.
Lemma alike_value v l : alike (vl_set_value v l) l.
Proof. destruct l. repeat split. Qed.
Lemma finish_value E x w c k v : fits c (px_enc x) -> sets k (px_charset x) -> (k <> Some []) -> stands_for E c w v ->
  lvalue (finish_pure E x (Some w)) = in_charset E k v.
Proof.
  intros Hc Hk Hk0 Hs. unfold finish_pure.
  assert (Hd : exists b, (if isnil (px_enc x) then (remove_escapes w, false)
        else if leqb (px_enc x) (B "b") || leqb (px_enc x) (B "base64") then (from_base64 (remove_escapes w), true)
        else if leqb (px_enc x) (B "quoted-printable") then (qp_decode E (remove_escapes w), false)
        else if leqb (px_enc x) (B "8bit") then (remove_escapes w, false)
        else ([], false)) = (v, b)).
  { destruct c; cbn [fits stands_for] in *.
    - rewrite Hc. rewrite (plainly w v Hs). eexists. reflexivity.
    - rewrite Hc. rewrite (plainly w v Hs). eexists. reflexivity.
    - destruct Hs as [Hv ->]. rewrite plain_escapes by (apply b64_no_bs; auto). rewrite base64_roundtrip by auto.
      destruct Hc as [->| ->]; eexists; reflexivity.
    - destruct Hs as [Hw Hv]. rewrite plain_escapes by auto. rewrite Hc, Hv. eexists; reflexivity. }
  destruct Hd as [b ->]. cbn [fst snd]. unfold lvalue. destruct x as [st acc ky [g i pm vv] en ch]. cbn [px_line px_enc px_charset vl_set_value vl_value] in *.
  destruct k as [n|]; cbn [sets in_charset] in *.
  - subst ch. destruct n as [|z n]; [exfalso; apply Hk0; reflexivity|]. cbn [isnil negb]. destruct (charset_decode E (z :: n)); reflexivity.
  - subst ch. cbn [isnil negb]. destruct b; reflexivity.
Qed.
Lemma says_parts E n ps s b : name_chars n -> says E n ps s b ->
  lcode E n ps s (parse_pure E (content b)) /\ soft_of (content b) = None.
Proof.
  intros Hn (_ & _ & _ & _ & c & k & w & v & Hc & (A1 & A2 & A3 & A4) & Hs & -> & Hq). rewrite Hc.
  destruct (run_property n ps w Hn A1) as (y & Y1 & Y2). fold (eat_all ps (start n)) in Y1.
  assert (Hf : fits c (px_enc y) /\ sets k (px_charset y)).
  { change (px_enc y) with (enc_of (core_of y)). change (px_charset y) with (set_of (core_of y)). rewrite Y1. apply eat_announced; [exact A2| |].
    - destruct c; [left; reflexivity|right; apply A3; discriminate..].
    - destruct k as [m|]; [right; exists m; auto|left; reflexivity]. }
  destruct Hf as [F1 F2].
  assert (Hk : k <> Some []) by (intros ->; specialize (A4 [] eq_refl); apply Exists_exists in A4 as (p & _ & _ & K & _); congruence).
  split; [split|].
  - unfold parse_pure. rewrite Y2. unfold finish_pure. eapply alike_trans; [apply alike_value|].
    change (px_line y) with (line_of (core_of y)). rewrite Y1. apply eat_others, alike_refl.
  - unfold parse_pure. rewrite Y2. apply (finish_value E y w c k v); auto.
  - unfold soft_of. rewrite Y2. destruct (leqb (px_enc y) (B "quoted-printable")) eqn:Eq; [|reflexivity]. cbn [andb].
    apply leqb_eq in Eq. destruct (ends_with [cEQ] (remove_escapes w)) eqn:Ew; [|reflexivity]. exfalso.
    assert (c = Quoted) as -> by (rewrite Eq in F1; destruct c; cbn [fits] in F1; try discriminate; [destruct F1; discriminate|reflexivity]).
    destruct Hs as [Hs _]. rewrite plain_escapes in Ew by auto. apply (Hq eq_refl). apply ends_with_1 in Ew. exact Ew.
Qed.

(** ** Reading lines that are alike *)
Lemma alike_parameters k l l' : alike l l' -> free_key k -> vl_parameters k l = vl_parameters k l'.
Proof. intros (_ & _ & H) Hk. unfold vl_parameters. rewrite (H k Hk). reflexivity. Qed.
Lemma alike_parameter k l l' : alike l l' -> free_key k -> vl_parameter k l = vl_parameter k l'.
Proof. intros H Hk. unfold vl_parameter. rewrite (alike_parameters k l l') by auto. reflexivity. Qed.
Lemma free_type : free_key (B "type"). Proof. split; discriminate. Qed.
Lemma free_label : free_key (B "label"). Proof. split; discriminate. Qed.
Lemma free_geo : free_key (B "geo"). Proof. split; discriminate. Qed.
Lemma free_sort_as : free_key (B "sort-as"). Proof. split; discriminate. Qed.
Definition text_kind (k : lkind) : Prop :=
  match k with
  | LAdr | LAnniversary | LBday | LDeathdate | LCategories | LClass | LGender | LKind | LFn | LGeo | LLabel | LMailer | LN
  | LName | LNote | LProdid | LRev | LSortstring | LTz | LUid | LSource | LMember | LOther => True
  | _ => False
  end.
Lemma read_line_alike T id l l' a : alike l l' -> lvalue l = lvalue l' -> text_kind (line_kind l) -> read_line T id l a = read_line T id l' a.
Proof.
  intros H Hv Hk. assert (Kl : line_kind l' = line_kind l) by (destruct H as (H1 & H2 & _); unfold line_kind; rewrite H1, H2; reflexivity).
  assert (Pt : line_types l = line_types l') by (apply alike_parameters; [exact H|apply free_type]).
  unfold read_line. rewrite Kl, Hv. destruct (line_kind l); cbn in Hk; try contradiction; try reflexivity.
  - f_equal. unfold parse_address, address_type_of. rewrite Hv, Pt, (alike_parameter _ l l' H free_label), (alike_parameter _ l l' H free_geo). reflexivity.
  - unfold parse_secrecy. rewrite Hv. reflexivity.
  - unfold read_geo. rewrite Hv. reflexivity.
  - unfold read_label, address_type_of. rewrite Hv, Pt. reflexivity.
  - unfold read_sort_as. rewrite (alike_parameter _ l l' H free_sort_as). reflexivity.
Qed.
Lemma read_custom_alike T l l' a r : alike l l' -> lvalue l = lvalue l' -> to_lower (vl_id l) = B "x-kaddressbook-" ++ r ->
  read_custom T l a = read_custom T l' a.
Proof.
  intros (H1 & _) Hv Hr. unfold read_custom. rewrite <- H1, <- Hv.
  destruct (starts_with (B "messaging/") (skipn 2 (spelled import_names (to_lower (vl_id l)) (vl_id l)))) eqn:Es; [|reflexivity].
  exfalso. assert (Hk : exists q, to_lower (skipn 2 (spelled import_names (to_lower (vl_id l)) (vl_id l))) = B "kaddressbook-" ++ q).
  { assert (Hd : to_lower (skipn 2 (vl_id l)) = B "kaddressbook-" ++ r) by (unfold to_lower in *; rewrite <- skipn_map, Hr; reflexivity).
    assert (Ht : Forall (fun p => (exists q, to_lower (skipn 2 (snd p)) = B "kaddressbook-" ++ q) \/ starts_with (B "x-kaddressbook-") (fst p) = false) import_names).
    { repeat (apply Forall_cons; [first [right; reflexivity|left; eexists; reflexivity]|]). constructor. }
    revert Ht. generalize import_names as tab. induction tab as [|[x y] tab IH]; intros Ht; cbn [spelled]; [eauto|].
    pose proof (Forall_inv Ht) as K. apply Forall_inv_tail in Ht. destruct (leqb_spec (to_lower (vl_id l)) x) as [Ex|_]; [|auto].
    destruct K as [K|K]; [exact K|]. cbn [fst] in K. exfalso. rewrite <- Ex, Hr in K.
    rewrite (proj2 (starts_with_spec _ _)) in K; [discriminate|eauto]. }
  destruct Hk as [q Hk]. apply starts_with_spec in Es as [z Hz]. rewrite Hz in Hk. discriminate.
Qed.
Lemma text_name_kind n l : vl_id l = n -> vl_group l = [] -> text_name n ->
  text_kind (line_kind l) \/ line_kind l = LX /\ exists r, to_lower n = B "x-kaddressbook-" ++ r.
Proof.
  intros Hi Hg (_ & Hn). unfold line_kind. rewrite Hi, Hg. cbn [isnil negb andb]. destruct Hn as [Hn|(r & Hn)].
  - left. remember (to_lower n) as m. clear - Hn. cbv in Hn. repeat (destruct Hn as [<-|Hn]; [exact I|]). destruct Hn.
  - right. rewrite Hn. split; [|eauto]. reflexivity.
Qed.

(** ** Cards of properties without soft line breaks *)
Definition safe (b : block) : Prop :=
  (exists c r, fst b = c :: r /\ is_space c = false) /\ Forall plain_bytes (block_lines b) /\
  ~ begin_line (fst b) /\ ~ end_line (fst b) /\ soft_of (content b) = None.
Lemma ok_safe b : block_ok b -> safe b.
Proof. intros (H1 & H2 & H3 & H4 & H5). repeat (split; [assumption|]). apply soft_none. exact H5. Qed.
Lemma says_safe E n ps s b : name_chars n -> says E n ps s b -> safe b.
Proof. intros Hn H. pose proof (says_parts E n ps s b Hn H) as [_ K]. destruct H as (H1 & H2 & H3 & H4 & _). unfold safe. auto 10. Qed.

Lemma safe_run E b m : safe b -> m_in m = true -> soft_of (m_line m) = None ->
  fold_left (sstep E) (block_lines b) (Normal m) = Normal (mkLM (content b) (flush_card E m) (m_cards m) true).
Proof.
  intros ((c & r & Hc & Sc) & _ & Hb & He & _) Hin Hm. unfold block_lines. cbn [fold_left].
  assert (H1 : sstep E (Normal m) (fst b) = Normal (mkLM (fst b) (flush_card E m) (m_cards m) true)).
  { cbn [sstep]. destruct (starts_dark (fst b) c r Hc Sc) as [-> ->]. rewrite Hin. unfold flush_card.
    destruct (not_tag (fst b) Hb He) as [B1 B2].
    destruct (isnil (m_line m)); cbn [negb andb].
    - unfold lm_dispatch. rewrite B1, B2, Hin. reflexivity.
    - rewrite Hm. unfold lm_dispatch. rewrite B1, B2. cbn. rewrite Hin. reflexivity. }
  rewrite H1, folds_run. reflexivity.
Qed.
Lemma safes_run E : forall bs m, Forall safe bs -> m_in m = true -> soft_of (m_line m) = None ->
  exists m', fold_left (sstep E) (flat_map block_lines bs) (Normal m) = Normal m' /\ m_in m' = true /\ soft_of (m_line m') = None /\
    m_cards m' = m_cards m /\
    flush_card E m' = fold_left (fun c l => add_line l c) (map (fun b => parse_pure E (content b)) bs) (flush_card E m).
Proof.
  induction bs as [|b bs IH]; intros m Hf Hin Hm.
  - exists m. cbn. auto.
  - cbn [flat_map]. rewrite fold_left_app. pose proof (Forall_inv Hf) as Hb. apply Forall_inv_tail in Hf.
    rewrite safe_run by auto.
    destruct (IH (mkLM (content b) (flush_card E m) (m_cards m) true) Hf eq_refl) as (m' & A1 & A2 & A3 & A4 & A5); [apply Hb|].
    exists m'. split; [exact A1|]. split; [exact A2|]. split; [exact A3|]. split; [exact A4|].
    rewrite A5. unfold flush_card at 1. cbn [m_line m_card].
    assert (Hi : isnil (content b) = false) by (destruct Hb as ((c & r & Hc & _) & _); unfold content; rewrite Hc; reflexivity).
    rewrite Hi. reflexivity.
Qed.
Lemma safe_card_run E b bs e m : begin_line b -> end_line e -> Forall safe bs -> ~ ends_eq (m_line m) ->
  fold_left (sstep E) (b :: flat_map block_lines bs ++ [e]) (Normal m) =
  Normal (mkLM [] [] (m_cards m ++ [card_of (map (fun b => parse_pure E (content b)) bs)]) false).
Proof.
  intros Hb He Hf Hm. cbn [fold_left].
  assert (H1 : sstep E (Normal m) b = Normal (mkLM [] [] (m_cards m) true)).
  { cbn [sstep]. destruct (begin_dark b Hb) as [-> ->]. rewrite soft_none by auto. unfold lm_dispatch.
    rewrite (proj2 (is_begin_spec b) Hb). destruct (m_in m && negb (isnil (m_line m))); reflexivity. }
  rewrite H1, fold_left_app.
  destruct (safes_run E bs (mkLM [] [] (m_cards m) true) Hf eq_refl eq_refl) as (m' & A1 & A2 & A3 & A4 & A5).
  rewrite A1. cbn [fold_left]. cbn [m_cards] in A4. change (flush_card E (mkLM [] [] (m_cards m) true)) with (@nil (ustring * list vline)) in A5.
  cbn [sstep]. destruct (end_dark e He) as (-> & -> & Eb & Ee). rewrite A2. rewrite A3. unfold lm_dispatch. rewrite Eb, Ee.
  unfold flush_card in A5. rewrite <- A4. unfold card_of. rewrite <- A5.
  destruct (isnil (m_line m')); cbn [negb andb with_card_line m_cards m_card]; reflexivity.
Qed.

Lemma srun_done E : forall ls m, ls <> [] -> Forall no_soft ls -> no_soft (m_line m) -> exists cards, srun E (Normal m) ls = Some cards.
Proof.
  induction ls as [|p ls IH]; intros m Hne Hf Hm; [congruence|]. pose proof (Forall_inv Hf) as Hp. apply Forall_inv_tail in Hf.
  destruct (srun_before E [p] m) as (m' & H1 & H2); [apply Forall_cons; [exact Hp|constructor]|exact Hm|]. cbn [fold_left] in H1.
  destruct ls as [|q ls].
  - cbn [srun]. rewrite H1. eauto.
  - rewrite srun_cons by discriminate. rewrite H1. apply IH; [discriminate|exact Hf|exact H2].
Qed.

Lemma safe_cut E nl before b e after : newline nl -> Forall plain_bytes (before ++ b :: e :: after) -> Forall no_soft (before ++ after) ->
  begin_line b -> end_line e ->
  exists p r, forall bs, Forall safe bs ->
    parses_to E (card_in nl before b bs e after) (p ++ card_of (map (fun b => parse_pure E (content b)) bs) :: r).
Proof.
  intros Hn Hp Hs Hb He. apply Forall_app in Hs as [S1 S2].
  destruct (srun_before E before lm_init S1 not_ends_nil) as (m & Hm & Hml).
  destruct (srun_done E (after ++ [[]]) lm_init) as [r Hr]; [destruct after; discriminate| |apply not_ends_nil|].
  { apply Forall_app. split; [exact S2|]. apply Forall_cons; [apply not_ends_nil|constructor]. }
  exists (m_cards m), r. intros bs Hf.
  apply srun_to; [apply text_of_lf; auto; destruct before; discriminate|]. unfold card_in.
  apply Forall_app in Hp as [P1 P2].
  assert (Hbp : Forall plain_bytes (flat_map block_lines bs)).
  { clear - Hf. induction Hf as [|x bs (_ & H & _) _ IH]; [constructor|]. cbn [flat_map]. apply Forall_app. auto. }
  assert (Hpl : Forall plain_bytes (before ++ b :: flat_map block_lines bs ++ e :: after)).
  { apply Forall_app. split; [exact P1|]. constructor; [apply Forall_inv in P2; exact P2|].
    apply Forall_app. split; [exact Hbp|]. apply Forall_inv_tail in P2. exact P2. }
  rewrite physical_text_of; [|auto|eapply Forall_impl; [|exact Hpl]; intros l [H _]; exact H].
  rewrite plain_clean by auto. rewrite <- app_assoc. cbn [app].
  rewrite srun_app by discriminate. rewrite Hm.
  replace (b :: (flat_map block_lines bs ++ e :: after) ++ [[]]) with ((b :: flat_map block_lines bs ++ [e]) ++ after ++ [[]])
    by (cbn [app]; rewrite <- !app_assoc; reflexivity).
  rewrite srun_app by (destruct after; discriminate). rewrite safe_card_run by auto.
  replace (Normal (mkLM [] [] (m_cards m ++ [card_of (map (fun b0 => parse_pure E (content b0)) bs)]) false))
    with (prem (m_cards m ++ [card_of (map (fun b0 => parse_pure E (content b0)) bs)]) (Normal lm_init))
    by (unfold prem, pre; cbn [m_cards lm_init m_line m_card m_in]; rewrite app_nil_r; reflexivity).
  rewrite srun_pre, Hr. cbn [option_map]. rewrite <- app_assoc. reflexivity.
Qed.

(** ** Cards with the same properties in other codings *)
Definition same_line (l l' : vline) : Prop := vl_id l = vl_id l' /\ forall T id a, read_line T id l a = read_line T id l' a.
Lemma property_line E b b' : same_property E b b' -> safe b /\ safe b' /\ same_line (parse_pure E (content b)) (parse_pure E (content b')).
Proof.
  intros [(-> & H)|(n & ps & ps' & s & Hn & Ho & H & H')].
  - pose proof (ok_safe _ H). split; [assumption|]. split; [assumption|]. split; reflexivity.
  - assert (Nc : name_chars n) by exact (proj1 Hn).
    split; [apply (says_safe E n ps s); auto|]. split; [apply (says_safe E n ps' s); auto|].
    destruct (says_parts E n ps s b Nc H) as [[A1 V1] _]. destruct (says_parts E n ps' s b' Nc H') as [[A2 V2] _].
    rewrite <- Ho in A2. set (l := parse_pure E (content b)) in *. set (l' := parse_pure E (content b')) in *.
    assert (A : alike l l') by (eapply alike_trans; [exact A1|apply alike_sym; exact A2]).
    split; [apply A|]. intros T id a.
    assert (Hid : vl_id l = n /\ vl_group l = []).
    { assert (Hst : forall qs t, vl_id (line_of (eat_all qs t)) = vl_id (line_of t) /\ vl_group (line_of (eat_all qs t)) = vl_group (line_of t)).
      { clear. induction qs as [|q qs IH]; intros t; [auto|]. unfold eat_all in *. cbn [fold_left]. destruct (IH (eat q t)) as [-> ->]. rewrite eat_fold.
        generalize (values q) as vs. intros vs. revert t. induction vs as [|v vs IHv]; intros t; [auto|]. cbn [fold_left]. destruct (IHv (add1 (stored_key q) v t)) as [-> ->].
        destruct t as [[[] ?] ?]. auto. }
      destruct A1 as (I1 & I2 & _). destruct (Hst (others ps) (start n)) as [E1 E2]. rewrite I1, I2, E1, E2. auto. }
    destruct Hid as [Hi Hg]. destruct (text_name_kind n l Hi Hg Hn) as [K|[K [r Hr]]].
    + apply read_line_alike; auto. congruence.
    + unfold read_line. assert (K' : line_kind l' = LX) by (rewrite <- K; destruct A as (B1 & B2 & _); unfold line_kind; rewrite B1, B2; reflexivity).
      rewrite K, K'. f_equal. apply (read_custom_alike T l l' a r); auto; [congruence|]. rewrite Hi. exact Hr.
Qed.
Lemma read_lines_same T card : forall ls ls' k a, Forall2 same_line ls ls' -> read_lines T card k ls a = read_lines T card k ls' a.
Proof.
  intros ls ls' k a H. revert k a. induction H as [|l l' ls ls' (_ & H) _ IH]; intros k a; [reflexivity|]. cbn [read_lines]. rewrite H.
  destruct (read_line T (t_newid T card k) l' a); [apply IH|reflexivity].
Qed.
Lemma isort_same (ls ls' : list vline) : Forall2 same_line ls ls' -> Forall2 same_line (isort vl_id ls) (isort vl_id ls').
Proof.
  intros H.
  assert (Z : exists z, map fst z = ls /\ map snd z = ls' /\ Forall (fun p => same_line (fst p) (snd p)) z).
  { induction H as [|l l' ls ls' H1 H2 IH]; [exists []; cbn; auto|]. destruct IH as (z & I1 & I2 & I3). exists ((l, l') :: z). cbn [map fst snd]. rewrite I1, I2.
    split; [reflexivity|]. split; [reflexivity|]. apply Forall_cons; auto. }
  destruct Z as (z & <- & <- & Z). rewrite !isort_map.
  rewrite (isort_ext (fun p => vl_id (snd p)) (fun p => vl_id (fst p)) (fun p => same_line (fst p) (snd p))); [|intros x y [Hx _] [Hy _]; rewrite Hx, Hy; reflexivity|exact Z].
  assert (Zi : Forall (fun p => same_line (fst p) (snd p)) (isort (fun p => vl_id (fst p)) z)).
  { apply Forall_forall. intros p Hp. apply isort_in in Hp. rewrite Forall_forall in Z. auto. }
  induction Zi; constructor; auto.
Qed.
Lemma read_card_same T E n bs bs' : Forall2 (same_property E) bs bs' ->
  read_card T n (card_of (map (fun b => parse_pure E (content b)) bs)) = read_card T n (card_of (map (fun b => parse_pure E (content b)) bs')).
Proof.
  intros H. unfold read_card.
  set (c1 := card_of (map (fun b => parse_pure E (content b)) bs)). set (c2 := card_of (map (fun b => parse_pure E (content b)) bs')).
  fold (in_order c1). fold (in_order c2). unfold c1, c2. rewrite !in_order_isort. apply read_lines_same. apply isort_same.
  induction H as [|b b' bs bs' Hb _ IH]; [constructor|]. cbn [map]. constructor; [apply (property_line E b b' Hb)|exact IH].
Qed.

Lemma coding_text T E nl before b bs bs' e after :
  newline nl -> Forall plain_bytes (before ++ b :: e :: after) -> Forall no_soft (before ++ after) -> begin_line b -> end_line e ->
  Forall2 (same_property E) bs bs' ->
  exists result n, result <> Running /\ forall fuel, n <= fuel ->
    parse_text T E fuel (card_in nl before b bs e after) = result /\
    parse_text T E fuel (card_in nl before b bs' e after) = result.
Proof.
  intros Hn Hp Hs Hb He H. destruct (safe_cut E nl before b e after Hn Hp Hs Hb He) as (p & r & Hc).
  assert (F : Forall safe bs /\ Forall safe bs').
  { clear - H. induction H as [|x y bs bs' Hx _ [I1 I2]]; [split; constructor|]. destruct (property_line E x y Hx) as (S1 & S2 & _). split; apply Forall_cons; auto. }
  destruct F as [F1 F2]. destruct (Hc _ F1) as [n1 P1]. destruct (Hc _ F2) as [n2 P2].
  set (c1 := card_of (map (fun b => parse_pure E (content b)) bs)) in *.
  set (c2 := card_of (map (fun b => parse_pure E (content b)) bs')) in *.
  exists (match read_cards T 0 (p ++ c1 :: r) with None => Undefined | Some l => Done l end), (n1 + n2).
  split; [destruct (read_cards T 0 (p ++ c1 :: r)); discriminate|]. intros fuel Hf. unfold parse_text. rewrite P1, P2 by lia.
  split; [reflexivity|]. rewrite (read_cards_swap T c1 c2); [reflexivity|]. intros n. apply read_card_same; auto.
Qed.

Lemma values_text E nl before b bs e after : newline nl -> Forall plain_bytes (before ++ b :: e :: after) -> Forall no_soft (before ++ after) ->
  begin_line b -> end_line e ->
  Forall (fun c => block_ok c \/ exists n ps s, name_chars n /\ says E n ps s c) bs ->
  exists p c r, parses_to E (card_in nl before b bs e after) (p ++ c :: r) /\
    forall d n ps s, In d bs -> name_chars n -> says E n ps s d -> exists l, In l (card_lines n c) /\ vl_id l = n /\ lvalue l = s.
Proof.
  intros Hn Hp Hs Hb He Hf. destruct (safe_cut E nl before b e after Hn Hp Hs Hb He) as (p & r & Hc).
  exists p, (card_of (map (fun b => parse_pure E (content b)) bs)), r. split.
  - apply Hc. eapply Forall_impl; [|exact Hf]. intros c [K|(n & ps & s & K1 & K2)]; [apply ok_safe; exact K|apply (says_safe E n ps s); auto].
  - intros d n ps s Hd Hname Hsays. destruct (says_parts E n ps s d Hname Hsays) as [[A V] _].
    exists (parse_pure E (content d)).
    assert (Hid : vl_id (parse_pure E (content d)) = n).
    { destruct Hsays as (_ & _ & _ & _ & c & k & w & v & Hcont & _). rewrite parse_pure_id, Hcont. rewrite run_ident by auto. cbn [px_init px_acc app].
      set (z := px_goto PInitial n px_init). destruct ps as [|q ps]; cbn [flat_map app px_run].
      - reflexivity.
      - unfold px_step. change (px_state z) with PInitial. change (59 =? cSEMI)%N with true. cbn iota. rewrite px_run_id by discriminate. reflexivity. }
    split; [|auto]. rewrite card_lines_spec. apply filter_In. split; [apply in_map_iff; exists d; auto|]. rewrite Hid. apply leqb_refl.
Qed.
