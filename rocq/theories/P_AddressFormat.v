(** Proofs about address formats. *)
From Verif Require Import Base BaseFacts M_Values M_AddressFormat S_AddressFormat.
Open Scope N_scope.

(** ** Letters *)

Lemma parse_field_letter : forall c, is_letter c = true -> parse_field c <> 0 /\ letter (parse_field c) = c.
Proof.
  intros c H. unfold is_letter in H. apply existsb_exists in H. destruct H as [x [Hx E]].
  apply N.eqb_eq in E. subst x.
  cbn in Hx. repeat (destruct Hx as [Hx|Hx]; [subst c; vm_compute; split; [discriminate|reflexivity]|]).
  destruct Hx.
Qed.

Lemma lower_bound_in : forall t c x f, lower_bound c t = Some (x, f) -> In (x, f) t.
Proof.
  induction t as [|[y g] t IH]; intros c x f H; cbn in H; [discriminate|].
  destruct (y <? c); [right; eauto|]. inversion H; subst. left; auto.
Qed.

Lemma parse_field_known : forall c, parse_field c <> 0 -> is_letter c = true /\ In (parse_field c) (map snd field_map).
Proof.
  intros c. unfold parse_field.
  destruct (lower_bound (c mod 256) field_map) as [[x f]|] eqn:E; [|intros H; exfalso; apply H; reflexivity].
  destruct (N.eqb_spec x (c mod 256)) as [E1|N1]; cbn [negb orb];
    [|intros H; exfalso; apply H; reflexivity].
  destruct (N.eqb_spec (c / 256) 0) as [E2|N2]; cbn [negb orb];
    [|intros H; exfalso; apply H; reflexivity].
  intros _.
  assert (Hc : x = c) by (rewrite E1; apply N.mod_small; apply N.div_small_iff; auto; discriminate).
  apply lower_bound_in in E. rewrite Hc in E. split.
  - apply existsb_exists. exists c. split; [|apply N.eqb_refl].
    change (In c known_letters). apply (in_map fst) in E. exact E.
  - apply (in_map snd) in E. exact E.
Qed.

Lemma parse_field_unknown : forall c, is_letter c = false -> parse_field c = 0.
Proof.
  intros c H. destruct (N.eq_dec (parse_field c) 0) as [E|E]; auto.
  apply parse_field_known in E. destruct E as [E _]. rewrite E in H. discriminate.
Qed.

(** ** Parsing *)

Lemma flush_app : forall lit es, flush lit es = es ++ flush lit [].
Proof. intros lit es. unfold flush. destruct (isnil lit); [rewrite app_nil_r|]; auto. Qed.

(** two-step induction on strings *)
Lemma pair_ind : forall (P : ustring -> Prop),
  P [] -> (forall c, P [c]) -> (forall c d s, P s -> P (d :: s) -> P (c :: d :: s)) -> forall s, P s.
Proof.
  intros P H0 H1 H2 s.
  assert (H : P s /\ forall c, P (c :: s)); [|tauto].
  induction s as [|d s [IH1 IH2]]; split; auto.
Qed.

Lemma pef_app : forall s lit es, parse_elements_from s lit es = es ++ parse_elements_from s lit [].
Proof.
  intros s. induction s as [|c|c d s IH1 IH2] using pair_ind; intros lit es.
  - apply flush_app.
  - cbn. apply flush_app.
  - cbn [parse_elements_from]. destruct (c =? cPERCENT); [|apply IH2].
    destruct (d =? cNN).
    + rewrite (IH1 [] (flush lit es ++ _)), (IH1 [] (flush lit [] ++ _)), (flush_app lit es).
      rewrite !app_assoc. reflexivity.
    + destruct (parse_field d =? fNone).
      * rewrite (IH1 [] (flush lit es)), (IH1 [] (flush lit [])), (flush_app lit es).
        rewrite !app_assoc. reflexivity.
      * rewrite (IH1 [] (flush lit es ++ _)), (IH1 [] (flush lit [] ++ _)), (flush_app lit es).
        rewrite !app_assoc. reflexivity.
Qed.

Lemma show_all_app : forall a b, show_all (a ++ b) = show_all a ++ show_all b.
Proof. intros a b. unfold show_all. rewrite map_app, concat_app. reflexivity. Qed.

Lemma show_flush : forall lit, show_all (flush lit []) = lit.
Proof.
  intros [|c l]; [reflexivity|]. unfold show_all, flush, show. cbn [isnil app map concat is_field is_lit e_field e_lit].
  cbn. rewrite app_nil_r. reflexivity.
Qed.

Lemma show_field : forall f, f <> 0 -> show (mkElem f []) = [cPERCENT; letter f].
Proof.
  intros f H. unfold show, is_field. cbn [e_field].
  destruct (N.eqb_spec f fNone) as [E|E]; [contradiction|reflexivity].
Qed.

Lemma show_parse : forall s lit, only_known s = true -> show_all (parse_elements_from s lit []) = lit ++ s.
Proof.
  intros s. induction s as [|c|c d s IH1 IH2] using pair_ind; intros lit H.
  - rewrite app_nil_r. apply show_flush.
  - cbn [parse_elements_from]. apply show_flush.
  - cbn [parse_elements_from only_known] in *. destruct (N.eqb_spec c cPERCENT) as [E|E].
    + subst c. apply andb_true_iff in H. destruct H as [Hd Hs].
      destruct (N.eqb_spec d cNN) as [Ed|Ed].
      * subst d. rewrite pef_app, !show_all_app, show_flush, IH1 by auto.
        rewrite <- app_assoc. reflexivity.
      * rewrite orb_false_r in Hd. destruct (parse_field_letter d Hd) as [H1 H2].
        destruct (N.eqb_spec (parse_field d) fNone) as [Ef|Ef]; [contradiction|].
        rewrite pef_app, !show_all_app, show_flush, IH1 by auto.
        unfold show_all at 1. cbn [map concat]. rewrite show_field, H2 by auto.
        rewrite <- app_assoc. reflexivity.
    + rewrite IH2 by exact H. rewrite <- app_assoc. reflexivity.
Qed.

(** ** Unknown letters *)

Lemma parse_unknown : forall s lit q b, closed s = true -> is_letter q = false -> q <> cNN ->
  parse_elements_from (s ++ cPERCENT :: q :: b) lit [] = parse_elements_from s lit [] ++ parse_elements b.
Proof.
  intros s. induction s as [|c|c d s IH1 IH2] using pair_ind; intros lit q b Hc Hq Hn.
  - cbn [app parse_elements_from]. rewrite N.eqb_refl.
    apply N.eqb_neq in Hn. rewrite Hn, (parse_field_unknown q Hq). cbn [N.eqb fNone].
    change (0 =? fNone) with true. cbv iota. rewrite pef_app. reflexivity.
  - cbn [app]. cbn [closed] in Hc. apply negb_true_iff in Hc.
    assert (E : parse_elements_from (c :: cPERCENT :: q :: b) lit []
                = parse_elements_from (cPERCENT :: q :: b) (lit ++ [c]) []).
    { cbn [parse_elements_from]. rewrite Hc. reflexivity. }
    rewrite E. cbn [parse_elements_from]. rewrite N.eqb_refl.
    apply N.eqb_neq in Hn. rewrite Hn, (parse_field_unknown q Hq).
    change (0 =? fNone) with true. cbv iota. rewrite pef_app. reflexivity.
  - cbn [app]. cbn [closed] in Hc. cbn [parse_elements_from].
    destruct (c =? cPERCENT).
    + destruct (d =? cNN); [|destruct (parse_field d =? fNone)];
        rewrite (pef_app (s ++ _) []), (pef_app s []), IH1 by auto; rewrite app_assoc; reflexivity.
    + apply (IH2 (lit ++ [c]) q b); auto.
Qed.

Lemma show_cons_parse_closed : forall s b lit, closed s = true ->
  show_all (parse_elements_from (s ++ b) lit []) = show_all (parse_elements_from s lit []) ++ show_all (parse_elements b).
Proof.
  assert (L : forall b lit, show_all (parse_elements_from b lit []) = lit ++ show_all (parse_elements b)).
  { intros b. unfold parse_elements. induction b as [|c|c d b IH1 IH2] using pair_ind; intros lit.
    - cbn [parse_elements_from]. rewrite !show_flush. symmetry; apply app_nil_r.
    - cbn [parse_elements_from]. rewrite !show_flush. reflexivity.
    - cbn [parse_elements_from]. destruct (c =? cPERCENT).
      + assert (G : forall E, show_all (parse_elements_from b [] (flush lit [] ++ E))
                   = lit ++ show_all (parse_elements_from b [] (flush [] [] ++ E))).
        { intros E. rewrite (pef_app b [] (flush lit [] ++ E)), (pef_app b [] (flush [] [] ++ E)).
          rewrite !show_all_app, !show_flush, <- !app_assoc. reflexivity. }
        destruct (d =? cNN); [apply G|]. destruct (parse_field d =? fNone); [|apply G].
        specialize (G []). rewrite !app_nil_r in G. exact G.
      + transitivity ((lit ++ [c]) ++ show_all (parse_elements_from (d :: b) [] [])); [apply IH2|].
        transitivity (lit ++ ([] ++ [c]) ++ show_all (parse_elements_from (d :: b) [] [])).
        * rewrite <- app_assoc. reflexivity.
        * f_equal. symmetry. apply (IH2 ([] ++ [c])). }
  intros s. induction s as [|c|c d s IH1 IH2] using pair_ind; intros b lit Hc.
  - cbn [app]. rewrite L. cbn [parse_elements_from]. rewrite show_flush. reflexivity.
  - cbn [closed] in Hc. apply negb_true_iff in Hc. cbn [app].
    assert (E : parse_elements_from (c :: b) lit [] = parse_elements_from b (lit ++ [c]) []).
    { destruct b; cbn [parse_elements_from]; [|rewrite Hc]; reflexivity. }
    rewrite E, L. cbn [parse_elements_from]. rewrite show_flush. reflexivity.
  - cbn [closed] in Hc. cbn [app parse_elements_from]. destruct (c =? cPERCENT).
    + destruct (d =? cNN); [|destruct (parse_field d =? fNone)];
        rewrite (pef_app (s ++ b) [] (_)), (pef_app s [] (_)), !show_all_app, IH1 by auto;
        rewrite <- ?app_assoc; reflexivity.
    + apply (IH2 b (lit ++ [c])); auto.
Qed.

(** ** Canonical forms *)

Lemma proper_field : forall f, In f (map snd field_map) -> proper (mkElem f []).
Proof. intros f H. left. split; [reflexivity|right; exact H]. Qed.
Lemma proper_sep : proper (mkElem 0 []).
Proof. left. split; [reflexivity|left; reflexivity]. Qed.
Lemma proper_lit : forall l, l <> [] -> proper (mkElem 0 l).
Proof. intros l H. right. split; auto. Qed.

Lemma parse_proper : forall s lit es, Forall proper es -> Forall proper (parse_elements_from s lit es).
Proof.
  assert (F : forall lit es, Forall proper es -> Forall proper (flush lit es)).
  { intros lit es H. unfold flush. destruct lit; cbn [isnil]; auto.
    apply Forall_app; split; auto. constructor; auto. apply proper_lit; discriminate. }
  intros s. induction s as [|c|c d s IH1 IH2] using pair_ind; intros lit es H; cbn [parse_elements_from].
  - auto.
  - auto.
  - destruct (c =? cPERCENT); [|apply (IH2 (lit ++ [c]) es H)].
    destruct (d =? cNN).
    + apply IH1. apply Forall_app; split; auto. constructor; [apply proper_sep|constructor].
    + destruct (N.eqb_spec (parse_field d) fNone) as [E|E]; [apply IH1; auto|].
      apply IH1. apply Forall_app; split; auto. constructor; auto.
      apply proper_field. apply parse_field_known; auto.
Qed.

Lemma canonical_cons_field : forall e es, proper e -> is_lit e = false -> canonical es -> canonical (e :: es).
Proof. intros e es H1 H2 H3. cbn. split; auto. split; auto. rewrite H2. discriminate. Qed.

Lemma in_removelast : forall (A : Type) (l : list A) x, In x (removelast l) -> In x l.
Proof.
  intros A l x H. destruct l as [|y l]; [destruct H|].
  rewrite (app_removelast_last y (l:=y :: l)) by discriminate.
  apply in_or_app. left. exact H.
Qed.

(** the head of what is parsed after a complete pair may be a literal; after a
    pending literal the next element is not one *)
Lemma canonical_parse : forall s lit, only_known s = true -> ~ In cPERCENT lit -> canonical (parse_elements_from s lit []).
Proof.
  intros s. induction s as [|c|c d s IH1 IH2] using pair_ind; intros lit H Hl.
  - cbn [parse_elements_from]. destruct lit as [|x l]; [exact I|].
    cbn [flush isnil app canonical]. split; [apply proper_lit; discriminate|]. split; auto.
    intros _ K. cbn [e_lit] in K. apply Hl. apply in_removelast in K. exact K.
  - cbn [parse_elements_from].
    assert (E : flush (lit ++ [c]) [] = [mkElem 0 (lit ++ [c])]) by (destruct lit; reflexivity).
    rewrite E. cbn [canonical]. split; [apply proper_lit; destruct lit; discriminate|]. split; auto.
    intros _. cbn [e_lit]. rewrite removelast_last. exact Hl.
  - cbn [only_known parse_elements_from] in *. destruct (N.eqb_spec c cPERCENT) as [Ec|Ec].
    + apply andb_true_iff in H. destruct H as [Hd Hs].
      assert (K : forall e, proper e -> is_lit e = false ->
        canonical (parse_elements_from s [] (flush lit [] ++ [e]))).
      { intros e P L. rewrite pef_app, <- app_assoc.
        assert (C1 : canonical ([e] ++ parse_elements_from s [] [])).
        { apply canonical_cons_field; auto. }
        destruct lit as [|x l]; [exact C1|].
        unfold flush. cbn [isnil app]. cbn [canonical]. split; [apply proper_lit; discriminate|].
        split; [|exact C1]. intros _. split; auto. }
      destruct (N.eqb_spec d cNN) as [Ed|Ed]; [apply K; [apply proper_sep|reflexivity]|].
      rewrite orb_false_r in Hd. destruct (parse_field_letter d Hd) as [H1 H2].
      destruct (N.eqb_spec (parse_field d) fNone) as [Ef|Ef]; [contradiction|].
      apply K; [|reflexivity]. apply proper_field. apply parse_field_known; auto.
    + apply IH2; auto. intros K. apply in_app_or in K. destruct K as [K|[K|[]]]; auto.
Qed.

Lemma pef_literal : forall l s lit, ~ In cPERCENT l ->
  parse_elements_from (l ++ s) lit [] = parse_elements_from s (lit ++ l) [].
Proof.
  induction l as [|c l IH]; intros s lit H; [rewrite app_nil_r; reflexivity|].
  assert (E : parse_elements_from (c :: l ++ s) lit [] = parse_elements_from (l ++ s) (lit ++ [c]) []).
  { cbn [parse_elements_from]. destruct (l ++ s); [reflexivity|].
    destruct (N.eqb_spec c cPERCENT) as [Ec|Ec]; [|reflexivity]. exfalso. apply H. left. auto. }
  cbn [app]. rewrite E, IH by (intros K; apply H; right; exact K). rewrite <- app_assoc. reflexivity.
Qed.

Lemma pef_pair : forall x s lit,
  parse_elements_from (cPERCENT :: x :: s) lit []
  = flush lit [] ++ parse_elements_from (cPERCENT :: x :: s) [] [].
Proof.
  intros x s lit. cbn [parse_elements_from]. rewrite N.eqb_refl.
  destruct (x =? cNN); [|destruct (parse_field x =? fNone)].
  - rewrite pef_app. rewrite (pef_app s [] (flush [] [] ++ _)). rewrite <- !app_assoc. reflexivity.
  - rewrite pef_app. reflexivity.
  - rewrite pef_app. rewrite (pef_app s [] (flush [] [] ++ _)). rewrite <- !app_assoc. reflexivity.
Qed.

Lemma letter_field : forall f, In f (map snd field_map) ->
  f <> 0 /\ parse_field (letter f) = f /\ (letter f =? cNN) = false.
Proof.
  intros f H. cbn in H.
  repeat (destruct H as [H|H]; [subst f; vm_compute; repeat split; discriminate|]). destruct H.
Qed.

Lemma show_nonlit : forall e, is_lit e = false -> exists x, show e = [cPERCENT; x].
Proof.
  intros e H. unfold show. rewrite H. destruct (is_field e); eauto.
Qed.

Lemma parse_show : forall es, canonical es -> parse_elements (show_all es) = es.
Proof.
  unfold parse_elements. induction es as [|e es IH]; intros C; [reflexivity|].
  destruct C as [P [L C]]. specialize (IH C).
  unfold show_all in *. cbn [map concat].
  destruct P as [[P1 P2]|[P1 P2]].
  - destruct e as [f l]. cbn [e_lit e_field] in *. subst l.
    destruct P2 as [P2|P2].
    + subst f. change (show (mkElem 0 [])) with [cPERCENT; cNN]. cbn [app].
      cbn [parse_elements_from]. rewrite N.eqb_refl. cbv iota. rewrite pef_app.
      rewrite IH. reflexivity.
    + destruct (letter_field f P2) as [F1 [F2 F3]].
      rewrite show_field by auto. cbn [app parse_elements_from]. rewrite N.eqb_refl, F3, F2.
      destruct (N.eqb_spec f fNone) as [E|E]; [contradiction|].
      rewrite pef_app, IH. reflexivity.
  - assert (HL : is_lit e = true). { unfold is_lit. destruct (e_lit e); [contradiction|reflexivity]. }
    specialize (L HL).
    assert (HS : show e = e_lit e).
    { unfold show, is_field. rewrite P1, HL. reflexivity. }
    assert (HF : forall l, l <> [] -> flush l [] = [mkElem 0 l]) by (intros [|y l] H; [contradiction|reflexivity]).
    assert (HE : mkElem 0 (e_lit e) = e). { destruct e as [f l]. cbn in *. subst f. reflexivity. }
    rewrite HS. destruct es as [|e' es].
    + cbn [map concat]. rewrite app_nil_r.
      rewrite (app_removelast_last 0 (l:=e_lit e)) at 1 by auto.
      rewrite pef_literal by exact L. cbn [app parse_elements_from].
      rewrite <- app_removelast_last by auto. rewrite HF by auto. rewrite HE. reflexivity.
    + destruct L as [L1 L2]. rewrite pef_literal by exact L2. cbn [app].
      destruct (show_nonlit e' L1) as [x Hx].
      cbn [map concat] in *. rewrite Hx in *. cbn [app] in *.
      rewrite pef_pair, HF by auto. rewrite IH, HE. reflexivity.
Qed.
