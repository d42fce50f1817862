(** The case of names (C69), line ends and lines outside of cards (C70). *)
From Verif Require Import Base BaseFacts Utf8 Utf8Facts M_ParamMap M_VCard M_VCardText S_Card P_Assoc P_Card S_Escape P_Escape
  S_Parse P_Parse P_Parse2 S_Soft P_Soft P_SoftLoop M_Split P_Split M_Values M_Date M_Addressee M_VCardTool P_ReadBack S_Order P_CardOrder P_Unknown S_Case.

(** ** Lists sorted by a key *)
Section Sorting.
  Context {A : Type} (k : A -> list N).
  Definition upto (x y : A) : Prop := lltb (k y) (k x) = false.
  Definition withk (id : list N) (l : list A) : list A := filter (fun x => leqb (k x) id) l.
  Lemma lltb_le_trans a b c : lltb b a = false -> lltb c b = false -> lltb c a = false.
  Proof.
    intros H1 H2. destruct (lltb c a) eqn:E; auto. destruct (lltb a b) eqn:E2.
    - rewrite (lltb_trans c a b E E2) in H2. discriminate.
    - rewrite (lltb_total a b E2 H1) in E. congruence.
  Qed.
  Lemma withk_none id l : (forall x, In x l -> k x <> id) -> withk id l = [].
  Proof.
    induction l as [|x l IH]; intros H; [reflexivity|]. cbn [withk filter]. rewrite (proj2 (leqb_neq (k x) id)) by (apply H; left; auto).
    apply IH. intros y Hy. apply H. right. auto.
  Qed.
  Lemma sorted_unique : forall a b, StronglySorted upto a -> StronglySorted upto b -> (forall id, withk id a = withk id b) -> a = b.
  Proof.
    assert (Hhd : forall x a b, StronglySorted upto (x :: a) -> StronglySorted upto b -> (forall id, withk id (x :: a) = withk id b) ->
      exists y b', b = y :: b' /\ lltb (k x) (k y) = false).
    { intros x a b _ Hb Hk. specialize (Hk (k x)). cbn [withk filter] in Hk. rewrite leqb_refl in Hk.
      destruct b as [|y b]; [discriminate|]. exists y, b. split; [reflexivity|]. destruct (lltb (k x) (k y)) eqn:E; auto. exfalso.
      assert (Hn : withk (k x) (y :: b) = []).
      { apply withk_none. intros z Hz Hzk. apply StronglySorted_inv in Hb as [_ Hb]. rewrite Forall_forall in Hb.
        destruct Hz as [->|Hz]; [rewrite Hzk, lltb_irrefl in E; discriminate|]. specialize (Hb z Hz). unfold upto in Hb. congruence. }
      fold (withk (k x) (y :: b)) in Hk. change (withk (k x) (y :: b)) with (filter (fun z => leqb (k z) (k x)) (y :: b)) in *. cbn [filter] in Hn, Hk. rewrite Hn in Hk. discriminate. }
    induction a as [|x a IH]; intros b Ha Hb Hk.
    - destruct b as [|y b]; [reflexivity|]. specialize (Hk (k y)). cbn [withk filter] in Hk. rewrite leqb_refl in Hk. discriminate.
    - destruct (Hhd x a b Ha Hb Hk) as (y & b' & -> & Hxy).
      destruct (Hhd y b' (x :: a) Hb Ha (fun id => eq_sym (Hk id))) as (x' & a' & Hx & Hyx). injection Hx as <- <-.
      pose proof (lltb_total _ _ Hxy Hyx) as He. pose proof (Hk (k x)) as H1. cbn [withk filter] in H1. rewrite <- He, leqb_refl in H1.
      injection H1 as -> _. f_equal. apply IH; [apply StronglySorted_inv in Ha; tauto|apply StronglySorted_inv in Hb; tauto|].
      intros id. specialize (Hk id). cbn [withk filter] in Hk. destruct (leqb (k y) id); [injection Hk; auto|exact Hk].
  Qed.

  Fixpoint ins (x : A) (l : list A) : list A :=
    match l with [] => [x] | y :: r => if lltb (k x) (k y) then x :: l else y :: ins x r end.
  Definition isort (l : list A) : list A := fold_left (fun s x => ins x s) l [].
  Lemma ins_in x y l : In y (ins x l) -> y = x \/ In y l.
  Proof.
    induction l as [|z l IH]; cbn [ins]; [intros [->|[]]; auto|]. destruct (lltb (k x) (k z)); [intros [->|H]; auto|].
    intros [->|H]; [right; left; auto|]. destruct (IH H); auto. right. right. auto.
  Qed.
  Lemma ins_sorted x l : StronglySorted upto l -> StronglySorted upto (ins x l).
  Proof.
    induction l as [|y l IH]; intros H; cbn [ins]; [constructor; constructor|].
    pose proof H as H'. apply StronglySorted_inv in H as [H Hy]. rewrite Forall_forall in Hy. destruct (lltb (k x) (k y)) eqn:E.
    - constructor; [exact H'|]. apply Forall_forall. intros z [->|Hz]; [apply lltb_asym; auto|].
      unfold upto. eapply lltb_le_trans; [apply lltb_asym; exact E|apply Hy; auto].
    - constructor; [apply IH; auto|]. apply Forall_forall. intros z Hz. apply ins_in in Hz as [->|Hz]; [exact E|apply Hy; auto].
  Qed.
  Lemma ins_withk id x l : StronglySorted upto l -> withk id (ins x l) = withk id l ++ withk id [x].
  Proof.
    induction l as [|y l IH]; intros H; [reflexivity|]. cbn [ins]. destruct (lltb (k x) (k y)) eqn:E.
    - destruct (leqb_spec (k x) id) as [Hx|Hx].
      + assert (Hn : withk id (y :: l) = []).
        { apply withk_none. intros z Hz Hzk. apply StronglySorted_inv in H as [_ H]. rewrite Forall_forall in H.
          destruct Hz as [->|Hz]; [rewrite Hzk, <- Hx, lltb_irrefl in E; discriminate|]. specialize (H z Hz). unfold upto in H. congruence. }
        rewrite Hn. unfold withk in *. cbn [filter app] in *. rewrite Hn. reflexivity.
      + unfold withk. cbn [filter]. rewrite (proj2 (leqb_neq (k x) id)) by auto. rewrite app_nil_r. reflexivity.
    - apply StronglySorted_inv in H as [H _]. specialize (IH H). unfold withk in *. cbn [filter]. rewrite IH. cbn [filter].
      destruct (leqb (k y) id); reflexivity.
  Qed.
  Lemma isort_spec l : StronglySorted upto (isort l) /\ forall id, withk id (isort l) = withk id l.
  Proof.
    unfold isort. assert (H : forall l s, StronglySorted upto s -> StronglySorted upto (fold_left (fun s x => ins x s) l s) /\
      forall id, withk id (fold_left (fun s x => ins x s) l s) = withk id s ++ withk id l).
    { clear l. induction l as [|x l IH]; intros s Hs; cbn [fold_left].
      - split; [exact Hs|]. intros id. cbn. rewrite app_nil_r. reflexivity.
      - destruct (IH (ins x s) (ins_sorted x s Hs)) as [H1 H2]. split; [exact H1|]. intros id. rewrite H2, ins_withk, <- app_assoc by auto.
        f_equal. unfold withk. cbn [filter]. destruct (leqb (k x) id); reflexivity. }
    destruct (H l [] (SSorted_nil _)) as [H1 H2]. split; [exact H1|]. intros id. rewrite H2. reflexivity.
  Qed.
End Sorting.

Lemma isort_ext {A} (k1 k2 : A -> list N) (P : A -> Prop) l :
  (forall x y, P x -> P y -> lltb (k1 x) (k1 y) = lltb (k2 x) (k2 y)) -> Forall P l -> isort k1 l = isort k2 l.
Proof.
  intros H. unfold isort.
  assert (Hi : forall x l, P x -> Forall P l -> ins k1 x l = ins k2 x l).
  { intros x. induction l0 as [|y l0 IH]; intros Hx Hl; [reflexivity|]. cbn [ins]. pose proof (Forall_inv Hl) as Hy. apply Forall_inv_tail in Hl.
    rewrite (H x y) by auto. rewrite IH by auto. reflexivity. }
  assert (Hg : forall l s, Forall P l -> Forall P s -> fold_left (fun s x => ins k1 x s) l s = fold_left (fun s x => ins k2 x s) l s).
  { induction l0 as [|x l0 IH]; intros s Hl Hs; [reflexivity|]. cbn [fold_left]. pose proof (Forall_inv Hl) as Hx. apply Forall_inv_tail in Hl.
    rewrite (Hi x s) by auto. apply IH; [auto|]. apply Forall_forall. intros y Hy. apply ins_in in Hy as [->|Hy]; [auto|]. rewrite Forall_forall in Hs. auto. }
  intros Hl. apply Hg; auto.
Qed.

(** ** The lines of a card in the order in which they are read *)
Lemma in_order_sorted L : StronglySorted (upto vl_id) (in_order (card_of L)).
Proof.
  unfold in_order. destruct (identifiers_spec L) as [Hs _]. unfold increasing in Hs. induction Hs as [|id ids Hs IH Hid]; [constructor|].
  cbn [flat_map]. pose proof (card_lines_ids id L) as Hl. revert Hl. generalize (card_lines id (card_of L)) as ls.
  induction ls as [|l ls IHl]; intros Hl; [exact IH|]. cbn [app]. pose proof (Forall_inv Hl) as H1. apply Forall_inv_tail in Hl.
  constructor; [apply IHl; auto|]. apply Forall_forall. intros x Hx. unfold upto. rewrite H1. apply in_app_iff in Hx as [Hx|Hx].
  - rewrite Forall_forall in Hl. rewrite (Hl x Hx). apply lltb_irrefl.
  - apply in_flat_map in Hx as (i & Hi & Hx). pose proof (card_lines_ids i L) as Hf. rewrite Forall_forall in Hf, Hid.
    rewrite (Hf x Hx). apply lltb_asym. apply Hid. exact Hi.
Qed.
Lemma in_order_isort L : in_order (card_of L) = isort vl_id L.
Proof.
  destruct (isort_spec vl_id L) as [S1 F1]. apply (sorted_unique vl_id); [apply in_order_sorted|exact S1|].
  intros id. rewrite F1. apply of_id_in_order.
Qed.
Lemma isort_map {A C} (f : A -> C) (k : C -> list N) l : isort k (map f l) = map f (isort (fun x => k (f x)) l).
Proof.
  unfold isort. assert (Hi : forall x l, ins k (f x) (map f l) = map f (ins (fun x => k (f x)) x l)).
  { intros x. induction l0 as [|y l0 IH]; [reflexivity|]. cbn [map ins]. destruct (lltb (k (f x)) (k (f y))); [reflexivity|]. rewrite IH. reflexivity. }
  assert (H : forall l s, fold_left (fun s x => ins k x s) (map f l) (map f s) = map f (fold_left (fun s x => ins (fun x => k (f x)) x s) l s)).
  { induction l0 as [|x l0 IH]; intros s; [reflexivity|]. cbn [map fold_left]. rewrite Hi. apply IH. }
  apply (H l []).
Qed.
Lemma isort_in {A} (k : A -> list N) l x : In x (isort k l) -> In x l.
Proof.
  destruct (isort_spec k l) as [_ F]. specialize (F (k x)). intros H.
  assert (Hx : In x (withk k (k x) (isort k l))) by (apply filter_In; rewrite leqb_refl; auto).
  rewrite F in Hx. apply filter_In in Hx. tauto.
Qed.

(** ** Reading a line under another spelling of its name *)
Lemma px_step_set i c x x' go : px_state x <> PInitial -> px_step c x = (x', go) ->
  px_step c (px_set_line (vl_set_id i (px_line x)) x) = (px_set_line (vl_set_id i (px_line x')) x', go).
Proof.
  intros Hx. unfold px_step, px_after. change (px_state (px_set_line (vl_set_id i (px_line x)) x)) with (px_state x).
  destruct (px_state x) eqn:Es; [congruence|..]; intros H;
  cbn [px_acc px_key px_set_line px_goto px_set_key px_state] in *;
  repeat match type of H with
  | context [if ?b then _ else _] => destruct b
  | (_, _) = (_, _) => injection H as <- <-
  end; try discriminate; reflexivity.
Qed.
Lemma px_run_set i s : forall x, px_state x <> PInitial ->
  px_run s (px_set_line (vl_set_id i (px_line x)) x) =
  (px_set_line (vl_set_id i (px_line (fst (px_run s x)))) (fst (px_run s x)), snd (px_run s x)).
Proof.
  induction s as [|c s IH]; intros x Hx; [reflexivity|]. cbn [px_run]. destruct (px_step c x) as [x' go] eqn:E.
  rewrite (px_step_set i c x x' go Hx E). destruct (px_step_id c x x' go Hx E) as [H1 _]. destruct go; [apply IH; auto|reflexivity].
Qed.
Lemma finish_set E i x rest : finish_pure E (px_set_line (vl_set_id i (px_line x)) x) rest = vl_set_id i (finish_pure E x rest).
Proof. destruct rest as [raw|]; [|reflexivity]. unfold finish_pure. destruct x as [? ? ? [] ? ?]. reflexivity. Qed.
Definition name_chars (n : bytes) : Prop := forall c, In c n -> c <> 58%N /\ c <> 59%N /\ c <> 46%N.
Lemma respell E n n' d r : name_chars n -> name_chars n' -> (d = 58 \/ d = 59)%N ->
  parse_pure E (n' ++ d :: r) = vl_set_id n' (parse_pure E (n ++ d :: r)).
Proof.
  intros Hn Hn' Hd. unfold parse_pure. rewrite !run_ident by auto. cbn [app px_run]. change (px_acc px_init) with (@nil N). cbn [app].
  set (z := px_goto PInitial n px_init). set (z' := px_goto PInitial n' px_init). unfold px_step. change (px_state z) with PInitial. change (px_state z') with PInitial.
  cbn iota. destruct Hd as [->| ->].
  - change (58 =? cSEMI)%N with false. change (58 =? cCOLON)%N with true. cbn iota.
    exact (finish_set E n' (px_goto PInitial [] (px_set_line (vl_set_id (from_latin1 (px_acc z)) (px_line z)) z)) (Some r)).
  - change (59 =? cSEMI)%N with true. cbn iota.
    set (y := px_goto PParamKey [] (px_set_line (vl_set_id (from_latin1 (px_acc z)) (px_line z)) z)).
    pose proof (px_run_set n' r y ltac:(discriminate)) as H.
    replace (px_goto PParamKey [] (px_set_line (vl_set_id (from_latin1 (px_acc z')) (px_line z')) z'))
      with (px_set_line (vl_set_id n' (px_line y)) y) by reflexivity.
    rewrite H. destruct (px_run r y) as [x rest]. cbn [fst snd]. apply finish_set.
Qed.

Lemma read_line_respelt T id l n a : to_lower n = to_lower (vl_id l) -> vl_group l = [] -> ~ (exists r, to_lower n = B "x-" ++ r) ->
  read_line T id (vl_set_id n l) a = read_line T id l a.
Proof.
  intros Hn Hg Hx. unfold read_line.
  assert (Hk : line_kind (vl_set_id n l) = line_kind l) by (unfold line_kind; cbn [vl_set_id vl_id vl_group]; rewrite Hn; reflexivity).
  rewrite Hk. assert (N1 : line_kind l <> LGroup) by (unfold line_kind; rewrite Hg; cbn [isnil negb andb];
    intros H; apply kind_of_in in H as (m & Hm & _); [|discriminate|discriminate]; cbv in Hm;
    repeat (destruct Hm as [Hm|Hm]; [discriminate Hm|]); exact Hm).
  assert (N2 : line_kind l <> LX).
  { unfold line_kind. rewrite Hg. cbn [isnil negb andb]. rewrite <- Hn. intros H. apply Hx. revert H. clear.
    assert (Ht : Forall (fun p => snd p <> LX) kind_table) by (repeat constructor; discriminate). induction Ht as [|[m q] tab Hq _ IH]; cbn [kind_of].
    - destruct (starts_with (B "x-") (to_lower n)) eqn:E; [|discriminate]. intros _. apply starts_with_spec in E. exact E.
    - destruct (leqb (to_lower n) m); [intros ->; exfalso; apply Hq; reflexivity|exact IH]. }
  destruct (line_kind l); try reflexivity; congruence.
Qed.

(** ** C69: cards *)
(** a property whose line is read in the same way under both names *)
Definition swappable (t : spellings) : Prop :=
  name_chars (fst (fst t)) /\ name_chars (snd (fst t)) /\ (exists d r, fst (snd t) = d :: r /\ (d = 58 \/ d = 59)%N) /\
  forall T id l a, vl_id l = fst (fst t) -> vl_group l = [] -> read_line T id (vl_set_id (snd (fst t)) l) a = read_line T id l a.
Lemma same_letters_swappable t : same_letters t -> swappable t.
Proof.
  intros ((H1 & _) & (H2 & Hx) & Hl & Hd). split; [exact H1|]. split; [exact H2|]. split; [exact Hd|].
  intros T id l a Hi Hg. apply read_line_respelt; auto. rewrite Hi. auto.
Qed.
Lemma spelt_lines E t : swappable t ->
  parse_pure E (content (spelt2 t)) = vl_set_id (snd (fst t)) (parse_pure E (content (spelt1 t))) /\
  vl_id (parse_pure E (content (spelt1 t))) = fst (fst t) /\ vl_group (parse_pure E (content (spelt1 t))) = [].
Proof.
  intros (H1 & H2 & (d & r & Hb & Hd) & _). unfold spelt1, spelt2, titled, content. cbn [fst snd]. rewrite Hb, <- !app_assoc. cbn [app].
  split; [apply respell; auto|].
  assert (Hu : ungrouped (fst (fst t)) (fst (fst t) ++ d :: r, snd (snd t))) by (exists d, r; cbn [fst]; auto).
  pose proof (ungrouped_group E _ _ Hu) as G. pose proof (named_id E _ _ (ungrouped_named _ _ Hu)) as I.
  unfold content in G, I. cbn [fst snd] in G, I. rewrite <- app_assoc in G, I. cbn [app] in G, I. auto.
Qed.

Lemma respelt_lines E ts : Forall swappable ts -> same_rank ts ->
  in_order (card_of (map (fun b => parse_pure E (content b)) (map spelt1 ts))) = map (fun t => parse_pure E (content (spelt1 t))) (isort (fun t => fst (fst t)) ts) /\
  in_order (card_of (map (fun b => parse_pure E (content b)) (map spelt2 ts))) = map (fun t => parse_pure E (content (spelt2 t))) (isort (fun t => fst (fst t)) ts).
Proof.
  intros Hs Hr. rewrite !in_order_isort, !map_map. rewrite !isort_map. rewrite Forall_forall in Hs.
  assert (Ht : Forall (fun t => In t ts) ts) by (apply Forall_forall; auto). split.
  - f_equal. apply (isort_ext _ _ (fun t => In t ts)); [|exact Ht]. intros x y Hx Hy.
    destruct (spelt_lines E x (Hs x Hx)) as (_ & -> & _). destruct (spelt_lines E y (Hs y Hy)) as (_ & -> & _). reflexivity.
  - f_equal. apply (isort_ext _ _ (fun t => In t ts)); [|exact Ht]. intros x y Hx Hy.
    destruct (spelt_lines E x (Hs x Hx)) as (-> & _). destruct (spelt_lines E y (Hs y Hy)) as (-> & _). cbn [vl_set_id vl_id]. symmetry. apply Hr; auto.
Qed.

Lemma read_lines_respelt T E card : forall ts k a, Forall swappable ts ->
  read_lines T card k (map (fun t => parse_pure E (content (spelt1 t))) ts) a =
  read_lines T card k (map (fun t => parse_pure E (content (spelt2 t))) ts) a.
Proof.
  induction ts as [|t ts IH]; intros k a Hf; [reflexivity|]. cbn [map read_lines]. pose proof (Forall_inv Hf) as Ht. apply Forall_inv_tail in Hf.
  destruct (spelt_lines E t Ht) as (-> & Hi & Hg). destruct Ht as (_ & _ & _ & Hr).
  rewrite (Hr T (t_newid T card k)) by auto.
  destruct (read_line T (t_newid T card k) (parse_pure E (content (spelt1 t))) a); [apply IH; auto|reflexivity].
Qed.
Lemma read_card_respelt T E n ts : Forall swappable ts -> same_rank ts ->
  read_card T n (card_of (map (fun b => parse_pure E (content b)) (map spelt1 ts))) =
  read_card T n (card_of (map (fun b => parse_pure E (content b)) (map spelt2 ts))).
Proof.
  intros H1 H2. unfold read_card.
  set (c1 := card_of (map (fun b => parse_pure E (content b)) (map spelt1 ts))). set (c2 := card_of (map (fun b => parse_pure E (content b)) (map spelt2 ts))).
  fold (in_order c1). fold (in_order c2). destruct (respelt_lines E ts H1 H2) as [K1 K2]. fold c1 in K1. fold c2 in K2. rewrite K1, K2.
  apply read_lines_respelt. apply Forall_forall. intros t Ht. apply isort_in in Ht. rewrite Forall_forall in H1. auto.
Qed.

Lemma card_cut E nl before b bs e after : one_card_text E nl before b bs e after -> settled (card_in nl before b bs e after) ->
  exists p r, forall bs', one_card_text E nl before b bs' e after ->
    parses_to E (card_in nl before b bs' e after) (p ++ card_of (map (fun b => parse_pure E (content b)) bs') :: r).
Proof.
  intros H1 Hset. destruct (settled_srun E _ Hset) as [cards Hr].
  destruct (card_in_run E nl before b _ e after H1) as (_ & m & Hm).
  assert (Hcut : forall bs', one_card_text E nl before b bs' e after ->
    srun E (Normal lm_init) (physical_lines (card_in nl before b bs' e after)) =
    option_map (fun r => m_cards m ++ card_of (map (fun b0 => parse_pure E (content b0)) bs') :: r) (srun E (Normal lm_init) (after ++ [[]]))).
  { intros bs' Hb'. rewrite (Hm _ Hb').
    replace (Normal (mkLM [] [] (m_cards m ++ [card_of (map (fun b0 => parse_pure E (content b0)) bs')]) false))
      with (prem (m_cards m ++ [card_of (map (fun b0 => parse_pure E (content b0)) bs')]) (Normal lm_init))
      by (unfold prem, pre; cbn [m_cards lm_init m_line m_card m_in]; rewrite app_nil_r; reflexivity).
    rewrite srun_pre. destruct (srun E (Normal lm_init) (after ++ [[]])); [|reflexivity]. cbn [option_map]. rewrite <- app_assoc. reflexivity. }
  pose proof (Hcut _ H1) as R1. rewrite Hr in R1. destruct (srun E (Normal lm_init) (after ++ [[]])) as [r|]; [|discriminate].
  exists (m_cards m), r. intros bs' Hb'. destruct (card_in_run E nl before b _ e after Hb') as (L & _). apply srun_to; [exact L|]. apply (Hcut _ Hb').
Qed.

Lemma read_cards_swap T c d : (forall n, read_card T n c = read_card T n d) -> forall p n r,
  read_cards T n (p ++ c :: r) = read_cards T n (p ++ d :: r).
Proof.
  intros H. induction p as [|x p IH]; intros n r; cbn [app read_cards]; [rewrite H; reflexivity|]. rewrite IH. reflexivity.
Qed.

Lemma respelt_text T E nl before b ts e after :
  one_card_text E nl before b (map spelt1 ts) e after -> Forall block_ok (map spelt2 ts) -> Forall swappable ts -> same_rank ts ->
  settled (card_in nl before b (map spelt1 ts) e after) ->
  exists result n, result <> Running /\ forall fuel, n <= fuel ->
    parse_text T E fuel (card_in nl before b (map spelt1 ts) e after) = result /\
    parse_text T E fuel (card_in nl before b (map spelt2 ts) e after) = result.
Proof.
  intros H1 Hc Hl Hr Hset. assert (H2 : one_card_text E nl before b (map spelt2 ts) e after) by (unfold one_card_text in *; tauto).
  destruct (card_cut E nl before b _ e after H1 Hset) as (p & r & Hp).
  destruct (Hp _ H1) as [n1 P1]. destruct (Hp _ H2) as [n2 P2].
  set (c1 := card_of (map (fun b => parse_pure E (content b)) (map spelt1 ts))) in *.
  set (c2 := card_of (map (fun b => parse_pure E (content b)) (map spelt2 ts))) in *.
  exists (match read_cards T 0 (p ++ c1 :: r) with None => Undefined | Some l => Done l end), (n1 + n2).
  split; [destruct (read_cards T 0 (p ++ c1 :: r)); discriminate|]. intros fuel Hf. unfold parse_text. rewrite P1, P2 by lia.
  split; [reflexivity|]. rewrite (read_cards_swap T c1 c2); [reflexivity|]. intros n. apply read_card_respelt; auto.
Qed.

(** ** C69: names in lower and in upper case *)
Lemma upper_rank a : forall b, lower_name a -> lower_name b -> lltb (to_upper a) (to_upper b) = lltb a b.
Proof.
  induction a as [|x a IH]; intros [|y b] Ha Hb; try reflexivity. cbn [to_upper map lltb].
  assert (Hx := Ha x (or_introl eq_refl)). assert (Hy := Hb y (or_introl eq_refl)).
  assert (IHa : lltb (map upper1 a) (map upper1 b) = lltb a b) by (apply (IH b); intros c Hc; [apply Ha|apply Hb]; right; auto).
  rewrite IHa. unfold upper1, is_lower.
  destruct (N.leb_spec 97 x), (N.leb_spec x 122), (N.leb_spec 97 y), (N.leb_spec y 122); cbn [andb]; try lia; auto.
  - replace (x - 32 <? y - 32)%N with (x <? y)%N by (destruct (N.ltb_spec x y), (N.ltb_spec (x - 32) (y - 32)); auto; lia).
    replace (x - 32 =? y - 32)%N with (x =? y)%N by (destruct (N.eqb_spec x y), (N.eqb_spec (x - 32) (y - 32)); auto; lia). reflexivity.
  - destruct (N.ltb_spec x y), (N.ltb_spec (x - 32) y); try lia. destruct (N.eqb_spec x y), (N.eqb_spec (x - 32) y); try lia; auto.
  - destruct (N.ltb_spec x y), (N.ltb_spec x (y - 32)); try lia; reflexivity.
Qed.
Lemma upper_lower a : to_lower (to_upper a) = to_lower a.
Proof.
  unfold to_lower, to_upper. rewrite map_map. apply map_ext. intros c. unfold lower1, upper1, is_upper, is_lower.
  destruct (N.leb_spec 97 c), (N.leb_spec c 122); cbn [andb]; auto.
  destruct (N.leb_spec 65 (c - 32)), (N.leb_spec (c - 32) 90), (N.leb_spec 65 c), (N.leb_spec c 90); cbn [andb]; lia.
Qed.

(** ** C69: names of parameters *)
Definition key_alike (x y : pctx) : Prop :=
  px_state x = px_state y /\ px_acc x = px_acc y /\ to_lower (px_key x) = to_lower (px_key y) /\ px_line x = px_line y /\ px_enc x = px_enc y /\ px_charset x = px_charset y.
Lemma px_step_alike c x y : key_alike x y -> px_state x <> PInitial ->
  key_alike (fst (px_step c x)) (fst (px_step c y)) /\ snd (px_step c x) = snd (px_step c y) /\ px_state (fst (px_step c x)) <> PInitial.
Proof.
  destruct x as [st acc kx l en ch], y as [st' acc' ky l' en' ch']. intros (H1 & H2 & H3 & H4 & H5 & H6) Hx.
  cbn [px_state px_acc px_key px_line px_enc px_charset] in *. subst st' acc' l' en' ch'.
  unfold px_step, px_after, key_alike. cbn [px_state px_acc px_key px_line px_enc px_charset].
  destruct st; [congruence|..];
  repeat match goal with |- context [if ?b then _ else _] => destruct b eqn:? end; cbn; rewrite ?H3;
  try (split; [auto 10|]; split; [reflexivity|discriminate]); try (rewrite H3 in *; congruence).
Qed.
Lemma px_run_alike s : forall x y, key_alike x y -> px_state x <> PInitial ->
  key_alike (fst (px_run s x)) (fst (px_run s y)) /\ snd (px_run s x) = snd (px_run s y).
Proof.
  induction s as [|c s IH]; intros x y H Hx; [cbn; auto|]. cbn [px_run].
  destruct (px_step_alike c x y H Hx) as (A & B & C). destruct (px_step c x) as [x' go], (px_step c y) as [y' go'].
  cbn [fst snd] in *. subst go'. destruct go; [apply IH; auto|cbn; auto].
Qed.
Lemma finish_alike E x y rest : key_alike x y -> finish_pure E x rest = finish_pure E y rest.
Proof. intros (_ & _ & _ & H4 & H5 & H6). unfold finish_pure. rewrite H4, H5, H6. reflexivity. Qed.

Definition no_value (st : pstate) : Prop := st = PInitial \/ st = PParamKey \/ st = PParamValue.
Lemma px_run_head h : forall x, ~ In 58%N h -> ~ In 34%N h -> no_value (px_state x) -> forall r,
  exists y, px_run (h ++ r) x = px_run r y /\ no_value (px_state y).
Proof.
  induction h as [|c h IH]; intros x H1 H2 Hx r; [exists x; auto|].
  assert (C1 : (c =? 58)%N = false) by (apply N.eqb_neq; intros ->; apply H1; left; auto).
  assert (C2 : (c =? 34)%N = false) by (apply N.eqb_neq; intros ->; apply H2; left; auto).
  assert (Hs : exists x', px_step c x = (x', true) /\ no_value (px_state x')).
  { unfold px_step, px_after, no_value, cCOLON, cDQ. rewrite C1, C2. destruct Hx as [->|[->| ->]]; rewrite ?orb_false_r, ?andb_false_r;
    repeat match goal with |- context [if ?b then _ else _] => destruct b eqn:? end; cbn [px_goto px_state px_add_param px_set_key]; eauto; try discriminate;
    try (eexists; split; [reflexivity|]; cbn; auto). }
  destruct Hs as (x' & Hs & Hx'). cbn [app px_run]. rewrite Hs. apply IH; auto; intros K; [apply H1|apply H2]; right; auto.
Qed.
Lemma px_run_key k : forall r x, ~ In 58%N k -> ~ In 59%N k -> ~ In 61%N k -> px_state x = PParamKey ->
  px_run (k ++ r) x = px_run r (px_goto PParamKey (px_acc x ++ k) x).
Proof.
  induction k as [|c k IH]; intros r x H1 H2 H3 Hx.
  - cbn [app]. rewrite app_nil_r. destruct x; cbn in *; subst; auto.
  - assert (C1 : (c =? 58)%N = false) by (apply N.eqb_neq; intros ->; apply H1; left; auto).
    assert (C2 : (c =? 59)%N = false) by (apply N.eqb_neq; intros ->; apply H2; left; auto).
    assert (C3 : (c =? 61)%N = false) by (apply N.eqb_neq; intros ->; apply H3; left; auto).
    cbn [app px_run]. assert (Hs : px_step c x = (px_goto PParamKey (px_acc x ++ [c]) x, true)).
    { unfold px_step, cSEMI, cCOLON, cEQ. rewrite Hx, C1, C2, C3. reflexivity. }
    rewrite Hs, IH; [|intros K; apply H1; right; auto|intros K; apply H2; right; auto|intros K; apply H3; right; auto|reflexivity].
    f_equal. cbn. rewrite <- app_assoc. reflexivity.
Qed.
Lemma param_case E h k k' r : ~ In 58%N h -> ~ In 34%N h -> param_key k -> param_key k' -> to_lower k = to_lower k' ->
  parse_pure E (h ++ 59%N :: k ++ 61%N :: r) = parse_pure E (h ++ 59%N :: k' ++ 61%N :: r).
Proof.
  intros H1 H2 (K1 & K2 & K3) (L1 & L2 & L3) Hk. unfold parse_pure.
  assert (Hh : exists z, px_state z = PParamKey /\ px_acc z = [] /\ forall s, px_run (h ++ 59%N :: s) px_init = px_run s z).
  { assert (Hall : forall h x, ~ In 58%N h -> ~ In 34%N h -> no_value (px_state x) -> exists z, px_state z = PParamKey /\ px_acc z = [] /\
      forall s, px_run (h ++ 59%N :: s) x = px_run s z).
    { clear. induction h as [|c h IH]; intros x H1 H2 Hx.
      - exists (fst (px_step 59 x)). assert (Hs : px_state (fst (px_step 59 x)) = PParamKey /\ px_acc (fst (px_step 59 x)) = [] /\ snd (px_step 59 x) = true).
        { unfold px_step. destruct Hx as [->|[->| ->]]; cbn; auto. }
        destruct Hs as (S1 & S2 & S3). split; [exact S1|]. split; [exact S2|]. intros s. cbn [app px_run].
        destruct (px_step 59 x) as [x' go]. cbn [fst snd] in *. rewrite S3. reflexivity.
      - destruct (px_run_head [c] x) with (r := @nil N) as (y & Hy & Hy').
        + intros [->|[]]. apply H1. left. auto.
        + intros [->|[]]. apply H2. left. auto.
        + exact Hx.
        + assert (Hs : px_step c x = (y, true)).
          { cbn [app px_run] in Hy. destruct (px_step c x) as [x' []] eqn:Es; [cbn [px_run] in Hy; injection Hy as ->; reflexivity|discriminate]. }
          destruct (IH y) as (z & Z1 & Z2 & Z3); [intros K; apply H1; right; auto|intros K; apply H2; right; auto|exact Hy'|].
          exists z. split; [exact Z1|]. split; [exact Z2|]. intros s. cbn [app px_run]. rewrite Hs. apply Z3. }
    apply Hall; auto. left. reflexivity. }
  destruct Hh as (z & Z1 & Z2 & Z3). rewrite !Z3. rewrite !px_run_key by auto. rewrite Z2. cbn [app px_run].
  assert (Hs : forall q, px_step 61 (px_goto PParamKey q z) = (px_goto PParamValue [] (px_set_key q z), true)) by reflexivity.
  rewrite !Hs. set (x := px_goto PParamValue [] (px_set_key k z)). set (y := px_goto PParamValue [] (px_set_key k' z)).
  assert (Ha : key_alike x y) by (unfold key_alike; cbn; auto 10).
  destruct (px_run_alike r x y Ha ltac:(discriminate)) as [A1 A2].
  destruct (px_run r x) as [x' rx], (px_run r y) as [y' ry]. cbn [fst snd] in *. subst ry. apply finish_alike. exact A1.
Qed.

(** ** C70 *)
Lemma physical_mixed ls : Forall (fun l => plain_bytes (fst l) /\ newline (snd l)) ls ->
  physical_lines (mixed_text ls) = map fst ls ++ [[]].
Proof.
  unfold physical_lines, mixed_text. induction ls as [|[l nl] ls IH]; intros Hf; [reflexivity|].
  pose proof (Forall_inv Hf) as [[H1 H2] Hn]. apply Forall_inv_tail in Hf. specialize (IH Hf). cbn [fst snd] in *. cbn [flat_map map fst snd].
  assert (En : nl = removelast nl ++ [10%N] /\ ~ In 10%N (removelast nl)).
  { destruct Hn as [->| ->]; cbn; (split; [reflexivity|]); [tauto|]. intros [H|[]]. discriminate. }
  destruct En as [En Nn].
  assert (Et : (l ++ nl) ++ flat_map (fun l => fst l ++ snd l) ls = (l ++ removelast nl) ++ 10%N :: flat_map (fun l => fst l ++ snd l) ls).
  { rewrite En at 1. rewrite <- !app_assoc. reflexivity. }
  etransitivity; [apply (f_equal (fun t => map strip_cr (split 10 t)) Et)|]. cbn beta.
  rewrite split_app by (rewrite in_app_iff; tauto). cbn [map app]. f_equal; [|exact IH].
  apply (clean_keep nl l Hn). intros q ->. apply H2, in_app_iff. right. left. auto.
Qed.

(** *** lines that do not belong to a card *)
Definition idle (u v : mode) : Prop :=
  u = v \/ exists l l' c cs, u = Normal (mkLM l c cs false) /\ v = Normal (mkLM l' c cs false).
Lemma idle_step E u v p : idle u v -> idle (sstep E u p) (sstep E v p).
Proof.
  intros [->|(l & l' & c & cs & -> & ->)]; [left; auto|]. cbn [sstep m_line m_card m_cards m_in andb].
  destruct (is_folded p); [right; eauto 10|]. destruct (isnil (trimmed p)); [right; eauto 10|].
  unfold lm_dispatch. destruct (is_begin p); [left; reflexivity|]. destruct (is_end p); [left; reflexivity|]. left. reflexivity.
Qed.
Lemma idle_run E : forall ls u v, idle u v -> srun E u ls = srun E v ls.
Proof.
  induction ls as [|p ls IH]; intros u v H; [reflexivity|]. destruct ls as [|q ls].
  - cbn [srun]. pose proof (idle_step E u v p H) as Hs. destruct H as [->|(l & l' & c & cs & -> & ->)]; [reflexivity|].
    destruct Hs as [Hs|(l1 & l2 & c1 & cs1 & Hu & Hv)]; [rewrite Hs; reflexivity|]. rewrite Hu, Hv. reflexivity.
  - rewrite !srun_cons by discriminate. apply IH, idle_step, H.
Qed.
Lemma junk_idle E : forall js l c cs, Forall no_tag js ->
  exists l', fold_left (sstep E) js (Normal (mkLM l c cs false)) = Normal (mkLM l' c cs false).
Proof.
  induction js as [|p js IH]; intros l c cs Hf; [exists l; auto|]. pose proof (Forall_inv Hf) as [H1 H2]. apply Forall_inv_tail in Hf.
  destruct (not_tag p H1 H2) as [B1 B2]. cbn [fold_left sstep m_line m_card m_cards m_in andb]. unfold lm_dispatch.
  destruct (is_folded p); [apply IH; auto|]. destruct (isnil (trimmed p)); [apply IH; auto|]. rewrite B1, B2. apply IH. auto.
Qed.

Lemma step_no_soft E m p : no_soft p -> no_soft (m_line m) -> exists m', sstep E (Normal m) p = Normal m' /\ no_soft (m_line m') /\
  (begin_line p -> m_in m' = true) /\ (end_line p -> m_in m' = false) /\ (no_tag p -> m_in m' = m_in m).
Proof.
  intros Hp Hm. destruct (srun_before E [p] m) as (m' & H1 & H2); [apply Forall_cons; [exact Hp|constructor]|exact Hm|].
  cbn [fold_left] in H1. exists m'. split; [exact H1|]. split; [exact H2|]. cbn [sstep] in H1.
  split; [|split].
  - intros Hb. destruct (begin_dark p Hb) as [F T]. rewrite F, T in H1. pose proof (proj2 (is_begin_spec p) Hb) as Ib.
    rewrite soft_none in H1 by auto. unfold lm_dispatch in H1. rewrite Ib in H1.
    destruct (m_in m && negb (isnil (m_line m))); injection H1 as <-; reflexivity.
  - intros He. destruct (end_dark p He) as (F & T & B1 & B2). rewrite F, T in H1.
    rewrite soft_none in H1 by auto. unfold lm_dispatch in H1. rewrite B1, B2 in H1.
    destruct (m_in m && negb (isnil (m_line m))); injection H1 as <-; reflexivity.
  - intros [N1 N2]. destruct (not_tag p N1 N2) as [B1 B2].
    destruct (is_folded p); [injection H1 as <-; reflexivity|]. destruct (isnil (trimmed p)); [injection H1 as <-; reflexivity|].
    rewrite soft_none in H1 by auto. unfold lm_dispatch in H1. rewrite B1, B2 in H1.
    destruct (m_in m && negb (isnil (m_line m))); injection H1 as <-; reflexivity.
Qed.
Lemma tag_dec p : begin_line p \/ end_line p \/ no_tag p.
Proof.
  destruct (is_begin p) eqn:Eb; [left; apply is_begin_spec; auto|]. right. destruct (is_end p) eqn:Ee; [left; apply is_end_spec; auto|].
  right. split; intros K; [apply is_begin_spec in K|apply is_end_spec in K]; congruence.
Qed.
Lemma closed_run E : forall ls m, Forall no_soft ls -> no_soft (m_line m) -> closed ls -> (m_in m = true -> Exists end_line ls) ->
  exists m', fold_left (sstep E) ls (Normal m) = Normal m' /\ no_soft (m_line m') /\ m_in m' = false.
Proof.
  induction ls as [|p ls IH]; intros m Hf Hm Hc Hin.
  - exists m. split; [reflexivity|]. split; [exact Hm|]. destruct (m_in m); [|reflexivity]. specialize (Hin eq_refl). inversion Hin.
  - pose proof (Forall_inv Hf) as Hp. apply Forall_inv_tail in Hf. destruct (step_no_soft E m p Hp Hm) as (m1 & H1 & H2 & Hb & He & Hn).
    cbn [fold_left]. rewrite H1. apply IH; auto.
    + intros a q b Hq. apply (Hc (p :: a) q b). rewrite Hq. reflexivity.
    + intros Hm1. destruct (tag_dec p) as [T|[T|T]].
      * apply (Hc [] p ls eq_refl T).
      * rewrite (He T) in Hm1. discriminate.
      * rewrite (Hn T) in Hm1. specialize (Hin Hm1). apply Exists_cons in Hin as [K|K]; [|exact K]. exfalso. apply T. exact K.
Qed.

(** *** a card that is not finished *)
Lemma unfinished_run E : forall js m, Forall no_tag js -> Forall no_soft js -> no_soft (m_line m) ->
  exists m', fold_left (sstep E) js (Normal m) = Normal m' /\ no_soft (m_line m') /\ m_cards m' = m_cards m /\ m_in m' = m_in m.
Proof.
  induction js as [|p js IH]; intros m Hf Hs Hm; [exists m; auto|]. pose proof (Forall_inv Hf) as Ht. apply Forall_inv_tail in Hf.
  pose proof (Forall_inv Hs) as Hp. apply Forall_inv_tail in Hs. destruct (step_no_soft E m p Hp Hm) as (m1 & H1 & H2 & _ & _ & Hn).
  cbn [fold_left]. rewrite H1. destruct (IH m1 Hf Hs H2) as (m' & A & B & C & D). exists m'. split; [exact A|]. split; [exact B|].
  rewrite C, D, (Hn Ht). split; [|reflexivity]. destruct Ht as [N1 N2]. destruct (not_tag p N1 N2) as [B1 B2]. cbn [sstep] in H1.
  destruct (is_folded p); [injection H1 as <-; reflexivity|]. destruct (isnil (trimmed p)); [injection H1 as <-; reflexivity|].
  rewrite soft_none in H1 by auto. unfold lm_dispatch in H1. rewrite B1, B2 in H1.
  destruct (m_in m && negb (isnil (m_line m))); injection H1 as <-; reflexivity.
Qed.
Lemma begin_step E m p : begin_line p -> no_soft (m_line m) -> sstep E (Normal m) p = Normal (mkLM [] [] (m_cards m) true).
Proof.
  intros Hb Hm. cbn [sstep]. destruct (begin_dark p Hb) as [-> ->]. rewrite soft_none by auto. unfold lm_dispatch.
  rewrite (proj2 (is_begin_spec p) Hb). destruct (m_in m && negb (isnil (m_line m))); reflexivity.
Qed.

(** *** texts *)
Lemma text_run nl ls : newline nl -> Forall plain_bytes ls -> physical_lines (text_of nl ls) = ls ++ [[]].
Proof.
  intros Hn Hp. rewrite physical_text_of; [|auto|eapply Forall_impl; [|exact Hp]; intros l [H _]; exact H]. rewrite plain_clean by auto. reflexivity.
Qed.
Lemma text_cards E nl ls cards : newline nl -> Forall plain_bytes ls -> srun E (Normal lm_init) (ls ++ [[]]) = Some cards -> parses_to E (text_of nl ls) cards.
Proof.
  intros Hn Hp H. destruct ls as [|l ls].
  - cbn in H. injection H as <-. exists 2. intros fuel Hf. destruct fuel as [|[|n]]; try lia. destruct n; reflexivity.
  - apply srun_to; [apply text_of_lf; auto; discriminate|]. rewrite text_run by auto. exact H.
Qed.
Lemma spaced_run E : forall ls m, Forall no_soft ls -> no_soft (m_line m) ->
  srun E (Normal m) (filter (fun l => negb (isnil l)) ls ++ [[]]) = srun E (Normal m) (ls ++ [[]]) /\ srun E (Normal m) (ls ++ [[]]) <> None.
Proof.
  induction ls as [|p ls IH]; intros m Hf Hm; [split; [reflexivity|discriminate]|].
  pose proof (Forall_inv Hf) as Hp. apply Forall_inv_tail in Hf. destruct (step_no_soft E m p Hp Hm) as (m1 & H1 & H2 & _).
  destruct (IH m1 Hf H2) as [A B]. cbn [filter app]. rewrite (srun_cons E (Normal m) p) by (destruct ls; discriminate). rewrite H1.
  split; [|exact B]. destruct p as [|c p]; cbn [isnil negb].
  - cbn [sstep is_folded trimmed isnil] in H1. change (sstep E (Normal m) []) with (Normal m) in H1. injection H1 as <-. exact A.
  - cbn [app]. rewrite srun_cons by (destruct (filter (fun l => negb (isnil l)) ls); discriminate). rewrite H1. exact A.
Qed.
