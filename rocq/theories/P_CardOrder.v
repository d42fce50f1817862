(** The order of properties in a card does not matter (C67). *)
From Verif Require Import Base BaseFacts Utf8 Utf8Facts M_ParamMap M_VCard M_VCardText S_Card P_Assoc P_Card S_Escape P_Escape
  S_Parse P_Parse P_Parse2 S_Soft P_Soft P_SoftLoop S_Order.

(** ** The identifier of a line *)
Lemma run_ident n : forall r x, (forall c, In c n -> c <> 58%N /\ c <> 59%N /\ c <> 46%N) -> px_state x = PInitial ->
  px_run (n ++ r) x = px_run r (px_goto PInitial (px_acc x ++ n) x).
Proof.
  induction n as [|c n IH]; intros r x Hn Hx.
  - cbn [app]. rewrite app_nil_r. destruct x; cbn in *; subst; auto.
  - cbn [app px_run]. destruct (Hn c (or_introl eq_refl)) as (N1 & N2 & N3).
    assert (Est : px_step c x = (px_goto PInitial (px_acc x ++ [c]) x, true)).
    { unfold px_step. rewrite Hx. unfold cSEMI, cCOLON, cDOT. rewrite !(proj2 (N.eqb_neq _ _)) by auto. reflexivity. }
    rewrite Est, IH; [|intros z Hz; apply Hn; right; auto|reflexivity]. f_equal. cbn. rewrite <- app_assoc. reflexivity.
Qed.
Lemma run_group g : forall r x, (forall c, In c g -> c <> 58%N /\ c <> 59%N) -> px_state x = PInitial ->
  exists y, px_run (g ++ r) x = px_run r y /\ px_state y = PInitial.
Proof.
  induction g as [|c g IH]; intros r x Hg Hx; [exists x; auto|]. cbn [app px_run].
  destruct (Hg c (or_introl eq_refl)) as (N1 & N2). unfold px_step. rewrite Hx. unfold cSEMI, cCOLON.
  rewrite (proj2 (N.eqb_neq c 59)), (proj2 (N.eqb_neq c 58)) by auto.
  assert (Hg' : forall z, In z g -> z <> 58%N /\ z <> 59%N) by (intros z Hz; apply Hg; right; auto).
  destruct (c =? cDOT)%N; apply IH; auto.
Qed.

Lemma px_step_id c x x' go : px_state x <> PInitial -> px_step c x = (x', go) ->
  px_state x' <> PInitial /\ vl_id (px_line x') = vl_id (px_line x).
Proof.
  intros Hx. unfold px_step, px_after. destruct (px_state x) eqn:Es; [congruence|..]; intros H;
  repeat match type of H with
  | context [if ?b then _ else _] => destruct b
  | (_, _) = (_, _) => injection H as <- <-
  end; try discriminate; cbn; rewrite ?Es; (split; [discriminate|]); reflexivity.
Qed.
Lemma px_run_id s : forall x, px_state x <> PInitial -> vl_id (px_line (fst (px_run s x))) = vl_id (px_line x).
Proof.
  induction s as [|c s IH]; intros x Hx; [reflexivity|]. cbn [px_run]. destruct (px_step c x) as [x' go] eqn:E.
  destruct (px_step_id c x x' go Hx E) as [H1 H2]. destruct go; [rewrite IH; auto|exact H2].
Qed.

Lemma parse_pure_id E line : vl_id (parse_pure E line) = vl_id (px_line (fst (px_run line px_init))).
Proof.
  unfold parse_pure. destruct (px_run line px_init) as [x [raw|]]; [|reflexivity]. unfold finish_pure.
  cbn [fst]. destruct x as [? ? ? [] ? ?]. reflexivity.
Qed.

Lemma named_id E n b : named n b -> vl_id (parse_pure E (content b)) = n.
Proof.
  intros (g & d & r & Hb & Hd & Hg & Hgc & Hn). rewrite parse_pure_id. unfold content. rewrite Hb, <- !app_assoc. cbn [app].
  assert (Hy : exists y, px_run (g ++ n ++ d :: r ++ concat (snd b)) px_init = px_run (n ++ d :: r ++ concat (snd b)) y /\
     px_state y = PInitial /\ px_acc y = []).
  { destruct Hg as [->|[g' ->]]; [exists px_init; auto|]. rewrite <- app_assoc.
    destruct (run_group g' ([46%N] ++ n ++ d :: r ++ concat (snd b)) px_init) as (y & -> & Hy);
      [intros c Hc; apply Hgc, in_app_iff; auto|reflexivity|].
    cbn [app px_run]. unfold px_step. rewrite Hy. eexists. split; [reflexivity|]. split; reflexivity. }
  destruct Hy as (y & -> & Hy1 & Hy2). rewrite run_ident by auto. rewrite Hy2. cbn [app px_run].
  set (z := px_goto PInitial n y). unfold px_step. change (px_state z) with PInitial. cbn iota.
  destruct Hd as [->| ->]; [reflexivity|].
  change (59 =? cSEMI)%N with true. cbn iota. rewrite px_run_id by discriminate. reflexivity.
Qed.

(** ** A card depends on the lines of each identifier only *)
Lemma card_of_ext l1 l2 : (forall id, filter (fun l => leqb (vl_id l) id) l1 = filter (fun l => leqb (vl_id l) id) l2) ->
  card_of l1 = card_of l2.
Proof.
  intros H. destruct (identifiers_spec l1) as [S1 I1]. destruct (identifiers_spec l2) as [S2 I2].
  apply asorted_ext; [exact S1|exact S2|]. intros id.
  pose proof (card_lines_spec l1 id) as C1. pose proof (card_lines_spec l2 id) as C2. rewrite <- H, <- C1 in C2.
  unfold card_lines in C2. rewrite (find_lines_afind id (card_of l1)), (find_lines_afind id (card_of l2)) in C2.
  assert (Hn : forall ls, afind id (card_of ls) = Some [] -> False).
  { intros ls Hf. pose proof (card_lines_spec ls id) as C. unfold card_lines in C. rewrite find_lines_afind, Hf in C.
    apply afind_In, (in_map fst) in Hf. cbn in Hf. apply (identifiers_spec ls) in Hf as (l & Hl & Hid).
    assert (Hin : In l (filter (fun l => leqb (vl_id l) id) ls)) by (apply filter_In; rewrite Hid, leqb_refl; auto).
    rewrite <- C in Hin. exact Hin. }
  destruct (afind id (card_of l1)) as [v1|] eqn:E1; destruct (afind id (card_of l2)) as [v2|] eqn:E2; auto.
  - f_equal. congruence.
  - exfalso. apply (Hn l1). congruence.
  - exfalso. apply (Hn l2). congruence.
Qed.

(** ** The machine on a card *)
Definition flush_card (E : Ext) (m : lm) : vcard :=
  if isnil (m_line m) then m_card m else add_line (parse_pure E (m_line m)) (m_card m).

Lemma folds_run E : forall fs m, fold_left (sstep E) (map (cons 32%N) fs) (Normal m) =
  Normal (mkLM (m_line m ++ concat fs) (m_card m) (m_cards m) (m_in m)).
Proof.
  induction fs as [|f fs IH]; intros m; cbn [map fold_left concat].
  - rewrite app_nil_r. destruct m; reflexivity.
  - change (sstep E (Normal m) (32%N :: f)) with (Normal (mkLM (m_line m ++ f) (m_card m) (m_cards m) (m_in m))).
    rewrite IH. cbn [m_line m_card m_cards m_in]. rewrite app_assoc. reflexivity.
Qed.

Lemma soft_none s : ~ ends_eq s -> soft_of s = None.
Proof. intros H. destruct (soft_of s) as [[x v]|] eqn:E; auto. exfalso. apply H. eapply soft_of_end; eauto. Qed.

Lemma block_run E b m : block_ok b -> m_in m = true -> ~ ends_eq (m_line m) ->
  fold_left (sstep E) (block_lines b) (Normal m) = Normal (mkLM (content b) (flush_card E m) (m_cards m) true).
Proof.
  intros ((c & r & Hc & Sc) & _ & Hb & He & _) Hin Hm. unfold block_lines. cbn [fold_left].
  assert (H1 : sstep E (Normal m) (fst b) = Normal (mkLM (fst b) (flush_card E m) (m_cards m) true)).
  { cbn [sstep]. destruct (starts_dark (fst b) c r Hc Sc) as [-> ->]. rewrite Hin. unfold flush_card.
    destruct (not_tag (fst b) Hb He) as [B1 B2].
    destruct (isnil (m_line m)); cbn [negb andb].
    - unfold lm_dispatch. rewrite B1, B2, Hin. reflexivity.
    - rewrite soft_none by auto. unfold lm_dispatch. rewrite B1, B2. cbn. rewrite Hin. reflexivity. }
  rewrite H1, folds_run. reflexivity.
Qed.

Lemma content_not_nil b : block_ok b -> isnil (content b) = false.
Proof. intros ((c & r & Hc & _) & _). unfold content. rewrite Hc. reflexivity. Qed.

Lemma blocks_run E : forall bs m, Forall block_ok bs -> m_in m = true -> ~ ends_eq (m_line m) ->
  exists m', fold_left (sstep E) (flat_map block_lines bs) (Normal m) = Normal m' /\ m_in m' = true /\ ~ ends_eq (m_line m') /\
    m_cards m' = m_cards m /\
    flush_card E m' = fold_left (fun c l => add_line l c) (map (fun b => parse_pure E (content b)) bs) (flush_card E m).
Proof.
  induction bs as [|b bs IH]; intros m Hf Hin Hm.
  - exists m. cbn. auto.
  - cbn [flat_map]. rewrite fold_left_app. pose proof (Forall_inv Hf) as Hb. apply Forall_inv_tail in Hf.
    rewrite block_run by auto.
    destruct (IH (mkLM (content b) (flush_card E m) (m_cards m) true) Hf eq_refl) as (m' & A1 & A2 & A3 & A4 & A5); [apply Hb|].
    exists m'. split; [exact A1|]. split; [exact A2|]. split; [exact A3|]. split; [exact A4|].
    rewrite A5. unfold flush_card at 1. cbn [m_line m_card]. rewrite content_not_nil by auto. reflexivity.
Qed.

Lemma end_dark d : end_line d -> is_folded d = false /\ isnil (trimmed d) = false /\ is_begin d = false /\ is_end d = true.
Proof.
  intros He. pose proof He as (a & r & Hb & Ha). destruct a as [|y a]; [discriminate|]. cbn [app] in Hb.
  assert (Hy : is_space y = false).
  { cbn in Ha. injection Ha as Hy _. unfold lower1 in Hy. destruct (is_upper y) eqn:Eu.
    - assert (y = 69%N) as -> by lia. reflexivity.
    - rewrite Hy. reflexivity. }
  destruct (starts_dark d y (a ++ r) Hb Hy) as [F T]. split; [exact F|]. split; [exact T|].
  split; [|apply is_end_spec; auto].
  destruct (is_begin d) eqn:Eb; auto. exfalso. apply is_begin_spec in Eb as (a2 & b2 & Hab & Ha2).
  destruct a2 as [|z a2]; [discriminate|]. rewrite Hb in Hab. cbn in Hab. injection Hab as <- _.
  cbn in Ha, Ha2. injection Ha as Ha _. injection Ha2 as Ha2 _. rewrite Ha in Ha2. discriminate.
Qed.

Lemma card_run E b bs e m : begin_line b -> end_line e -> Forall block_ok bs -> ~ ends_eq (m_line m) ->
  fold_left (sstep E) (b :: flat_map block_lines bs ++ [e]) (Normal m) =
  Normal (mkLM [] [] (m_cards m ++ [card_of (map (fun b => parse_pure E (content b)) bs)]) false).
Proof.
  intros Hb He Hf Hm. cbn [fold_left].
  assert (H1 : sstep E (Normal m) b = Normal (mkLM [] [] (m_cards m) true)).
  { cbn [sstep]. destruct (begin_dark b Hb) as [-> ->]. rewrite soft_none by auto. unfold lm_dispatch.
    rewrite (proj2 (is_begin_spec b) Hb). destruct (m_in m && negb (isnil (m_line m))); reflexivity. }
  rewrite H1, fold_left_app.
  destruct (blocks_run E bs (mkLM [] [] (m_cards m) true) Hf eq_refl) as (m' & A1 & A2 & A3 & A4 & A5); [apply not_ends_nil|].
  rewrite A1. cbn [fold_left]. cbn [m_cards] in A4. change (flush_card E (mkLM [] [] (m_cards m) true)) with (@nil (ustring * list vline)) in A5.
  cbn [sstep]. destruct (end_dark e He) as (-> & -> & Eb & Ee). rewrite A2. rewrite soft_none by auto. unfold lm_dispatch. rewrite Eb, Ee.
  unfold flush_card in A5. rewrite <- A4. unfold card_of. rewrite <- A5.
  destruct (isnil (m_line m')); cbn [negb andb with_card_line m_cards m_card]; reflexivity.
Qed.

(** ** Texts *)
Lemma srun_before E : forall ls m, Forall (fun l => ~ ends_eq l) ls -> ~ ends_eq (m_line m) ->
  exists m', fold_left (sstep E) ls (Normal m) = Normal m' /\ ~ ends_eq (m_line m').
Proof.
  induction ls as [|p ls IH]; intros m Hf Hm; [exists m; auto|]. cbn [fold_left].
  pose proof (Forall_inv Hf) as Hp. apply Forall_inv_tail in Hf.
  assert (H1 : exists m1, sstep E (Normal m) p = Normal m1 /\ ~ ends_eq (m_line m1)).
  { cbn [sstep]. destruct (is_folded p) eqn:Ef.
    - eexists. split; [reflexivity|]. cbn [m_line]. apply is_folded_spec in Ef as (c & r & -> & _). change (mid 1 (c :: r)) with r.
      destruct r as [|y r]; [rewrite app_nil_r; auto|]. intros H. apply ends_eq_app in H; [|discriminate].
      apply Hp. destruct H as [q ->]. exists (c :: q). auto.
    - destruct (isnil (trimmed p)); [exists m; auto|]. rewrite soft_none by auto.
      destruct (m_in m && negb (isnil (m_line m))); (eexists; split; [reflexivity|]; apply dispatch_line; auto). }
  destruct H1 as (m1 & -> & Hm1). apply IH; auto.
Qed.

Definition one_card_text (E : Ext) (nl : bytes) (before : list bytes) (b : bytes) (bs : list block) (e : bytes) (after : list bytes) : Prop :=
  newline nl /\ Forall plain_bytes (before ++ b :: e :: after) /\ Forall (fun l => ~ ends_eq l) before /\
  begin_line b /\ end_line e /\ Forall block_ok bs.

Lemma plain_clean nl ls : newline nl -> Forall plain_bytes ls -> map (clean nl) ls = ls.
Proof.
  intros Hn Hf. rewrite <- (map_id ls) at 2. apply map_ext_in. intros l Hl. rewrite Forall_forall in Hf.
  destruct (Hf l Hl) as [_ H]. apply clean_keep; auto. intros q ->. apply H, in_app_iff. right. left. auto.
Qed.
Lemma blocks_plain bs : Forall block_ok bs -> Forall plain_bytes (flat_map block_lines bs).
Proof.
  induction bs as [|b bs IH]; intros H; [constructor|]. cbn [flat_map]. apply Forall_app. split.
  - apply Forall_inv in H. apply H.
  - apply IH. apply Forall_inv_tail in H. exact H.
Qed.

Lemma card_in_run E nl before b bs e after : one_card_text E nl before b bs e after ->
  In 10%N (card_in nl before b bs e after) /\
  exists m, forall bs', one_card_text E nl before b bs' e after ->
    srun E (Normal lm_init) (physical_lines (card_in nl before b bs' e after)) =
    srun E (Normal (mkLM [] [] (m_cards m ++ [card_of (map (fun b => parse_pure E (content b)) bs')]) false)) (after ++ [[]]).
Proof.
  intros (Hn & Hp & Hl & Hb & He & Hf). split.
  { apply text_of_lf; auto. destruct before; discriminate. }
  destruct (srun_before E before lm_init Hl not_ends_nil) as (m & Hm & Hml). exists m. clear bs Hf.
  intros bs' (_ & _ & _ & _ & _ & Hf). unfold card_in.
  apply Forall_app in Hp as [P1 P2].
  assert (Hpl : Forall plain_bytes (before ++ b :: flat_map block_lines bs' ++ e :: after)).
  { apply Forall_app. split; [exact P1|]. constructor; [apply Forall_inv in P2; exact P2|].
    apply Forall_app. split; [apply blocks_plain; auto|]. apply Forall_inv_tail in P2. exact P2. }
  rewrite physical_text_of; [|auto|eapply Forall_impl; [|exact Hpl]; intros l [H _]; exact H].
  rewrite plain_clean by auto. rewrite <- app_assoc. cbn [app].
  rewrite srun_app by discriminate. rewrite Hm.
  replace (b :: (flat_map block_lines bs' ++ e :: after) ++ [[]]) with ((b :: flat_map block_lines bs' ++ [e]) ++ after ++ [[]])
    by (cbn [app]; rewrite <- !app_assoc; reflexivity).
  rewrite srun_app by (destruct after; discriminate). rewrite card_run by auto. reflexivity.
Qed.

Lemma named_filter E ps : Forall (fun p => named (fst p) (snd p)) ps -> forall id,
  filter (fun l => leqb (vl_id l) id) (map (fun p => parse_pure E (content (snd p))) ps) =
  map (fun p => parse_pure E (content (snd p))) (filter (fun p => leqb (fst p) id) ps).
Proof.
  intros Hf id. induction ps as [|p ps IH]; [reflexivity|]. pose proof (Forall_inv Hf) as Hp. apply Forall_inv_tail in Hf.
  change bytes with (list N) in *. cbn [map filter]. rewrite (named_id E (fst p) (snd p) Hp). destruct (leqb (fst p) id); cbn [map]; rewrite IH by auto; reflexivity.
Qed.

Lemma srun_to E t cards : In 10%N t -> srun E (Normal lm_init) (physical_lines t) = Some cards -> parses_to E t cards.
Proof. intros Hin Hr. exists (1 + count_occ N.eq_dec t 10%N). apply srun_parses; auto. Qed.

Lemma order_free E nl before b ps qs e after :
  one_card_text E nl before b (map snd ps) e after -> Forall block_ok (map snd qs) ->
  Forall (fun p => named (fst p) (snd p)) (ps ++ qs) -> same_order ps qs ->
  settled (card_in nl before b (map snd ps) e after) ->
  exists cards, parses_to E (card_in nl before b (map snd ps) e after) cards /\
    parses_to E (card_in nl before b (map snd qs) e after) cards.
Proof.
  intros H1 Hq Hn Hs Hset. assert (H2 : one_card_text E nl before b (map snd qs) e after) by (unfold one_card_text in *; tauto).
  destruct (settled_srun E _ Hset) as [cards Hr]. exists cards.
  destruct (card_in_run E nl before b _ e after H1) as (L1 & m & Hm). destruct (card_in_run E nl before b _ e after H2) as (L2 & _).
  split; [apply srun_to; auto|]. apply srun_to; auto. rewrite <- Hr, (Hm _ H1), (Hm _ H2). f_equal.
  assert (Hc : card_of (map (fun b0 => parse_pure E (content b0)) (map snd qs)) = card_of (map (fun b0 => parse_pure E (content b0)) (map snd ps))).
  { rewrite !map_map. apply card_of_ext. intros id. apply Forall_app in Hn as [N1 N2]. rewrite !named_filter by auto. rewrite (Hs id). reflexivity. }
  rewrite Hc. reflexivity.
Qed.
