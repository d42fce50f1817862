(** Reading back any list of cards that [VCardParser::createVCards] has written: each
    line that produces output is read as the pure parse of its logical line. *)
From Coq Require Import Permutation.
From Verif Require Import Base BaseFacts Utf8 Utf8Facts M_ParamMap M_VCard M_VCardText
  S_Escape P_Escape S_Fold P_Fold S_CardText P_CardText S_Card P_Assoc P_Card S_Parse P_Parse P_Parse2
  S_RoundTrip P_RoundTrip P_RoundTrip2 P_RoundTrip3.

(** the logical line written for a property line *)
Definition wline (E : Ext) (l : vline) : bytes :=
  match vl_value l with
  | QInvalid => to_latin1 (vl_id l) ++ B ";base64," ++ vl_b64 l
  | _ => logical E l
  end.
Definition loud (E : Ext) (l : vline) : bool := negb (isnil (line_text E l)).
Definition reread (E : Ext) (l : vline) : vline := parse_pure E (wline E l).
Definition clean (s : bytes) : Prop := ~ In 13%N s /\ ~ In 10%N s.
Definition start_ok (s : bytes) : Prop := exists c t, s = c :: t /\ (33 <= c <= 126)%N.
(** a line that can be read back *)
Definition good (E : Ext) (l : vline) : Prop :=
  loud E l = true ->
  clean (wline E l) /\ start_ok (match vl_value l with QInvalid => to_latin1 (vl_id l) | _ => header_text l end) /\
  is_begin (wline E l) = false /\ is_end (wline E l) = false /\ quiet (wline E l).

Lemma starts_ci_app p a b : starts_with_ci p a = true -> starts_with_ci p (a ++ b) = true.
Proof.
  unfold starts_with_ci. rewrite to_lower_app. generalize (to_lower p), (to_lower a), (to_lower b).
  intros q. induction q as [|x q IH]; intros s t; auto. destruct s as [|y s]; [discriminate|]. cbn.
  destruct (N.eqb x y); cbn; auto.
Qed.

Lemma wline_chunks E l : loud E l = true -> clean (wline E l) ->
  start_ok (match vl_value l with QInvalid => to_latin1 (vl_id l) | _ => header_text l end) ->
  exists c0 cs, line_text E l = terminated (c0 :: map (cons 32%N) cs) /\ List.concat (c0 :: cs) = wline E l /\ start_ok c0.
Proof.
  unfold loud. rewrite negb_true_iff. intros Hl [Hc1 Hc2] (h & t & Eh & Hh).
  destruct (vl_value l) eqn:Ev.
  - unfold line_text, wline in *. rewrite Ev in *. destruct (isnil (vl_b64 l)); [discriminate|].
    destruct (fix_line_size_chunks (B ";base64," ++ vl_b64 l) false) as (c0 & cs & Hf & Hc & _).
    exists (to_latin1 (vl_id l) ++ c0), cs. rewrite Hf. split; [|split].
    + rewrite join_terminated. cbn [terminated flat_map]. rewrite <- !app_assoc. reflexivity.
    + cbn [List.concat] in *. rewrite <- app_assoc, Hc. reflexivity.
    + rewrite Eh. exists h, (t ++ c0). split; auto.
  - assert (Hv : has_value l) by (unfold has_value; rewrite Ev; discriminate).
    rewrite line_text_value in Hl |- * by auto. destruct (isnil (fst (value_text E l))) eqn:En; [discriminate|].
    unfold wline in *. rewrite Ev in *. unfold logical in *.
    destruct (fix_line_size_chunks (header_text l ++ [cCOLON] ++ fst (value_text E l)) (snd (value_text E l))) as (c0 & cs & Hf & Hc & _).
    exists c0, cs. split; [rewrite Hf; apply join_terminated|]. split; auto.
    rewrite Eh in Hf, Hc. destruct (first_chunk h (t ++ [cCOLON] ++ fst (value_text E l)) (snd (value_text E l)) c0 cs) as [r Hr]; [lia|lia|auto|auto|].
    exists h, r. auto.
  - assert (Hv : has_value l) by (unfold has_value; rewrite Ev; discriminate).
    rewrite line_text_value in Hl |- * by auto. destruct (isnil (fst (value_text E l))) eqn:En; [discriminate|].
    unfold wline in *. rewrite Ev in *. unfold logical in *.
    destruct (fix_line_size_chunks (header_text l ++ [cCOLON] ++ fst (value_text E l)) (snd (value_text E l))) as (c0 & cs & Hf & Hc & _).
    exists c0, cs. split; [rewrite Hf; apply join_terminated|]. split; auto.
    rewrite Eh in Hf, Hc. destruct (first_chunk h (t ++ [cCOLON] ++ fst (value_text E l)) (snd (value_text E l)) c0 cs) as [r Hr]; [lia|lia|auto|auto|].
    exists h, r. auto.
Qed.

Lemma good_step E l : good E l -> loud E l = true ->
  exists ls, line_text E l = terminated ls /\ Forall (fun x => ~ In 13%N x /\ ~ In 10%N x) ls /\
    forall m, Inv m -> lm_quiet m E ls /\ Inv (lm_run E m ls) /\
      pend E (lm_run E m ls) = add_line (reread E l) (pend E m) /\ m_cards (lm_run E m ls) = m_cards m.
Proof.
  intros Hg Hl. destruct (Hg Hl) as (Hcl & Hst & Hnb & Hne & Hq).
  destruct (wline_chunks E l Hl Hcl Hst) as (c0 & cs & Ht & Hc & (h & r & Eh & Hh)).
  exists (c0 :: map (cons 32%N) cs). split; [exact Ht|].
  assert (Hno' : forall c x, (c = 13 \/ c = 10)%N -> In x (c0 :: cs) -> ~ In c x).
  { intros c x Hc' Hx H. assert (In c (wline E l)) by (rewrite <- Hc; eapply in_concat_chunk; eauto).
    destruct Hcl as [H1 H2]. destruct Hc' as [->| ->]; auto. }
  split.
  { constructor; [split; apply Hno'; auto; left; auto|]. apply Forall_forall. intros x Hx.
    apply in_map_iff in Hx as (y & <- & Hy). split; (intros [H|H]; [discriminate|]).
    - apply (Hno' 13%N y); auto. right; auto.
    - apply (Hno' 10%N y); auto. right; auto. }
  assert (Hnf : is_folded c0 = false).
  { destruct (is_folded c0) eqn:E1; auto. apply is_folded_spec in E1 as (c & r' & E1 & E2). rewrite Eh in E1.
    injection E1 as -> _. lia. }
  assert (Hnbl : isnil (trimmed c0) = false).
  { destruct (isnil (trimmed c0)) eqn:E1; auto. apply trimmed_nil in E1. rewrite Eh in E1. inversion E1; subst.
    unfold is_space in *. lia. }
  assert (Hbeg : is_begin c0 = false).
  { destruct (is_begin c0) eqn:E1; auto. rewrite <- Hnb. rewrite <- Hc. symmetry. cbn [List.concat]. apply starts_ci_app. exact E1. }
  assert (Hend : is_end c0 = false).
  { destruct (is_end c0) eqn:E1; auto. rewrite <- Hne. rewrite <- Hc. symmetry. cbn [List.concat]. apply starts_ci_app. exact E1. }
  assert (Hstep : forall m, m_in m = true -> lm_step E m c0 = mkLM c0 (pend E m) (m_cards m) true).
  { intros m Hm. unfold lm_step, lm_dispatch, pend. rewrite Hnf, Hnbl, Hbeg, Hend, Hm. cbn [andb].
    destruct (isnil (m_line m)); cbn; rewrite ?Hm; auto. }
  assert (Hrun : forall m, m_in m = true -> lm_run E m (c0 :: map (cons 32%N) cs) = mkLM (wline E l) (pend E m) (m_cards m) true).
  { intros m Hm. change (lm_run E m (c0 :: map (cons 32%N) cs)) with (lm_run E (lm_step E m c0) (map (cons 32%N) cs)).
    rewrite Hstep, run_folds by auto. cbn. f_equal. exact Hc. }
  intros m [Hm Hqm]. rewrite Hrun by auto. split; [|split; [|split]].
  - cbn [lm_quiet]. split; auto. apply quiet_folds.
  - split; auto.
  - unfold pend at 1. cbn [m_line m_card]. rewrite (proj2 (isnil_false _)); auto. rewrite <- Hc, Eh. discriminate.
  - auto.
Qed.

Definition readings (E : Ext) (ls : list vline) : list vline := map (reread E) (filter (loud E) ls).

Lemma good_lines E lines : Forall (good E) lines ->
  exists ls, flat_map (line_text E) lines = terminated ls /\ Forall (fun x => ~ In 13%N x /\ ~ In 10%N x) ls /\
    forall m, Inv m -> lm_quiet m E ls /\ Inv (lm_run E m ls) /\
      pend E (lm_run E m ls) = fold_left (fun c l => add_line l c) (readings E lines) (pend E m) /\ m_cards (lm_run E m ls) = m_cards m.
Proof.
  induction lines as [|l lines IH]; intros H.
  - exists []. split; auto. split; auto. intros m Hm. repeat split; cbn; auto; apply Hm.
  - inversion H as [|? ? H1 H2]; subst. destruct (IH H2) as (l2 & E2 & F2 & R2).
    unfold readings. cbn [filter flat_map]. destruct (loud E l) eqn:El.
    + destruct (good_step E l H1 El) as (l1 & E1 & F1 & R1).
      exists (l1 ++ l2). rewrite E1, E2, terminated_app.
      split; auto. split; [apply Forall_app; auto|]. intros m Hm. rewrite lm_run_app.
      destruct (R1 m Hm) as (Q1 & I1 & P1 & C1). destruct (R2 _ I1) as (Q2 & I2 & P2 & C2).
      split; [apply lm_quiet_app; auto|]. split; auto. split; [|congruence]. cbn [map fold_left]. rewrite P2, P1. auto.
    + unfold loud in El. apply negb_false_iff, isnil_true in El. rewrite El. cbn [app]. exists l2. auto.
Qed.

(** the card that is read for a written card *)
Definition reread_card (E : Ext) (c : vcard) : vcard := card_of (readings E (written c)).
Definition good_card (E : Ext) (c : vcard) : Prop := Forall (good E) (written c).

Lemma good_card_step E c : good_card E c ->
  exists ls, ls <> [] /\ card_text E c = terminated ls /\ Forall (fun x => ~ In 13%N x /\ ~ In 10%N x) ls /\
    forall m, m_in m = false -> lm_quiet m E ls /\ lm_run E m ls = mkLM [] [] (m_cards m ++ [reread_card E c]) false.
Proof.
  intros Hw. destruct (good_lines E _ Hw) as (ls & E1 & F1 & R1).
  exists (B "BEGIN:VCARD" :: ls ++ [B "END:VCARD"; []]). split; [discriminate|]. split; [|split].
  - unfold card_text. unfold written in E1. rewrite flat_map_flat_map in E1. rewrite E1.
    change (terminated (B "BEGIN:VCARD" :: ls ++ [B "END:VCARD"; []])) with
      ((B "BEGIN:VCARD" ++ crlf) ++ terminated (ls ++ [B "END:VCARD"; []])).
    rewrite terminated_app, <- !app_assoc. do 3 f_equal.
  - constructor; [split; apply mem_false; reflexivity|]. apply Forall_app. split; auto.
    constructor; [split; apply mem_false; reflexivity|]. constructor; [split; apply mem_false; reflexivity|constructor].
  - intros m Hm.
    assert (Hb : lm_step E m (B "BEGIN:VCARD") = mkLM [] [] (m_cards m) true).
    { unfold lm_step. rewrite Hm. cbn [andb]. reflexivity. }
    assert (HI : Inv (mkLM [] [] (m_cards m) true)) by (split; [reflexivity|exact I]).
    destruct (R1 _ HI) as (Q1 & [I1 I2] & P1 & C1).
    assert (He : lm_step E (lm_run E (mkLM [] [] (m_cards m) true) ls) (B "END:VCARD") = mkLM [] [] (m_cards m ++ [reread_card E c]) false).
    { set (m' := lm_run E _ ls) in *. unfold lm_step.
      change (is_folded (B "END:VCARD")) with false. change (isnil (trimmed (B "END:VCARD"))) with false. cbn iota.
      unfold lm_dispatch. change (is_begin (B "END:VCARD")) with false. change (is_end (B "END:VCARD")) with true. cbn iota.
      rewrite I1. cbn [andb]. cbn in C1. unfold pend in P1. cbn [m_line m_card isnil] in P1.
      unfold reread_card, card_of. rewrite <- P1.
      destruct (isnil (m_line m')); cbn [negb m_cards m_card] in *; rewrite C1; auto. }
    split.
    + cbn [lm_quiet]. rewrite Hb. split; [intros _ _ H1; congruence|]. apply lm_quiet_app; auto.
      cbn [lm_quiet]. split; [intros; auto|]. rewrite He. split; [intros _ H1; discriminate|auto].
    + cbn [lm_run fold_left]. rewrite Hb. change (fold_left (lm_step E)) with (fun l m => lm_run E m l). cbn beta.
      rewrite lm_run_app. cbn [lm_run fold_left]. rewrite He. reflexivity.
Qed.

Lemma good_cards_step E cards : Forall (good_card E) cards ->
  exists ls, (cards <> [] -> ls <> []) /\ create_vcards E cards = terminated ls /\ Forall (fun x => ~ In 13%N x /\ ~ In 10%N x) ls /\
    forall m, m_in m = false -> lm_quiet m E ls /\ m_in (lm_run E m ls) = false /\
      m_cards (lm_run E m ls) = m_cards m ++ map (reread_card E) cards.
Proof.
  induction cards as [|c cards IH]; intros H.
  - exists []. repeat split; auto; cbn; auto. rewrite app_nil_r. auto.
  - inversion H as [|? ? H1 H2]; subst. destruct (good_card_step E c H1) as (l1 & N1 & E1 & F1 & R1).
    destruct (IH H2) as (l2 & _ & E2 & F2 & R2). exists (l1 ++ l2). split.
    { intros _. destruct l1; [congruence|discriminate]. }
    unfold create_vcards in *. cbn [flat_map]. rewrite E1, E2, terminated_app. split; auto. split; [apply Forall_app; auto|].
    intros m Hm. destruct (R1 m Hm) as [Q1 M1]. rewrite lm_run_app, M1.
    destruct (R2 (mkLM [] [] (m_cards m ++ [reread_card E c]) false) eq_refl) as (Q2 & I2 & C2).
    split; [apply lm_quiet_app; [auto|rewrite M1; auto]|]. split; auto. rewrite C2. cbn. rewrite <- app_assoc. auto.
Qed.

Theorem cards_reread E cards : Forall (good_card E) cards -> parses_to E (create_vcards E cards) (map (reread_card E) cards).
Proof.
  intros H. destruct (good_cards_step E cards H) as (ls & Hne & E1 & F1 & R1).
  destruct (R1 lm_init eq_refl) as (Q & _ & C). cbn [m_cards lm_init app] in C.
  assert (Hr : create_vcards E cards = [] /\ cards = [] \/ reading (create_vcards E cards) = ls ++ [[]]).
  { destruct cards as [|c cards]; [left; auto|right].
    unfold reading. rewrite E1, physical_terminated by auto.
    assert (Hm : mem 10 (terminated ls) = true).
    { apply mem_In. destruct ls as [|l ls]; [exfalso; apply Hne; [discriminate|auto]|]. cbn [terminated flat_map].
      apply in_app_iff. left. apply in_app_iff. right. right; left; auto. }
    rewrite Hm. auto. }
  destruct Hr as [[Ht ->]|Hr].
  - exists 2. intros fuel Hf. rewrite Ht. destruct fuel as [|[|n]]; try lia. destruct n; reflexivity.
  - replace (map (reread_card E) cards) with (m_cards (lm_run E lm_init (reading (create_vcards E cards)))).
    + apply parses_to_lm. rewrite Hr. apply lm_quiet_app; auto. cbn. split; auto. intros _ H1. discriminate.
    + rewrite Hr, lm_run_app. cbn [lm_run fold_left]. rewrite lm_blank_nil. exact C.
Qed.

(** ** the order in which lines are written and read *)
Definition in_order (c : vcard) : list vline := flat_map (fun id => card_lines id c) (identifiers c).

Lemma card_lines_ids id L : Forall (fun l => vl_id l = id) (card_lines id (card_of L)).
Proof.
  rewrite card_lines_spec. apply Forall_forall. intros l Hl. apply filter_In in Hl as [_ Hl]. apply leqb_eq in Hl. auto.
Qed.
Lemma not_identifier id L : ~ In id (identifiers (card_of L)) -> of_id id L = [].
Proof.
  intros H. destruct (card_of_ok L) as [_ Hf]. specialize (Hf id). rewrite find_lines_afind in Hf.
  change (identifiers (card_of L)) with (map fst (card_of L)) in H. rewrite (proj2 (afind_None _ _) H) in Hf.
  destruct (of_id id L); [auto|discriminate].
Qed.
Lemma of_id_in_order id L : of_id id (in_order (card_of L)) = of_id id L.
Proof.
  unfold in_order. destruct (identifiers_spec L) as [Hs _].
  rewrite of_id_flat; [|apply increasing_NoDup; auto|intros i; apply card_lines_ids].
  destruct (contains id (identifiers (card_of L))) eqn:Ec.
  - apply card_lines_spec.
  - symmetry. apply not_identifier. apply contains_false. auto.
Qed.
Lemma of_id_written id L : of_id id (written (card_of L)) = of_id id L.
Proof.
  unfold written. destruct (identifiers_spec L) as [Hs _].
  destruct (ordered_idents_spec (card_of L) (increasing_NoDup _ Hs)) as [Hn Ho].
  rewrite of_id_flat; [|auto|intros i; apply card_lines_ids].
  destruct (contains id (ordered_idents (card_of L))) eqn:Ec.
  - apply card_lines_spec.
  - symmetry. apply not_identifier. apply contains_false in Ec. rewrite <- Ho. auto.
Qed.
Lemma in_of_id l ls : In l ls <-> In l (of_id (vl_id l) ls).
Proof. unfold of_id. rewrite filter_In, leqb_refl. tauto. Qed.
Lemma in_order_in l L : In l (in_order (card_of L)) <-> In l L.
Proof. rewrite in_of_id, of_id_in_order, <- in_of_id. tauto. Qed.
Lemma written_in l L : In l (written (card_of L)) <-> In l L.
Proof. rewrite in_of_id, of_id_written, <- in_of_id. tauto. Qed.

(** a selection of lines all of one identifier is not disturbed by sorting *)
Lemma filter_filter {A} (p q : A -> bool) l : filter p (filter q l) = filter (fun x => q x && p x) l.
Proof. induction l as [|x l IH]; auto. cbn. destruct (q x); cbn; rewrite IH; destruct (p x); auto. Qed.
Lemma filter_ext_in' {A} (p q : A -> bool) l : (forall x, In x l -> p x = q x) -> filter p l = filter q l.
Proof. induction l as [|x l IH]; intros H; auto. cbn. rewrite (H x) by (left; auto). rewrite IH by (intros; apply H; right; auto). auto. Qed.
Lemma filter_of_id p id ls : (forall l, p l = true -> vl_id l = id) -> filter p ls = filter p (of_id id ls).
Proof.
  intros H. unfold of_id. rewrite filter_filter. apply filter_ext_in'. intros l _.
  destruct (p l) eqn:E; [|rewrite andb_false_r; auto]. apply H in E. subst. rewrite leqb_refl. auto.
Qed.
Lemma select_in_order p id L : (forall l, p l = true -> vl_id l = id) -> filter p (in_order (card_of L)) = filter p L.
Proof. intros H. rewrite (filter_of_id p id) by auto. rewrite of_id_in_order. symmetry. apply filter_of_id; auto. Qed.
Lemma select_written p id L : (forall l, p l = true -> vl_id l = id) -> filter p (written (card_of L)) = filter p L.
Proof. intros H. rewrite (filter_of_id p id) by auto. rewrite of_id_written. symmetry. apply filter_of_id; auto. Qed.

Lemma filter_map' {A C} (p : C -> bool) (f : A -> C) l : filter p (map f l) = map f (filter (fun x => p (f x)) l).
Proof. induction l as [|x l IH]; auto. cbn. rewrite IH. destruct (p (f x)); auto. Qed.

(** the lines of identifier [id] that are read from the card made of the lines [L] *)
Lemma select_reread E p id L : (forall l, p l = true -> vl_id l = id) ->
  (forall l, In l L -> loud E l = true -> p (reread E l) = p l) ->
  filter p (in_order (reread_card E (card_of L))) = readings E (filter p L).
Proof.
  intros H Hp. unfold reread_card. rewrite (select_in_order p id) by auto. unfold readings. rewrite filter_map'. f_equal.
  rewrite filter_filter. rewrite <- (select_written p id L) by auto. rewrite filter_filter. apply filter_ext_in'.
  intros l Hl. rewrite written_in in Hl. destruct (loud E l) eqn:El; [|rewrite andb_false_r; auto].
  rewrite andb_true_r. cbn [andb]. apply Hp; auto.
Qed.
Lemma in_reread E l L : In l (in_order (reread_card E (card_of L))) <-> exists x, In x L /\ loud E x = true /\ reread E x = l.
Proof.
  unfold reread_card. rewrite in_order_in. unfold readings. rewrite in_map_iff. split.
  - intros (x & <- & Hx). apply filter_In in Hx as [Hx Hx']. rewrite written_in in Hx. eauto.
  - intros (x & Hx & Hl & <-). exists x. split; auto. apply filter_In. rewrite written_in. auto.
Qed.
