(** Termination and isolation of cards (C02, C07). *)
From Verif Require Import Base BaseFacts Utf8 Utf8Facts M_ParamMap M_VCard M_VCardText S_Parse P_Escape P_Parse.

(** ** deciding the vocabulary *)
Lemma ends_with_1 c s : ends_with [c] s = true <-> exists a, s = a ++ [c].
Proof.
  unfold ends_with. cbn [rev app]. rewrite starts_with_spec. split.
  - intros [t H]. exists (rev t). rewrite <- (rev_involutive s), H. reflexivity.
  - intros [a ->]. exists (rev a). rewrite rev_app_distr. reflexivity.
Qed.
Lemma is_folded_spec p : is_folded p = true <-> folded_line p.
Proof.
  unfold is_folded, folded_line, cSP, cTAB. destruct p as [|c r]; cbn.
  - split; [discriminate|]. intros (? & ? & H & _). discriminate.
  - rewrite !andb_true_r, orb_true_iff, !N.eqb_eq. split.
    + intros H. exists c, r. split; auto. destruct H; auto.
    + intros (c' & r' & H & H'). injection H as -> ->. destruct H'; auto.
Qed.
Lemma trim_left_nil s : trim_left s = [] <-> blank_line s.
Proof.
  unfold blank_line. induction s as [|c s IH]; cbn; [split; auto|]. destruct (is_space c) eqn:E.
  - rewrite IH. split; [constructor; auto|intros H; inversion H; auto].
  - split; [discriminate|]. intros H; inversion H; congruence.
Qed.
Lemma trim_left_cases s : trim_left s = [] \/ exists c t, trim_left s = c :: t /\ is_space c = false.
Proof. induction s as [|c s IH]; cbn; auto. destruct (is_space c) eqn:E; auto. right; eauto. Qed.
Lemma trimmed_nil s : isnil (trimmed s) = true <-> blank_line s.
Proof.
  rewrite isnil_true. unfold trimmed. rewrite <- trim_left_nil. split.
  - intros H. destruct (trim_left_cases s) as [|(c & t & E & Hc)]; auto. exfalso.
    rewrite E in H. assert (H' : trim_left (rev (c :: t)) = []).
    { rewrite <- (rev_involutive (trim_left _)), H. auto. }
    apply trim_left_nil in H'. unfold blank_line in H'. rewrite Forall_forall in H'.
    specialize (H' c). rewrite H' in Hc; [discriminate|]. apply in_rev. rewrite rev_involutive. left; auto.
  - intros ->. reflexivity.
Qed.
Lemma starts_with_ci_spec p s : to_lower p = p ->
  (starts_with_ci p s = true <-> exists a b, s = a ++ b /\ to_lower a = p).
Proof.
  intros Hp. unfold starts_with_ci. rewrite Hp, starts_with_spec. split.
  - intros [t H]. exists (firstn (length p) s), (skipn (length p) s). split; [symmetry; apply firstn_skipn|].
    unfold to_lower in *. rewrite <- firstn_map, H. apply firstn_app_exact.
  - intros (a & b & -> & Ha). exists (to_lower b). rewrite to_lower_app, Ha. auto.
Qed.
Lemma is_begin_spec p : is_begin p = true <-> begin_line p.
Proof. apply starts_with_ci_spec. reflexivity. Qed.
Lemma is_end_spec p : is_end p = true <-> end_line p.
Proof. apply starts_with_ci_spec. reflexivity. Qed.

(** ** a line that fetches more input has a soft break *)
Lemma replace2_last a b d c s r : c <> d -> replace2 a b [d] s = r ++ [c] -> exists s', s = s' ++ [c].
Proof.
  intros Hc. revert r. induction s as [|x|x y t IH1 IH2] using two_step_ind; intros r H.
  - destruct r; discriminate.
  - cbn in H. exists []. destruct r as [|? r]; cbn in H; [injection H as ->; auto|]. destruct r; discriminate.
  - rewrite replace2_cons2 in H. destruct ((x =? a)%N && (y =? b)%N) eqn:E.
    + cbn [app] in H. destruct r as [|z r]; cbn in H.
      * injection H as H1 H2. congruence.
      * injection H as H1 H2. destruct (IH1 _ H2) as [s' ->]. exists (x :: y :: s'). auto.
    + destruct r as [|z r]; cbn [app] in H.
      * injection H as H1 H2. exfalso. destruct t as [|z t]; [discriminate|].
        destruct ((y =? a)%N && (z =? b)%N); discriminate.
      * injection H as H1 H2. destruct (IH2 _ H2) as [s' ->]. exists (x :: s'). auto.
Qed.
Lemma remove_escapes_last s : ends_with [cEQ] (remove_escapes s) = true -> exists a, s = a ++ [61%N].
Proof.
  rewrite ends_with_1. unfold remove_escapes, cBS, cLF, cCR, cCOMMA, cEQ. intros [a H].
  destruct (negb (mem 92 s)); [eauto|].
  repeat (apply replace2_last in H as [? H]; [|discriminate]). eauto.
Qed.

Ltac dif := match goal with |- context [if ?b then _ else _] => destruct b end.
Lemma px_after_acc ch x y : px_after ch x = Some y ->
  (px_acc y = [] \/ px_acc y = px_acc x ++ [ch]) /\ px_enc y = px_enc x.
Proof.
  unfold px_after. repeat dif; intros H; try discriminate; injection H as <-; cbn; auto.
Qed.
Lemma px_step_acc ch x x' go : px_step ch x = (x', go) ->
  (go = true -> px_acc x' = [] \/ px_acc x' = px_acc x ++ [ch]) /\
  (px_enc x' = px_enc x \/ px_enc x' = to_lower (px_acc x)).
Proof.
  unfold px_step. destruct (px_state x).
  - repeat dif; intros H; injection H as <- <-; cbn; auto.
  - dif; [|dif]; intros H; injection H as <- <-; cbn -[leqb]; try (split; [auto|]); auto.
    repeat dif; cbn -[leqb]; repeat dif; auto.
  - dif.
    + dif; [|dif]; intros H; injection H as <- <-; cbn -[leqb]; (split; [auto|]); repeat dif; auto.
    + destruct (px_after ch x) as [y|] eqn:Ea; intros H; injection H as <- <-; [|split; [discriminate|auto]].
      apply px_after_acc in Ea as [H1 H2]. auto.
  - dif; [|dif]; intros H; injection H as <- <-; cbn -[leqb]; (split; [auto|]); auto; repeat dif; auto.
  - destruct (px_after ch x) as [y|] eqn:Ea; intros H; injection H as <- <-; [|split; [discriminate|auto]].
    apply px_after_acc in Ea as [H1 H2]. auto.
Qed.

Definition has_qp (c : bytes) : Prop :=
  exists a q b, c = a ++ q ++ b /\ to_lower q = B "quoted-printable".
Lemma has_qp_app c d : has_qp c -> has_qp (c ++ d).
Proof. intros (a & q & b & -> & H). exists a, q, (b ++ d). rewrite <- !app_assoc. auto. Qed.

Lemma px_run_inv s : forall c x x' raw, px_run s x = (x', Some raw) ->
  (exists p, c = p ++ px_acc x) -> (px_enc x = B "quoted-printable" -> has_qp c) ->
  (exists d, s = d ++ raw) /\ (px_enc x' = B "quoted-printable" -> has_qp (c ++ s)).
Proof.
  induction s as [|ch s IH]; intros c x x' raw H Hp Hq; [discriminate|].
  cbn [px_run] in H. destruct (px_step ch x) as [y go] eqn:Es.
  destruct (px_step_acc _ _ _ _ Es) as [Ha He].
  assert (Hq' : px_enc y = B "quoted-printable" -> has_qp (c ++ [ch])).
  { intros Hy. destruct He as [He|He].
    - apply has_qp_app, Hq. congruence.
    - destruct Hp as [p ->]. exists p, (px_acc x), [ch]. rewrite <- app_assoc. split; auto. congruence. }
  destruct go.
  - destruct (IH (c ++ [ch]) y x' raw H) as [[d Hd] He'].
    + destruct (Ha eq_refl) as [->| ->].
      * exists (c ++ [ch]). rewrite app_nil_r. auto.
      * destruct Hp as [p ->]. exists p. rewrite app_assoc. auto.
    + exact Hq'.
    + split; [exists (ch :: d); rewrite Hd; auto|]. rewrite <- app_assoc in He'. exact He'.
  - injection H as <- <-. split; [exists [ch]; auto|]. intros Hy.
    change (ch :: s) with ([ch] ++ s). rewrite app_assoc. apply has_qp_app. auto.
Qed.

Lemma no_soft_break_quiet line : ~ soft_break line -> quiet line.
Proof.
  intros Hs. unfold quiet. destruct (px_run line px_init) as [x [raw|]] eqn:E; auto.
  intros Hq. destruct (ends_with [cEQ] (remove_escapes raw)) eqn:Ee; auto. exfalso. apply Hs.
  destruct (px_run_inv line [] px_init x raw E) as [[d Hd] Hh]; [exists []; auto|discriminate|].
  split; [exact (Hh Hq)|].
  apply remove_escapes_last in Ee as [a ->]. exists (d ++ a). rewrite Hd, app_assoc. auto.
Qed.

Lemma contents_quiet E ls : forall m, exists out, contents (m_in m) (m_line m) ls out /\
  (Forall (fun l => ~ soft_break l) out -> lm_quiet m E ls).
Proof.
  induction ls as [|p ls IH]; intros m.
  { exists []. split; [constructor|]. cbn. auto. }
  cbn [lm_quiet]. destruct (is_folded p) eqn:Ef.
  { destruct (IH (lm_step E m p)) as (out & Ho & Hq). exists out.
    assert (Es : lm_step E m p = mkLM (m_line m ++ mid 1 p) (m_card m) (m_cards m) (m_in m)).
    { unfold lm_step. rewrite Ef. auto. }
    split; [|intros H; split; [discriminate|auto]].
    apply is_folded_spec in Ef as (c & r & -> & Hc). rewrite Es in Ho. cbn in Ho. constructor; auto. }
  assert (Hnf : ~ folded_line p) by (rewrite <- is_folded_spec; congruence).
  destruct (isnil (trimmed p)) eqn:Et.
  { destruct (IH (lm_step E m p)) as (out & Ho & Hq). exists out.
    assert (Es : lm_step E m p = m) by (unfold lm_step; rewrite Ef, Et; auto).
    split; [|intros H; split; [discriminate|auto]].
    rewrite Es in Ho. apply ct_blank; auto. apply trimmed_nil; auto. }
  assert (Hnb : ~ blank_line p) by (rewrite <- trimmed_nil; congruence).
  destruct (IH (lm_step E m p)) as (out & Ho & Hq).
  exists (if m_in m then m_line m :: out else out). split.
  - revert Ho. unfold lm_step. rewrite Ef, Et.
    set (m1 := if _ && _ then _ else _).
    assert (Hm1 : m_in m1 = m_in m) by (unfold m1; destruct (_ && _); auto).
    unfold lm_dispatch. destruct (is_begin p) eqn:Eb; [|destruct (is_end p) eqn:Ee]; cbn [m_in m_line]; intros Ho.
    + apply ct_begin; auto. apply is_begin_spec; auto.
    + apply ct_finish; auto. apply is_end_spec; auto.
    + rewrite Hm1 in Ho. apply ct_line; auto.
      * rewrite <- is_begin_spec; congruence.
      * rewrite <- is_end_spec; congruence.
  - intros H. split.
    + intros _ _ Hin _. rewrite Hin in H. inversion H; subst. apply no_soft_break_quiet; auto.
    + apply Hq. destruct (m_in m); [inversion H; auto|auto].
Qed.

Lemma no_soft_breaks_quiet E text : no_soft_breaks text -> lm_quiet lm_init E (reading text).
Proof.
  intros H. destruct (contents_quiet E (reading text) lm_init) as (out & Ho & Hq).
  apply Hq, H. exact Ho.
Qed.

Lemma split_length c s : length (split c s) = S (count_occ N.eq_dec s c).
Proof.
  induction s as [|x s IH]; auto. cbn [split count_occ]. destruct (N.eqb_spec x c) as [->|N].
  - destruct (N.eq_dec c c); [|congruence]. cbn. rewrite IH. auto.
  - destruct (N.eq_dec x c); [congruence|]. destruct (split c s) as [|p ps] eqn:E; [apply split_nonnil in E; tauto|].
    cbn in *. lia.
Qed.
Lemma reading_length text : length (reading text) <= 2 + count_occ N.eq_dec text 10%N.
Proof.
  unfold reading, physical_lines. destruct (mem 10 text) eqn:E.
  - rewrite map_length, split_length. lia.
  - rewrite split_notin by (apply mem_false; auto). cbn. lia.
Qed.

Lemma parse_terminates E text : no_soft_breaks text ->
  exists cards, forall fuel, 2 + count_occ N.eq_dec text 10%N <= fuel ->
    parse_vcards E fuel text = Some cards.
Proof.
  intros H. exists (m_cards (lm_run E lm_init (reading text))). intros fuel Hf.
  apply parse_vcards_lm; [apply no_soft_breaks_quiet; auto|].
  pose proof (reading_length text). lia.
Qed.

(** ** isolation *)
Definition in_ok (m : lm) : Prop := m_in m = false -> m_card m = [].
Lemma lm_step_in_ok E m p : in_ok m -> in_ok (lm_step E m p).
Proof.
  unfold in_ok, lm_step, lm_dispatch. intros H.
  destruct (is_folded p); auto. destruct (isnil (trimmed p)); auto.
  destruct (m_in m) eqn:Ei; cbn [andb].
  - destruct (negb (isnil (m_line m))); destruct (is_begin p); cbn; auto; destruct (is_end p); cbn; auto; intros; congruence.
  - destruct (is_begin p); cbn; auto. destruct (is_end p); cbn; auto.
Qed.
Lemma lm_run_in_ok E ls : forall m, in_ok m -> in_ok (lm_run E m ls).
Proof. induction ls as [|p ls IH]; intros m H; auto. cbn. apply IH, lm_step_in_ok; auto. Qed.

Lemma lm_step_in E m p : m_in (lm_step E m p) =
  if is_begin p then true else if is_end p then false else m_in m.
Proof.
  unfold lm_step, lm_dispatch.
  assert (Hfirst : forall c r, p = c :: r -> is_space c = true -> is_begin p = false /\ is_end p = false).
  { intros c r -> Hc. unfold is_begin, is_end, starts_with_ci. cbn [to_lower map].
    assert (lower1 c = c) as Hl.
    { unfold lower1, is_upper. unfold is_space in Hc. destruct ((65 <=? c)%N && (c <=? 90)%N) eqn:E'; auto. exfalso. lia. }
    rewrite Hl. cbn [starts_with B map list_ascii_of_string].
    unfold is_space in Hc.
    destruct (N.eqb_spec (lower1 (N_of_ascii "b")) c) as [<-|]; [cbn in Hc; discriminate|].
    destruct (N.eqb_spec (lower1 (N_of_ascii "e")) c) as [<-|]; [cbn in Hc; discriminate|].
    apply N.eqb_neq in n, n0. cbn [to_lower map starts_with]. rewrite n, n0. auto. }
  destruct (is_folded p) eqn:Ef.
  { apply is_folded_spec in Ef as (c & r & Hp & Hc). destruct (Hfirst c r Hp) as [-> ->]; auto.
    destruct Hc; subst c; reflexivity. }
  destruct (isnil (trimmed p)) eqn:Et.
  { apply trimmed_nil in Et. destruct p as [|c r]; auto.
    unfold blank_line in Et. inversion Et; subst. destruct (Hfirst c r eq_refl) as [-> ->]; auto. }
  destruct (is_begin p); auto. destruct (is_end p); auto. destruct (_ && _); auto.
Qed.

Lemma lm_run_closed E ls : forall m,
  (m_in m = true -> exists q, In q ls /\ is_end q = true) ->
  (forall a p b, ls = a ++ p :: b -> is_begin p = true -> exists q, In q b /\ is_end q = true) ->
  m_in (lm_run E m ls) = false.
Proof.
  induction ls as [|p ls IH]; intros m Hm Hb.
  - cbn. destruct (m_in m); auto. destruct (Hm eq_refl) as (q & [] & _).
  - cbn. apply IH.
    + rewrite lm_step_in. destruct (is_begin p) eqn:Eb.
      * intros _. apply (Hb [] p ls); auto.
      * destruct (is_end p) eqn:Ee; [discriminate|]. intros Hi. destruct (Hm Hi) as (q & [->|Hq] & Hq'); eauto. congruence.
    + intros a q b -> Hq. apply (Hb (p :: a) q b); auto.
Qed.

Definition R (pre : list vcard) (m m0 : lm) : Prop :=
  m_cards m = pre ++ m_cards m0 /\ m_in m = m_in m0 /\ m_card m = m_card m0 /\
  (m_in m0 = true -> m_line m = m_line m0).
Lemma R_step E pre m m0 p : R pre m m0 -> R pre (lm_step E m p) (lm_step E m0 p).
Proof.
  intros (H1 & H2 & H3 & H4). unfold lm_step.
  destruct (is_folded p).
  { split; [|split; [|split]]; cbn; auto. intros H. rewrite H4; auto. }
  destruct (isnil (trimmed p)); [split; auto|].
  unfold lm_dispatch. rewrite H2. destruct (m_in m0) eqn:Ei; cbn [andb].
  - rewrite H4 by auto. rewrite H3.
    destruct (negb (isnil (m_line m0))); destruct (is_begin p); [|destruct (is_end p)| |destruct (is_end p)];
    unfold R; cbn [m_cards m_in m_card m_line]; rewrite ?H1, ?H3, ?app_assoc; repeat split; auto; congruence.
  - destruct (is_begin p); [|destruct (is_end p)];
    unfold R; cbn [m_cards m_in m_card m_line]; rewrite ?H1, ?H3, ?app_assoc; repeat split; auto; congruence.
Qed.
Lemma R_run E pre ls : forall m m0, R pre m m0 -> R pre (lm_run E m ls) (lm_run E m0 ls).
Proof. induction ls; intros m m0 H; auto. cbn. apply IHls, R_step; auto. Qed.
Lemma R_quiet E pre ls : forall m m0, R pre m m0 -> lm_quiet m0 E ls -> lm_quiet m E ls.
Proof.
  induction ls as [|p ls IH]; intros m m0 H Hq; auto. cbn [lm_quiet] in *. destruct Hq as [Hq1 Hq2]. split.
  - intros Hf Ht Hi Hl. destruct H as (_ & H2 & _ & H4). rewrite H2 in Hi. rewrite H4 in * by auto. auto.
  - eapply IH; [apply R_step; eauto|auto].
Qed.
Lemma lm_quiet_app E ls1 ls2 : forall m, lm_quiet m E ls1 -> lm_quiet (lm_run E m ls1) E ls2 -> lm_quiet m E (ls1 ++ ls2).
Proof. induction ls1 as [|p ls1 IH]; intros m H1 H2; auto. cbn in *. destruct H1; split; auto. Qed.
Lemma lm_quiet_app_l E ls1 ls2 : forall m, lm_quiet m E (ls1 ++ ls2) -> lm_quiet m E ls1.
Proof. induction ls1 as [|p ls1 IH]; intros m H; cbn in *; auto. destruct H; split; eauto. Qed.

Lemma split_app_gen c a t : split c (a ++ c :: t) = split c a ++ split c t.
Proof.
  induction a as [|x a IH]; cbn.
  - rewrite N.eqb_refl. auto.
  - destruct (N.eqb x c); [rewrite IH; auto|]. rewrite IH.
    destruct (split c a) eqn:E; [apply split_nonnil in E; tauto|]. auto.
Qed.

Lemma parses_to_lm E text : lm_quiet lm_init E (reading text) ->
  parses_to E text (m_cards (lm_run E lm_init (reading text))).
Proof. intros H. exists (length (reading text)). intros. apply parse_vcards_lm; auto. Qed.

Lemma lm_run_app E m a b : lm_run E m (a ++ b) = lm_run E (lm_run E m a) b.
Proof. apply fold_left_app. Qed.

Lemma lm_blank_nil E m : lm_step E m [] = m. Proof. reflexivity. Qed.

Lemma cards_isolated E t1 t2 :
  complete t1 -> In 10%N t2 -> no_soft_breaks t1 -> no_soft_breaks t2 ->
  exists c1 c2, parses_to E t1 c1 /\ parses_to E t2 c2 /\ parses_to E (t1 ++ t2) (c1 ++ c2).
Proof.
  intros [Hend Hclosed] Hlf Hs1 Hs2.
  pose proof (no_soft_breaks_quiet E _ Hs1) as Q1.
  pose proof (no_soft_breaks_quiet E _ Hs2) as Q2.
  exists (m_cards (lm_run E lm_init (reading t1))), (m_cards (lm_run E lm_init (reading t2))).
  split; [apply parses_to_lm; auto|]. split; [apply parses_to_lm; auto|].
  destruct Hend as [->|[a ->]].
  { cbn. apply parses_to_lm; auto. }
  assert (M1 : mem 10 (a ++ [10%N]) = true) by (apply mem_In, in_app_iff; right; left; auto).
  assert (M2 : mem 10 t2 = true) by (apply mem_In; auto).
  assert (M3 : mem 10 ((a ++ [10%N]) ++ t2) = true) by (rewrite mem_app, M1; auto).
  assert (R1 : reading (a ++ [10%N]) = physical_lines a ++ [[]]).
  { unfold reading. rewrite M1. unfold physical_lines. rewrite split_app_gen, map_app. auto. }
  assert (R2 : reading t2 = physical_lines t2) by (unfold reading; rewrite M2; auto).
  assert (R3 : reading ((a ++ [10%N]) ++ t2) = physical_lines a ++ physical_lines t2).
  { unfold reading. rewrite M3. unfold physical_lines. rewrite <- app_assoc. cbn [app]. rewrite split_app_gen, map_app. auto. }
  rewrite R1 in *. rewrite R2 in *.
  assert (Hsame : lm_run E lm_init (physical_lines a ++ [[]]) = lm_run E lm_init (physical_lines a)).
  { rewrite lm_run_app. reflexivity. }
  rewrite Hsame.
  assert (Hin : m_in (lm_run E lm_init (physical_lines a)) = false).
  { apply lm_run_closed; [discriminate|]. intros x p y Hx Hp.
    destruct (Hclosed x p (y ++ [[]])) as (q & Hq & He).
    - assert (HH : physical_lines (a ++ [10%N]) = physical_lines a ++ [[]]).
      { unfold physical_lines. rewrite split_app_gen, map_app. auto. }
      rewrite HH, Hx, <- app_assoc. auto.
    - apply is_begin_spec; auto.
    - exists q. apply is_end_spec in He. apply in_app_iff in Hq as [Hq|[<-|[]]]; auto. discriminate. }
  assert (HR : R (m_cards (lm_run E lm_init (physical_lines a))) (lm_run E lm_init (physical_lines a)) lm_init).
  { split; [rewrite app_nil_r; auto|]. split; [auto|]. split; [|discriminate].
    apply (lm_run_in_ok E (physical_lines a) lm_init); [intros _; auto|auto]. }
  assert (Hq : lm_quiet lm_init E (physical_lines a ++ physical_lines t2)).
  { apply lm_quiet_app; [eapply lm_quiet_app_l; eauto|]. eapply R_quiet; eauto. }
  pose proof (parses_to_lm E ((a ++ [10%N]) ++ t2)) as HP. rewrite R3 in HP.
  rewrite lm_run_app in HP. destruct (R_run E _ (physical_lines t2) _ _ HR) as (Hc & _).
  rewrite Hc in HP. apply HP; auto.
Qed.

(** ** sufficient conditions for concrete texts *)
Lemma contents_bytes i cur ls out : contents i cur ls out ->
  forall x l, In l out -> In x l -> In x cur \/ exists p, In p ls /\ In x p.
Proof.
  induction 1; intros x l Hl Hx.
  - destruct Hl.
  - destruct (IHcontents x l Hl Hx) as [H1|(q & H1 & H2)].
    + apply in_app_iff in H1 as [|]; auto. right. exists (c :: p). split; [left|right]; auto.
    + right. exists q. split; [right|]; auto.
  - destruct (IHcontents x l Hl Hx) as [H2|(q & H2 & H3)]; auto. right. exists q. split; [right|]; auto.
  - assert (H3 : l = cur \/ In l out) by (destruct inside; [destruct Hl; auto|auto]).
    destruct H3 as [->|H3]; auto. destruct (IHcontents x l H3 Hx) as [[]|(q & H4 & H5)]. right. exists q. split; [right|]; auto.
  - assert (H3 : l = cur \/ In l out) by (destruct inside; [destruct Hl; auto|auto]).
    destruct H3 as [->|H3]; auto. destruct (IHcontents x l H3 Hx) as [[]|(q & H4 & H5)]. right. exists q. split; [right|]; auto.
  - assert (H5 : l = cur \/ In l out) by (destruct inside; [destruct Hl; auto|auto]).
    destruct H5 as [->|H5]; auto. right. destruct (IHcontents x l H5 Hx) as [H6|(q & H6 & H7)].
    + exists p. split; [left|]; auto.
    + exists q. split; [right|]; auto.
Qed.
Definition no_eq_b (text : bytes) : bool := forallb (fun p => negb (mem 61 p)) (reading text).
Lemma no_eq_no_soft_breaks text : no_eq_b text = true -> no_soft_breaks text.
Proof.
  unfold no_eq_b. rewrite forallb_forall. intros H out Hc. apply Forall_forall. intros l Hl [_ [a ->]].
  destruct (contents_bytes _ _ _ _ Hc 61%N _ Hl) as [[]|(p & H1 & H2)]; [apply in_app_iff; right; left; auto|].
  specialize (H _ H1). apply negb_true_iff, mem_false in H. auto.
Qed.
Fixpoint closed_b (ls : list bytes) : bool :=
  match ls with [] => true | p :: r => (negb (is_begin p) || existsb is_end r) && closed_b r end.
Lemma closed_b_spec ls : closed_b ls = true ->
  forall a p b, ls = a ++ p :: b -> begin_line p -> exists q, In q b /\ end_line q.
Proof.
  induction ls as [|x ls IH]; intros H a p b E Hp; [destruct a; discriminate|].
  cbn [closed_b] in H. apply andb_true_iff in H as [H1 H2]. destruct a as [|y a]; cbn in E; injection E as E1 E2; subst.
  - apply is_begin_spec in Hp. rewrite Hp in H1. cbn in H1. apply existsb_exists in H1 as (q & ? & ?). exists q. split; auto.
    apply is_end_spec; auto.
  - eapply IH; eauto.
Qed.
