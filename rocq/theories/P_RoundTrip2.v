(** Round trip of lines and cards through text (C06), continued. *)
From Verif Require Import Base BaseFacts Utf8 Utf8Facts M_ParamMap M_VCard M_VCardText
  S_Escape P_Escape S_Fold P_Fold S_CardText P_CardText S_Card P_Assoc P_Card S_Parse P_Parse P_Parse2 S_RoundTrip P_RoundTrip.
Ltac Zify.zify_post_hook ::= Z.div_mod_to_equations.

(** ** ambiguity and UTF-8 *)
Lemma adj_app_high a b p r : Forall (fun c => (128 <= c)%N) p -> (a < 128)%N -> adj a b (p ++ r) = adj a b r.
Proof.
  induction p as [|x p IH]; intros H Ha; auto. inversion H; subst. cbn [app].
  assert (Hx : (x =? a)%N = false) by (apply N.eqb_neq; lia).
  destruct p as [|y p]; cbn [app].
  - destruct r; cbn; rewrite ?Hx; auto.
  - cbn [adj]. rewrite Hx. cbn [andb orb]. apply IH; auto.
Qed.
Lemma adj_single a b x : adj a b [x] = false.
Proof. cbn. rewrite andb_false_r. auto. Qed.
Lemma adj_tail a b x t : adj a b t = true -> adj a b (x :: t) = true.
Proof. intros H. cbn [adj]. rewrite H. apply orb_true_r. Qed.
Lemma adj_utf8 c n : (c < 128)%N -> c <> 63%N -> forall u, length u <= n -> adj 92 c (to_utf8 u) = true -> adj 92 c u = true.
Proof.
  intros Hc Hc63. induction n as [|n IH]; intros u Hn H.
  { destruct u; [discriminate|cbn in Hn; lia]. }
  destruct u as [|x t]; [discriminate|]. cbn [length] in Hn.
  assert (Hhead : forall v y r, to_utf8 v = y :: r -> y = c -> exists v', v = c :: v').
  { intros v y r Hv ->. destruct v as [|z v]; [discriminate|]. cbn [to_utf8] in Hv.
    destruct (N.ltb_spec z 128). { cbn in Hv. injection Hv as ->. eauto. }
    exfalso. destruct (z <? 2048)%N eqn:E2.
    { unfold enc2 in Hv. cbn [app] in Hv. injection Hv as Hv _. lia. }
    destruct (negb (is_surr z)). { unfold enc3 in Hv. cbn [app] in Hv. injection Hv as Hv _. lia. }
    destruct (is_high z).
    - destruct v as [|d v]; [congruence|]. destruct (is_low d); [|congruence]. unfold enc4 in Hv. cbn [app] in Hv. injection Hv as Hv _. lia.
    - congruence. }
  assert (Htail : adj 92 c t = true -> adj 92 c (x :: t) = true).
  { apply adj_tail. }
  assert (H63 : forall r, adj 92 c (63%N :: r) = true -> adj 92 c r = true).
  { intros r Hr. destruct r; auto. }
  cbn [to_utf8] in H. destruct (N.ltb_spec x 128).
  - unfold enc1 in H. cbn [app] in H. destruct (to_utf8 t) as [|y r] eqn:Et; [rewrite adj_single in H; discriminate|].
    cbn [adj] in H. apply orb_true_iff in H as [H|H].
    + apply andb_true_iff in H as [H1 H2]. apply N.eqb_eq in H1, H2. destruct (Hhead t y r Et H2) as [t' ->].
      cbn [adj]. subst. rewrite !N.eqb_refl. auto.
    + apply Htail. apply IH; [lia|]. rewrite Et. exact H.
  - destruct (x <? 2048)%N eqn:E2.
    { rewrite adj_app_high in H; [apply Htail, IH; [lia|auto]| |lia]. unfold enc2. repeat constructor; lia. }
    destruct (negb (is_surr x)).
    { rewrite adj_app_high in H; [apply Htail, IH; [lia|auto]| |lia]. unfold enc3. repeat constructor; lia. }
    destruct (is_high x).
    + destruct t as [|d t]; [discriminate|]. destruct (is_low d).
      * rewrite adj_app_high in H; [| |lia]. 2:{ unfold enc4. repeat constructor; lia. }
        apply Htail. apply adj_tail. apply IH; [cbn [length] in *; lia|auto].
      * apply H63 in H. apply Htail, IH; [lia|auto].
    + apply H63 in H. apply Htail, IH; [lia|auto].
Qed.
Lemma ambiguous_utf8 u : ~ ambiguous u -> ~ ambiguous (to_utf8 u).
Proof.
  rewrite !ambiguous_adj. intros H H'. apply H.
  destruct H' as [H'|[H'|H']]; apply (adj_utf8 _ (length u)) in H'; auto; try lia; try discriminate.
Qed.
Lemma no_bs_not_ambiguous s : ~ In 92%N s -> ~ ambiguous s.
Proof. intros H (a & b & c & -> & _). apply H, in_app_iff. right; left; auto. Qed.
Lemma b64_no_bs b : is_bytes b = true -> ~ In 92%N (to_base64 b).
Proof.
  intros H Hin. apply to_base64_chars in H. rewrite forallb_forall in H. specialize (H _ Hin). discriminate.
Qed.

Lemma add_escapes_nonnil e s : s <> [] -> add_escapes e s <> [].
Proof.
  destruct s as [|c s]; [congruence|]. intros _. rewrite add_escapes_cons. unfold tok.
  destruct (c =? 92)%N; [discriminate|]. destruct (c =? 44)%N; [destruct e; discriminate|].
  destruct (c =? 13)%N; [discriminate|]. destruct (c =? 10)%N; discriminate.
Qed.
Lemma to_utf8_nonnil u : u <> [] -> to_utf8 u <> [].
Proof.
  destruct u as [|c u]; [congruence|]. intros _. cbn [to_utf8]. destruct (c <? 128)%N; [discriminate|].
  destruct (c <? 2048)%N; [discriminate|]. destruct (negb (is_surr c)); [discriminate|].
  destruct (is_high c); [|discriminate]. destruct u as [|d u]; [discriminate|]. destruct (is_low d); discriminate.
Qed.

Lemma params_none p l : wf_params (vl_params l) -> vl_parameters p l = [] -> find_param p (vl_params l) = None.
Proof.
  intros [_ Hf]. unfold vl_parameters. destruct (find_param p (vl_params l)) as [vs|] eqn:E; auto.
  intros ->. apply find_param_in in E as (q & -> & Hin). rewrite Forall_forall in Hf. destruct (Hf _ Hin) as (_ & H & _).
  exfalso. apply H. reflexivity.
Qed.
Lemma params_some_contains p l v : vl_parameters p l = [v] -> contains p (vl_param_list l) = true.
Proof.
  unfold vl_parameters. destruct (find_param p (vl_params l)) as [vs|] eqn:E; [|discriminate]. intros _.
  apply find_param_in in E as (q & -> & Hin). apply contains_In. unfold vl_param_list. apply in_map_iff. exists (p, vs). auto.
Qed.
Lemma params_none_contains p l : find_param p (vl_params l) = None -> contains p (vl_param_list l) = false.
Proof. intros H. apply contains_false. unfold vl_param_list. apply afind_None. exact H. Qed.

Definition excl_of (l : vline) : bool := leqb (vl_id l) (B "CATEGORIES") || leqb (vl_id l) (B "GEO").

(** what is written for the value, and what the reader makes of it *)
Lemma value_cases E l : wf_params (vl_params l) -> wf_value E l ->
  exists raw mb, value_text E l = (add_escapes (excl_of l) raw, mb) /\ raw <> [] /\ ~ ambiguous raw /\
    forall y, px_line y = mkVline (vl_id l) (vl_group l) (vl_params l) QInvalid [] ->
      px_enc y = last (map to_lower (vl_parameters (B "encoding") l)) [] ->
      px_charset y = last (map to_lower (vl_parameters (B "charset") l)) [] ->
      vl_b64 l = [] ->
      finish_pure E y (Some (add_escapes (excl_of l) raw)) = l /\
      (px_enc y = B "quoted-printable" -> ends_with [cEQ] raw = false).
Proof.
  intros Hp Hv. destruct Hv as [u Hv Hc He Hne Hok Ha | b e Hv Hc He Hl Hne Hb | u e Hv Hc He Hl Hok Hrt Hne Ha Hend | u cs enc dec Hv Hc He Henc Hdec Hrt Hne Ha].
  - exists (to_utf8 u), true. split; [apply plain_text_mb; repeat split; auto using params_none|].
    split; [apply to_utf8_nonnil; auto|]. split; [apply ambiguous_utf8; auto|].
    intros y Hl He' Hc' Hb. rewrite He in He'. rewrite Hc in Hc'. cbn in He', Hc'.
    split; [|rewrite He'; discriminate]. unfold finish_pure. rewrite He', Hc', Hl. cbn [isnil negb fst snd].
    rewrite (proj2 (escape_iff _ _)) by (apply ambiguous_utf8; auto).
    rewrite utf8_roundtrip by auto. unfold vl_set_value. cbn. rewrite <- Hv. destruct l; cbn in *; subst; auto.
  - exists (to_base64 b), false.
    split.
    { unfold value_text. unfold vl_parameter. rewrite Hc, He. cbn [isnil negb]. rewrite Hv.
      rewrite (params_some_contains _ _ _ He), Hl. reflexivity. }
    split; [apply to_base64_nonnil; auto|]. pose proof (no_bs_not_ambiguous _ (b64_no_bs b Hb)) as Hna. split; auto.
    intros y Hl' He' Hc' Hb'. rewrite He in He'. rewrite Hc in Hc'. cbn in He', Hc'.
    split; [|rewrite He', Hl; discriminate]. unfold finish_pure. rewrite He', Hc', Hl', Hl.
    rewrite (proj2 (escape_iff _ _)) by auto.
    change (isnil (B "b")) with false. change (leqb (B "b") (B "b")) with true. cbn [orb isnil negb fst snd].
    rewrite base64_roundtrip by auto. unfold vl_set_value. cbn. rewrite <- Hv. destruct l; cbn in *; subst; auto.
  - exists (qp_encode E (to_utf8 u)), false.
    split.
    { unfold value_text. unfold vl_parameter. rewrite Hc, He. cbn [isnil negb]. rewrite Hv.
      rewrite (params_some_contains _ _ _ He), Hl. reflexivity. }
    split; auto. split; auto.
    intros y Hl' He' Hc' Hb'. rewrite He in He'. rewrite Hc in Hc'. cbn in He', Hc'.
    split.
    + unfold finish_pure. rewrite He', Hc', Hl', Hl. rewrite (proj2 (escape_iff _ _)) by auto.
      change (isnil (B "quoted-printable")) with false.
      change (leqb (B "quoted-printable") (B "b") || leqb (B "quoted-printable") (B "base64")) with false.
      change (leqb (B "quoted-printable") (B "quoted-printable")) with true. cbn [isnil negb fst snd].
      rewrite Hrt, utf8_roundtrip by auto. unfold vl_set_value. cbn. rewrite <- Hv. destruct l; cbn in *; subst; auto.
    + intros _. destruct (ends_with [cEQ] (qp_encode E (to_utf8 u))) eqn:Ee; auto.
      apply ends_with_1 in Ee as [a Ea]. exfalso. apply (Hend a Ea).
  - exists (enc u), false.
    assert (Hcs : to_latin1 cs = cs).
    { unfold vl_parameters in Hc. destruct (find_param (B "charset") (vl_params l)) as [vs|] eqn:Ef; [|discriminate]. subst vs.
      apply find_param_in in Ef as (q & -> & Hin). destruct Hp as [_ Hf]. rewrite Forall_forall in Hf.
      destruct (Hf _ Hin) as (_ & _ & _ & Hvs). cbn in Hvs. inversion Hvs as [|? ? [_ Hx] _]; subst. apply pvalue_latin1; auto. }
    assert (Hcsne : cs <> []).
    { unfold vl_parameters in Hc. destruct (find_param (B "charset") (vl_params l)) as [vs|] eqn:Ef; [|discriminate]. subst vs.
      apply find_param_in in Ef as (q & -> & Hin). destruct Hp as [_ Hf]. rewrite Forall_forall in Hf.
      destruct (Hf _ Hin) as (_ & _ & _ & Hvs). cbn in Hvs. inversion Hvs as [|? ? [Hx _] _]; subst. auto. }
    split.
    { unfold value_text. unfold vl_parameter. rewrite Hc, He. rewrite (proj2 (isnil_false cs) Hcsne). cbn [negb].
      rewrite Hcs, Henc, Hv. rewrite params_none_contains by (apply params_none; auto). reflexivity. }
    split; auto. split; auto.
    intros y Hl' He' Hc' Hb'. rewrite He in He'. rewrite Hc in Hc'. cbn in He', Hc'.
    split; [|rewrite He'; discriminate]. unfold finish_pure. rewrite He', Hc', Hl'.
    rewrite (proj2 (escape_iff _ _)) by auto. cbn [isnil fst snd].
    assert (Hlne : to_lower cs <> []) by (destruct cs; [congruence|discriminate]).
    rewrite (proj2 (isnil_false _) Hlne). cbn [negb]. rewrite Hdec, Hrt.
    unfold vl_set_value. cbn. rewrite <- Hv. destruct l; cbn in *; subst; auto.
Qed.

Definition logical (E : Ext) (l : vline) : bytes := header_text l ++ [cCOLON] ++ fst (value_text E l).

Lemma line_reads_back E l : wf_line E l ->
  fst (value_text E l) <> [] /\ parse_pure E (logical E l) = l /\ quiet (logical E l).
Proof.
  intros (Hid & _ & _ & Hg & Hp & Hb & Hv). destruct (value_cases E l Hp Hv) as (raw & mb & Ev & Hne & Ha & Hf).
  unfold logical. rewrite Ev. cbn [fst]. split; [apply add_escapes_nonnil; auto|].
  destruct (run_header l (add_escapes (excl_of l) raw) Hid Hg Hp) as (y & Hy & Hl & He & Hc).
  destruct (Hf y Hl He Hc Hb) as [Hf1 Hf2].
  unfold parse_pure, quiet. rewrite Hy. split; auto. intros Hq.
  rewrite (proj2 (escape_iff _ _)) by auto. auto.
Qed.
