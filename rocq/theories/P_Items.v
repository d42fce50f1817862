(** What the reader makes of the parameters of a line as the writer writes them:
    bare names, lists separated by commas, quoted values, names in any case. *)
From Verif Require Import Base BaseFacts Utf8 Utf8Facts M_ParamMap M_VCard M_VCardText
  S_Escape P_Escape S_Fold P_Fold S_CardText P_CardText S_Card P_Assoc P_Card S_Parse P_Parse P_Parse2
  S_RoundTrip P_RoundTrip P_RoundTrip2 P_RoundTrip3 P_ReadBack.

Definition item := (ustring * ustring)%type.
Definition item_text (i : item) : bytes :=
  [cSEMI] ++ to_upper (to_latin1 (fst i)) ++ (if isnil (snd i) then [] else [cEQ] ++ to_latin1 (snd i)).
Definition items_of (m : pmap) : list item := flat_map (fun pv => map (fun v => (fst pv, v)) (snd pv)) m.

(** characters of a parameter name of either case *)
Definition ikey_char (c : N) : Prop := (32 <= c < 127)%N /\ ~ In c [58; 59; 61]%N.
(** characters of an unquoted value (commas separate) and of a quoted value *)
Definition ivalue_char (c : N) : Prop := (32 <= c < 256)%N /\ ~ In c [34; 58; 59]%N.
Definition iquoted_char (c : N) : Prop := (32 <= c < 256)%N /\ c <> 34%N.

Definition bare_key (s : bytes) : bytes :=
  if leqb (to_lower s) (B "quoted-printable") || leqb (to_lower s) (B "base64") then B "encoding" else B "type".
Definition qsplit (k v : bytes) : list bytes := if leqb k (B "type") then split cCOMMA v else [v].

Inductive item_reads : item -> list (bytes * bytes) -> Prop :=
| reads_bare p : Forall ikey_char p -> item_reads (p, []) [(bare_key (to_upper p), to_upper p)]
| reads_values p v : Forall ikey_char p -> v <> [] -> Forall ivalue_char v ->
    item_reads (p, v) (map (pair (to_lower p)) (split cCOMMA v))
| reads_quoted p v : Forall ikey_char p -> Forall iquoted_char v ->
    item_reads (p, [cDQ] ++ v ++ [cDQ]) (map (pair (to_lower p)) (qsplit (to_lower p) v)).

Definition awaits (x : pctx) : Prop :=
  match px_state x with PInitial | PParamValue | PParamKey => True | PAfterParamValue => px_acc x = [] | PQuotedValue => False end.
Definition settle (x : pctx) : vline * bytes * bytes :=
  match px_state x with
  | PInitial => (vl_set_id (px_acc x) (px_line x), px_enc x, px_charset x)
  | PParamValue => add_pv (core x) (to_lower (px_key x), px_acc x)
  | PParamKey => add_pv (core x) (bare_key (px_acc x), px_acc x)
  | _ => core x
  end.

Lemma settle_semi x : awaits x -> exists y, px_step cSEMI x = (y, true) /\ px_state y = PParamKey /\ px_acc y = [] /\ core y = settle x.
Proof.
  unfold awaits, px_step, settle. destruct (px_state x) eqn:Es; intros Hw.
  - eexists. split; [reflexivity|]. auto.
  - eexists. split; [reflexivity|]. auto.
  - eexists. split; [reflexivity|]. auto.
  - destruct Hw.
  - unfold px_after. eexists. split; [reflexivity|]. auto.
Qed.
Lemma settle_colon x : awaits x -> exists y, px_step cCOLON x = (y, false) /\ core y = settle x.
Proof.
  unfold awaits, px_step, settle. destruct (px_state x) eqn:Es; intros Hw.
  - eexists. split; [reflexivity|]. auto.
  - eexists. split; [reflexivity|]. auto.
  - eexists. split; [reflexivity|]. auto.
  - destruct Hw.
  - unfold px_after. eexists. split; [reflexivity|]. auto.
Qed.

Lemma upper_char c : ikey_char c -> ~ In (upper1 c) [58;59;61]%N /\ lower1 (upper1 c) = lower1 c /\ upper1 c <> 61%N.
Proof.
  intros [H1 H2]. cbn [In] in H2. unfold lower1, upper1, is_lower, is_upper.
  destruct ((97 <=? c)%N && (c <=? 122)%N) eqn:E.
  - split; [cbn [In]; lia|]. destruct ((65 <=? c - 32)%N && (c - 32 <=? 90)%N) eqn:E'; [|lia].
    destruct ((65 <=? c)%N && (c <=? 90)%N) eqn:E2; lia.
  - split; [cbn [In]; lia|]. split; auto. lia.
Qed.
Lemma upper_ikey p : Forall ikey_char p -> Forall (fun c => ~ In c [58;59;61]%N) (to_upper p).
Proof. intros H. unfold to_upper. apply Forall_map. eapply Forall_impl; [|exact H]. intros c Hc. apply upper_char; auto. Qed.
Lemma lower_upper_ikey p : Forall ikey_char p -> to_lower (to_upper p) = to_lower p.
Proof.
  intros H. unfold to_lower, to_upper. rewrite map_map. apply map_ext_in. intros c Hc. rewrite Forall_forall in H.
  apply upper_char; auto.
Qed.
Lemma ikey_latin1 p : Forall ikey_char p -> to_latin1 p = p.
Proof. intros H. apply latin1_of. eapply Forall_impl; [|exact H]. unfold ikey_char. intros; lia. Qed.

(** the rest of a list of values, [acc] being read *)
Fixpoint pieces (acc v : bytes) : list bytes :=
  match v with
  | [] => [acc]
  | c :: t => if N.eqb c cCOMMA then acc :: pieces [] t else pieces (acc ++ [c]) t
  end.
Lemma pieces_split v : forall acc, ~ In cCOMMA acc -> pieces acc v = split cCOMMA (acc ++ v).
Proof.
  induction v as [|c v IH]; intros acc Ha; cbn [pieces].
  - rewrite app_nil_r. rewrite split_notin; auto.
  - destruct (N.eqb_spec c cCOMMA) as [->|Hc].
    + rewrite IH by (intros []). cbn [app]. rewrite split_app; auto.
    + rewrite IH. { rewrite <- app_assoc. auto. }
      rewrite in_app_iff. intros [H|[H|[]]]; auto.
Qed.

Lemma run_pieces v : forall r x, Forall ivalue_char v -> px_state x = PParamValue ->
  exists y, px_run (v ++ r) x = px_run r y /\ px_state y = PParamValue /\
    settle y = fold_left add_pv (map (pair (to_lower (px_key x))) (pieces (px_acc x) v)) (core x).
Proof.
  induction v as [|c v IH]; intros r x Hv Hx.
  - exists x. cbn [app pieces map fold_left]. split; auto. split; auto. unfold settle. rewrite Hx. auto.
  - inversion Hv as [|? ? [Hc1 Hc2] Hv']; subst. cbn [app pieces]. rewrite px_run_cons. cbn [In] in Hc2.
    destruct (N.eqb_spec c cCOMMA) as [->|Hc].
    + assert (Es : px_step cCOMMA x = (px_goto PParamValue [] (px_add_param (to_lower (px_key x)) (px_acc x) x), true)).
      { unfold px_step. rewrite Hx. reflexivity. }
      rewrite Es. destruct (IH r (px_goto PParamValue [] (px_add_param (to_lower (px_key x)) (px_acc x) x)) Hv' eq_refl) as (y & H1 & H2 & H3).
      exists y. split; auto.
    + assert (Es : px_step c x = (px_goto PParamValue (px_acc x ++ [c]) x, true)).
      { unfold px_step, px_after. rewrite Hx. unfold cSEMI, cCOLON, cDQ in *.
        rewrite !(proj2 (N.eqb_neq _ _)) by intuition. rewrite andb_false_r. reflexivity. }
      rewrite Es. destruct (IH r (px_goto PParamValue (px_acc x ++ [c]) x) Hv' eq_refl) as (y & H1 & H2 & H3).
      exists y. split; auto.
Qed.

Fixpoint qpieces (k acc v : bytes) : list bytes :=
  match v with
  | [] => [acc]
  | c :: t => if N.eqb c cCOMMA && leqb k (B "type") then acc :: qpieces k [] t else qpieces k (acc ++ [c]) t
  end.
Lemma qpieces_split k v : forall acc, (leqb k (B "type") = true -> ~ In cCOMMA acc) -> qpieces k acc v = qsplit k (acc ++ v).
Proof.
  unfold qsplit. induction v as [|c v IH]; intros acc Ha; cbn [qpieces].
  - rewrite app_nil_r. destruct (leqb k (B "type")); auto. rewrite split_notin; auto.
  - destruct (leqb k (B "type")) eqn:Ek.
    + rewrite andb_true_r. destruct (N.eqb_spec c cCOMMA) as [->|Hc].
      * rewrite IH by (intros _ []). cbn [app]. rewrite split_app; auto.
      * rewrite IH. { rewrite <- app_assoc. auto. }
        intros _. rewrite in_app_iff. intros [H|[H|[]]]; auto. apply Ha; auto.
    + rewrite andb_false_r. rewrite IH by discriminate. rewrite <- app_assoc. auto.
Qed.
Lemma run_qpieces v : forall r x, Forall iquoted_char v -> px_state x = PQuotedValue ->
  exists y, px_run (v ++ [cDQ] ++ r) x = px_run r y /\ px_state y = PAfterParamValue /\ px_acc y = [] /\
    core y = fold_left add_pv (map (pair (to_lower (px_key x))) (qpieces (to_lower (px_key x)) (px_acc x) v)) (core x).
Proof.
  induction v as [|c v IH]; intros r x Hv Hx.
  - cbn [app qpieces map fold_left]. rewrite px_run_cons.
    assert (Es : px_step cDQ x = (px_goto PAfterParamValue [] (px_add_param (to_lower (px_key x)) (px_acc x) x), true)).
    { unfold px_step. rewrite Hx. reflexivity. }
    rewrite Es. eexists. split; [reflexivity|]. auto.
  - inversion Hv as [|? ? [Hc1 Hc2] Hv']; subst. cbn [app qpieces]. rewrite px_run_cons.
    assert (Es : px_step c x = if N.eqb c cCOMMA && leqb (to_lower (px_key x)) (B "type")
       then (px_goto PQuotedValue [] (px_add_param (to_lower (px_key x)) (px_acc x) x), true)
       else (px_goto PQuotedValue (px_acc x ++ [c]) x, true)).
    { unfold px_step. rewrite Hx. unfold cDQ. rewrite (proj2 (N.eqb_neq c 34)) by auto. reflexivity. }
    rewrite Es. destruct (N.eqb c cCOMMA && leqb (to_lower (px_key x)) (B "type")).
    + destruct (IH r (px_goto PQuotedValue [] (px_add_param (to_lower (px_key x)) (px_acc x) x)) Hv' eq_refl) as (y & H1 & H2 & H3 & H4).
      exists y. split; auto.
    + destruct (IH r (px_goto PQuotedValue (px_acc x ++ [c]) x) Hv' eq_refl) as (y & H1 & H2 & H3 & H4).
      exists y. split; auto.
Qed.

Lemma run_item i ops : item_reads i ops -> forall x r, awaits x ->
  exists y, px_run (item_text i ++ r) x = px_run r y /\ awaits y /\ settle y = fold_left add_pv ops (settle x).
Proof.
  intros Hi x r Hx. destruct (settle_semi x Hx) as (x1 & Hs & H1 & H2 & H3). unfold item_text.
  destruct Hi as [p Hp | p v Hp Hv Hc | p v Hp Hc]; cbn [fst snd]; rewrite ikey_latin1 by auto;
    rewrite <- !app_assoc; cbn [app]; rewrite px_run_cons, Hs.
  - cbn [isnil]. rewrite app_nil_r || idtac. rewrite run_key by (auto using upper_ikey). rewrite H2. cbn [app].
    eexists. split; [reflexivity|]. split; [exact I|]. cbn [fold_left]. unfold settle at 1. cbn [px_goto px_state px_acc].
    rewrite <- H3. reflexivity.
  - rewrite (proj2 (isnil_false v) Hv). rewrite run_key by (auto using upper_ikey). rewrite H2.
    rewrite latin1_of by (eapply Forall_impl; [|exact Hc]; unfold ivalue_char; intros; lia).
    cbn [app]. rewrite px_run_cons. set (x2 := px_goto PParamKey (to_upper p) x1).
    assert (Es : px_step cEQ x2 = (px_goto PParamValue [] (px_set_key (to_upper p) x2), true)) by reflexivity.
    rewrite Es. destruct (run_pieces v r (px_goto PParamValue [] (px_set_key (to_upper p) x2)) Hc eq_refl) as (y & Hy1 & Hy2 & Hy3).
    exists y. split; auto. split; [unfold awaits; rewrite Hy2; auto|]. rewrite Hy3. cbn [px_goto px_set_key px_key px_acc].
    rewrite lower_upper_ikey, pieces_split by (auto; intros []). cbn [app]. rewrite <- H3. reflexivity.
  - cbn [isnil]. rewrite run_key by (auto using upper_ikey). rewrite H2.
    assert (El : to_latin1 (cDQ :: v ++ [cDQ]) = [cDQ] ++ v ++ [cDQ]).
    { apply latin1_of. constructor; [unfold cDQ; lia|]. apply Forall_app. split; [|repeat constructor; unfold cDQ; lia].
      eapply Forall_impl; [|exact Hc]. unfold iquoted_char. intros; lia. }
    rewrite El. cbn [app]. rewrite <- ?app_assoc. cbn [app]. rewrite px_run_cons. set (x2 := px_goto PParamKey (to_upper p) x1).
    assert (Es : px_step cEQ x2 = (px_goto PParamValue [] (px_set_key (to_upper p) x2), true)) by reflexivity.
    rewrite Es, px_run_cons. set (x3 := px_goto PParamValue [] _).
    assert (Es3 : px_step cDQ x3 = (px_goto PQuotedValue [] x3, true)) by reflexivity.
    rewrite Es3. destruct (run_qpieces v r (px_goto PQuotedValue [] x3) Hc eq_refl) as (y & Hy1 & Hy2 & Hy3 & Hy4).
    cbn [app] in Hy1. exists y. split; auto. split; [unfold awaits; rewrite Hy2; auto|].
    unfold settle at 1. rewrite Hy2, Hy4. cbn [x3 px_goto px_set_key px_key px_acc].
    change (px_key x3) with (to_upper p). rewrite lower_upper_ikey, qpieces_split by (auto; intros _ []). cbn [app]. rewrite <- H3. reflexivity.
Qed.

Lemma run_items is ops : Forall2 item_reads is ops -> forall x r, awaits x ->
  exists y, px_run (flat_map item_text is ++ [cCOLON] ++ r) x = (y, Some r) /\ core y = fold_left add_pv (List.concat ops) (settle x).
Proof.
  induction 1 as [|i o is ops Hi Hr IH]; intros x r Hx.
  - cbn [flat_map app List.concat fold_left]. rewrite px_run_cons. destruct (settle_colon x Hx) as (y & -> & Hy). eauto.
  - cbn [flat_map List.concat]. rewrite <- app_assoc. destruct (run_item i o Hi x (flat_map item_text is ++ [cCOLON] ++ r) Hx) as (y & -> & Hy & Hs).
    destruct (IH y r Hy) as (z & -> & Hz). exists z. split; auto. rewrite Hz, Hs, fold_left_app. auto.
Qed.

(** ** the identifier, possibly with a group *)
Inductive id_reads : ustring -> ustring -> ustring -> Prop :=
| reads_id s : wf_name s -> to_lower s <> B "begin" -> to_lower s <> B "end" -> id_reads s [] s
| reads_group g s : wf_name g -> wf_name s -> id_reads (g ++ [cDOT] ++ s) g s.

Lemma run_id s g i r : id_reads s g i -> exists x, px_run (to_latin1 s ++ r) px_init = px_run r x /\ awaits x /\
  settle x = (mkVline i g [] QInvalid [], [], []).
Proof.
  intros [s' [Hn Hs] _ _ | g' s' [Hg1 Hg2] [Hs1 Hs2]].
  - rewrite name_latin1 by auto. rewrite run_initial by auto. eexists. split; [reflexivity|]. split; [exact I|]. reflexivity.
  - assert (El : to_latin1 (g' ++ [cDOT] ++ s') = g' ++ [cDOT] ++ s').
    { apply latin1_of. apply Forall_app. split; [|apply Forall_app; split; [repeat constructor; unfold cDOT; lia|]].
      - eapply Forall_impl; [|exact Hg2]. unfold name_char, printable. intros; lia.
      - eapply Forall_impl; [|exact Hs2]. unfold name_char, printable. intros; lia. }
    rewrite El, <- !app_assoc. rewrite run_initial by auto. cbn [app]. rewrite px_run_cons.
    set (x1 := px_goto PInitial _ px_init).
    assert (Es : px_step cDOT x1 = (px_goto PInitial [] (px_set_line (vl_set_group g' (px_line x1)) x1), true)) by reflexivity.
    rewrite Es. rewrite run_initial by auto. eexists. split; [reflexivity|]. split; [exact I|]. reflexivity.
Qed.

Lemma params_text_items l : increasing (map fst (vl_params l)) -> params_text l = flat_map item_text (items_of (vl_params l)).
Proof.
  intros Hs. unfold params_text, vl_param_list, vl_parameters.
  assert (H : forall m, (forall x, In x m -> In x (vl_params l)) ->
     flat_map (fun p => flat_map (fun v => [cSEMI] ++ to_upper (to_latin1 p) ++ (if isnil v then [] else [cEQ] ++ to_latin1 v))
        (match find_param p (vl_params l) with Some vs => vs | None => [] end)) (map fst m) = flat_map item_text (items_of m)).
  { induction m as [|[p vs] m IH]; intros Hm; auto. cbn [map flat_map fst].
    rewrite IH by (intros; apply Hm; right; auto). unfold items_of. cbn [flat_map fst snd]. rewrite flat_map_app. f_equal.
    assert (Hin : In (p, vs) (vl_params l)) by (apply Hm; left; auto).
    rewrite find_param_afind, (In_afind p _ vs Hs Hin). rewrite flat_map_concat_map, flat_map_concat_map, map_map. reflexivity. }
  apply H; auto.
Qed.

Lemma add_all_fields ops : forall l, vl_id (add_all ops l) = vl_id l /\ vl_group (add_all ops l) = vl_group l /\
  vl_value (add_all ops l) = vl_value l /\ vl_b64 (add_all ops l) = vl_b64 l.
Proof. induction ops as [|pv ops IH]; intros l0; auto. cbn [add_all fold_left]. apply (IH (vl_add_param (fst pv) (snd pv) l0)). Qed.

(** the parameters that result from reading [ops] *)
Definition read_params (ops : list (ustring * ustring)) : pmap := vl_params (add_all ops vline_empty).
Lemma add_all_params ops : forall l, vl_params (add_all ops l) = fold_left (fun m pv => pm_add (fst pv) (snd pv) m) ops (vl_params l).
Proof. induction ops as [|pv ops IH]; intros l; auto. cbn [add_all fold_left]. apply (IH (vl_add_param (fst pv) (snd pv) l)). Qed.
Lemma add_all_base ops i g v b : add_all ops (mkVline i g [] v b) = mkVline i g (read_params ops) v b.
Proof.
  destruct (add_all_fields ops (mkVline i g [] v b)) as (H1 & H2 & H3 & H4).
  pose proof (add_all_params ops (mkVline i g [] v b)) as H5. unfold read_params. rewrite add_all_params.
  destruct (add_all ops (mkVline i g [] v b)); cbn in *; subst; auto.
Qed.

Record header_reads (l : vline) (g i : ustring) (ops : list (ustring * ustring)) : Prop := {
  hr_group : vl_group l = [];
  hr_id : id_reads (vl_id l) g i;
  hr_sorted : increasing (map fst (vl_params l));
  hr_ops : exists os, Forall2 item_reads (items_of (vl_params l)) os /\ List.concat os = ops
}.

Lemma run_header_items l g i ops r : header_reads l g i ops ->
  exists y, px_run (header_text l ++ [cCOLON] ++ r) px_init = (y, Some r) /\
    px_line y = mkVline i g (read_params ops) QInvalid [] /\
    px_enc y = last (map to_lower (added (B "encoding") ops)) [] /\
    px_charset y = last (map to_lower (added (B "charset") ops)) [].
Proof.
  intros [Hg Hid Hs (os & Ho & <-)]. unfold header_text, vl_has_group. rewrite Hg. cbn [isnil negb].
  rewrite params_text_items by auto. rewrite <- app_assoc.
  destruct (run_id (vl_id l) g i (flat_map item_text (items_of (vl_params l)) ++ [cCOLON] ++ r) Hid) as (x & -> & Hx & Hsx).
  destruct (run_items _ _ Ho x r Hx) as (y & -> & Hy). exists y. split; auto. rewrite Hsx in Hy.
  pose proof (fold_add_pv_line (List.concat os) (mkVline i g [] QInvalid [], [], [])) as F1.
  pose proof (fold_add_pv_enc (List.concat os) (mkVline i g [] QInvalid [], [], [])) as F2.
  pose proof (fold_add_pv_cs (List.concat os) (mkVline i g [] QInvalid [], [], [])) as F3.
  rewrite <- Hy in F1, F2, F3. cbn [core fst snd] in F1, F2, F3. rewrite F1. cbn [fst]. rewrite add_all_base. auto.
Qed.

(** the header contains no line breaks and begins with a visible character *)
Lemma item_clean i ops : item_reads i ops -> ~ In 13%N (item_text i) /\ ~ In 10%N (item_text i).
Proof.
  assert (Hk : forall p c, (c < 32)%N -> Forall ikey_char p -> ~ In c (to_upper (to_latin1 p))).
  { intros p c Hc Hp Hin. rewrite ikey_latin1 in Hin by auto. unfold to_upper in Hin. apply in_map_iff in Hin as (d & Hd & Hi).
    rewrite Forall_forall in Hp. specialize (Hp _ Hi). unfold ikey_char in Hp. cbn [In] in Hp. unfold upper1, is_lower in Hd.
    destruct ((97 <=? d)%N && (d <=? 122)%N) eqn:E; lia. }
  assert (Hv : forall v c, (c < 32)%N -> Forall (fun c => (32 <= c < 256)%N) v -> ~ In c (to_latin1 v)).
  { intros v c Hc Hp Hin. rewrite latin1_of in Hin by (eapply Forall_impl; [|exact Hp]; cbn; intros; lia).
    rewrite Forall_forall in Hp. specialize (Hp _ Hin). lia. }
  assert (H : forall c, (c = 13 \/ c = 10)%N -> item_reads i ops -> ~ In c (item_text i)).
  { intros c Hc Hi Hin. unfold item_text in Hin.
    assert (Hlt : (c < 32)%N) by (destruct Hc; subst; lia).
    destruct Hi as [p Hp | p v Hp Hn Hcv | p v Hp Hcv]; cbn [fst snd] in Hin;
    apply in_app_iff in Hin as [Hin|Hin]; try (destruct Hin as [Hin|[]]; unfold cSEMI in Hin; lia);
    apply in_app_iff in Hin as [Hin|Hin]; try (apply (Hk p c); auto; fail).
    - destruct Hin.
    - rewrite (proj2 (isnil_false v) Hn) in Hin. destruct Hin as [Hin|Hin]; [unfold cEQ in Hin; lia|].
      apply (Hv v c Hlt) in Hin; auto. eapply Forall_impl; [|exact Hcv]. unfold ivalue_char. intros; lia.
    - cbn [isnil app] in Hin. destruct Hin as [Hin|Hin]; [unfold cEQ in Hin; lia|].
      apply (Hv (cDQ :: v ++ [cDQ]) c Hlt) in Hin; auto.
      constructor; [unfold cDQ; lia|]. apply Forall_app. split; [|repeat constructor; unfold cDQ; lia].
      eapply Forall_impl; [|exact Hcv]. unfold iquoted_char. intros; lia. }
  intros Hi. split; apply H; auto.
Qed.
Lemma id_reads_chars s g i : id_reads s g i -> Forall (fun c => (33 <= c <= 126)%N /\ c <> 58%N) s /\ s <> [].
Proof.
  intros [s' [Hn Hs] _ _ | g' s' [Hg1 Hg2] [Hs1 Hs2]].
  - split; auto. eapply Forall_impl; [|exact Hs]. unfold name_char, printable. cbn [In]. intros; lia.
  - split; [|destruct g'; discriminate]. apply Forall_app. split; [|apply Forall_app; split; [repeat constructor; unfold cDOT; lia|]].
    + eapply Forall_impl; [|exact Hg2]. unfold name_char, printable. cbn [In]. intros; lia.
    + eapply Forall_impl; [|exact Hs2]. unfold name_char, printable. cbn [In]. intros; lia.
Qed.

Lemma header_text_items l g i ops : header_reads l g i ops ->
  header_text l = vl_id l ++ flat_map item_text (items_of (vl_params l)) /\
  start_ok (header_text l) /\ clean (header_text l).
Proof.
  intros [Hg Hid Hs (os & Ho & _)].
  assert (E : header_text l = vl_id l ++ flat_map item_text (items_of (vl_params l))).
  { unfold header_text, vl_has_group. rewrite Hg. cbn [isnil negb]. rewrite params_text_items by auto. f_equal.
    apply latin1_of. destruct (id_reads_chars _ _ _ Hid) as [H _]. eapply Forall_impl; [|exact H]. cbn. intros; lia. }
  split; auto. destruct (id_reads_chars _ _ _ Hid) as [Hc Hn]. split.
  - rewrite E. destruct (vl_id l) as [|c t]; [congruence|]. exists c. eexists. split; [reflexivity|]. inversion Hc; subst. lia.
  - rewrite E. unfold clean.
    assert (Hcl : forall c, (c = 13 \/ c = 10)%N -> ~ In c (vl_id l ++ flat_map item_text (items_of (vl_params l)))).
    { intros c Hc'. rewrite in_app_iff. intros [Hin|Hin].
      - rewrite Forall_forall in Hc. specialize (Hc _ Hin). lia.
      - clear -Ho Hin Hc'. induction Ho as [|it o is ops' Hi Hr IH]; [destruct Hin|].
        cbn [flat_map] in Hin. apply in_app_iff in Hin as [Hin|Hin]; auto.
        destruct (item_clean it o Hi) as [H1 H2]. destruct Hc'; subst; auto. }
    split; apply Hcl; auto.
Qed.

(** not a card delimiter *)
Lemma lower_not_58 c : (33 <= c <= 126)%N /\ c <> 58%N -> lower1 c <> 58%N.
Proof. intros [H1 H2]. unfold lower1, is_upper. destruct ((65 <=? c)%N && (c <=? 90)%N) eqn:E; lia. Qed.
Lemma prefix_colon (m w s t : list N) : starts_with (m ++ 58%N :: w) (s ++ t) = true -> ~ In 58%N m -> ~ In 58%N s ->
  (exists r, m = s ++ r /\ starts_with (r ++ 58%N :: w) t = true).
Proof.
  revert m. induction s as [|c s IH]; intros m H Hm Hs; [exists m; auto|].
  destruct m as [|d m]; cbn [app starts_with] in H.
  - destruct (N.eqb_spec 58 c); [subst; exfalso; apply Hs; left; auto|discriminate].
  - destruct (N.eqb_spec d c) as [->|]; [|discriminate]. cbn [andb] in H.
    destruct (IH m H) as (r & -> & Hr); [intros Hi; apply Hm; right; auto|intros Hi; apply Hs; right; auto|].
    exists r. split; auto.
Qed.
Lemma items_first is ops rest : Forall2 item_reads is ops -> exists t, flat_map item_text is ++ [cCOLON] ++ rest = 59%N :: t \/ (is = [] /\ flat_map item_text is ++ [cCOLON] ++ rest = 58%N :: rest).
Proof.
  intros H. destruct H as [|i o is' ops' Hi Hr].
  - exists []. right. auto.
  - eexists. left. reflexivity.
Qed.

Lemma header_not_delim l g i ops (m w : list N) rest : header_reads l g i ops ->
  ~ In 58%N m -> ~ In 46%N m -> ~ In 59%N m -> (g = [] -> to_lower i <> m) ->
  starts_with (m ++ 58%N :: w) (to_lower (header_text l ++ [cCOLON] ++ rest)) = false.
Proof.
  intros Hh H58 H46 H59 Hi. destruct (header_text_items l g i ops Hh) as (E & _ & _). destruct Hh as [Hg Hid Hs (os & Ho & _)].
  destruct (starts_with (m ++ 58%N :: w) (to_lower (header_text l ++ [cCOLON] ++ rest))) eqn:Es; auto. exfalso.
  rewrite E, <- app_assoc, to_lower_app in Es. destruct (id_reads_chars _ _ _ Hid) as [Hc Hn].
  apply prefix_colon in Es as (r & Em & Er); auto.
  - destruct r as [|d r].
    + destruct Hid as [s' _ _ _ | g' s' Hg' Hs'].
      * apply Hi; auto. rewrite Em, app_nil_r. auto.
      * apply H46. rewrite Em, app_nil_r, !to_lower_app. apply in_app_iff. right. apply in_app_iff. left. left. reflexivity.
    + destruct (items_first _ _ rest Ho) as [t [Ht|[_ Ht]]]; rewrite Ht in Er; cbn [to_lower map app starts_with] in Er.
      * change (lower1 59) with 59%N in Er. destruct (N.eqb_spec d 59); [|discriminate]. subst d. apply H59. rewrite Em. apply in_app_iff. right; left; auto.
      * change (lower1 58) with 58%N in Er. destruct (N.eqb_spec d 58); [|discriminate]. subst d. apply H58. rewrite Em. apply in_app_iff. right; left; auto.
  - intros Hin. apply in_map_iff in Hin as (d & Hd & Hdi). rewrite Forall_forall in Hc. apply (lower_not_58 d (Hc _ Hdi)). auto.
Qed.
Lemma header_marks l g i ops rest : header_reads l g i ops ->
  is_begin (header_text l ++ [cCOLON] ++ rest) = false /\ is_end (header_text l ++ [cCOLON] ++ rest) = false.
Proof.
  intros Hh. assert (Hi : g = [] -> to_lower i <> B "begin" /\ to_lower i <> B "end").
  { destruct Hh as [_ [s' _ H1 H2|g' s' [H _] _] _ _]; auto. }
  split.
  - unfold is_begin, starts_with_ci. change (to_lower (B "begin:vcard")) with (B "begin" ++ 58%N :: B "vcard").
    apply (header_not_delim l g i ops); auto; try (apply mem_false; reflexivity). intros H. apply Hi; auto.
  - unfold is_end, starts_with_ci. change (to_lower (B "end:vcard")) with (B "end" ++ 58%N :: B "vcard").
    apply (header_not_delim l g i ops); auto; try (apply mem_false; reflexivity). intros H. apply Hi; auto.
Qed.

(** ** lines with text and binary values *)
Lemma value_clean (E : Ext) e raw : clean (add_escapes e raw).
Proof. split; apply add_escapes_no; auto. Qed.

Definition no_key (k : ustring) (ops : list (ustring * ustring)) : Prop := added k ops = [].

Lemma reads_text E l g i ops u : header_reads l g i ops -> vl_value l = QStr u ->
  find_param (B "encoding") (vl_params l) = None -> find_param (B "charset") (vl_params l) = None ->
  no_key (B "encoding") ops -> no_key (B "charset") ops -> text_ok u = true -> ~ ambiguous u ->
  good E l /\ loud E l = negb (isnil u) /\ reread E l = mkVline i g (read_params ops) (QStr u) [].
Proof.
  intros Hh Hv He Hc He' Hc' Hok Ha.
  assert (Evt : value_text E l = (add_escapes (excl_of l) (to_utf8 u), true)).
  { apply plain_text_mb. repeat split; auto. }
  assert (Hw : wline E l = header_text l ++ [cCOLON] ++ add_escapes (excl_of l) (to_utf8 u)).
  { unfold wline. rewrite Hv. unfold logical. rewrite Evt. auto. }
  destruct (run_header_items l g i ops (add_escapes (excl_of l) (to_utf8 u)) Hh) as (y & Hy & Hl & Hen & Hcs).
  unfold no_key in *. rewrite He' in Hen. rewrite Hc' in Hcs. cbn in Hen, Hcs.
  split; [|split].
  - intros _. rewrite Hv, Hw. destruct (header_text_items l g i ops Hh) as (_ & Hst & Hcl). split; [|split; [auto|]].
    + destruct (value_clean E (excl_of l) (to_utf8 u)) as [V1 V2]. destruct Hcl as [C1 C2].
      split; rewrite !in_app_iff; cbn [In]; unfold cCOLON; intuition congruence.
    + destruct (header_marks l g i ops (add_escapes (excl_of l) (to_utf8 u)) Hh) as [M1 M2]. split; auto. split; auto.
      unfold quiet. rewrite Hy. intros Hq. rewrite Hen in Hq. discriminate.
  - unfold loud. assert (Hhv : has_value l) by (unfold has_value; rewrite Hv; discriminate).
    rewrite line_text_value, Evt by auto. cbn [fst snd]. destruct u as [|c u].
    + destruct (excl_of l); reflexivity.
    + assert (Hne : add_escapes (excl_of l) (to_utf8 (c :: u)) <> []) by (apply add_escapes_nonnil, to_utf8_nonnil; discriminate).
      rewrite (proj2 (isnil_false _) Hne). cbn [isnil negb].
      destruct (fix_line_size_chunks (header_text l ++ [cCOLON] ++ add_escapes (excl_of l) (to_utf8 (c :: u))) true) as (c0 & cs & Hf & _).
      rewrite Hf, join_terminated. cbn [terminated flat_map]. destruct c0; reflexivity.
  - unfold reread, parse_pure. rewrite Hw, Hy. unfold finish_pure. rewrite Hen, Hcs. cbn [isnil negb fst snd].
    rewrite (proj2 (escape_iff _ _)) by (apply ambiguous_utf8; auto). rewrite utf8_roundtrip by auto. rewrite Hl. reflexivity.
Qed.

Lemma find_some_contains p m (vs : list ustring) : find_param p m = Some vs -> contains p (map fst m) = true.
Proof. intros E. apply find_param_in in E as (q & -> & Hin). apply contains_In. apply in_map_iff. exists (p, vs). auto. Qed.

Lemma reads_binary E l g i ops b : header_reads l g i ops -> vl_value l = QBytes b ->
  find_param (B "encoding") (vl_params l) = Some [B "b"] -> find_param (B "charset") (vl_params l) = None ->
  added (B "encoding") ops = [B "b"] -> no_key (B "charset") ops -> is_bytes b = true ->
  good E l /\ loud E l = negb (isnil b) /\ reread E l = mkVline i g (read_params ops) (QBytes b) [].
Proof.
  intros Hh Hv He Hc He' Hc' Hok.
  assert (Evt : value_text E l = (add_escapes (excl_of l) (to_base64 b), false)).
  { unfold value_text, vl_parameter, vl_parameters. rewrite He, Hc. cbn [isnil negb]. rewrite Hv.
    unfold vl_param_list. rewrite (find_some_contains _ _ _ He). reflexivity. }
  assert (Hw : wline E l = header_text l ++ [cCOLON] ++ add_escapes (excl_of l) (to_base64 b)).
  { unfold wline. rewrite Hv. unfold logical. rewrite Evt. auto. }
  destruct (run_header_items l g i ops (add_escapes (excl_of l) (to_base64 b)) Hh) as (y & Hy & Hl & Hen & Hcs).
  unfold no_key in *. rewrite He' in Hen. rewrite Hc' in Hcs. cbn in Hen, Hcs.
  split; [|split].
  - intros _. rewrite Hv, Hw. destruct (header_text_items l g i ops Hh) as (_ & Hst & Hcl). split; [|split; [auto|]].
    + destruct (value_clean E (excl_of l) (to_base64 b)) as [V1 V2]. destruct Hcl as [C1 C2].
      split; rewrite !in_app_iff; cbn [In]; unfold cCOLON; intuition congruence.
    + destruct (header_marks l g i ops (add_escapes (excl_of l) (to_base64 b)) Hh) as [M1 M2]. split; auto. split; auto.
      unfold quiet. rewrite Hy. intros Hq. rewrite Hen in Hq. discriminate.
  - unfold loud. assert (Hhv : has_value l) by (unfold has_value; rewrite Hv; discriminate).
    rewrite line_text_value, Evt by auto. cbn [fst snd]. destruct b as [|c b].
    + destruct (excl_of l); reflexivity.
    + assert (Hne : add_escapes (excl_of l) (to_base64 (c :: b)) <> []) by (apply add_escapes_nonnil, to_base64_nonnil; discriminate).
      rewrite (proj2 (isnil_false _) Hne). cbn [isnil negb].
      destruct (fix_line_size_chunks (header_text l ++ [cCOLON] ++ add_escapes (excl_of l) (to_base64 (c :: b))) false) as (c0 & cs & Hf & _).
      rewrite Hf, join_terminated. cbn [terminated flat_map]. destruct c0; reflexivity.
  - unfold reread, parse_pure. rewrite Hw, Hy. unfold finish_pure. rewrite Hen, Hcs.
    change (isnil [98%N]) with false. change (leqb [98%N] (B "b")) with true. cbn [orb isnil negb fst snd].
    rewrite (proj2 (escape_iff _ _)) by (apply no_bs_not_ambiguous, b64_no_bs; auto). rewrite base64_roundtrip by auto. rewrite Hl. reflexivity.
Qed.

(** a line without a value is not written *)
Lemma silent_line E l : vl_value l = QInvalid -> vl_b64 l = [] -> good E l /\ loud E l = false.
Proof.
  intros Hv Hb. assert (Hl : loud E l = false) by (unfold loud, line_text; rewrite Hv, Hb; auto).
  split; auto. intros H. congruence.
Qed.
