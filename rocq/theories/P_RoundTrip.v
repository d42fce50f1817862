(** Round trip of cards through text (C06). *)
From Verif Require Import Base BaseFacts Utf8 Utf8Facts M_ParamMap M_VCard M_VCardText
  S_Escape P_Escape S_Fold P_Fold S_CardText P_CardText S_Card P_Assoc P_Card S_Parse P_Parse P_Parse2 S_RoundTrip.

(** ** scanning the header *)
Lemma px_run_cons ch s x : px_run (ch :: s) x = let (x', go) := px_step ch x in if go then px_run s x' else (x', Some s).
Proof. reflexivity. Qed.

Lemma run_initial s : forall r x, Forall name_char s -> px_state x = PInitial ->
  px_run (s ++ r) x = px_run r (px_goto PInitial (px_acc x ++ s) x).
Proof.
  induction s as [|c s IH]; intros r x Hs Hx.
  - cbn [app]. rewrite app_nil_r. destruct x; cbn in *; subst; auto.
  - inversion Hs as [|? ? Hc Hs']; subst. cbn [app]. rewrite px_run_cons.
    assert (Est : px_step c x = (px_goto PInitial (px_acc x ++ [c]) x, true)).
    { unfold px_step. rewrite Hx. destruct Hc as [_ Hc]. cbn [In] in Hc. unfold cSEMI, cCOLON, cDOT.
      rewrite !(proj2 (N.eqb_neq _ _)) by intuition. reflexivity. }
    rewrite Est, IH by (auto; reflexivity). f_equal. cbn. rewrite <- app_assoc. reflexivity.
Qed.

Lemma run_key s : forall r x, Forall (fun c => ~ In c [58;59;61]%N) s -> px_state x = PParamKey ->
  px_run (s ++ r) x = px_run r (px_goto PParamKey (px_acc x ++ s) x).
Proof.
  induction s as [|c s IH]; intros r x Hs Hx.
  - cbn [app]. rewrite app_nil_r. destruct x; cbn in *; subst; auto.
  - inversion Hs as [|? ? Hc Hs']; subst. cbn [app]. rewrite px_run_cons.
    assert (Est : px_step c x = (px_goto PParamKey (px_acc x ++ [c]) x, true)).
    { unfold px_step. rewrite Hx. cbn [In] in Hc. unfold cSEMI, cCOLON, cEQ.
      rewrite !(proj2 (N.eqb_neq _ _)) by intuition. reflexivity. }
    rewrite Est, IH by (auto; reflexivity). f_equal. cbn. rewrite <- app_assoc. reflexivity.
Qed.

Lemma run_value s : forall r x, Forall pvalue_char s -> px_state x = PParamValue ->
  px_run (s ++ r) x = px_run r (px_goto PParamValue (px_acc x ++ s) x).
Proof.
  induction s as [|c s IH]; intros r x Hs Hx.
  - cbn [app]. rewrite app_nil_r. destruct x; cbn in *; subst; auto.
  - inversion Hs as [|? ? Hc Hs']; subst. cbn [app]. rewrite px_run_cons.
    assert (Est : px_step c x = (px_goto PParamValue (px_acc x ++ [c]) x, true)).
    { unfold px_step, px_after. rewrite Hx. destruct Hc as [_ Hc]. cbn [In] in Hc. unfold cSEMI, cCOLON, cCOMMA, cDQ.
      rewrite !(proj2 (N.eqb_neq _ _)) by intuition. rewrite andb_false_r. reflexivity. }
    rewrite Est, IH by (auto; reflexivity). f_equal. cbn. rewrite <- app_assoc. reflexivity.
Qed.

(** a context that waits for ';' or ':' after an identifier or parameter value *)
Definition waiting (x : pctx) : Prop := px_state x = PInitial \/ px_state x = PParamValue.
Definition flush (x : pctx) : pctx :=
  match px_state x with
  | PInitial => px_set_line (vl_set_id (px_acc x) (px_line x)) x
  | _ => px_add_param (to_lower (px_key x)) (px_acc x) x
  end.
Definition core (x : pctx) : vline * bytes * bytes := (px_line x, px_enc x, px_charset x).

Lemma flush_semi x : waiting x -> px_step cSEMI x = (px_goto PParamKey [] (flush x), true).
Proof.
  unfold px_step, flush. intros [H|H]; rewrite H; cbn [N.eqb cSEMI]; reflexivity.
Qed.
Lemma flush_colon x : waiting x -> exists y, px_step cCOLON x = (y, false) /\ core y = core (flush x).
Proof.
  unfold px_step, flush. intros [H|H]; rewrite H; eexists; split; reflexivity.
Qed.

Definition add_pv (t : vline * bytes * bytes) (pv : bytes * bytes) : vline * bytes * bytes :=
  let '(l, e, c) := t in
  (vl_add_param (fst pv) (snd pv) l,
   if leqb (fst pv) (B "encoding") then to_lower (snd pv) else e,
   if leqb (fst pv) (B "encoding") then c else if leqb (fst pv) (B "charset") then to_lower (snd pv) else c).

Definition pv_text (pv : bytes * bytes) : bytes := [cSEMI] ++ to_upper (fst pv) ++ [cEQ] ++ snd pv.
Definition pv_ok (pv : bytes * bytes) : Prop := Forall key_char (fst pv) /\ Forall pvalue_char (snd pv).

Lemma upper_lower_key p : Forall key_char p -> to_lower (to_upper p) = p.
Proof.
  induction p as [|c p IH]; intros H; auto. inversion H as [|? ? Hc Hp]; subst. cbn. f_equal; [|apply IH; auto].
  destruct Hc as (H1 & _ & H2). unfold printable in H1. unfold lower1, upper1, is_lower, is_upper.
  destruct ((97 <=? c)%N && (c <=? 122)%N) eqn:E.
  - destruct ((65 <=? c - 32)%N && (c - 32 <=? 90)%N) eqn:E'; lia.
  - destruct ((65 <=? c)%N && (c <=? 90)%N) eqn:E'; lia.
Qed.
Lemma upper_key_chars p : Forall key_char p -> Forall (fun c => ~ In c [58;59;61]%N) (to_upper p).
Proof.
  intros H. unfold to_upper. apply Forall_map. eapply Forall_impl; [|exact H]. cbn. intros c (H1 & H2 & H3).
  unfold printable in H1. unfold upper1, is_lower. cbn in H2. destruct ((97 <=? c)%N && (c <=? 122)%N) eqn:E; lia.
Qed.

Lemma run_params pvs : forall x r, waiting x -> Forall pv_ok pvs ->
  exists y, px_run (flat_map pv_text pvs ++ [cCOLON] ++ r) x = (y, Some r) /\
            core y = fold_left add_pv pvs (core (flush x)).
Proof.
  induction pvs as [|pv pvs IH]; intros x r Hw Hp.
  - cbn [flat_map app fold_left]. rewrite px_run_cons. destruct (flush_colon x Hw) as (y & -> & Hy). eauto.
  - inversion Hp as [|? ? [Hk Hv] Hp']; subst. cbn [flat_map]. unfold pv_text at 1.
    rewrite <- !app_assoc. cbn [app]. rewrite px_run_cons, flush_semi by auto.
    rewrite run_key by (auto using upper_key_chars). rewrite px_run_cons.
    set (x1 := px_goto PParamKey _ _).
    assert (Es : px_step cEQ x1 = (px_goto PParamValue [] (px_set_key (to_upper (fst pv)) x1), true)) by reflexivity.
    rewrite Es. rewrite run_value by auto.
    set (x2 := px_goto PParamValue _ _).
    destruct (IH x2 r) as (y & Hy & Hc); [right; reflexivity|auto|].
    exists y. split; [exact Hy|]. rewrite Hc. cbn [fold_left]. f_equal.
    unfold flush at 1. cbn [x2 px_goto px_state]. cbn [px_acc px_key px_set_key app].
    unfold core, px_add_param. cbn [px_line px_enc px_charset].
    change (px_key x2) with (to_upper (fst pv)). change (px_acc x2) with (snd pv).
    rewrite upper_lower_key by auto. unfold add_pv. reflexivity.
Qed.

(** ** the header of a line *)
Definition pvs_of (m : pmap) : list (bytes * bytes) := flat_map (fun pv => map (fun v => (fst pv, v)) (snd pv)) m.

Lemma latin1_of s : Forall (fun c => (c < 256)%N) s -> to_latin1 s = s.
Proof.
  induction s as [|c s IH]; intros H; auto. inversion H; subst. unfold to_latin1 in *. cbn. rewrite IH by auto.
  rewrite (proj2 (N.ltb_lt _ _)) by auto. auto.
Qed.
Lemma name_latin1 s : Forall name_char s -> to_latin1 s = s.
Proof. intros H. apply latin1_of. eapply Forall_impl; [|exact H]. unfold name_char, printable. intros; lia. Qed.
Lemma key_latin1 s : Forall key_char s -> to_latin1 s = s.
Proof. intros H. apply latin1_of. eapply Forall_impl; [|exact H]. unfold key_char, printable. intros; lia. Qed.
Lemma pvalue_latin1 s : Forall pvalue_char s -> to_latin1 s = s.
Proof. intros H. apply latin1_of. eapply Forall_impl; [|exact H]. unfold pvalue_char. intros; lia. Qed.

Lemma params_text_pvs l : wf_params (vl_params l) -> params_text l = flat_map pv_text (pvs_of (vl_params l)).
Proof.
  intros [Hs Hf]. unfold params_text, vl_param_list, vl_parameters.
  assert (H : forall m, (forall x, In x m -> In x (vl_params l)) ->
     flat_map (fun p => flat_map (fun v => [cSEMI] ++ to_upper (to_latin1 p) ++ (if isnil v then [] else [cEQ] ++ to_latin1 v))
        (match find_param p (vl_params l) with Some vs => vs | None => [] end)) (map fst m) = flat_map pv_text (pvs_of m)).
  { induction m as [|[p vs] m IH]; intros Hm; auto. cbn [map flat_map fst].
    rewrite IH by (intros; apply Hm; right; auto). unfold pvs_of. cbn [flat_map fst snd]. rewrite flat_map_app. f_equal.
    assert (Hin : In (p, vs) (vl_params l)) by (apply Hm; left; auto).
    rewrite find_param_afind, (In_afind p _ vs Hs Hin).
    rewrite Forall_forall in Hf. destruct (Hf _ Hin) as (Hk & _ & _ & Hvs). cbn [fst snd] in *.
    clear IH Hm Hin. induction vs as [|v vs IH]; auto. inversion Hvs as [|? ? [Hne Hv] Hvs']; subst.
    cbn [flat_map map]. rewrite IH by auto. f_equal. unfold pv_text. cbn [fst snd].
    rewrite key_latin1, pvalue_latin1 by auto. destruct v; [congruence|]. reflexivity. }
  apply H; auto.
Qed.
Lemma pvs_of_ok m : wf_params m -> Forall pv_ok (pvs_of m).
Proof.
  intros [_ Hf]. unfold pvs_of. apply Forall_forall. intros x Hx. apply in_flat_map in Hx as ([p vs] & Hin & Hx).
  rewrite Forall_forall in Hf. destruct (Hf _ Hin) as (Hk & _ & _ & Hvs). cbn in *.
  apply in_map_iff in Hx as (v & <- & Hv). rewrite Forall_forall in Hvs. destruct (Hvs _ Hv). split; auto.
Qed.

(** adding all parameter values in order rebuilds the map *)
Lemma added_pvs p m : increasing (map fst m) -> added p (pvs_of m) = match find_param p m with Some vs => vs | None => [] end.
Proof.
  induction m as [|[q vs] m IH]; intros Hs; auto. inversion Hs as [|? ? Hs' Hall]; subst.
  unfold pvs_of. cbn [flat_map fst snd find_param]. unfold added. rewrite filter_app', map_app.
  change (flat_map (fun pv => map (fun v => (fst pv, v)) (snd pv)) m) with (pvs_of m). fold (added p (pvs_of m)).
  rewrite IH by auto. destruct (leqb_spec q p) as [->|N].
  - assert (Hn : find_param p m = None).
    { rewrite find_param_afind. apply afind_None. intros Hi. rewrite Forall_forall in Hall. specialize (Hall _ Hi).
      rewrite lltb_irrefl in Hall. discriminate. }
    rewrite Hn, app_nil_r. clear. induction vs; cbn; auto. rewrite leqb_refl. cbn. congruence.
  - replace (filter _ (map _ vs)) with (@nil (ustring * ustring)); auto.
    symmetry. clear -N. induction vs; cbn; auto. rewrite (proj2 (leqb_neq q p)) by auto. auto.
Qed.
Lemma firsts_id l : NoDup l -> firsts l = l.
Proof.
  induction l as [|x l IH]; intros H; auto. inversion H; subst. cbn. f_equal. rewrite IH by auto.
  assert (HF : forall k, (forall y, In y k -> y <> x) -> filter (fun y => negb (leqb y x)) k = k).
  { induction k as [|y k IHk]; intros Hk; auto. cbn. rewrite (proj2 (leqb_neq y x)) by (apply Hk; left; auto). cbn.
    rewrite IHk; auto. intros; apply Hk; right; auto. }
  apply HF. intros y Hy ->. auto.
Qed.
Lemma rebuild_params m l : wf_params m -> vl_params l = [] ->
  add_all (pvs_of m) l = vl_set_params m l.
Proof.
  intros [Hs Hf] Hl.
  assert (Ep : vl_params (add_all (pvs_of m) l) = m).
  { destruct (add_all_ok (pvs_of m) l []) as [Hs' Hf']; [rewrite Hl; apply pm_ok_nil|]. cbn [app] in *.
    apply asorted_ext; auto. intros p. change (find_param p (vl_params (add_all (pvs_of m) l)) = find_param p m). rewrite Hf', added_pvs by auto.
    destruct (find_param p m) as [vs|] eqn:E; auto. apply find_param_in in E as (q & -> & Hin).
    rewrite Forall_forall in Hf. destruct (Hf _ Hin) as (_ & Hne & Hnd & _). cbn in *.
    rewrite firsts_id by auto. destruct vs; [exfalso; apply Hne; reflexivity|auto]. }
  assert (Ho : forall ops l, vl_id (add_all ops l) = vl_id l /\ vl_group (add_all ops l) = vl_group l /\
     vl_value (add_all ops l) = vl_value l /\ vl_b64 (add_all ops l) = vl_b64 l).
  { induction ops as [|pv ops IH]; intros l0; auto. cbn [add_all fold_left]. apply (IH (vl_add_param (fst pv) (snd pv) l0)). }
  destruct (Ho (pvs_of m) l) as (H1 & H2 & H3 & H4).
  destruct (add_all (pvs_of m) l). cbn in *. subst. reflexivity.
Qed.

Lemma fold_add_pv_line pvs : forall t, fst (fst (fold_left add_pv pvs t)) = add_all pvs (fst (fst t)).
Proof. induction pvs as [|pv pvs IH]; intros [[l e] c]; auto. cbn [fold_left add_all]. rewrite IH. reflexivity. Qed.

Lemma last_cons {A} (k : list A) : forall x d, last (x :: k) d = last k x.
Proof. induction k as [|y k IH]; intros x d; auto. change (last (x :: y :: k) d) with (last (y :: k) d). rewrite IH. symmetry. apply IH. Qed.
(** the last encoding / charset parameter *)
Lemma fold_add_pv_enc pvs : forall t, snd (fst (fold_left add_pv pvs t)) =
  last (map to_lower (added (B "encoding") pvs)) (snd (fst t)).
Proof.
  induction pvs as [|[p v] pvs IH]; intros [[l e] c]; auto. cbn [fold_left]. rewrite IH. unfold added. cbn [filter fst snd add_pv].
  destruct (leqb p (B "encoding")); auto. cbn [map snd]. rewrite last_cons. reflexivity.
Qed.
Lemma leqb_enc_cs p : leqb p (B "charset") = true -> leqb p (B "encoding") = false.
Proof. intros H. apply leqb_eq in H as ->. reflexivity. Qed.
Lemma fold_add_pv_cs pvs : forall t, snd (fold_left add_pv pvs t) =
  last (map to_lower (added (B "charset") pvs)) (snd t).
Proof.
  induction pvs as [|[p v] pvs IH]; intros [[l e] c]; auto. cbn [fold_left]. rewrite IH. unfold added. cbn [filter fst snd add_pv].
  destruct (leqb p (B "charset")) eqn:Ec.
  - rewrite leqb_enc_cs by auto. cbn [map snd]. rewrite last_cons. reflexivity.
  - destruct (leqb p (B "encoding")); auto.
Qed.

Lemma run_header l r : wf_name (vl_id l) -> Forall name_char (vl_group l) -> wf_params (vl_params l) ->
  exists y, px_run (header_text l ++ [cCOLON] ++ r) px_init = (y, Some r) /\
    px_line y = mkVline (vl_id l) (vl_group l) (vl_params l) QInvalid [] /\
    px_enc y = last (map to_lower (vl_parameters (B "encoding") l)) [] /\
    px_charset y = last (map to_lower (vl_parameters (B "charset") l)) [].
Proof.
  intros [Hi1 Hi2] Hg Hp. unfold header_text. rewrite params_text_pvs by auto.
  rewrite !name_latin1 by auto.
  assert (Hx : exists x, px_run ((if vl_has_group l then vl_group l ++ [cDOT] ++ vl_id l else vl_id l)
       ++ flat_map pv_text (pvs_of (vl_params l)) ++ [cCOLON] ++ r) px_init
     = px_run (flat_map pv_text (pvs_of (vl_params l)) ++ [cCOLON] ++ r) x /\ waiting x /\
     core (flush x) = (mkVline (vl_id l) (vl_group l) [] QInvalid [], [], [])).
  { unfold vl_has_group. destruct (isnil (vl_group l)) eqn:Eg; cbn [negb].
    - apply isnil_true in Eg. rewrite run_initial by auto. eexists. split; [reflexivity|]. split; [left; reflexivity|].
      rewrite Eg. reflexivity.
    - rewrite <- !app_assoc. rewrite run_initial by auto. cbn [app]. rewrite px_run_cons.
      set (x1 := px_goto PInitial _ px_init).
      assert (Es : px_step cDOT x1 = (px_goto PInitial [] (px_set_line (vl_set_group (vl_group l) (px_line x1)) x1), true)) by reflexivity.
      rewrite Es. rewrite run_initial by auto. eexists. split; [reflexivity|]. split; [left; reflexivity|]. reflexivity. }
  destruct Hx as (x & Hx & Hw & Hc). rewrite <- app_assoc, Hx.
  destruct (run_params (pvs_of (vl_params l)) x r Hw (pvs_of_ok _ Hp)) as (y & Hy & Hcy).
  exists y. split; [exact Hy|]. rewrite Hc in Hcy.
  pose proof (fold_add_pv_line (pvs_of (vl_params l)) (mkVline (vl_id l) (vl_group l) [] QInvalid [], [], [])) as F1.
  pose proof (fold_add_pv_enc (pvs_of (vl_params l)) (mkVline (vl_id l) (vl_group l) [] QInvalid [], [], [])) as F2.
  pose proof (fold_add_pv_cs (pvs_of (vl_params l)) (mkVline (vl_id l) (vl_group l) [] QInvalid [], [], [])) as F3.
  rewrite <- Hcy in F1, F2, F3. cbn [core fst snd] in F1, F2, F3.
  rewrite rebuild_params in F1 by auto. destruct Hp as [Hs _].
  rewrite added_pvs in F2, F3 by auto. unfold vl_parameters. auto.
Qed.
