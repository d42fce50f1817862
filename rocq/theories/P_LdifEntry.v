(** The LDIF reader on the lines of entries: lemmas for C25, C27, C28. *)
From Verif Require Import Base BaseFacts Utf8 Utf8Facts QtText M_Values M_Date M_Addressee M_ContactGroup M_Ldif S_Ldif P_Ldif.
Local Open Scope list_scope.
Local Open Scope nat_scope.

(** the line [u] is complete, its end has been read *)
Definition pending (u : bytes) (s : lstate) : lstate := w_scan (l_last s) true false u s.
(** the line is processed *)
Definition commit (u : bytes) (s : lstate) : pval * lstate :=
  let '(v, t) := process_line (w_scan (l_last s) false false u s) in (v, w_scan v false false [] t).
Definition emit (x : pval * lstate) : list event :=
  if is_none (fst x) then [] else [(fst x, l_attr (snd x), l_value (snd x))].

(** characters that begin a line of their own *)
Definition starter (c : N) : bool := negb (is_eol c || N.eqb c cSP || N.eqb c cTAB || N.eqb c 35).
Lemma starter_spec c : starter c = true ->
  N.eqb c cLF = false /\ N.eqb c cCR = false /\ N.eqb c cSP = false /\ N.eqb c cTAB = false /\ N.eqb c 35 = false.
Proof. unfold starter, is_eol. rewrite negb_true_iff, !orb_false_iff. tauto. Qed.

(** a state in the middle of a line *)
Definition inline (u : bytes) (s : lstate) : lstate := w_scan (l_last s) false false u s.

Lemma scan_plain c u s : is_eol c = false -> scan_char c (inline u s) = (PNone, inline (u ++ [c]) s).
Proof.
  intros H. unfold is_eol in H. unfold scan_char. cbn [inline w_scan l_newline andb]. rewrite H. reflexivity.
Qed.
Lemma scan_eol c u s : is_eol c = true -> scan_char c (inline u s) = (PNone, pending u s).
Proof. intros H. unfold is_eol in H. unfold scan_char. cbn [inline w_scan l_newline andb]. rewrite H. reflexivity. Qed.
Lemma scan_fold u s : scan_char cSP (pending u s) = (PNone, inline u s).
Proof. reflexivity. Qed.
Lemma scan_blank u s : scan_char cLF (pending u s) = (fst (commit u s), pending [] (snd (commit u s))).
Proof.
  unfold scan_char, commit. cbn [pending w_scan l_newline l_last l_line andb].
  change (N.eqb cLF cCR) with false. change (N.eqb cLF cSP || N.eqb cLF cTAB) with false. cbn [andb].
  change (w_scan (l_last (pending u s)) false (l_comment (pending u s)) u (pending u s)) with (w_scan (l_last s) false false u s).
  destruct (process_line _) as [v t]. reflexivity.
Qed.
Lemma scan_starter c u s : starter c = true ->
  scan_char c (pending u s) = (fst (commit u s), inline [c] (snd (commit u s))).
Proof.
  intros H. apply starter_spec in H. destruct H as (A & C & D & T & G).
  unfold scan_char, commit. cbn [pending w_scan l_newline l_last l_line andb]. rewrite C, D, T. cbn [orb andb].
  change (w_scan (l_last (pending u s)) false (l_comment (pending u s)) u (pending u s)) with (w_scan (l_last s) false false u s).
  destruct (process_line _) as [v t]. cbn [fst snd]. rewrite A, G. reflexivity.
Qed.

Lemma run_folded t u : folded t u -> forall w s, run t (inline w s) = ([], inline (w ++ u) s).
Proof.
  induction 1 as [|c t u H F IH|t u F IH]; intros w s.
  - rewrite app_nil_r. reflexivity.
  - cbn [run]. rewrite scan_plain by assumption. rewrite IH, <- app_assoc. reflexivity.
  - cbn [run]. rewrite scan_eol by reflexivity. rewrite scan_fold, IH. reflexivity.
Qed.

(** [t], with a line end after it, is a line with attribute [f] and value [v] *)
Definition line_ok (t : bytes) (f : ustring) (v : bytes) : Prop :=
  exists c t' u, t = c :: t' /\ starter c = true /\ folded t' u /\ split_line (c :: u) = (false, f, v).

Definition logical (t : bytes) : bytes := unfolded t.
Lemma line_ok_logical t f v : line_ok t f v -> split_line (logical t) = (false, f, v).
Proof.
  intros (c & t' & u & -> & S & F & H). unfold logical. rewrite (folded_unfolded (c :: t') (c :: u)); [exact H|].
  constructor; [|exact F]. apply starter_spec in S. unfold is_eol. destruct S as (-> & -> & _). reflexivity.
Qed.

(** a further line after the line [u] *)
Lemma run_line t f v u s : line_ok t f v ->
  run (t ++ [cLF]) (pending u s) = (emit (commit u s), pending (logical t) (snd (commit u s))).
Proof.
  intros (c & t' & w & -> & S & F & H). unfold logical.
  rewrite (folded_unfolded (c :: t') (c :: w)).
  2:{ constructor; [|exact F]. apply starter_spec in S. unfold is_eol. destruct S as (-> & -> & _). reflexivity. }
  rewrite <- app_comm_cons. cbn [run]. rewrite scan_starter by assumption.
  rewrite run_app, (run_folded t' w F). cbn [fst snd]. cbn [run]. rewrite scan_eol by reflexivity.
  cbn [fst snd is_none app]. unfold emit. destruct (is_none _) eqn:E; reflexivity.
Qed.
Lemma run_blank u s : run [cLF] (pending u s) = (emit (commit u s), pending [] (snd (commit u s))).
Proof. cbn [run]. rewrite scan_blank. unfold emit. destruct (is_none _); reflexivity. Qed.

(** ** Processing *)

(** the kind of entry the next line is taken for *)
Definition mode (s : lstate) : etype := match l_last s with PEndEntry => ENone | _ => l_etype s end.

Lemma split_nil : split_line [] = (false, [], []).
Proof. reflexivity. Qed.

Lemma commit_add u s f v : mode s = EAdd -> split_line u = (false, f, v) -> f <> [] ->
  exists s1, commit u s = (PItem, s1) /\ l_attr s1 = f /\ l_value s1 = v /\ mode s1 = EAdd.
Proof.
  intros M H N. unfold commit, process_line. cbn [w_scan l_comment l_last l_line l_etype].
  fold (mode s). rewrite M, H. cbv zeta. cbn [w_scan w_item w_etype].
  destruct f as [|c f]; [congruence|]. cbn [isnil andb]. eexists. split; [reflexivity|]. auto.
Qed.
Lemma commit_end s : mode s = EAdd ->
  exists s1, commit [] s = (PEndEntry, s1) /\ l_attr s1 = [] /\ l_value s1 = [] /\ mode s1 = ENone.
Proof.
  intros M. unfold commit, process_line. cbn [w_scan l_comment l_last l_line l_etype].
  fold (mode s). rewrite M, split_nil. cbv zeta. cbn [isnil andb]. eexists. split; [reflexivity|]. auto.
Qed.
Lemma commit_dn u s f v : mode s = ENone -> split_line u = (false, f, v) -> to_lower f = B "dn" ->
  exists s1, commit u s = (PNewEntry, s1) /\ l_attr s1 = f /\ l_value s1 = v /\ mode s1 = ENone.
Proof.
  intros M H N. unfold commit, process_line. cbn [w_scan l_comment l_last l_line l_etype].
  fold (mode s). rewrite M, H. cbv zeta. rewrite N. change (leqb (B "dn") (B "version")) with false.
  change (leqb (B "dn") (B "dn")) with true. cbv iota. eexists. split; [reflexivity|]. auto.
Qed.
Lemma commit_first u s f v : mode s = ENone -> split_line u = (false, f, v) -> ordinary f = true -> f <> [] -> v <> [] ->
  exists s1, commit u s = (PItem, s1) /\ l_attr s1 = f /\ l_value s1 = v /\ mode s1 = EAdd.
Proof.
  intros M H O NF NV. unfold commit, process_line. cbn [w_scan l_comment l_last l_line l_etype].
  fold (mode s). rewrite M, H. cbv zeta. unfold ordinary, one_of in O. rewrite negb_true_iff in O. cbn [existsb] in O.
  rewrite !orb_false_iff in O. destruct O as (O1 & O2 & O3 & O4 & _). rewrite O1, O2, O3, O4.
  destruct f as [|c f]; [congruence|]. destruct v as [|d v]; [congruence|]. cbn [isnil andb negb].
  eexists. split; [reflexivity|]. auto.
Qed.
Lemma commit_none s : mode s = ENone ->
  exists s1, commit [] s = (PNone, s1) /\ mode s1 = ENone.
Proof.
  intros M. unfold commit, process_line. cbn [w_scan l_comment l_last l_line l_etype].
  fold (mode s). rewrite M, split_nil. cbv zeta.
  change (leqb (to_lower []) (B "version")) with false. change (leqb (to_lower []) (B "dn")) with false.
  change (leqb (to_lower []) (B "changetype")) with false. change (leqb (to_lower []) (B "control")) with false.
  cbn [isnil negb andb]. eexists. split; [reflexivity|]. reflexivity.
Qed.

(** ** Entries *)

(** physical lines with their attributes and values *)
Definition pline : Type := bytes * (ustring * bytes).
Definition pline_ok (l : pline) : Prop := line_ok (fst l) (fst (snd l)) (snd (snd l)) /\ fst (snd l) <> [].
Definition plines_text (ls : list pline) : bytes := flat_map (fun l => fst l ++ [cLF]) ls.
Definition item_event (p : ustring * bytes) : event := (PItem, fst p, snd p).

(** lines inside an entry: each is reported when the next one begins *)
Lemma run_items ls : forall u s f v,
  mode s = EAdd -> split_line u = (false, f, v) -> f <> [] -> Forall pline_ok ls ->
  exists u' s' f' v', run (plines_text ls) (pending u s) =
     (map item_event (removelast ((f, v) :: map snd ls)), pending u' s')
  /\ mode s' = EAdd /\ split_line u' = (false, f', v') /\ f' <> [] /\ last ((f, v) :: map snd ls) ([], []) = (f', v').
Proof.
  induction ls as [|l ls IH]; intros u s f v M H NF OK.
  - exists u, s, f, v. cbn. auto.
  - inversion OK as [|? ? [L1 L2] OK']; subst. destruct l as [t [f1 v1]]. cbn [fst snd] in *.
    cbn [plines_text flat_map fst]. fold (plines_text ls). rewrite run_app.
    rewrite (run_line t f1 v1 u s L1). cbn [fst snd].
    destruct (commit_add u s f v M H NF) as (s1 & C & A1 & A2 & M1). rewrite C. cbn [snd].
    destruct (IH (logical t) s1 f1 v1 M1 (line_ok_logical _ _ _ L1) L2 OK') as (u' & s' & f' & v' & R & G).
    fold (plines_text ls) in R. exists u', s', f', v'. rewrite R. cbn [fst snd].
    split; [|exact G]. f_equal. unfold emit. cbn [fst snd is_none]. rewrite A1, A2. reflexivity.
Qed.

(** a whole entry: a dn line, lines, an empty line *)
Lemma run_entry td fd dn ls u s :
  line_ok td fd dn -> to_lower fd = B "dn" -> mode (snd (commit u s)) = ENone ->
  Forall pline_ok ls ->
  (exists l r, ls = l :: r /\ ordinary (fst (snd l)) = true /\ snd (snd l) <> []) ->
  exists s', run (td ++ [cLF] ++ plines_text ls ++ [cLF]) (pending u s) =
     (emit (commit u s) ++ (PNewEntry, fd, dn) :: map (fun l => item_event (snd l)) ls, pending [] s')
  /\ mode s' = EAdd.
Proof.
  intros LD FD M OK (l & r & -> & O & NV).
  rewrite app_assoc, run_app, (run_line td fd dn u s LD). cbn [fst snd].
  destruct (commit u s) as [v0 s0]. cbn [snd] in *.
  inversion OK as [|? ? [L1 L2] OK']; subst. destruct l as [t [f1 v1]]. cbn [fst snd] in *.
  cbn [plines_text flat_map]. fold (plines_text r). cbn [fst].
  destruct (commit_dn (logical td) s0 fd dn M (line_ok_logical _ _ _ LD) FD) as (s1 & C1 & A1 & A2 & M1).
  rewrite <- app_assoc, run_app, (run_line t f1 v1 _ _ L1), C1. cbn [fst snd].
  destruct r as [|l2 r].
  - destruct (commit_first (logical t) s1 f1 v1 M1 (line_ok_logical _ _ _ L1) O L2 NV) as (s2 & C2 & D1 & D2 & M2).
    cbn [plines_text flat_map app]. rewrite run_blank, C2. cbn [fst snd].
    exists s2. split; [|exact M2]. unfold emit at 2 3. cbn [fst snd is_none map app]. rewrite A1, A2, D1, D2. reflexivity.
  - inversion OK' as [|? ? [K1 K2] OK'']; subst. destruct l2 as [t2 [f2 v2]]. cbn [fst snd] in *.
    cbn [plines_text flat_map]. fold (plines_text r). cbn [fst].
    destruct (commit_first (logical t) s1 f1 v1 M1 (line_ok_logical _ _ _ L1) O L2 NV) as (s2 & C2 & D1 & D2 & M2).
    rewrite <- app_assoc, run_app, (run_line t2 f2 v2 _ _ K1), C2. cbn [fst snd].
    destruct (run_items r (logical t2) s2 f2 v2 M2 (line_ok_logical _ _ _ K1) K2 OK'') as (u' & s' & f' & v' & R & M' & H' & N' & LA).
    rewrite run_app, R. cbn [fst snd].
    destruct (commit_add u' s' f' v' M' H' N') as (s3 & C3 & E1 & E2 & M3).
    rewrite run_blank, C3. cbn [fst snd]. exists s3. split; [|exact M3].
    f_equal. f_equal. unfold emit. cbn [fst snd is_none map app]. rewrite D1, D2, E1, E2. do 2 f_equal.
    change [(PItem, f', v')] with (map item_event [(f', v')]). rewrite <- map_app, <- LA, <- app_removelast_last by discriminate.
    cbn [map]. f_equal. rewrite map_map. reflexivity.
Qed.

(** ** Written lines *)

Lemma assemble_raw sc f v len : assemble_line sc f v len false =
  if Nat.eqb len 0 then raw_line sc f v
  else fold_loop (length (raw_line sc f v)) (Nat.max (length f + 2) len) (len + 2) (raw_line sc f v).
Proof. reflexivity. Qed.

Lemma attr_starter c : attr_char c = true -> c <> 35%N -> starter c = true.
Proof.
  intros H N. apply attr_char_spec in H. unfold starter, is_eol, cLF, cCR, cSP, cTAB. rewrite negb_true_iff, !orb_false_iff, !N.eqb_neq. lia.
Qed.
Lemma raw_line_hd sc f v : attr_ok f = true ->
  exists c q, raw_line sc f v = c :: q /\ starter c = true.
Proof.
  intros H. destruct (attr_ok_hd f H) as (c & r & -> & A & N). apply attr_ok_chars in H.
  unfold raw_line. rewrite (attr_ascii _ H). destruct (safe_value _ _ _); cbn [app]; eexists _, _; (split; [reflexivity|]);
    apply attr_starter; assumption.
Qed.
Lemma assemble_line_ok sc f v len : attr_ok f = true -> is_bytes v = true ->
  line_ok (assemble_line sc f v len false) f v.
Proof.
  intros H V. destruct (raw_line_hd sc f v H) as (c & q & E & S). apply attr_ok_chars in H.
  pose proof (raw_noeol sc f v H V) as NE. pose proof (split_raw sc f v H V) as SP. rewrite E in *.
  rewrite assemble_raw. rewrite E. inversion NE as [|? ? N0 NQ]; subst.
  destruct (Nat.eqb len 0).
  - exists c, q, q. repeat split; auto. apply folded_refl, NQ.
  - destruct (Nat.max (length f + 2) len) as [|i] eqn:EI; [lia|].
    exists c, (fold_loop (length (c :: q)) i (len + 2) q), q. repeat split; auto.
    + apply (fold_loop_prefix (length (c :: q)) i (len + 2) [c] q).
    + apply fold_loop_folded, NQ.
Qed.

Lemma pair_pline sc len p : pair_ok p = true -> pline_ok (assemble_line sc (fst p) (snd p) len false, p).
Proof.
  intros H. unfold pair_ok in H. apply andb_true_iff in H. destruct H as [A V]. destruct p as [f v]. cbn [fst snd] in *.
  split; [apply assemble_line_ok; assumption|]. destruct f; [discriminate|discriminate].
Qed.
Definition plines (sc : bool) (len : nat) (ps : list (ustring * bytes)) : list pline :=
  map (fun p => (assemble_line sc (fst p) (snd p) len false, p)) ps.
Lemma plines_line_of sc len ps : plines_text (plines sc len ps) = flat_map (line_of sc len) ps.
Proof. induction ps as [|p ps IH]; [reflexivity|]. cbn [plines map plines_text flat_map]. f_equal. exact IH. Qed.
Lemma plines_ok sc len ps : forallb pair_ok ps = true -> Forall pline_ok (plines sc len ps).
Proof.
  intros H. rewrite forallb_forall in H. apply Forall_forall. intros l I. apply in_map_iff in I. destruct I as (p & <- & I).
  apply pair_pline, H, I.
Qed.

Lemma run_entry_text sc len e u s : entry_ok e = true -> mode (snd (commit u s)) = ENone ->
  exists s', run (entry_text sc len e) (pending u s) =
    (emit (commit u s) ++ (PNewEntry, B "dn", fst e) :: map item_event (snd e), pending [] s') /\ mode s' = EAdd.
Proof.
  intros H M. unfold entry_ok in H. rewrite !andb_true_iff in H. destruct H as [[D P] F]. destruct e as [dn ps]. cbn [fst snd] in *.
  assert (LD : line_ok (assemble_line sc (B "dn") dn len false) (B "dn") dn) by (apply assemble_line_ok; [reflexivity|exact D]).
  destruct (run_entry _ _ _ (plines sc len ps) u s LD eq_refl M (plines_ok sc len ps P)) as (s' & R & M').
  { destruct ps as [|p r]; [discriminate|]. apply andb_true_iff in F. destruct F as [F1 F2]. cbn [plines map].
    eexists _, _. split; [reflexivity|]. cbn [fst snd]. split; [exact F1|]. destruct (snd p); [discriminate|discriminate]. }
  exists s'. split; [|exact M']. unfold entry_text. cbn [fst snd]. unfold line_of at 1. cbn [fst snd].
  rewrite plines_line_of in R. rewrite <- app_assoc, R. f_equal. do 2 f_equal.
  unfold plines. rewrite map_map. reflexivity.
Qed.

Lemma run_entries sc len es : forall u s, forallb entry_ok es = true -> mode (snd (commit u s)) = ENone ->
  fst (run (flat_map (entry_text sc len) es ++ [cLF]) (pending u s)) = emit (commit u s) ++ flat_map entry_events es.
Proof.
  induction es as [|e es IH]; intros u s H M.
  - cbn [flat_map app]. rewrite run_blank, app_nil_r. reflexivity.
  - cbn [forallb] in H. apply andb_true_iff in H. destruct H as [He Hes]. cbn [flat_map].
    destruct (run_entry_text sc len e u s He M) as (s' & R & M').
    rewrite <- app_assoc, run_app, R. cbn [fst snd].
    destruct (commit_end s' M') as (s2 & C & A1 & A2 & M2).
    rewrite IH by (try assumption; rewrite C; assumption). rewrite C. unfold emit at 2. cbn [fst snd is_none]. rewrite A1, A2.
    unfold entry_events at 2. rewrite <- !app_assoc. cbn [app]. rewrite <- app_assoc. reflexivity.
Qed.

(** a fresh reader is as good as one that has just read an empty line *)
Lemma commit_start text : commit [] (ldif_start text) = (PNone, inline [] (ldif_start text)).
Proof. reflexivity. Qed.
Lemma run_start c t text : starter c = true ->
  run (c :: t) (ldif_start text) = run (c :: t) (pending [] (ldif_start text)).
Proof.
  intros H. cbn [run]. rewrite scan_starter by assumption. rewrite commit_start. cbn [fst snd].
  change (ldif_start text) with (inline [] (ldif_start text)) at 1.
  rewrite scan_plain; [reflexivity|]. apply starter_spec in H. unfold is_eol. destruct H as (-> & -> & _). reflexivity.
Qed.
Lemma line_ok_start t f v : line_ok t f v -> exists c r, t = c :: r /\ starter c = true.
Proof. intros (c & t' & u & -> & S & _). eauto. Qed.

Theorem reports_entries sc len es : forallb entry_ok es = true ->
  reports (flat_map (entry_text sc len) es ++ [cLF]) = Some (flat_map entry_events es).
Proof.
  intros H. rewrite reports_run. f_equal. destruct es as [|e es]; [reflexivity|].
  set (text := flat_map (entry_text sc len) (e :: es) ++ [cLF]).
  assert (exists c r, text = c :: r /\ starter c = true) as (c & r & E & S).
  { assert (LD : line_ok (assemble_line sc (B "dn") (fst e) len false) (B "dn") (fst e)).
    { apply assemble_line_ok; [reflexivity|]. cbn [forallb] in H. unfold entry_ok in H. rewrite !andb_true_iff in H. tauto. }
    destruct (line_ok_start _ _ _ LD) as (c & r & E & S). unfold text. cbn [flat_map]. unfold entry_text at 1, line_of at 1.
    cbn [fst snd]. rewrite E. cbn [app]. eauto. }
  rewrite E at 1. rewrite run_start by assumption. rewrite <- E. unfold text.
  rewrite run_entries by (try assumption; rewrite commit_start; reflexivity). rewrite commit_start. reflexivity.
Qed.

(** ** Line lengths *)

Lemma split_lines_fold f : forall i n q, noeol q -> 0 < n -> 0 < i -> length q <= f + i ->
  exists h tl, split cLF (fold_loop f i (n + 2) q) = h :: tl /\ length h <= i /\ Forall (fun l => length l <= n + 1) tl.
Proof.
  assert (NL : forall q, noeol q -> ~ In cLF q).
  { intros q H I. unfold noeol in H; rewrite Forall_forall in H. specialize (H _ I). discriminate. }
  induction f as [|f IH]; intros i n q H Hn Hi L.
  - exists q, []. cbn [fold_loop]. rewrite split_notin by (apply NL, H). repeat split; [lia|constructor].
  - destruct (Nat.lt_ge_cases i (length q)) as [G|G].
    + rewrite fold_loop_step by assumption. cbn [app].
      rewrite split_app by (apply NL, noeol_firstn, H).
      destruct (IH n n (skipn i q) (noeol_skipn i q H) Hn Hn) as (h & tl & E & A & C); [rewrite skipn_length; lia|].
      exists (firstn i q), ((cSP :: h) :: tl). cbn [split]. change (N.eqb cSP cLF) with false. cbv iota. rewrite E.
      repeat split; [rewrite firstn_length; lia|]. constructor; [cbn [length]; lia|exact C].
    + rewrite fold_loop_stop by assumption. exists q, []. rewrite split_notin by (apply NL, H). repeat split; [lia|constructor].
Qed.
Lemma assemble_lengths sc f v len : attr_ok f = true -> is_bytes v = true -> 0 < len ->
  exists h tl, split cLF (assemble_line sc f v len false) = h :: tl
    /\ length h <= Nat.max (length f + 2) len /\ Forall (fun l => length l <= len + 1) tl.
Proof.
  intros H V L. apply attr_ok_chars in H. rewrite assemble_raw.
  destruct (Nat.eqb_spec len 0); [lia|]. apply split_lines_fold; try lia. apply raw_noeol; assumption.
Qed.
