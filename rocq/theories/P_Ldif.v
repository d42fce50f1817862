(** The LDIF line writer and the reader: lemmas for C25, C26 and the line lengths. *)
From Verif Require Import Base BaseFacts Utf8 Utf8Facts QtText M_Values M_Date M_Addressee M_ContactGroup M_Ldif S_Ldif.
Local Open Scope list_scope.
Local Open Scope nat_scope.

(** ** Folding *)

Lemma fold_loop_prefix f : forall i step p q,
  fold_loop f (length p + i) step (p ++ q) = p ++ fold_loop f i step q.
Proof.
  induction f as [|f IH]; intros i step p q; [reflexivity|].
  cbn [fold_loop]. rewrite app_length.
  destruct (Nat.ltb_spec (length p + i) (length p + length q)) as [H|H];
    destruct (Nat.ltb_spec i (length q)) as [G|G]; try lia; [|reflexivity].
  rewrite <- Nat.add_assoc.
  rewrite firstn_app_2. rewrite skipn_app, skipn_all2 by lia. cbn [app].
  replace (length p + i - length p) with i by lia.
  rewrite <- app_assoc. apply IH.
Qed.

Lemma fold_loop_step f i n q : i < length q ->
  fold_loop (S f) i (n + 2) q = firstn i q ++ [cLF; cSP] ++ fold_loop f n (n + 2) (skipn i q).
Proof.
  intros H. cbn [fold_loop]. destruct (Nat.ltb_spec i (length q)); [|lia].
  replace (i + (n + 2)) with (length (firstn i q ++ [cLF; cSP]) + n)
    by (rewrite app_length, firstn_length_le by lia; cbn [length]; lia).
  replace (firstn i q ++ cLF :: cSP :: skipn i q) with ((firstn i q ++ [cLF; cSP]) ++ skipn i q)
    by (rewrite <- app_assoc; reflexivity).
  rewrite fold_loop_prefix, <- app_assoc. reflexivity.
Qed.
Lemma fold_loop_stop f i step q : length q <= i -> fold_loop f i step q = q.
Proof. destruct f; [reflexivity|]. cbn [fold_loop]. destruct (Nat.ltb_spec i (length q)); [lia|reflexivity]. Qed.

(** the number of rounds does not matter once it is large enough *)
Lemma fold_loop_fuel f : forall i n q k, 0 < n -> length q <= f + i -> 0 < i ->
  fold_loop (f + k) i (n + 2) q = fold_loop f i (n + 2) q.
Proof.
  induction f as [|f IH]; intros i n q k Hn H Hi.
  - cbn [Nat.add]. rewrite fold_loop_stop by lia. reflexivity.
  - destruct (Nat.lt_ge_cases i (length q)) as [G|G].
    + cbn [Nat.add]. rewrite !fold_loop_step by assumption. do 2 f_equal.
      apply IH; try lia. rewrite skipn_length. lia.
    + rewrite !fold_loop_stop by lia. reflexivity.
Qed.

(** physical text and the logical line it stands for *)
Inductive folded : bytes -> bytes -> Prop :=
| fo_nil : folded [] []
| fo_char c t u : is_eol c = false -> folded t u -> folded (c :: t) (c :: u)
| fo_fold t u : folded t u -> folded (cLF :: cSP :: t) u.
Definition noeol (s : bytes) : Prop := Forall (fun c => is_eol c = false) s.

Lemma folded_app t u t' u' : folded t u -> folded t' u' -> folded (t ++ t') (u ++ u').
Proof. induction 1; intros G; cbn [app]; try constructor; auto. Qed.
Lemma folded_refl s : noeol s -> folded s s.
Proof. induction 1; constructor; auto. Qed.
Lemma noeol_firstn n s : noeol s -> noeol (firstn n s).
Proof. intros H. apply Forall_forall. intros x I. apply (proj1 (Forall_forall _ s) H). revert I. rewrite <- (firstn_skipn n s) at 2. rewrite in_app_iff. auto. Qed.
Lemma noeol_skipn n s : noeol s -> noeol (skipn n s).
Proof. intros H. apply Forall_forall. intros x I. apply (proj1 (Forall_forall _ s) H). rewrite <- (firstn_skipn n s). rewrite in_app_iff. auto. Qed.
Lemma fold_loop_folded f : forall i n q, noeol q -> folded (fold_loop f i (n + 2) q) q.
Proof.
  induction f as [|f IH]; intros i n q H; [apply folded_refl, H|].
  destruct (Nat.lt_ge_cases i (length q)) as [G|G].
  - rewrite fold_loop_step by assumption.
    rewrite <- (firstn_skipn i q) at 3. apply folded_app; [apply folded_refl, noeol_firstn, H|].
    cbn [app]. constructor. apply IH, noeol_skipn, H.
  - rewrite fold_loop_stop by assumption. apply folded_refl, H.
Qed.
Lemma folded_noeol t u : folded t u -> noeol u.
Proof. induction 1; try constructor; auto. Qed.
Lemma folded_unfolded t u : folded t u -> unfolded t = u.
Proof.
  assert (G : forall n t u, length t <= n -> folded t u -> unfolded t = u).
  { induction n as [|n IH]; intros t0 u0 L H; inversion H; subst; try reflexivity; cbn [length] in L; try lia.
    - specialize (IH t1 u1 ltac:(lia) H1). destruct t1 as [|d r].
      + inversion H1; subst. reflexivity.
      + cbn [unfolded] in *. fold unfolded in *. unfold is_eol in H0. apply orb_false_iff in H0. destruct H0 as [H0 _].
        rewrite H0. cbn [andb]. f_equal. exact IH.
    - cbn [unfolded]. rewrite !N.eqb_refl. cbn [andb]. apply IH; [lia|assumption]. }
  intros H. apply (G (length t)); auto.
Qed.

(** ** The unfolded line *)

(** the line before folding *)
Definition raw_line (sc : bool) (f : ustring) (v : bytes) : bytes :=
  if safe_value sc (leqb (to_lower f) (B "dn")) v then to_utf8 f ++ [cCOLON; cSP] ++ v
  else to_utf8 f ++ [cCOLON; cCOLON; cSP] ++ to_base64 v.

Lemma attr_char_spec c : attr_char c = true -> (32 < c /\ c < 127 /\ c <> 58)%N.
Proof. unfold attr_char. rewrite !andb_true_iff, negb_true_iff, N.eqb_neq, !N.ltb_lt. tauto. Qed.
Lemma attr_ok_chars f : attr_ok f = true -> forallb attr_char f = true.
Proof. destruct f; cbn; [discriminate|]. rewrite !andb_true_iff. tauto. Qed.
Lemma attr_ok_hd f : attr_ok f = true -> exists c r, f = c :: r /\ attr_char c = true /\ c <> 35%N.
Proof.
  destruct f as [|c r]; cbn; [discriminate|]. rewrite !andb_true_iff, negb_true_iff, N.eqb_neq. intros (A & C & _).
  exists c, r. auto.
Qed.
Lemma attr_ascii f : forallb attr_char f = true -> to_utf8 f = f.
Proof.
  induction f as [|c f IH]; intros H; [reflexivity|]. cbn [forallb] in H. apply andb_true_iff in H. destruct H as [A C].
  apply attr_char_spec in A. cbn [to_utf8]. destruct (N.ltb_spec c 128); [|lia]. unfold enc1. cbn [app]. f_equal. auto.
Qed.
Lemma attr_char_eol c : attr_char c = true -> is_eol c = false.
Proof. intros H. apply attr_char_spec in H. unfold is_eol, cLF, cCR. apply orb_false_iff; split; apply N.eqb_neq; lia. Qed.
Lemma attr_noeol f : forallb attr_char f = true -> noeol f.
Proof. intros H. rewrite forallb_forall in H. apply Forall_forall. intros c I. apply attr_char_eol, H, I. Qed.
Lemma b64_eol c : is_b64 c = true -> is_eol c = false.
Proof. unfold is_b64, is_eol, cLF, cCR. intros H. lia. Qed.

Lemma safe_init_eol sc c : safe_init sc c = true -> is_eol c = false.
Proof. unfold safe_init, is_eol. rewrite !andb_true_iff, !negb_true_iff. intros H. apply orb_false_iff. tauto. Qed.
Lemma safe_char_eol sc d c : safe_char sc d c = true -> is_eol c = false.
Proof. unfold safe_char, is_eol. rewrite negb_true_iff, !orb_false_iff. tauto. Qed.
Lemma safe_noeol sc d v : safe_value sc d v = true -> noeol v.
Proof.
  destruct v as [|c r]; intros H; [constructor|]. cbn [safe_value] in H. apply andb_true_iff in H. destruct H as [A C].
  constructor; [eapply safe_init_eol, A|]. rewrite forallb_forall in C. apply Forall_forall. intros x I. eapply safe_char_eol, C, I.
Qed.
Lemma raw_noeol sc f v : forallb attr_char f = true -> is_bytes v = true -> noeol (raw_line sc f v).
Proof.
  intros H V. unfold raw_line. rewrite (attr_ascii f H).
  destruct (safe_value sc _ v) eqn:S; apply Forall_app; (split; [apply attr_noeol, H|]);
    apply Forall_app; (split; [repeat constructor|]).
  - eapply safe_noeol, S.
  - pose proof (to_base64_chars v V) as G. rewrite forallb_forall in G. apply Forall_forall. intros x I. apply b64_eol, G, I.
Qed.

Lemma assemble_folded sc f v len : forallb attr_char f = true -> is_bytes v = true ->
  folded (assemble_line sc f v len false) (raw_line sc f v).
Proof.
  intros H V. unfold assemble_line. fold (raw_line sc f v). cbv zeta.
  destruct (Nat.eqb len 0); [apply folded_refl|apply fold_loop_folded]; apply raw_noeol; assumption.
Qed.

(** ** Taking the line apart again *)

Lemma rev_trim_attr f : forallb attr_char f = true -> trim_left f = f.
Proof.
  destruct f as [|c r]; [reflexivity|]. cbn [forallb]. intros H. apply andb_true_iff in H. destruct H as [A _].
  apply trim_left_nospace. apply attr_char_spec in A. unfold is_space. lia.
Qed.
Lemma trimmed_attr f : forallb attr_char f = true -> trimmed f = f.
Proof.
  intros H. unfold trimmed. rewrite (rev_trim_attr f) by assumption.
  rewrite rev_trim_attr; [apply rev_involutive|].
  rewrite forallb_forall in H |- *. intros x I. apply H. apply in_rev, I.
Qed.
Lemma attr_nocolon f : forallb attr_char f = true -> ~ In cCOLON f.
Proof. intros H I. rewrite forallb_forall in H. specialize (H _ I). discriminate. Qed.
Lemma from_utf8_attr f : forallb attr_char f = true -> from_utf8 f = f.
Proof.
  intros H. rewrite <- (attr_ascii f H) at 1. apply utf8_roundtrip. unfold text_ok.
  assert (valid_utf16 f = true /\ no_bom f = true) as [A C].
  { split.
    - revert H. induction f as [|c f IH]; [reflexivity|]. cbn [forallb]. intros H. apply andb_true_iff in H. destruct H as [A C].
      apply attr_char_spec in A. cbn [valid_utf16]. unfold is_high, is_low.
      destruct (N.leb_spec 0xD800 c); [lia|]. destruct (N.leb_spec 0xDC00 c); [lia|]. destruct (N.ltb_spec c 65536); [|lia].
      cbn [andb negb]. auto.
    - destruct f as [|c f]; [reflexivity|]. cbn [forallb] in H. apply andb_true_iff in H. destruct H as [A _].
      apply attr_char_spec in A. cbn [no_bom]. destruct (N.eqb_spec c 0xFEFF); [lia|reflexivity]. }
  rewrite A, C. reflexivity.
Qed.

Lemma split_raw sc f v : forallb attr_char f = true -> is_bytes v = true ->
  split_line (raw_line sc f v) = (false, f, v).
Proof.
  intros H V. unfold raw_line. rewrite (attr_ascii f H).
  destruct (safe_value sc _ v) eqn:SV; cbn [app]; unfold split_line.
  - rewrite index_of_app_notin by (apply attr_nocolon, H).
    rewrite firstn_app_exact, trimmed_attr, from_utf8_attr by assumption.
    rewrite nth_error_app2 by lia. replace (length f + 1 - length f) with 1 by lia. cbn [nth_error].
    change (N.eqb cSP cCOLON) with false. change (N.eqb cSP 60) with false. cbv iota.
    f_equal. rewrite app_length. cbn [length]. destruct (Nat.leb_spec (length f + S (S (length v))) (length f + 2)) as [G|G].
    + destruct v; [reflexivity|cbn [length] in G; lia].
    + unfold mid. replace (f ++ cCOLON :: cSP :: v) with ((f ++ [cCOLON; cSP]) ++ v) by (rewrite <- app_assoc; reflexivity).
      replace (length f + 2) with (length (f ++ [cCOLON; cSP])) by (rewrite app_length; reflexivity). apply skipn_app_exact.
  - rewrite index_of_app_notin by (apply attr_nocolon, H).
    rewrite firstn_app_exact, trimmed_attr, from_utf8_attr by assumption.
    rewrite nth_error_app2 by lia. replace (length f + 1 - length f) with 1 by lia. cbn [nth_error].
    rewrite N.eqb_refl. f_equal.
    assert (v <> []) as NV by (intros ->; discriminate).
    pose proof (to_base64_nonnil v NV) as NB. destruct (to_base64 v) as [|b bs] eqn:EB; [congruence|].
    rewrite app_length. cbn [length]. destruct (Nat.leb_spec (length f + S (S (S (S (length bs))))) (length f + 3)) as [G|G]; [lia|].
    unfold mid. replace (f ++ cCOLON :: cCOLON :: cSP :: b :: bs) with ((f ++ [cCOLON; cCOLON; cSP]) ++ b :: bs) by (rewrite <- app_assoc; reflexivity).
    replace (length f + 3) with (length (f ++ [cCOLON; cCOLON; cSP])) by (rewrite app_length; reflexivity).
    rewrite skipn_app_exact, <- EB. apply base64_roundtrip, V.
Qed.

(** ** The reader over a whole text *)

(** every character in turn; the results that are not [None] *)
Fixpoint run (text : bytes) (s : lstate) : list event * lstate :=
  match text with
  | [] => ([], s)
  | c :: r => let '(v, s1) := scan_char c s in
              let '(es, s2) := run r s1 in
              (if is_none v then es else (v, l_attr s1, l_value s1) :: es, s2)
  end.
Lemma run_app t1 t2 s :
  run (t1 ++ t2) s = (fst (run t1 s) ++ fst (run t2 (snd (run t1 s))), snd (run t2 (snd (run t1 s)))).
Proof.
  revert s. induction t1 as [|c t1 IH]; intros s; cbn [app run fst snd].
  - destruct (run t2 s); reflexivity.
  - destruct (scan_char c s) as [v s1]. rewrite IH. destruct (run t1 s1) as [es s2]. cbn [fst snd].
    destruct (is_none v); reflexivity.
Qed.

Lemma process_rest r s : process_line (w_rest r s) = (fst (process_line s), w_rest r (snd (process_line s))).
Proof.
  unfold process_line. change (l_comment (w_rest r s)) with (l_comment s).
  change (l_last (w_rest r s)) with (l_last s). change (l_etype (w_rest r s)) with (l_etype s).
  change (l_line (w_rest r s)) with (l_line s).
  destruct (l_comment s); [reflexivity|]. destruct (split_line (l_line s)) as [[u f] v]. cbv zeta.
  destruct (split_control v) as [[[cu co] cc] cv].
  set (e := match l_last s with PEndEntry => ENone | _ => l_etype s end). clearbody e.
  change (w_item u f v (w_etype e (w_rest r s))) with (w_rest r (w_item u f v (w_etype e s))).
  set (s0 := w_item u f v (w_etype e s)). clearbody s0.
  change (l_dn (w_rest r s0)) with (l_dn s0). change (l_mod (w_rest r s0)) with (l_mod s0).
  destruct e; repeat match goal with
  | |- context [if ?b then _ else _] => destruct b
  | |- context [match l_mod s0 with _ => _ end] => destruct (l_mod s0)
  end; reflexivity.
Qed.
Lemma scan_rest r c s : scan_char c (w_rest r s) = (fst (scan_char c s), w_rest r (snd (scan_char c s))).
Proof.
  unfold scan_char. change (l_newline (w_rest r s)) with (l_newline s).
  destruct (l_newline s && N.eqb c cCR); [reflexivity|].
  destruct (l_newline s && (N.eqb c cSP || N.eqb c cTAB)); [reflexivity|].
  destruct (l_newline s).
  - change (w_scan (l_last (w_rest r s)) false (l_comment (w_rest r s)) (l_line (w_rest r s)) (w_rest r s))
      with (w_rest r (w_scan (l_last s) false (l_comment s) (l_line s) s)).
    rewrite process_rest. destruct (process_line _) as [v t]. cbn [fst snd].
    destruct (N.eqb c cLF || N.eqb c cCR); [reflexivity|]. destruct (N.eqb c 35); reflexivity.
  - cbn [fst snd]. destruct (N.eqb c cLF || N.eqb c cCR); [reflexivity|].
    change (l_comment (w_rest r s)) with (l_comment s). destruct (l_comment s); reflexivity.
Qed.
Lemma run_rest r t s : run t (w_rest r s) = (fst (run t s), w_rest r (snd (run t s))).
Proof.
  revert s. induction t as [|c t IH]; intros s; [reflexivity|]. cbn [run]. rewrite scan_rest.
  destruct (scan_char c s) as [v s1]. cbn [fst snd]. rewrite IH. destruct (run t s1) as [es s2]. cbn [fst snd].
  destruct (is_none v); reflexivity.
Qed.
Lemma w_rest_rest a b s : w_rest a (w_rest b s) = w_rest a s.
Proof. reflexivity. Qed.
Lemma w_rest_id s : w_rest (l_rest s) s = s.
Proof. destruct s; reflexivity. Qed.

Lemma scan_keeps_rest c s : l_rest (snd (scan_char c s)) = l_rest s.
Proof.
  pose proof (scan_rest (l_rest s) c s) as H. rewrite w_rest_id in H. rewrite H. reflexivity.
Qed.

(** [process_line] never reports the end of the input *)
Lemma process_not_more s : fst (process_line s) <> PMore.
Proof.
  unfold process_line. destruct (l_comment s); [discriminate|]. destruct (split_line (l_line s)) as [[u f] v].
  cbv zeta. destruct (split_control v) as [[[cu co] cc] cv]. destruct (match l_last s with PEndEntry => ENone | _ => l_etype s end);
  repeat match goal with
  | |- context [if ?b then _ else _] => destruct b
  | |- context [match l_mod ?x with _ => _ end] => destruct (l_mod x)
  end; discriminate.
Qed.
Lemma scan_not_more c s : fst (scan_char c s) <> PMore.
Proof.
  unfold scan_char. destruct (l_newline s && N.eqb c cCR); [discriminate|].
  destruct (l_newline s && (N.eqb c cSP || N.eqb c cTAB)); [discriminate|].
  destruct (l_newline s); [|discriminate].
  pose proof (process_not_more (w_scan (l_last s) false (l_comment s) (l_line s) s)) as H.
  destruct (process_line _) as [v t]. exact H.
Qed.

(** one call: either the rest of the text yields nothing and is used up, or the call
    stops after a prefix that yields exactly its result *)
Lemma next_loop_run t : forall s,
  (exists s', next_loop t s = (PMore, w_rest [] s') /\ run t s = ([], s')) \/
  (exists v s' p q, t = p ++ q /\ p <> [] /\ next_loop t s = (v, w_rest q s') /\ v <> PMore /\ v <> PNone
     /\ run p s = ([(v, l_attr s', l_value s')], s')).
Proof.
  induction t as [|c t IH]; intros s.
  - left. exists s. split; reflexivity.
  - cbn [next_loop run]. destruct (scan_char c s) as [v s1] eqn:E.
    pose proof (scan_not_more c s) as NM. rewrite E in NM. cbn [fst] in NM.
    destruct (is_none v) eqn:N.
    + destruct (IH s1) as [(s' & A & R)|(w & s' & p & q & -> & NP & A & M & NN & R)].
      * left. exists s'. rewrite R. auto.
      * right. exists w, s', (c :: p), q. repeat split; auto; [discriminate|].
        cbn [run]. rewrite E, R, N. reflexivity.
    + right. exists v, s1, [c], t. repeat split; auto; [discriminate| |].
      * intros ->. discriminate.
      * cbn [run]. rewrite E, N. reflexivity.
Qed.

Lemma calls_run n : forall s, length (l_rest s) < n -> calls n s = Some (fst (run (l_rest s) s)).
Proof.
  induction n as [|n IH]; intros s L; [lia|]. cbn [calls]. unfold next_item.
  destruct (next_loop_run (l_rest s) s) as [(s' & A & R)|(w & s' & p & q & E & NP & A & M & NN & R)].
  - rewrite A, R. reflexivity.
  - rewrite A. assert (length q < n).
    { rewrite E, app_length in L. destruct p; [congruence|]. cbn [length] in L. lia. }
    rewrite IH by exact H. change (l_rest (w_rest q s')) with q. rewrite run_rest. cbn [fst].
    change (l_attr (w_rest q s')) with (l_attr s'). change (l_value (w_rest q s')) with (l_value s').
    rewrite E, run_app, R. cbn [fst snd app]. destruct w; try reflexivity; congruence.
Qed.

Lemma reports_run text : reports text = Some (fst (run text (ldif_start text))).
Proof. apply (calls_run (S (length text)) (ldif_start text)). cbn. lia. Qed.

(** ** Counting *)

Lemma scan_newline c s :
  (if is_none (fst (scan_char c s)) then 0 else 1) + (if l_newline (snd (scan_char c s)) then 1 else 0)
  <= (if l_newline s then 1 else 0) + (if is_eol c then 1 else 0).
Proof.
  unfold scan_char, is_eol. destruct (l_newline s) eqn:NL; cbn [andb].
  - destruct (N.eqb_spec c cCR) as [->|NC].
    + cbn [fst snd is_none]. rewrite NL. cbn. lia.
    + destruct (N.eqb c cSP || N.eqb c cTAB); [cbn [fst snd is_none w_scan l_newline]; lia|].
      destruct (process_line _) as [v t]. cbn [fst snd]. rewrite orb_false_r.
      destruct (is_none v); destruct (N.eqb c cLF); cbn [w_scan l_newline l_comment]; try lia;
        destruct (N.eqb c 35); cbn [w_scan l_newline]; lia.
  - cbn [fst snd is_none]. destruct (N.eqb c cLF || N.eqb c cCR); cbn [w_scan l_newline]; [lia|].
    destruct (l_comment s); cbn [w_scan l_newline]; rewrite ?NL; lia.
Qed.
Lemma run_count t : forall s, length (fst (run t s)) <= (if l_newline s then 1 else 0) + eols t.
Proof.
  induction t as [|c t IH]; intros s; [cbn; lia|]. cbn [run]. pose proof (scan_newline c s) as H.
  destruct (scan_char c s) as [v s1]. cbn [fst snd] in H. specialize (IH s1). destruct (run t s1) as [es s2]. cbn [fst] in *.
  unfold eols in *. cbn [filter]. destruct (is_eol c); destruct (is_none v); cbn [length] in *; lia.
Qed.
