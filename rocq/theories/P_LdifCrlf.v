(** Texts with other line ends: lemmas for C50; birthday parts that are not touched
    (for C27). *)
From Verif Require Import Base BaseFacts Utf8 Utf8Facts QtText M_ParamMap M_Values M_Date M_Addressee M_ContactGroup M_Ldif S_Ldif P_Ldif P_LdifEntry P_LdifConv.
Local Open Scope list_scope.
Local Open Scope nat_scope.

Lemma run_lfcr t : forall s, run (lfcr t) s = run t s.
Proof.
  induction t as [|c t IH]; intros s; [reflexivity|]. cbn [lfcr flat_map]. fold (lfcr t).
  destruct (N.eqb c cLF) eqn:L.
  - apply N.eqb_eq in L. subst c. cbn [app run]. pose proof (scan_lf_newline s) as N. destruct (scan_char cLF s) as [v s1]. cbn [snd] in N.
    replace (scan_char cCR s1) with (PNone, s1) by (unfold scan_char; rewrite N; reflexivity).
    cbn [is_none]. rewrite IH. destruct (run t s1); reflexivity.
  - cbn [app run]. destruct (scan_char c s). rewrite IH. reflexivity.
Qed.
Lemma reports_lfcr t : reports (lfcr t) = reports t.
Proof. rewrite !reports_run, run_lfcr. f_equal. apply run_start_rest. Qed.

Lemma crlf_app a b : crlf (a ++ b) = crlf a ++ crlf b.
Proof. apply flat_map_app. Qed.
Lemma crlf_noeol t : noeol t -> crlf t = t.
Proof.
  intros H. induction H as [|c t N H IH]; [reflexivity|]. cbn [crlf flat_map]. fold (crlf t). rewrite IH.
  unfold is_eol in N. apply orb_false_iff in N. destruct N as [-> _]. reflexivity.
Qed.

Lemma run_line_crlf t f v u s : line_ok t f v -> let s1 := snd (commit u s) in
  run (t ++ [cCR; cLF]) (pending u s) =
  (emit (commit u s) ++ emit (commit (logical t) s1), pending [] (snd (commit (logical t) s1))).
Proof.
  intros H. cbv zeta. replace (t ++ [cCR; cLF]) with ((t ++ [cCR]) ++ [cLF]) by (rewrite <- app_assoc; reflexivity).
  assert (G : run (t ++ [cCR]) (pending u s) = run (t ++ [cLF]) (pending u s)).
  { destruct H as (c & t' & w & -> & SS & F & H). rewrite !run_app. cbn [run fst snd]. rewrite scan_starter by assumption.
    rewrite (run_folded t' w F). cbn [fst snd]. destruct (is_none _); cbn [fst snd]; rewrite !scan_eol by reflexivity; reflexivity. }
  rewrite run_app, G, (run_line t f v u s H). cbn [fst snd]. rewrite run_blank. reflexivity.
Qed.
(** the empty line *)
Lemma run_blank_crlf s : run [cCR; cLF] (pending [] s) = (emit (commit [] s), pending [] (snd (commit [] s))).
Proof.
  change [cCR; cLF] with ([cCR] ++ [cLF]). rewrite run_app.
  replace (run [cCR] (pending [] s)) with (([] : list event), pending [] s) by reflexivity. cbn [fst snd app].
  rewrite run_blank. reflexivity.
Qed.


Lemma crlf_line sc p : pair_ok p = true -> crlf (line_of sc 0 p) = assemble_line sc (fst p) (snd p) 0 false ++ [cCR; cLF].
Proof.
  intros H. unfold pair_ok in H. apply andb_true_iff in H. destruct H as [A V]. unfold line_of. rewrite crlf_app. f_equal.
  apply crlf_noeol. rewrite assemble_raw. cbn [Nat.eqb]. apply raw_noeol; [apply attr_ok_chars, A|exact V].
Qed.
Lemma run_pairs_crlf sc ps : forall s, forallb plain_pair ps = true ->
  exists s', run (crlf (flat_map (line_of sc 0) ps ++ [cLF])) (pending [] s) =
    (emit (commit [] s) ++ flat_map alone ps, pending [] s') /\ mode s' = ENone.
Proof.
  induction ps as [|p ps IH]; intros s H.
  - cbn [flat_map app]. change (crlf [cLF]) with [cCR; cLF]. rewrite run_blank_crlf, app_nil_r.
    eexists. split; [reflexivity|]. exact (commit_blank_mode s).
  - cbn [forallb] in H. apply andb_true_iff in H. destruct H as [Hp H]. unfold plain_pair in Hp. rewrite !andb_true_iff in Hp.
    destruct Hp as [[PO O] NE]. cbn [flat_map]. rewrite <- app_assoc, crlf_app, (crlf_line sc p PO), run_app.
    destruct (pair_pline sc 0 p PO) as [L NF]. cbn [fst snd] in L, NF. rewrite (run_line_crlf _ _ _ [] s L). cbn [fst snd].
    destruct (commit_first (logical (assemble_line sc (fst p) (snd p) 0 false)) (snd (commit [] s)) (fst p) (snd p)
      (commit_blank_mode s) (line_ok_logical _ _ _ L) O NF) as (s2 & C2 & A1 & A2 & M2).
    { destruct (snd p); discriminate. }
    rewrite C2. cbn [snd]. destruct (IH s2 H) as (s' & R & M'). rewrite R. cbn [fst snd]. exists s'. split; [|exact M'].
    destruct (commit_end s2 M2) as (s3 & C3 & D1 & D2 & _). rewrite C3. unfold emit at 2 3. cbn [fst snd is_none].
    rewrite A1, A2, D1, D2, <- app_assoc. reflexivity.
Qed.
Lemma run_entry_crlf sc e s : is_bytes (fst e) = true -> forallb plain_pair (snd e) = true ->
  exists s', run (crlf (entry_text sc 0 e)) (pending [] s) =
    (emit (commit [] s) ++ (PNewEntry, B "dn", fst e) :: flat_map alone (snd e), pending [] s') /\ mode s' = ENone.
Proof.
  intros D H. unfold entry_text. rewrite crlf_app.
  rewrite (crlf_line sc (B "dn", fst e)) by (unfold pair_ok; cbn [fst snd]; rewrite D; reflexivity). cbn [fst snd].
  assert (LD : line_ok (assemble_line sc (B "dn") (fst e) 0 false) (B "dn") (fst e)) by (apply assemble_line_ok; [reflexivity|exact D]).
  rewrite run_app, (run_line_crlf _ _ _ [] s LD). cbn [fst snd].
  destruct (commit_dn _ (snd (commit [] s)) (B "dn") (fst e) (commit_blank_mode s) (line_ok_logical _ _ _ LD) eq_refl) as (s2 & C2 & A1 & A2 & M2).
  rewrite C2. cbn [snd]. destruct (run_pairs_crlf sc (snd e) s2 H) as (s' & R & M'). rewrite R. cbn [fst snd]. exists s'. split; [|exact M'].
  destruct (commit_none s2 M2) as (s3 & C3 & _). rewrite C3. unfold emit at 2 3. cbn [fst snd is_none]. rewrite A1, A2, <- app_assoc. reflexivity.
Qed.
Lemma run_entries_crlf sc es : forall s, Forall (fun e => is_bytes (fst e) = true /\ forallb plain_pair (snd e) = true) es -> mode s = ENone ->
  fst (run (crlf (flat_map (entry_text sc 0) es)) (pending [] s)) =
  flat_map (fun e => (PNewEntry, B "dn", fst e) :: flat_map alone (snd e)) es.
Proof.
  induction es as [|e es IH]; intros s H M; [reflexivity|]. inversion H as [|? ? [D P] H']; subst.
  cbn [flat_map]. rewrite crlf_app, run_app. destruct (run_entry_crlf sc e s D P) as (s' & R & M'). rewrite R. cbn [fst snd].
  rewrite (IH s' H' M'). destruct (commit_none s M) as (s3 & C3 & _). rewrite C3. reflexivity.
Qed.
Theorem reports_crlf sc es : Forall (fun e => is_bytes (fst e) = true /\ forallb plain_pair (snd e) = true) es ->
  reports (crlf (flat_map (entry_text sc 0) es)) =
  Some (flat_map (fun e => (PNewEntry, B "dn", fst e) :: flat_map alone (snd e)) es).
Proof.
  intros H. rewrite reports_run. f_equal. destruct es as [|e es]; [reflexivity|].
  set (text := crlf (flat_map (entry_text sc 0) (e :: es))).
  assert (exists c r, text = c :: r /\ starter c = true) as (c & r & E & SS).
  { inversion H as [|? ? [D P] H']; subst.
    assert (LD : line_ok (assemble_line sc (B "dn") (fst e) 0 false) (B "dn") (fst e)) by (apply assemble_line_ok; [reflexivity|exact D]).
    destruct (line_ok_start _ _ _ LD) as (c & r & E & SS). unfold text. cbn [flat_map]. unfold entry_text at 1, line_of at 1.
    cbn [fst snd]. rewrite E. cbn [app]. exists c. cbn [crlf flat_map].
    apply starter_spec in SS as SP. destruct SP as (-> & _). cbn [app]. eauto. }
  rewrite E at 1. rewrite run_start by assumption. rewrite <- E. unfold text. apply run_entries_crlf; [exact H|reflexivity].
Qed.

(** ** Birthday parts that are not mentioned *)

Lemma evaluate_birth E f v r : birth_name f = false ->
  r_bday (evaluate_pair E (to_lower f) v r) = r_bday r /\ r_bmon (evaluate_pair E (to_lower f) v r) = r_bmon r
  /\ r_byear (evaluate_pair E (to_lower f) v r) = r_byear r.
Proof.
  unfold birth_name. generalize (to_lower f). clear f. intros f N. unfold one_of in N. cbn [existsb] in N. rewrite !orb_false_iff in N. destruct N as (N1 & N2 & N3 & _).
  assert (Y1 : one_of ["birthyear"%string] f = false) by (unfold one_of; cbn [existsb]; rewrite N1; reflexivity).
  assert (Y2 : one_of ["birthmonth"%string] f = false) by (unfold one_of; cbn [existsb]; rewrite N2; reflexivity).
  assert (Y3 : one_of ["birthday"%string] f = false) by (unfold one_of; cbn [existsb]; rewrite N3; reflexivity).
  unfold evaluate_pair, evaluate_rest. cbv zeta. rewrite Y1, Y2, Y3.
  repeat match goal with |- context [if one_of ?l f then _ else _] => destruct (one_of l f) end; split_ifs; try (repeat split; reflexivity).
  destruct (mk_date _ _ _); repeat split.
Qed.
Lemma process_birth E rev es : forall r, Forall (fun e => birth_name (snd (fst e)) = false) es ->
  let r' := process_events E rev es r in r_bday r' = r_bday r /\ r_bmon r' = r_bmon r /\ r_byear r' = r_byear r.
Proof.
  induction es as [|e es IH]; intros r H; [repeat split|]. inversion H as [|? ? He H']; subst.
  cbn [process_events fold_left]. destruct (IH (ev_step E rev r e) H') as (A & C & D).
  unfold process_events in *. cbv zeta. cbn [fold_left]. rewrite A, C, D. unfold ev_step.
  destruct (fst (fst e)); try (repeat split); try (apply evaluate_birth, He).
  all: unfold end_entry; cbv zeta; split_ifs; reflexivity.
Qed.
Theorem import_no_birth E rev k b t es : all_reports t = Some es -> Forall (fun e => birth_name (snd (fst e)) = false) es ->
  exists i, import_from E rev k b t = Some i /\ im_birth i = b.
Proof.
  rewrite all_reports_evs. intros X H. injection X as <-. rewrite import_from_evs. eexists. split; [reflexivity|].
  destruct (process_birth E rev (evs t) (r_start E rev k b [] []) H) as (A & C & D). cbn [result_of im_birth].
  rewrite A, C, D. destruct b as [[x y] z]. reflexivity.
Qed.
