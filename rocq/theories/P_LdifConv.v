(** The LDIF converter's reading loop: lemmas for C26, C27 and C28. *)
From Verif Require Import Base BaseFacts Utf8 Utf8Facts QtText M_ParamMap M_Values M_Date M_Addressee M_ContactGroup M_Ldif S_Ldif P_Ldif P_LdifEntry.
Local Open Scope list_scope.
Local Open Scope nat_scope.

(** what one report does to the local variables *)
Definition ev_step (E : LdifExt) (rev : datetime) (r : rstate) (e : event) : rstate :=
  match fst (fst e) with
  | PItem => evaluate_pair E (to_lower (snd (fst e))) (from_utf8 (snd e)) r
  | PEndEntry => end_entry E rev r
  | _ => r
  end.
Definition process_events (E : LdifExt) (rev : datetime) (es : list event) (r : rstate) : rstate :=
  fold_left (ev_step E rev) es r.

(** the reports for a text followed by [endLdif] *)
Definition evs (text : bytes) : list event := fst (run (text ++ [cLF; cLF; cLF]) (ldif_start text)).

Lemma run_start_rest t a b : fst (run t (ldif_start a)) = fst (run t (ldif_start b)).
Proof. change (ldif_start a) with (w_rest a (ldif_start b)). rewrite run_rest. reflexivity. Qed.
Lemma all_reports_evs text : all_reports text = Some (evs text).
Proof. unfold all_reports. rewrite reports_run. f_equal. apply run_start_rest. Qed.

Lemma read_loop_ended E rev n : forall s r, length (l_rest s) < n ->
  read_loop n E rev true s r = Some (process_events E rev (fst (run (l_rest s) s)) r).
Proof.
  induction n as [|n IH]; intros s r L; [lia|]. cbn [read_loop]. unfold next_item.
  destruct (next_loop_run (l_rest s) s) as [(s' & A & R)|(w & s' & p & q & X & NP & A & M & NN & R)].
  - rewrite A, R. reflexivity.
  - rewrite A. assert (length (l_rest (w_rest q s')) < n).
    { change (l_rest (w_rest q s')) with q. rewrite X, app_length in L. destruct p; [congruence|]. cbn [length] in L. lia. }
    rewrite X, run_app, R. cbn [fst snd app]. unfold process_events in *. cbn [fold_left].
    assert (G : fst (run (l_rest (w_rest q s')) (w_rest q s')) = fst (run q s')).
    { change (l_rest (w_rest q s')) with q. rewrite run_rest. reflexivity. }
    destruct w; try congruence; (rewrite IH by assumption); rewrite G; reflexivity.
Qed.
Lemma read_loop_run E rev n : forall s r, length (l_rest s) + 4 < n ->
  read_loop n E rev false s r =
  Some (process_events E rev (fst (run (l_rest s ++ [cLF; cLF; cLF]) s)) r).
Proof.
  induction n as [|n IH]; intros s r L; [lia|]. cbn [read_loop]. unfold next_item.
  destruct (next_loop_run (l_rest s) s) as [(s' & A & R)|(w & s' & p & q & X & NP & A & M & NN & R)].
  - rewrite A. rewrite read_loop_ended by (cbn; lia).
    rewrite run_app, R. cbn [fst snd app]. change (l_rest (end_ldif (w_rest [] s'))) with [cLF; cLF; cLF].
    change (end_ldif (w_rest [] s')) with (w_rest [cLF; cLF; cLF] s'). rewrite run_rest. reflexivity.
  - rewrite A. assert (length (l_rest (w_rest q s')) + 4 < n).
    { change (l_rest (w_rest q s')) with q. rewrite X, app_length in L. destruct p; [congruence|]. cbn [length] in L. lia. }
    rewrite X, <- app_assoc, run_app, R. cbn [fst snd app]. unfold process_events in *. cbn [fold_left].
    assert (G : fst (run (l_rest (w_rest q s') ++ [cLF; cLF; cLF]) (w_rest q s')) = fst (run (q ++ [cLF; cLF; cLF]) s')).
    { change (l_rest (w_rest q s')) with q. rewrite run_rest. reflexivity. }
    destruct w; try congruence; (rewrite IH by assumption); rewrite G; reflexivity.
Qed.

Definition result_of (r : rstate) : imported :=
  mkImported (r_contacts r) (r_groups r) (r_k r - 4) (r_bday r, r_bmon r, r_byear r).
Lemma import_from_evs E rev k b text :
  import_from E rev k b text = Some (result_of (process_events E rev (evs text) (r_start E rev k b [] []))).
Proof. unfold import_from. rewrite read_loop_run by (cbn; lia). reflexivity. Qed.
Lemma ldif_to_addressee_evs E str dt cs gs : str <> [] ->
  ldif_to_addressee E str dt cs gs =
  let rev := if dt_valid dt then dt else le_now E in
  let r := process_events E rev (evs (to_latin1 str)) (r_start E rev 0 no_birth cs gs) in
  Some (r_contacts r, r_groups r).
Proof.
  intros H. unfold ldif_to_addressee. destruct str as [|c t] eqn:S; [congruence|]. rewrite <- S in *. replace (isnil str) with false by (subst; reflexivity).
  cbv zeta. rewrite read_loop_run; [reflexivity|]. unfold to_latin1. cbn [l_rest ldif_start]. rewrite map_length. lia.
Qed.

(** ** Only the end of the lists is touched *)

Definition with_lists (cs : list addressee) (gs : list cgroup) (r : rstate) : rstate :=
  r_set_lists (cs ++ r_contacts r) (gs ++ r_groups r) r.
Ltac split_ifs := repeat match goal with |- context [if ?b then _ else _] => destruct b end.
Lemma evaluate_lists E f v cs gs r : evaluate_pair E f v (with_lists cs gs r) = with_lists cs gs (evaluate_pair E f v r).
Proof.
  unfold evaluate_pair, evaluate_rest.
  change (r_a (with_lists cs gs r)) with (r_a r). change (r_home (with_lists cs gs r)) with (r_home r).
  change (r_work (with_lists cs gs r)) with (r_work r). change (r_group (with_lists cs gs r)) with (r_group r).
  change (r_bday (with_lists cs gs r)) with (r_bday r). change (r_bmon (with_lists cs gs r)) with (r_bmon r).
  change (r_byear (with_lists cs gs r)) with (r_byear r). cbv zeta.
  repeat match goal with |- context [if one_of ?l f then _ else _] => destruct (one_of l f); [try reflexivity|] end.
  all: split_ifs; try reflexivity.
  all: destruct (mk_date _ _ _); reflexivity.
Qed.
Lemma end_entry_lists E rev cs gs r : end_entry E rev (with_lists cs gs r) = with_lists cs gs (end_entry E rev r).
Proof.
  unfold end_entry. change (r_group (with_lists cs gs r)) with (r_group r).
  change (r_home (with_lists cs gs r)) with (r_home r). change (r_work (with_lists cs gs r)) with (r_work r).
  change (r_a (with_lists cs gs r)) with (r_a r).
  change (r_bday (with_lists cs gs r)) with (r_bday r). change (r_bmon (with_lists cs gs r)) with (r_bmon r).
  change (r_byear (with_lists cs gs r)) with (r_byear r). cbv zeta.
  destruct (Nat.eqb (cg_count (r_group r)) 0).
  - destruct (mk_date _ _ _); split_ifs; unfold with_lists, r_set_lists, r_reset; cbn; rewrite <- ?app_assoc; reflexivity.
  - unfold with_lists, r_set_lists, r_reset; cbn; rewrite <- ?app_assoc; reflexivity.
Qed.
Lemma process_lists E rev es : forall cs gs r,
  process_events E rev es (with_lists cs gs r) = with_lists cs gs (process_events E rev es r).
Proof.
  unfold process_events. induction es as [|e es IH]; intros cs gs r; [reflexivity|]. cbn [fold_left]. rewrite <- IH. f_equal.
  unfold ev_step. destruct (fst (fst e)); try reflexivity; [apply end_entry_lists|apply evaluate_lists].
Qed.
Lemma start_lists E rev k b cs gs : r_start E rev k b cs gs = with_lists cs gs (r_start E rev k b [] []).
Proof. unfold with_lists, r_set_lists, r_start, r_reset. cbn. rewrite !app_nil_r. reflexivity. Qed.

(** ** Complete entries leave nothing behind but the birthday parts *)

Definition dirty (es : list event) (d : bool) : bool :=
  fold_left (fun d e => match fst (fst e) with PItem => true | PEndEntry => false | _ => d end) es d.
Lemma dirty_app a b d : dirty (a ++ b) d = dirty b (dirty a d).
Proof. apply fold_left_app. Qed.

Lemma clean_start E rev es : forall r, dirty es false = false ->
  (exists k b cs gs, r = r_start E rev k b cs gs) -> exists k b cs gs, process_events E rev es r = r_start E rev k b cs gs.
Proof.
  assert (G : forall es d r, dirty es d = false -> (d = false -> exists k b cs gs, r = r_start E rev k b cs gs) ->
    exists k b cs gs, process_events E rev es r = r_start E rev k b cs gs).
  { clear es. induction es as [|e es IH]; intros d r D H; [apply H, D|].
    unfold process_events. cbn [fold_left]. change (fold_left (ev_step E rev) es ?x) with (process_events E rev es x).
    cbn [dirty fold_left] in D. eapply IH; [exact D|]. unfold ev_step. destruct (fst (fst e)); try exact H; [|discriminate].
    intros _. unfold end_entry.
    match goal with |- exists k b cs gs, r_reset E rev ?x = _ => exists (r_k x), (r_bday x, r_bmon x, r_byear x), (r_contacts x), (r_groups x) end.
    reflexivity. }
  intros r D H. eapply G; [exact D|]. intros _. exact H.
Qed.

(** an entry that has items is being read as a new entry or as a modification *)
Definition stays_dirty (d : bool) (r : pval * lstate) : Prop :=
  dirty (if is_none (fst r) then [] else [(fst r, l_attr (snd r), l_value (snd r))]) d = true ->
  match fst r with PEndEntry => False | _ => l_etype (snd r) <> ENone end.
Lemma process_dirty s d : (d = true -> mode s <> ENone) -> l_comment s = false -> stays_dirty d (process_line s).
Proof.
  intros H C. unfold process_line. rewrite C.
  destruct (split_line (l_line s)) as [[u f] v]. cbv zeta. destruct (split_control v) as [[[cu co] cc] cv].
  unfold mode in H. destruct (match l_last s with PEndEntry => ENone | _ => l_etype s end);
  repeat match goal with
  | |- context [if ?b then _ else _] => destruct b
  | |- context [match l_mod ?x with _ => _ end] => destruct (l_mod x)
  end; unfold stays_dirty; cbn; intros D; try discriminate; try (exfalso; apply (H D); reflexivity).
Qed.
Lemma scan_dirty c s d : (d = true -> mode s <> ENone) ->
  dirty (if is_none (fst (scan_char c s)) then [] else [(fst (scan_char c s), l_attr (snd (scan_char c s)), l_value (snd (scan_char c s)))]) d = true ->
  mode (snd (scan_char c s)) <> ENone.
Proof.
  intros H. unfold scan_char.
  destruct (l_newline s && N.eqb c cCR); [cbn; exact H|].
  destruct (l_newline s && (N.eqb c cSP || N.eqb c cTAB)); [cbn; exact H|].
  destruct (l_newline s).
  - set (s0 := w_scan (l_last s) false (l_comment s) (l_line s) s).
    pose proof (process_dirty s0 d H) as G. unfold stays_dirty in G.
    assert (K : l_comment s0 = true -> process_line s0 = (PNone, s0)) by (unfold process_line; intros ->; reflexivity).
    destruct (process_line s0) as [v t]. cbn [fst snd] in *.
    intros D. assert (D' : mode (w_scan v false (N.eqb c 35) [] t) <> ENone).
    { destruct (l_comment s0) eqn:EC.
      - specialize (K eq_refl). injection K as -> ->.
        unfold mode. cbn [w_scan l_last l_etype]. cbn [is_none fst dirty fold_left] in D. specialize (H D).
        unfold mode in H. change (l_etype s0) with (l_etype s). destruct (l_last s); congruence.
      - specialize (G eq_refl). unfold mode. cbn [w_scan l_last l_etype].
        assert (DD : dirty (if is_none v then [] else [(v, l_attr t, l_value t)]) d = true).
        { rewrite <- D. destruct (is_none v); [reflexivity|]. reflexivity. }
        specialize (G DD). destruct v; auto. }
    revert D'. unfold mode. split_ifs; cbn [w_scan l_last l_etype]; auto.
  - cbn [fst snd is_none dirty fold_left]. intros D. specialize (H D). revert H. unfold mode. split_ifs; cbn [w_scan l_last l_etype]; auto.
Qed.
Lemma run_dirty t : forall s d, (d = true -> mode s <> ENone) ->
  dirty (fst (run t s)) d = true -> mode (snd (run t s)) <> ENone.
Proof.
  induction t as [|c t IH]; intros s d H; [exact H|]. cbn [run].
  pose proof (scan_dirty c s d H) as G. destruct (scan_char c s) as [v s1]. cbn [fst snd] in G.
  set (d1 := dirty (if is_none v then [] else [(v, l_attr s1, l_value s1)]) d) in *.
  specialize (IH s1 d1 G). destruct (run t s1) as [es s2]. cbn [fst snd] in *. intros D. apply IH.
  subst d1. rewrite <- D. destruct (is_none v); reflexivity.
Qed.

(** an empty line ends whatever entry there was *)
Lemma commit_blank_mode s : mode (snd (commit [] s)) = ENone.
Proof.
  unfold commit, process_line. cbn [w_scan l_comment l_last l_line l_etype]. rewrite split_nil. cbv zeta.
  change (to_lower []) with ([] : ustring). cbn [isnil andb negb].
  destruct (match l_last s with PEndEntry => ENone | _ => l_etype s end); try reflexivity.
  cbn [w_item w_etype w_scan l_mod]. destruct (l_mod s); reflexivity.
Qed.
Lemma commit_blank_idle s : mode s = ENone -> fst (commit [] s) = PNone.
Proof. intros M. destruct (commit_none s M) as (s1 & -> & _). reflexivity. Qed.

Lemma scan_lf_newline s : l_newline (snd (scan_char cLF s)) = true.
Proof.
  unfold scan_char. change (N.eqb cLF cCR) with false. change (N.eqb cLF cSP || N.eqb cLF cTAB) with false. rewrite !andb_false_r.
  destruct (l_newline s); [destruct (process_line _)|]; reflexivity.
Qed.
Lemma scan_lf_blank s : l_newline s = true -> exists s1, snd (scan_char cLF s) = pending [] s1.
Proof.
  intros H. unfold scan_char. change (N.eqb cLF cCR) with false. change (N.eqb cLF cSP || N.eqb cLF cTAB) with false. rewrite !andb_false_r, H.
  destruct (process_line _) as [v t]. cbn. exists (w_scan v true false [] t). reflexivity.
Qed.
Lemma run_snoc t c s : snd (run (t ++ [c]) s) = snd (scan_char c (snd (run t s))).
Proof. rewrite run_app. cbn [run fst snd]. destruct (scan_char c _); reflexivity. Qed.
(** after an empty line *)
Lemma run_two p s : exists s1, snd (run (p ++ [cLF; cLF]) s) = pending [] s1.
Proof.
  replace (p ++ [cLF; cLF]) with ((p ++ [cLF]) ++ [cLF]) by (rewrite <- app_assoc; reflexivity).
  rewrite run_snoc. apply scan_lf_blank. rewrite run_snoc. apply scan_lf_newline.
Qed.
Lemma run_lf3 s : fst (run [cLF; cLF; cLF] (pending [] s)) = emit (commit [] s).
Proof.
  change [cLF; cLF; cLF] with ([cLF] ++ [cLF] ++ [cLF]). rewrite run_app, run_blank. cbn [fst snd].
  pose proof (commit_blank_mode s) as M. destruct (commit [] s) as [v s1]. cbn [snd] in M |- *.
  rewrite run_app, run_blank. cbn [fst snd]. pose proof (commit_blank_idle s1 M) as I. pose proof (commit_blank_mode s1) as M1.
  destruct (commit [] s1) as [v1 s2]. cbn [fst snd] in *. subst v1.
  rewrite run_blank. cbn [fst]. pose proof (commit_blank_idle s2 M1) as I2. unfold emit at 2 3. rewrite I2. cbn [fst is_none app].
  apply app_nil_r.
Qed.
Lemma evs_clean p : dirty (evs (p ++ [cLF; cLF])) false = false.
Proof.
  destruct (dirty (evs (p ++ [cLF; cLF])) false) eqn:D; [|reflexivity]. exfalso.
  unfold evs in D.
  replace ((p ++ [cLF; cLF]) ++ [cLF; cLF; cLF]) with (((p ++ [cLF; cLF]) ++ [cLF; cLF]) ++ [cLF]) in D by (rewrite <- !app_assoc; reflexivity).
  set (s0 := ldif_start (p ++ [cLF; cLF])) in D.
  assert (M0 : false = true -> mode s0 <> ENone) by discriminate.
  apply (run_dirty _ _ _ M0 D). rewrite run_app. cbn [snd].
  destruct (run_two (p ++ [cLF; cLF]) s0) as (s1 & ->). rewrite run_blank. cbn [snd].
  exact (commit_blank_mode s1).
Qed.

(** ** Concatenation *)

(** members that do not influence what is read *)
Definition erase (s : lstate) : lstate :=
  mkL (l_etype s) (l_mod s) false (l_url s) (l_dn s) (l_attr s) [] [] [] false (l_value s) (l_last s)
    (l_newline s) (l_comment s) (l_line s) [].
Lemma process_erase s :
  fst (process_line (erase s)) = fst (process_line s) /\ erase (snd (process_line (erase s))) = erase (snd (process_line s)).
Proof.
  unfold process_line. change (l_comment (erase s)) with (l_comment s). change (l_last (erase s)) with (l_last s).
  change (l_etype (erase s)) with (l_etype s). change (l_line (erase s)) with (l_line s).
  destruct (l_comment s); [split; reflexivity|]. destruct (split_line (l_line s)) as [[u f] v]. cbv zeta.
  destruct (split_control v) as [[[cu co] cc] cv].
  destruct (match l_last s with PEndEntry => ENone | _ => l_etype s end).
  all: change (l_dn (w_item u f v (w_etype ?e (erase s)))) with (l_dn s); change (l_dn (w_item u f v (w_etype ?e s))) with (l_dn s).
  all: change (l_mod (w_item u f v (w_etype ?e (erase s)))) with (l_mod s); change (l_mod (w_item u f v (w_etype ?e s))) with (l_mod s).
  all: repeat match goal with
  | |- context [if ?b then _ else _] => destruct b
  | |- context [match l_mod ?x with _ => _ end] => destruct (l_mod x)
  end; split; reflexivity.
Qed.
Lemma erase_scan a b d l s t : erase s = erase t -> erase (w_scan a b d l s) = erase (w_scan a b d l t).
Proof.
  intros H. change (erase (w_scan a b d l s)) with (w_scan a b d l (erase s)). change (erase (w_scan a b d l t)) with (w_scan a b d l (erase t)).
  rewrite H. reflexivity.
Qed.
Lemma scan_erase c s :
  fst (scan_char c (erase s)) = fst (scan_char c s) /\ erase (snd (scan_char c (erase s))) = erase (snd (scan_char c s)).
Proof.
  unfold scan_char. change (l_newline (erase s)) with (l_newline s).
  destruct (l_newline s && N.eqb c cCR); [split; reflexivity|].
  destruct (l_newline s && (N.eqb c cSP || N.eqb c cTAB)); [split; reflexivity|].
  destruct (l_newline s).
  - change (w_scan (l_last (erase s)) false (l_comment (erase s)) (l_line (erase s)) (erase s))
      with (erase (w_scan (l_last s) false (l_comment s) (l_line s) s)).
    destruct (process_erase (w_scan (l_last s) false (l_comment s) (l_line s) s)) as [A C].
    destruct (process_line (erase _)) as [v t]. destruct (process_line _) as [v' t']. cbn [fst snd] in *. subst v'.
    split; [reflexivity|].
    assert (D : forall a b d l, erase (w_scan a b d l t) = erase (w_scan a b d l t')) by (intros; apply erase_scan, C).
    destruct (N.eqb c cLF || N.eqb c cCR); [apply D|]. cbn [w_scan l_comment l_last l_line l_newline].
    destruct (N.eqb c 35); apply D.
  - split; [reflexivity|]. change (l_comment (erase s)) with (l_comment s).
    destruct (N.eqb c cLF || N.eqb c cCR); [reflexivity|]. destruct (l_comment s); reflexivity.
Qed.
Lemma run_erase t : forall s s', erase s = erase s' -> fst (run t s) = fst (run t s').
Proof.
  induction t as [|c t IH]; intros s s' H; [reflexivity|]. cbn [run].
  destruct (scan_erase c s) as [A C]. destruct (scan_erase c s') as [A' C'].
  assert (X : fst (scan_char c s) = fst (scan_char c s')) by congruence.
  assert (Y : erase (snd (scan_char c s)) = erase (snd (scan_char c s'))) by congruence.
  destruct (scan_char c s) as [v s1]. destruct (scan_char c s') as [v' s1']. cbn [fst snd] in X, Y. subst v'.
  specialize (IH s1 s1' Y). destruct (run t s1) as [es s2]. destruct (run t s1') as [es' s2']. cbn [fst] in *. subst es'.
  assert (F : l_attr s1 = l_attr s1' /\ l_value s1 = l_value s1').
  { pose proof (f_equal l_attr Y). pose proof (f_equal l_value Y). auto. }
  destruct F as [-> ->]. reflexivity.
Qed.

Definition open_with (c : N) (s : lstate) : lstate :=
  if N.eqb c cLF then pending [] s
  else if N.eqb c 35 then w_scan (l_last s) false true [] s else inline [c] s.
Lemma scan_open c u s : N.eqb c cCR = false -> N.eqb c cSP || N.eqb c cTAB = false ->
  scan_char c (pending u s) = (fst (commit u s), open_with c (snd (commit u s))).
Proof.
  intros H K. unfold scan_char, commit. cbn [pending w_scan l_newline l_last l_line andb]. rewrite H, K.
  change (w_scan (l_last (pending u s)) false (l_comment (pending u s)) u (pending u s)) with (w_scan (l_last s) false false u s).
  destruct (process_line _) as [v t]. cbn [fst snd]. unfold open_with.
  destruct (N.eqb c cLF) eqn:L; [apply N.eqb_eq in L; subst c; reflexivity|].
  destruct (N.eqb c 35); reflexivity.
Qed.
Lemma open_erase c s t : erase s = erase t -> erase (open_with c s) = erase (open_with c t).
Proof.
  intros H. assert (D : forall a b d l, erase (w_scan a b d l s) = erase (w_scan a b d l t)) by (intros; apply erase_scan, H).
  assert (L : l_last s = l_last t) by exact (f_equal l_last H).
  unfold open_with, pending, inline. rewrite L. split_ifs; apply D.
Qed.

Definition dn_line (u : bytes) : Prop := exists w, u = B "dn:" ++ w.
Lemma dn_split u : dn_line u -> exists b v, split_line u = (b, B "dn", v).
Proof.
  intros [w ->]. unfold split_line. cbv zeta.
  match goal with |- context [index_of ?c ?l] => replace (index_of c l) with (Some 2) by reflexivity end.
  cbn -[firstn skipn from_utf8 trimmed from_base64]. split_ifs; repeat match goal with |- context [match ?x with _ => _ end] => destruct x end; do 2 eexists; reflexivity.
Qed.
Lemma dn_commit u s t : dn_line u -> mode s = ENone -> mode t = ENone ->
  fst (commit u s) = PNewEntry /\ fst (commit u t) = PNewEntry /\ erase (snd (commit u s)) = erase (snd (commit u t)).
Proof.
  intros D M M'. destruct (dn_split u D) as (b & v & H).
  unfold commit, process_line. cbn [w_scan l_comment l_last l_line l_etype].
  fold (mode s). fold (mode t). rewrite M, M', H. cbv zeta. change (leqb (to_lower (B "dn")) (B "version")) with false.
  change (leqb (to_lower (B "dn")) (B "dn")) with true. cbv iota. repeat split.
Qed.
Lemma first_line q : forall u s t, dn_line u -> mode s = ENone -> mode t = ENone ->
  fst (run q (inline u s)) = fst (run q (inline u t)) /\ fst (run q (pending u s)) = fst (run q (pending u t)).
Proof.
  induction q as [|c q IH]; intros u s t D M M'; [split; reflexivity|]. split.
  - cbn [run]. destruct (is_eol c) eqn:EC.
    + rewrite !scan_eol by assumption. destruct (IH u s t D M M') as [_ G].
      destruct (run q (pending u s)), (run q (pending u t)). exact G.
    + rewrite !scan_plain by assumption.
      assert (D' : dn_line (u ++ [c])) by (destruct D as [w ->]; exists (w ++ [c]); rewrite <- app_assoc; reflexivity).
      destruct (IH _ s t D' M M') as [G _]. destruct (run q (inline (u ++ [c]) s)), (run q (inline (u ++ [c]) t)). exact G.
  - destruct (N.eqb c cCR) eqn:CR.
    { cbn [run]. unfold scan_char. rewrite CR. cbn [pending w_scan l_newline andb is_none].
      destruct (IH u s t D M M') as [_ G]. unfold pending in G |- *. destruct (run q _), (run q _). exact G. }
    destruct (N.eqb c cSP || N.eqb c cTAB) eqn:SP.
    { cbn [run]. unfold scan_char. rewrite CR, SP. cbn [pending w_scan l_newline andb is_none l_last l_comment l_line].
      destruct (IH u s t D M M') as [G _]. unfold inline, w_scan in G |- *. cbn in G |- *. destruct (run q _), (run q _). exact G. }
    cbn [run]. rewrite !scan_open by assumption. destruct (dn_commit u s t D M M') as (-> & -> & R).
    cbn [is_none]. pose proof (open_erase c _ _ R) as R'.
    pose proof (run_erase q _ _ R') as G.
    assert (F : l_attr (open_with c (snd (commit u s))) = l_attr (open_with c (snd (commit u t)))) by exact (f_equal l_attr R').
    assert (F' : l_value (open_with c (snd (commit u s))) = l_value (open_with c (snd (commit u t)))) by exact (f_equal l_value R').
    destruct (run q _), (run q _). cbn [fst] in *. congruence.
Qed.

Theorem evs_concat p q : evs ((p ++ [cLF; cLF]) ++ B "dn:" ++ q) = evs (p ++ [cLF; cLF]) ++ evs (B "dn:" ++ q).
Proof.
  unfold evs.
  set (a := p ++ [cLF; cLF]). set (s0 := ldif_start a).
  rewrite (run_start_rest _ _ a), (run_start_rest ((B "dn:" ++ q) ++ _) _ a). fold s0.
  change (B "dn:") with [100; 110; 58]%N. set (w := [100; 110; 58]%N ++ q).
  rewrite <- (app_assoc a w). rewrite (run_app a (w ++ _)), (run_app a [cLF; cLF; cLF]). cbn [fst]. rewrite <- app_assoc. f_equal.
  destruct (run_two p s0) as (s1 & R). fold a in R. rewrite R. rewrite run_lf3.
  subst w. cbn [app]. cbn [run].
  rewrite scan_starter by reflexivity. pose proof (commit_blank_mode s1) as M.
  assert (EM : emit (commit [] s1) = if is_none (fst (commit [] s1)) then [] else
     [(fst (commit [] s1), l_attr (inline [100%N] (snd (commit [] s1))), l_value (inline [100%N] (snd (commit [] s1))))]).
  { unfold emit. destruct (commit [] s1). reflexivity. }
  rewrite EM. destruct (commit [] s1) as [v s2]. cbn [fst snd] in *.
  change (scan_char 100 s0) with (scan_char 100 (inline [] s0)).
  rewrite !scan_plain by reflexivity. cbn [app is_none].
  destruct (first_line (q ++ [cLF; cLF; cLF]) [100; 110; 58]%N s2 s0 (ex_intro _ [] eq_refl) M eq_refl) as [G _].
  destruct (run _ (inline [100; 110; 58]%N s2)) as [es s3]. destruct (run _ (inline [100; 110; 58]%N s0)) as [es' s3']. cbn [fst snd] in *. subst es'.
  destruct (is_none v); reflexivity.
Qed.

Theorem import_concat E rev k b p q : 
  import_from E rev k b ((p ++ [cLF; cLF]) ++ B "dn:" ++ q) =
  match import_from E rev k b (p ++ [cLF; cLF]) with
  | Some i => match import_from E rev (im_ids i) (im_birth i) (B "dn:" ++ q) with
      | Some j => Some (mkImported (im_contacts i ++ im_contacts j) (im_groups i ++ im_groups j) (im_ids j) (im_birth j))
      | None => None end
  | None => None
  end.
Proof.
  rewrite !import_from_evs, evs_concat. cbv beta iota.
  set (i := process_events E rev (evs (p ++ [cLF; cLF])) (r_start E rev k b [] [])).
  destruct (clean_start E rev (evs (p ++ [cLF; cLF])) (r_start E rev k b [] []) (evs_clean p)) as (k1 & b1 & cs & gs & H).
  { exists k, b, [], []. reflexivity. }
  fold i in H. unfold process_events at 1. rewrite fold_left_app.
  fold (process_events E rev (evs (p ++ [cLF; cLF])) (r_start E rev k b [] [])). fold i.
  assert (A : im_ids (result_of i) = k1) by (rewrite H; cbn; lia).
  assert (C : im_birth (result_of i) = b1) by (rewrite H; destruct b1 as [[x y] z]; reflexivity).
  rewrite A, C.
  change (fold_left (ev_step E rev) ?x ?y) with (process_events E rev x y).
  rewrite H, (start_lists E rev k1 b1 cs gs), process_lists.
  cbn [result_of im_contacts im_groups with_lists r_set_lists r_contacts r_groups r_start r_reset]. rewrite !app_nil_r. reflexivity.
Qed.

