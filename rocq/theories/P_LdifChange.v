(** The LDIF reader on records that change a directory: lemmas for C74. *)
From Verif Require Import Base BaseFacts Utf8 Utf8Facts QtText M_Ldif S_Ldif P_Ldif P_LdifEntry P_Email S_LdifChange.
Local Open Scope list_scope.
Local Open Scope nat_scope.

(** ** Reports of a run *)

Fixpoint rrun (text : bytes) (s : lstate) : list report * lstate :=
  match text with
  | [] => ([], s)
  | c :: r => let '(v, s1) := scan_char c s in
              let '(es, s2) := rrun r s1 in
              (if is_none v then es else shown v s1 :: es, s2)
  end.
Lemma rrun_app t1 t2 s :
  rrun (t1 ++ t2) s = (fst (rrun t1 s) ++ fst (rrun t2 (snd (rrun t1 s))), snd (rrun t2 (snd (rrun t1 s)))).
Proof.
  revert s. induction t1 as [|c t1 IH]; intros s; cbn [app rrun fst snd].
  - destruct (rrun t2 s); reflexivity.
  - destruct (scan_char c s) as [v s1]. rewrite IH. destruct (rrun t1 s1) as [es s2]. cbn [fst snd].
    destruct (is_none v); reflexivity.
Qed.
Lemma rrun_rest r t : forall s, rrun t (w_rest r s) = (fst (rrun t s), w_rest r (snd (rrun t s))).
Proof.
  induction t as [|c t IH]; intros s; [reflexivity|]. cbn [rrun]. rewrite scan_rest.
  destruct (scan_char c s) as [v s1]. cbn [fst snd]. rewrite IH. destruct (rrun t s1) as [es s2]. cbn [fst snd].
  destruct (is_none v); [reflexivity|]. destruct v; reflexivity.
Qed.
Lemma next_loop_rrun t : forall s,
  (exists s', next_loop t s = (PMore, w_rest [] s') /\ rrun t s = ([], s')) \/
  (exists v s' p q, t = p ++ q /\ p <> [] /\ next_loop t s = (v, w_rest q s') /\ v <> PMore
     /\ rrun p s = ([shown v s'], s')).
Proof.
  induction t as [|c t IH]; intros s.
  - left. exists s. split; reflexivity.
  - cbn [next_loop rrun]. destruct (scan_char c s) as [v s1] eqn:E.
    pose proof (scan_not_more c s) as NM. rewrite E in NM. cbn [fst] in NM.
    destruct (is_none v) eqn:N.
    + destruct (IH s1) as [(s' & A & R)|(w & s' & p & q & -> & NP & A & M & R)].
      * left. exists s'. rewrite R. auto.
      * right. exists w, s', (c :: p), q. repeat split; auto; [discriminate|].
        cbn [rrun]. rewrite E, R, N. reflexivity.
    + right. exists v, s1, [c], t. repeat split; auto; [discriminate|].
      cbn [rrun]. rewrite E, N. reflexivity.
Qed.
Lemma looks_rrun n : forall s, length (l_rest s) < n -> looks n s = Some (fst (rrun (l_rest s) s)).
Proof.
  induction n as [|n IH]; intros s L; [lia|]. cbn [looks]. unfold next_item.
  destruct (next_loop_rrun (l_rest s) s) as [(s' & A & R)|(w & s' & p & q & E & NP & A & M & R)].
  - rewrite A, R. reflexivity.
  - rewrite A. assert (length q < n).
    { rewrite E, app_length in L. destruct p; [congruence|]. cbn [length] in L. lia. }
    rewrite IH by exact H. change (l_rest (w_rest q s')) with q. rewrite rrun_rest. cbn [fst].
    replace (shown w (w_rest q s')) with (shown w s') by (destruct w; reflexivity).
    rewrite E, rrun_app, R. cbn [fst snd app]. destruct w; try reflexivity; congruence.
Qed.
Lemma observed_rrun text : observed text = Some (fst (rrun text (ldif_start text))).
Proof. unfold observed. rewrite looks_rrun by (cbn; lia). reflexivity. Qed.

(** ** Line by line *)

Definition told (x : pval * lstate) : list report := if is_none (fst x) then [] else [shown (fst x) (snd x)].
(** [t] is a line for the reader that becomes [u] *)
Definition physical (t u : bytes) : Prop := (t = [] /\ u = []) \/ exists c t' u', t = c :: t' /\ u = c :: u' /\ starter c = true /\ folded t' u'.

Lemma rrun_folded t u : folded t u -> forall w s, rrun t (inline w s) = ([], inline (w ++ u) s).
Proof.
  induction 1 as [|c t u H F IH|t u F IH]; intros w s.
  - rewrite app_nil_r. reflexivity.
  - cbn [rrun]. rewrite scan_plain by assumption. rewrite IH, <- app_assoc. reflexivity.
  - cbn [rrun]. rewrite scan_eol by reflexivity. rewrite scan_fold, IH. reflexivity.
Qed.
Lemma shown_inline v u s : shown v (inline u s) = shown v s.
Proof. destruct v; reflexivity. Qed.
Lemma shown_pending v u s : shown v (pending u s) = shown v s.
Proof. destruct v; reflexivity. Qed.
Lemma rrun_line t l u s : physical t l ->
  rrun (t ++ [cLF]) (pending u s) = (told (commit u s), pending l (snd (commit u s))).
Proof.
  intros [[-> ->]|(c & t' & w & -> & -> & S & F)].
  - cbn [app rrun]. rewrite scan_blank. unfold told. rewrite shown_pending. reflexivity.
  - rewrite <- app_comm_cons. cbn [rrun]. rewrite scan_starter by assumption.
    rewrite rrun_app, (rrun_folded t' w F). cbn [fst snd]. cbn [rrun]. rewrite scan_eol by reflexivity.
    cbn [fst snd is_none app]. unfold told. rewrite shown_inline. destruct (is_none _) eqn:E; reflexivity.
Qed.

(** the lines processed one after the other *)
Fixpoint exec (us : list bytes) (s : lstate) : list report * lstate :=
  match us with
  | [] => ([], s)
  | u :: r => let x := commit u s in let '(es, s2) := exec r (snd x) in (told x ++ es, s2)
  end.
Lemma exec_app a b s : exec (a ++ b) s = (fst (exec a s) ++ fst (exec b (snd (exec a s))), snd (exec b (snd (exec a s)))).
Proof.
  revert s. induction a as [|u a IH]; intros s; cbn [app exec fst snd]; [destruct (exec b s); reflexivity|].
  rewrite IH. destruct (exec a (snd (commit u s))) as [es s2]. cbn [fst snd]. rewrite app_assoc. reflexivity.
Qed.
Lemma rrun_lines ts us : Forall2 physical ts us -> forall u s,
  fst (rrun (flat_map (fun t => t ++ [cLF]) ts ++ [cLF]) (pending u s)) = fst (exec (u :: us) s).
Proof.
  induction 1 as [|t l ts us P F IH]; intros u s.
  - cbn [flat_map app]. rewrite <- (app_nil_l [cLF]), (rrun_line [] []) by (left; auto). cbn [exec fst snd]. rewrite app_nil_r. reflexivity.
  - cbn [flat_map]. rewrite <- app_assoc, rrun_app, (rrun_line t l) by assumption. cbn [fst snd]. rewrite IH.
    change (exec (u :: l :: us) s) with (let x := commit u s in let '(es, s2) := exec (l :: us) (snd x) in (told x ++ es, s2)).
    cbv zeta. destruct (exec (l :: us) (snd (commit u s))). reflexivity.
Qed.
(** the same from the start of the text *)
Lemma rrun_start c t text : starter c = true ->
  rrun (c :: t) (ldif_start text) = rrun (c :: t) (pending [] (ldif_start text)).
Proof.
  intros H. cbn [rrun]. rewrite scan_starter by assumption. rewrite commit_start. cbn [fst snd].
  change (ldif_start text) with (inline [] (ldif_start text)) at 1.
  rewrite scan_plain; [reflexivity|]. apply starter_spec in H. unfold is_eol. destruct H as (-> & -> & _). reflexivity.
Qed.
Lemma observed_lines ts us : Forall2 physical ts us ->
  match ts with t :: _ => t <> [] | [] => True end ->
  observed (flat_map (fun t => t ++ [cLF]) ts ++ [cLF]) = Some (fst (exec us (inline [] (ldif_start (flat_map (fun t => t ++ [cLF]) ts ++ [cLF]))))).
Proof.
  intros F N. rewrite observed_rrun. f_equal. set (text := flat_map (fun t => t ++ [cLF]) ts ++ [cLF]).
  destruct ts as [|t ts].
  - inversion F; subst. reflexivity.
  - inversion F as [|? l ? us' P F']; subst.
    assert (R : rrun text (ldif_start text) = rrun text (pending [] (ldif_start text))).
    { destruct P as [[-> _]|(c & t' & u' & -> & -> & S & _)]; [congruence|].
      change text with (c :: (t' ++ [cLF]) ++ flat_map (fun t => t ++ [cLF]) ts ++ [cLF]) || (unfold text; cbn [flat_map app]).
      apply rrun_start, S. }
    rewrite R. unfold text at 1. rewrite (rrun_lines _ _ F).
    change (exec ([] :: l :: us') (ldif_start text)) with
      (let x := commit [] (ldif_start text) in let '(es, s2) := exec (l :: us') (snd x) in (told x ++ es, s2)).
    cbv zeta. rewrite commit_start. cbn [snd]. destruct (exec (l :: us') _). reflexivity.
Qed.

(** ** Lines of a record *)

Definition phase (e : etype) (m : mtype) (d : bytes) (s : lstate) : Prop := mode s = e /\ l_mod s = m /\ l_dn s = d.

Ltac step s M H := unfold commit, process_line; cbn [w_scan l_comment l_last l_line l_etype l_dn l_mod];
  fold (mode s); rewrite M, H; cbv zeta.
Ltac known k := match goal with K : keyword ?k0 _ |- _ => unfold keyword in K; rewrite K end;
  repeat match goal with |- context [leqb (B ?x) (B ?y)] => let b := eval vm_compute in (leqb (B x) (B y)) in change (leqb (B x) (B y)) with b end; cbv iota.

Section Record.
Variable d : bytes.

Lemma take_dn u s f : mode s = ENone -> split_line u = (false, f, d) -> keyword "dn" f ->
  exists s1, commit u s = (PNewEntry, s1) /\ phase ENone MNone d s1 /\ told (commit u s) = [Begin d].
Proof.
  intros M H K. step s M H. known K. eexists. split; [reflexivity|]. split; [repeat split|reflexivity].
Qed.
Lemma take_version u s f v : mode s = ENone -> l_dn s = [] -> split_line u = (false, f, v) -> keyword "version" f ->
  exists s1, commit u s = (PNone, s1) /\ mode s1 = ENone /\ told (commit u s) = [].
Proof.
  intros M D H K. step s M H. known K. cbn [w_item w_etype l_dn]. cbn. rewrite D. cbn. eexists. split; [reflexivity|]. split; reflexivity.
Qed.
Lemma take_control u s f v c o w : phase ENone MNone d s -> split_line u = (false, f, v) -> keyword "control" f ->
  split_control v = (false, o, c, w) ->
  exists s1, commit u s = (PControl, s1) /\ phase ENone MNone d s1 /\ told (commit u s) = [AControl o c w].
Proof.
  intros (M & M2 & D) H K C. step s M H. known K. rewrite C. eexists. split; [reflexivity|].
  split; [repeat split; auto|reflexivity].
Qed.
Lemma take_item u s f v : phase EAdd MNone d s -> split_line u = (false, f, v) -> f <> [] ->
  exists s1, commit u s = (PItem, s1) /\ phase EAdd MNone d s1 /\ told (commit u s) = [AnItem EAdd MNone f v].
Proof.
  intros (M & M2 & D) H N. step s M H. destruct f; [congruence|]. cbn [isnil andb]. eexists. split; [reflexivity|].
  split; [repeat split; auto|]. unfold told. cbn. rewrite M2. reflexivity.
Qed.
Lemma take_first u s f v : phase ENone MNone d s -> split_line u = (false, f, v) -> f <> [] -> ordinary f = true -> v <> [] ->
  exists s1, commit u s = (PItem, s1) /\ phase EAdd MNone d s1 /\ told (commit u s) = [AnItem EAdd MNone f v].
Proof.
  intros (M & M2 & D) H N O NV. step s M H. unfold ordinary, one_of in O. rewrite negb_true_iff in O. cbn [existsb] in O.
  rewrite !orb_false_iff in O. destruct O as (O1 & O2 & O3 & O4 & _). rewrite O1, O2, O3, O4.
  destruct f; [congruence|]. destruct v; [congruence|]. cbn [isnil andb negb]. eexists. split; [reflexivity|].
  split; [repeat split; auto|]. unfold told. cbn. rewrite M2. reflexivity.
Qed.
Lemma take_end u s e : phase e MNone d s -> e <> ENone -> e <> EModrdn -> split_line u = (false, [], []) ->
  exists s1, commit u s = (PEndEntry, s1) /\ mode s1 = ENone /\ told (commit u s) = [End e].
Proof.
  intros (M & M2 & D) N1 N2 H. step s M H.
  destruct e; try congruence; cbn [isnil andb w_item w_etype w_scan l_mod]; rewrite ?M2; (eexists; split; [reflexivity|split; reflexivity]).
Qed.
Lemma take_end_rename u s r b t : phase EModrdn MNone d s -> l_newrdn s = r -> l_delold s = b -> l_newsup s = t -> split_line u = (false, [], []) ->
  exists s1, commit u s = (PEndEntry, s1) /\ mode s1 = ENone /\ told (commit u s) = [EndRename r b t].
Proof.
  intros (M & M2 & D) R B1 T H. step s M H. cbn [isnil andb]. eexists. split; [reflexivity|]. split; [reflexivity|].
  unfold told. cbn. rewrite R, B1, T. reflexivity.
Qed.
Definition kind_of_change (v : bytes) : etype :=
  if leqb v (B "add") then EAdd else if leqb v (B "delete") then EDel else if leqb v (B "modify") then EMod else EModrdn.
Lemma take_change u s f v : phase ENone MNone d s -> d <> [] -> split_line u = (false, f, v) -> keyword "changetype" f ->
  In v (map B ["add"; "delete"; "modify"; "modrdn"; "moddn"]%string) ->
  exists s1, commit u s = (PNone, s1) /\ phase (kind_of_change v) MNone d s1 /\ told (commit u s) = []
    /\ (kind_of_change v = EModrdn -> l_newrdn s1 = [] /\ l_delold s1 = true /\ l_newsup s1 = []).
Proof.
  intros (M & M2 & D) ND H K I. step s M H. known K. cbn [w_item w_etype w_scan l_dn]. rewrite D. destruct d as [|x y]; [congruence|]. cbn [isnil].
  cbn [map In] in I. destruct I as [<-|[<-|[<-|[<-|[<-|[]]]]]];
    (match goal with |- context [from_utf8 (B ?z)] => change (from_utf8 (B z)) with (B z) end);
    repeat (match goal with |- context [leqb (B ?x) (B ?y)] => let b := eval vm_compute in (leqb (B x) (B y)) in change (leqb (B x) (B y)) with b end);
    cbn [orb]; cbv iota; (eexists; split; [reflexivity|]); (split; [repeat split; auto|split; [reflexivity|]]); intros G; try discriminate G; repeat split.
Qed.
Lemma take_how u s f v h : phase EMod MNone d s -> split_line u = (false, f, to_utf8 v) -> keyword (how_name h) f -> h <> MNone -> text_ok v = true ->
  exists s1, commit u s = (match h with MAdd => PNone | _ => PItem end, s1) /\ phase EMod h d s1
    /\ told (commit u s) = match h with MAdd => [] | _ => [AnItem EMod h v []] end.
Proof.
  intros (M & M2 & D) H K N T. step s M H. cbn [w_item w_etype w_scan l_mod]. rewrite M2.
  assert (NF : f <> []) by (intros ->; unfold keyword in K; destruct h; try discriminate; congruence).
  destruct f as [|c f]; [congruence|]. cbn [isnil andb].
  rewrite utf8_roundtrip by exact T.
  destruct h; [congruence| | |]; cbn [how_name] in K; known K; (eexists; split; [reflexivity|]); (split; [repeat split; auto|reflexivity]).
Qed.
Lemma take_value u s f v h : phase EMod h d s -> h <> MNone -> split_line u = (false, f, v) -> f <> [] ->
  exists s1, commit u s = (PItem, s1) /\ phase EMod h d s1 /\ told (commit u s) = [AnItem EMod h f v].
Proof.
  intros (M & M2 & D) N H NF. step s M H. cbn [w_item w_etype w_scan l_mod]. rewrite M2. destruct f; [congruence|]. cbn [isnil].
  destruct h; [congruence| | |]; (eexists; split; [reflexivity|]); (split; [repeat split; auto|unfold told; cbn; rewrite M2; reflexivity]).
Qed.
Lemma take_dash u s h : phase EMod h d s -> h <> MNone -> split_line u = (false, [], [45%N]) ->
  exists s1, commit u s = (PNone, s1) /\ phase EMod MNone d s1 /\ told (commit u s) = [].
Proof.
  intros (M & M2 & D) N H. step s M H. cbn [w_item w_etype w_scan l_mod]. rewrite M2. cbn [isnil].
  change (leqb (from_utf8 [45%N]) (B "-")) with true.
  destruct h; [congruence| | |]; (eexists; split; [reflexivity|]); (split; [repeat split; auto|reflexivity]).
Qed.
Lemma take_newrdn u s f t : phase EModrdn MNone d s -> split_line u = (false, f, to_utf8 t) -> keyword "newrdn" f -> text_ok t = true ->
  exists s1, commit u s = (PNone, s1) /\ phase EModrdn MNone d s1 /\ told (commit u s) = []
    /\ l_newrdn s1 = t /\ l_delold s1 = l_delold s /\ l_newsup s1 = l_newsup s.
Proof.
  intros (M & M2 & D) H K T. step s M H.
  assert (NF : f <> []) by (intros ->; discriminate K). destruct f as [|c f]; [congruence|]. cbn [isnil andb]. known K.
  rewrite utf8_roundtrip by exact T. eexists. split; [reflexivity|]. repeat split; auto.
Qed.
Lemma take_newsup u s f t : phase EModrdn MNone d s -> split_line u = (false, f, to_utf8 t) -> keyword "newsuperior" f -> text_ok t = true ->
  exists s1, commit u s = (PNone, s1) /\ phase EModrdn MNone d s1 /\ told (commit u s) = []
    /\ l_newrdn s1 = l_newrdn s /\ l_delold s1 = l_delold s /\ l_newsup s1 = t.
Proof.
  intros (M & M2 & D) H K T. step s M H.
  assert (NF : f <> []) by (intros ->; discriminate K). destruct f as [|c f]; [congruence|]. cbn [isnil andb]. known K.
  rewrite utf8_roundtrip by exact T. eexists. split; [reflexivity|]. repeat split; auto.
Qed.
Lemma take_delold u s f (b : bool) : phase EModrdn MNone d s -> split_line u = (false, f, if b then B "1" else B "0") -> keyword "deleteoldrdn" f ->
  exists s1, commit u s = (PNone, s1) /\ phase EModrdn MNone d s1 /\ told (commit u s) = []
    /\ l_newrdn s1 = l_newrdn s /\ l_delold s1 = b /\ l_newsup s1 = l_newsup s.
Proof.
  intros (M & M2 & D) H K. step s M H.
  assert (NF : f <> []) by (intros ->; discriminate K). destruct f as [|c f]; [congruence|]. cbn [isnil andb]. known K.
  destruct b; (eexists; split; [reflexivity|]; repeat split; auto).
Qed.
End Record.

(** ** Controls *)

(** names as they come out of [splitLine] *)
Definition head_ok (f : ustring) : Prop :=
  Forall (fun c => (32 <= c < 127)%N /\ c <> cCOLON) f /\ trimmed f = f /\ f <> [].
Lemma head_utf8 f : Forall (fun c => (32 <= c < 127)%N /\ c <> cCOLON) f -> to_utf8 f = f /\ from_utf8 f = f.
Proof.
  intros H. assert (A : ascii f) by (unfold ascii; eapply Forall_impl; [|exact H]; cbn; intros; lia).
  destruct (ascii_utf8 f A) as [U V]. split; [exact U|]. rewrite <- U at 1. apply utf8_roundtrip. unfold text_ok. rewrite V.
  destruct H as [|c f [H _] _]; [reflexivity|]. cbn [no_bom]. destruct (N.eqb_spec c 0xFEFF); [lia|reflexivity].
Qed.
Lemma split_head sc f v : head_ok f -> is_bytes v = true -> split_line (raw_line sc f v) = (false, f, v).
Proof.
  intros (H & T & NN) V. destruct (head_utf8 f H) as [U1 U2]. unfold raw_line. rewrite U1.
  assert (NC : ~ In cCOLON f) by (rewrite Forall_forall in H; intros I; apply H in I; tauto).
  destruct (safe_value sc _ v) eqn:SV; cbn [app]; unfold split_line.
  - rewrite index_of_app_notin by exact NC. rewrite firstn_app_exact, T, U2.
    rewrite nth_error_app2 by lia. replace (length f + 1 - length f) with 1 by lia. cbn [nth_error].
    change (N.eqb cSP cCOLON) with false. change (N.eqb cSP 60) with false. cbv iota.
    f_equal. rewrite app_length. cbn [length]. destruct (Nat.leb_spec (length f + S (S (length v))) (length f + 2)) as [G|G].
    + destruct v; [reflexivity|cbn [length] in G; lia].
    + unfold mid. replace (f ++ cCOLON :: cSP :: v) with ((f ++ [cCOLON; cSP]) ++ v) by (rewrite <- app_assoc; reflexivity).
      replace (length f + 2) with (length (f ++ [cCOLON; cSP])) by (rewrite app_length; reflexivity). apply skipn_app_exact.
  - rewrite index_of_app_notin by exact NC. rewrite firstn_app_exact, T, U2.
    rewrite nth_error_app2 by lia. replace (length f + 1 - length f) with 1 by lia. cbn [nth_error].
    rewrite N.eqb_refl. f_equal.
    assert (v <> []) as NV by (intros ->; discriminate).
    pose proof (to_base64_nonnil v NV) as NB. destruct (to_base64 v) as [|b bs] eqn:EB; [congruence|].
    rewrite app_length. cbn [length]. destruct (Nat.leb_spec (length f + S (S (S (S (length bs))))) (length f + 3)) as [G|G]; [lia|].
    unfold mid. replace (f ++ cCOLON :: cCOLON :: cSP :: b :: bs) with ((f ++ [cCOLON; cCOLON; cSP]) ++ b :: bs) by (rewrite <- app_assoc; reflexivity).
    replace (length f + 3) with (length (f ++ [cCOLON; cCOLON; cSP])) by (rewrite app_length; reflexivity).
    rewrite skipn_app_exact, <- EB. apply base64_roundtrip, V.
Qed.
Lemma split_bare f : head_ok f -> split_line f = (false, [], f).
Proof.
  intros (H & T & NN). unfold split_line.
  assert (NC : ~ In cCOLON f) by (rewrite Forall_forall in H; intros I; apply H in I; tauto).
  rewrite (proj2 (index_of_None cCOLON f)) by exact NC. rewrite T. reflexivity.
Qed.
Definition suffix_of (c : control) : bytes := match ct_critical c with Some true => B " true" | Some false => B " false" | None => [] end.
Lemma oid_char_spec c : oid_char c = true -> (46 <= c <= 57)%N /\ c <> cCOLON /\ is_space c = false.
Proof. unfold oid_char, cCOLON, is_space. intros H. lia. Qed.
Lemma control_head c : control_ok c -> head_ok (ct_oid c ++ suffix_of c).
Proof.
  intros (N & O & _). assert (A : Forall (fun c => oid_char c = true) (ct_oid c)) by (apply Forall_forall; rewrite forallb_forall in O; exact O).
  split; [|split].
  - apply Forall_app. split.
    + eapply Forall_impl; [|exact A]. cbn. intros x H. apply oid_char_spec in H. lia.
    + unfold suffix_of. apply Forall_forall. intros x I.
      destruct (ct_critical c) as [[|]|]; cbv in I; repeat (destruct I as [<-|I]; [split; [lia|discriminate]|]); destruct I.
  - apply trimmed_of_bare. split.
    + intros x t E. destruct (ct_oid c) as [|y o]; [congruence|]. cbn [app] in E. inversion E; subst. inversion A; subst. apply oid_char_spec. assumption.
    + intros t x E. unfold suffix_of in E. destruct (ct_critical c) as [[|]|].
      * change (B " true") with (B " tru" ++ [101%N]) in E. rewrite app_assoc in E. apply app_inj_tail in E. destruct E as [_ <-]. reflexivity.
      * change (B " false") with (B " fals" ++ [101%N]) in E. rewrite app_assoc in E. apply app_inj_tail in E. destruct E as [_ <-]. reflexivity.
      * rewrite app_nil_r in E. rewrite E in A. apply Forall_app in A. destruct A as [_ A]. inversion A; subst. apply oid_char_spec. assumption.
  - destruct (ct_oid c); [congruence|discriminate].
Qed.
Lemma chop_app a b : chop (length b) (a ++ b) = a.
Proof. unfold chop. rewrite app_length. replace (length a + length b - length b) with (length a) by lia. apply firstn_app_exact. Qed.
Lemma no_e o x : forallb oid_char o = true -> ends_with (x ++ [101%N]) o = false.
Proof.
  intros H. unfold ends_with. rewrite rev_app_distr. cbn [rev app]. destruct (rev o) as [|c r] eqn:E; [reflexivity|]. cbn [starts_with].
  assert (I : In c o) by (rewrite in_rev, E; left; reflexivity). rewrite forallb_forall in H. apply H, oid_char_spec in I.
  destruct (N.eqb_spec 101 c); [lia|reflexivity].
Qed.
Lemma split_control_ok sc c : control_ok c -> exists o b w, split_control (control_value sc c) = (false, o, b, w) /\ control_report c = AControl o b w.
Proof.
  intros OK. pose proof (control_head c OK) as HH. destruct OK as (N & O & V).
  change (control_value sc c) with (match ct_value c with None => ct_oid c ++ suffix_of c | Some v => assemble_line sc (ct_oid c ++ suffix_of c) v 0 false end).
  unfold split_control.
  set (w := match ct_value c with Some v => v | None => [] end).
  assert (R : exists x y, split_line (match ct_value c with None => ct_oid c ++ suffix_of c | Some v => assemble_line sc (ct_oid c ++ suffix_of c) v 0 false end) = (false, x, y)
     /\ (if isnil x then (from_utf8 y, []) else (x, y)) = (ct_oid c ++ suffix_of c, w)).
  { unfold w. destruct (ct_value c) as [v|].
    - exists (ct_oid c ++ suffix_of c), v. split; [apply split_head; assumption|]. destruct (ct_oid c); [congruence|reflexivity].
    - exists [], (ct_oid c ++ suffix_of c). split; [apply split_bare, HH|]. cbn [isnil]. f_equal. apply head_utf8, HH. }
  destruct R as (x & y & -> & ->).
  exists (ct_oid c), (match ct_critical c with Some b => b | None => false end), w. split; [|reflexivity].
  unfold suffix_of. destruct (ct_critical c) as [[|]|].
  - assert (E : ends_with (B "true") (ct_oid c ++ B " true") = true) by (unfold ends_with; rewrite rev_app_distr; reflexivity).
    rewrite E. change 5 with (length (B " true")). rewrite chop_app. reflexivity.
  - assert (E : ends_with (B "true") (ct_oid c ++ B " false") = false) by (unfold ends_with; rewrite rev_app_distr; reflexivity).
    assert (E2 : ends_with (B "false") (ct_oid c ++ B " false") = true) by (unfold ends_with; rewrite rev_app_distr; reflexivity).
    rewrite E, E2. change 6 with (length (B " false")). rewrite chop_app. reflexivity.
  - rewrite app_nil_r. change (B "true") with (B "tru" ++ [101%N]). change (B "false") with (B "fals" ++ [101%N]).
    rewrite !no_e by exact O. reflexivity.
Qed.

(** ** Lines of a text *)

Definition raw_of (sc : bool) (l : line) : bytes := match l with Pair f v => raw_line sc f v | Dash => [45%N] | Blank => [] end.
Definition good_line (l : line) : Prop := match l with Pair f v => attr_ok f = true /\ is_bytes v = true | _ => True end.
Definition wire (sc : bool) (len : nat) (l : line) : bytes :=
  match l with Pair f v => assemble_line sc f v len false | Dash => [45%N] | Blank => [] end.
Lemma wire_physical sc len l : good_line l -> physical (wire sc len l) (raw_of sc l).
Proof.
  destruct l as [f v| |]; cbn [good_line wire raw_of].
  - intros [H V]. right. destruct (raw_line_hd sc f v H) as (c & q & E & S). apply attr_ok_chars in H.
    pose proof (raw_noeol sc f v H V) as NE. rewrite E in *. rewrite assemble_raw, E. inversion NE as [|? ? N0 NQ]; subst.
    destruct (Nat.eqb len 0).
    + exists c, q, q. repeat split; auto. apply folded_refl, NQ.
    + destruct (Nat.max (length f + 2) len) as [|i] eqn:EI; [lia|].
      exists c, (fold_loop (length (c :: q)) i (len + 2) q), q. repeat split; auto.
      * apply (fold_loop_prefix (length (c :: q)) i (len + 2) [c] q).
      * apply fold_loop_folded, NQ.
  - intros _. right. exists 45%N, [], []. repeat split; auto. constructor.
  - intros _. left. auto.
Qed.
Lemma raw_pair sc f v : attr_ok f = true -> is_bytes v = true -> split_line (raw_of sc (Pair f v)) = (false, f, v).
Proof. intros H V. apply split_raw; [apply attr_ok_chars, H|exact V]. Qed.

Lemma keyword_ok k f : keyword k f -> attr_ok (B k) = true -> attr_ok f = true.
Proof.
  unfold keyword. intros E H. rewrite <- E in H. clear E.
  assert (G : forall c, attr_char (lower1 c) = true -> attr_char c = true).
  { intros c. unfold attr_char, lower1. destruct (is_upper c) eqn:U; [|auto]. unfold is_upper in U. lia. }
  destruct f as [|c f]; [discriminate|]. cbn [to_lower map attr_ok] in *. apply andb_true_iff in H. destruct H as [H1 H2]. apply andb_true_iff. split.
  - revert H1. unfold lower1. destruct (is_upper c) eqn:U; [|auto]. unfold is_upper in U. intros _. apply negb_true_iff, N.eqb_neq. lia.
  - cbn [forallb] in *. apply andb_true_iff in H2. destruct H2 as [A C]. apply andb_true_iff. split; [apply G, A|].
    rewrite forallb_forall in C |- *. intros x I. apply G, C. change (In (lower1 x) (map lower1 f)). apply in_map, I.
Qed.

Lemma bytes_app a b : is_bytes (a ++ b) = is_bytes a && is_bytes b.
Proof. unfold is_bytes. apply forallb_app. Qed.
Lemma head_bytes f : Forall (fun c => (32 <= c < 127)%N /\ c <> cCOLON) f -> is_bytes f = true.
Proof. intros H. unfold is_bytes. apply forallb_forall. intros c I. rewrite Forall_forall in H. apply H in I. cbn beta in *; lia. Qed.
Lemma attr_bytes f : attr_ok f = true -> is_bytes f = true.
Proof.
  intros H. apply attr_ok_chars in H. unfold is_bytes. rewrite forallb_forall in H |- *. intros c I. apply H, attr_char_spec in I. cbn beta in *; lia.
Qed.
Lemma base64_bytes v : is_bytes v = true -> is_bytes (to_base64 v) = true.
Proof.
  intros V. pose proof (to_base64_chars v V) as G. unfold is_bytes. rewrite forallb_forall in G |- *. intros x I. apply G in I.
  unfold is_b64 in I. cbn beta in *; lia.
Qed.
Lemma control_bytes sc c : control_ok c -> is_bytes (control_value sc c) = true.
Proof.
  intros OK. pose proof (control_head c OK) as (HH & _). destruct OK as (_ & _ & V).
  change (control_value sc c) with (match ct_value c with None => ct_oid c ++ suffix_of c | Some v => raw_line sc (ct_oid c ++ suffix_of c) v end).
  destruct (ct_value c) as [v|]; [|apply head_bytes, HH]. unfold raw_line. rewrite (proj1 (head_utf8 _ HH)).
  destruct (safe_value _ _ _); rewrite bytes_app, (head_bytes _ HH), bytes_app; cbn [andb is_bytes forallb]; [exact V|apply base64_bytes, V].
Qed.

Lemma exec_cons u us s s1 s2 r rs : told (commit u s) = r -> snd (commit u s) = s1 -> exec us s1 = (rs, s2) -> exec (u :: us) s = (r ++ rs, s2).
Proof. intros A <- C. cbn [exec]. rewrite C, A. reflexivity. Qed.
Ltac go X := let s1 := fresh "s" in let C := fresh "C" in let P := fresh "P" in let R := fresh "R" in
  destruct X as (s1 & C & P & R).

Section Read.
Variables (sc : bool) (d : bytes).

Lemma read_controls cs ls : Forall2 (control_line sc) cs ls -> Forall control_ok cs -> forall s, phase ENone MNone d s ->
  exists s', exec (map (raw_of sc) ls) s = (map control_report cs, s') /\ phase ENone MNone d s'.
Proof.
  induction 1 as [|c l cs ls (f & K & ->) F IH]; intros OK s P; [exists s; auto|].
  inversion OK as [|? ? O1 OK']; subst. destruct (split_control_ok sc c O1) as (o & b & w & S & R).
  pose proof (raw_pair sc f _ (keyword_ok _ _ K eq_refl) (control_bytes sc c O1)) as RP.
  destruct (take_control d _ s f _ b o w P RP K S) as (s1 & C & P1 & T).
  destruct (IH OK' s1 P1) as (s' & E & P2). exists s'. split; [|exact P2].
  cbn [map]. rewrite R. apply (exec_cons _ _ _ s1 _ [AControl o b w]); [exact T|rewrite C; reflexivity|exact E].
Qed.
Lemma read_items ps : forallb pair_ok ps = true -> forall s, phase EAdd MNone d s ->
  exists s', exec (map (raw_of sc) (map pair_line ps)) s = (map (fun p => AnItem EAdd MNone (fst p) (snd p)) ps, s') /\ phase EAdd MNone d s'.
Proof.
  induction ps as [|[f v] ps IH]; intros OK s P; [exists s; auto|]. cbn [forallb] in OK. apply andb_true_iff in OK. destruct OK as [O1 OK].
  unfold pair_ok in O1. apply andb_true_iff in O1. cbn [fst snd] in O1. destruct O1 as [A V].
  assert (NF : f <> []) by (intros ->; discriminate).
  destruct (take_item d _ s f v P (raw_pair sc f v A V) NF) as (s1 & C & P1 & T).
  destruct (IH OK s1 P1) as (s' & E & P2). exists s'. split; [|exact P2].
  cbn [map]. apply (exec_cons _ _ _ s1 _ [AnItem EAdd MNone f v]); [exact T|unfold pair_line; cbn [fst snd]; rewrite C; reflexivity|exact E].
Qed.
Lemma read_values h f : attr_ok f = true -> h <> MNone -> forall vs, Forall (fun v => is_bytes v = true) vs -> forall s, phase EMod h d s ->
  exists s', exec (map (raw_of sc) (map (Pair f) vs)) s = (map (AnItem EMod h f) vs, s') /\ phase EMod h d s'.
Proof.
  intros A NH. induction 1 as [|v vs V F IH]; intros s P; [exists s; auto|].
  assert (NF : f <> []) by (intros ->; discriminate).
  destruct (take_value d _ s f v h P NH (raw_pair sc f v A V) NF) as (s1 & C & P1 & T).
  destruct (IH s1 P1) as (s' & E & P2). exists s'. split; [|exact P2].
  cbn [map]. apply (exec_cons _ _ _ s1 _ [AnItem EMod h f v]); [exact T|rewrite C; reflexivity|exact E].
Qed.
Lemma attr_text f : attr_ok f = true -> to_utf8 f = f /\ text_ok f = true.
Proof.
  intros H. apply attr_ok_chars in H. split; [apply attr_ascii, H|]. unfold text_ok. apply andb_true_iff.
  assert (A : ascii f). { unfold ascii. apply Forall_forall. intros c I. rewrite forallb_forall in H. apply H, attr_char_spec in I. lia. }
  split; [apply ascii_utf8, A|]. destruct A as [|c f L]; [reflexivity|]. cbn [no_bom]. destruct (N.eqb_spec c 0xFEFF); [lia|reflexivity].
Qed.
Lemma read_mod m ls : mod_lines m ls -> mod_ok m -> forall s, phase EMod MNone d s ->
  exists s', exec (map (raw_of sc) ls) s = (mod_reports m, s') /\ phase EMod MNone d s'.
Proof.
  intros (f & K & ->) (NH & A & V) s P. destruct m as [h g vs]. cbn [md_how md_attr md_values] in *.
  destruct (attr_text g A) as [U TO].
  assert (KO : attr_ok f = true) by (destruct h; [congruence| | |]; exact (keyword_ok _ _ K eq_refl)).
  pose proof (raw_pair sc f g KO (attr_bytes g A)) as RP. rewrite <- U in RP at 2.
  destruct (take_how d _ s f g h P RP K NH TO) as (s1 & C & P1 & T).
  destruct (read_values h g A NH vs V s1 P1) as (s2 & E & P2).
  destruct (take_dash d (raw_of sc Dash) s2 h P2 NH eq_refl) as (s3 & C3 & P3 & T3).
  exists s3. split; [|exact P3]. cbn [map]. rewrite map_app. unfold mod_reports. cbn [md_how md_attr md_values].
  apply (exec_cons _ _ _ s1 s3).
  - rewrite T. destruct h; reflexivity.
  - rewrite C. reflexivity.
  - rewrite exec_app, E. cbn [fst snd map exec]. rewrite T3, C3. cbn [snd app]. rewrite app_nil_r. reflexivity.
Qed.
Lemma read_mods ms lss : Forall2 mod_lines ms lss -> Forall mod_ok ms -> forall s, phase EMod MNone d s ->
  exists s', exec (map (raw_of sc) (concat lss)) s = (flat_map mod_reports ms, s') /\ phase EMod MNone d s'.
Proof.
  induction 1 as [|m ls ms lss M F IH]; intros OK s P; [exists s; auto|]. inversion OK as [|? ? O1 OK']; subst.
  destruct (read_mod m ls M O1 s P) as (s1 & E1 & P1). destruct (IH OK' s1 P1) as (s2 & E2 & P2).
  exists s2. split; [|exact P2]. cbn [concat flat_map]. rewrite map_app, exec_app, E1. cbn [fst snd]. rewrite E2. reflexivity.
Qed.
Lemma utf8_is_bytes t : text_ok t = true -> is_bytes (to_utf8 t) = true.
Proof. intros H. unfold text_ok in H. apply andb_true_iff in H. apply (to_utf8_is_bytes (length t)); [lia|tauto]. Qed.

Lemma read_change c ls s : change_lines c ls -> change_ok c -> (changes c = true -> d <> []) -> phase ENone MNone d s ->
  exists s', exec (map (raw_of sc) (ls ++ [Blank])) s = (change_reports c, s') /\ mode s' = ENone.
Proof.
  intros L OK ND P. rewrite map_app. destruct c as [ps|ps| |ms|r b t]; cbn [change_lines change_ok changes change_reports] in *.
  - subst ls. destruct OK as [OK F]. destruct ps as [|[f v] ps]; [contradiction|]. cbn [forallb] in OK. apply andb_true_iff in OK. destruct OK as [O1 OK].
    unfold pair_ok in O1. apply andb_true_iff in O1. cbn [fst snd] in *. destruct O1 as [A V]. destruct F as [F1 F2].
    assert (NF : f <> []) by (intros ->; discriminate).
    destruct (take_first d _ s f v P (raw_pair sc f v A V) NF F1 F2) as (s1 & C & P1 & T).
    destruct (read_items ps OK s1 P1) as (s2 & E & P2).
    destruct (take_end d [] s2 EAdd P2) as (s3 & C3 & M3 & T3); try discriminate; [reflexivity|].
    exists s3. split; [|exact M3]. cbn [map app fst snd].
    apply (exec_cons _ _ _ s1 _ [AnItem EAdd MNone f v]); [exact T|unfold pair_line; cbn [fst snd]; rewrite C; reflexivity|].
    rewrite exec_app, E. cbn [fst snd map exec raw_of]. rewrite T3, C3. reflexivity.
  - destruct L as (f & K & ->). pose proof (raw_pair sc f (B "add") (keyword_ok _ _ K eq_refl) eq_refl) as RP.
    destruct (take_change d _ s f (B "add") P (ND eq_refl) RP K) as (s1 & C & P1 & T & _); [cbn; auto|].
    destruct (read_items ps OK s1 P1) as (s2 & E & P2).
    destruct (take_end d [] s2 EAdd P2) as (s3 & C3 & M3 & T3); try discriminate; [reflexivity|].
    exists s3. split; [|exact M3]. cbn [map app].
    apply (exec_cons _ _ _ s1 _ []); [exact T|rewrite C; reflexivity|].
    rewrite exec_app, E. cbn [fst snd map exec raw_of]. rewrite T3, C3. reflexivity.
  - destruct L as (f & K & ->). pose proof (raw_pair sc f (B "delete") (keyword_ok _ _ K eq_refl) eq_refl) as RP.
    destruct (take_change d _ s f (B "delete") P (ND eq_refl) RP K) as (s1 & C & P1 & T & _); [cbn; auto|].
    destruct (take_end d [] s1 EDel P1) as (s3 & C3 & M3 & T3); try discriminate; [reflexivity|].
    exists s3. split; [|exact M3]. cbn [map app].
    apply (exec_cons _ _ _ s1 _ []); [exact T|rewrite C; reflexivity|]. cbn [exec raw_of]. rewrite T3, C3. reflexivity.
  - destruct L as (f & lss & K & F & ->). pose proof (raw_pair sc f (B "modify") (keyword_ok _ _ K eq_refl) eq_refl) as RP.
    destruct (take_change d _ s f (B "modify") P (ND eq_refl) RP K) as (s1 & C & P1 & T & _); [cbn; auto|].
    destruct (read_mods ms lss F OK s1 P1) as (s2 & E & P2).
    destruct (take_end d [] s2 EMod P2) as (s3 & C3 & M3 & T3); try discriminate; [reflexivity|].
    exists s3. split; [|exact M3]. cbn [map app].
    apply (exec_cons _ _ _ s1 _ []); [exact T|rewrite C; reflexivity|].
    rewrite exec_app, E. cbn [fst snd map exec raw_of]. rewrite T3, C3. reflexivity.
  - destruct L as (f & g & v & l1 & l2 & K & Kv & Kg & L1 & L2 & ->). destruct OK as [TR TT].
    assert (KV : kind_of_change v = EModrdn /\ is_bytes v = true /\ In v (map B ["add"; "delete"; "modify"; "modrdn"; "moddn"]%string))
      by (destruct Kv as [-> | ->]; repeat split; cbn; auto 8). destruct KV as (KV & BV & IV).
    pose proof (raw_pair sc f v (keyword_ok _ _ K eq_refl) BV) as RP.
    destruct (take_change d _ s f v P (ND eq_refl) RP K IV) as (s1 & C & P1 & T & X). rewrite KV in P1. destruct (X KV) as (X1 & X2 & X3). clear X.
    pose proof (raw_pair sc g (to_utf8 r) (keyword_ok _ _ Kg eq_refl) (utf8_is_bytes r TR)) as RG.
    destruct (take_newrdn d _ s1 g r P1 RG Kg TR) as (s2 & C2 & P2 & T2 & Y1 & Y2 & Y3).
    assert (D : exists s3, exec (map (raw_of sc) l1) s2 = ([], s3) /\ phase EModrdn MNone d s3 /\
       l_newrdn s3 = r /\ l_delold s3 = (match b with Some x => x | None => true end) /\ l_newsup s3 = []).
    { destruct b as [b|]; cbn [opt_lines] in L1.
      - destruct L1 as (l & -> & h & Kh & ->).
        assert (BB : is_bytes (if b then B "1" else B "0") = true) by (destruct b; reflexivity).
        pose proof (raw_pair sc h _ (keyword_ok _ _ Kh eq_refl) BB) as RH.
        destruct (take_delold d _ s2 h b P2 RH Kh) as (s3 & C3 & P3 & T3 & Z1 & Z2 & Z3).
        exists s3. split; [|split; [exact P3|]; repeat split; congruence].
        cbn [map]. apply (exec_cons _ _ _ s3 _ []); [exact T3|rewrite C3; reflexivity|reflexivity].
      - subst l1. exists s2. cbn. split; [reflexivity|]. split; [exact P2|]. repeat split; congruence. }
    destruct D as (s3 & E3 & P3 & Z1 & Z2 & Z3).
    assert (D : exists s4, exec (map (raw_of sc) l2) s3 = ([], s4) /\ phase EModrdn MNone d s4 /\
       l_newrdn s4 = r /\ l_delold s4 = (match b with Some x => x | None => true end) /\ l_newsup s4 = (match t with Some x => x | None => [] end)).
    { destruct t as [t|]; cbn [opt_lines] in L2.
      - destruct L2 as (l & -> & h & Kh & ->).
        pose proof (raw_pair sc h _ (keyword_ok _ _ Kh eq_refl) (utf8_is_bytes t TT)) as RH.
        destruct (take_newsup d _ s3 h t P3 RH Kh TT) as (s4 & C4 & P4 & T4 & W1 & W2 & W3).
        exists s4. split; [|split; [exact P4|]; repeat split; congruence].
        cbn [map]. apply (exec_cons _ _ _ s4 _ []); [exact T4|rewrite C4; reflexivity|reflexivity].
      - subst l2. exists s3. cbn. split; [reflexivity|]. split; [exact P3|]. repeat split; congruence. }
    destruct D as (s4 & E4 & P4 & W1 & W2 & W3).
    destruct (take_end_rename d [] s4 _ _ _ P4 W1 W2 W3 eq_refl) as (s5 & C5 & M5 & T5).
    exists s5. split; [|exact M5]. cbn [map app].
    apply (exec_cons _ _ _ s1 _ []); [exact T|rewrite C; reflexivity|].
    apply (exec_cons _ _ _ s2 _ []); [exact T2|rewrite C2; reflexivity|].
    rewrite map_app, <- app_assoc, exec_app, E3. cbn [fst snd app]. rewrite exec_app, E4. cbn [fst snd map exec raw_of app].
    rewrite T5, C5. reflexivity.
Qed.
End Read.

Lemma read_record sc r ls s : record_lines sc r ls -> record_ok r -> mode s = ENone ->
  exists s', exec (map (raw_of sc) ls) s = (record_reports r, s') /\ mode s' = ENone.
Proof.
  intros (f & cs & xs & K & F & L & ->) (BD & ND & OC & OK) M.
  pose proof (raw_pair sc f _ (keyword_ok _ _ K eq_refl) BD) as RP.
  destruct (take_dn (rc_dn r) _ s f M RP K) as (s1 & C & P1 & T).
  destruct (read_controls sc (rc_dn r) _ _ F OC s1 P1) as (s2 & E & P2).
  destruct (read_change sc (rc_dn r) _ _ s2 L OK ND P2) as (s3 & E3 & M3).
  exists s3. split; [|exact M3]. cbn [map]. unfold record_reports.
  apply (exec_cons _ _ _ s1 _ [Begin (rc_dn r)]); [exact T|rewrite C; reflexivity|].
  rewrite map_app, exec_app, E. cbn [fst snd]. rewrite E3. reflexivity.
Qed.
Lemma read_records sc rs lss : Forall2 (record_lines sc) rs lss -> Forall record_ok rs -> forall s, mode s = ENone ->
  fst (exec (map (raw_of sc) (concat lss)) s) = flat_map record_reports rs.
Proof.
  induction 1 as [|r ls rs lss L F IH]; intros OK s M; [reflexivity|]. inversion OK as [|? ? O1 OK']; subst.
  destruct (read_record sc r ls s L O1 M) as (s1 & E & M1). cbn [concat flat_map]. rewrite map_app, exec_app, E. cbn [fst snd].
  rewrite (IH OK' s1 M1). reflexivity.
Qed.

(** the lines of a record are lines for the reader *)
Lemma good_record sc r ls : record_lines sc r ls -> record_ok r -> Forall good_line ls.
Proof.
  intros (f & cs & xs & K & F & L & ->) (BD & ND & OC & OK).
  assert (KW : forall k g v, keyword k g -> attr_ok (B k) = true -> is_bytes v = true -> good_line (Pair g v)) by (intros; split; eauto using keyword_ok).
  assert (PS : forall ps, forallb pair_ok ps = true -> Forall good_line (map pair_line ps)).
  { intros ps H. apply Forall_map, Forall_forall. intros [g v] I. rewrite forallb_forall in H. apply H in I. unfold pair_ok in I.
    apply andb_true_iff in I. exact I. }
  apply Forall_cons; [exact (KW _ _ _ K eq_refl BD)|]. apply Forall_app. split.
  - clear -F OC KW. induction F as [|c l cs ls (g & K & ->) F IH]; [constructor|]. inversion OC; subst. constructor; [|auto].
    exact (KW _ _ _ K eq_refl (control_bytes sc c ltac:(assumption))).
  - apply Forall_app. split; [|repeat constructor]. destruct (rc_change r) as [ps|ps| |ms|rd b t]; cbn [change_lines change_ok] in *.
    + subst xs. apply PS, OK.
    + destruct L as (g & Kg & ->). constructor; [apply (KW _ _ _ Kg eq_refl); reflexivity|apply PS, OK].
    + destruct L as (g & Kg & ->). constructor; [apply (KW _ _ _ Kg eq_refl); reflexivity|constructor].
    + destruct L as (g & lss & Kg & G & ->). constructor; [apply (KW _ _ _ Kg eq_refl); reflexivity|].
      clear -G OK KW. induction G as [|m ls ms lss (h & Kh & ->) G IH]; [constructor|]. inversion OK as [|? ? (NH & A & V) OK']; subst.
      cbn [concat]. apply Forall_app. split; [|apply IH, OK']. constructor.
      * destruct (md_how m); [congruence| | |]; exact (KW _ _ _ Kh eq_refl (attr_bytes _ A)).
      * apply Forall_app. split; [|repeat constructor]. apply Forall_map. eapply Forall_impl; [|exact V]. cbn. auto.
    + destruct L as (g & h & v & l1 & l2 & Kg & Kv & Kh & L1 & L2 & ->). destruct OK as [TR TT].
      constructor; [apply (KW _ _ _ Kg eq_refl); destruct Kv as [-> | ->]; reflexivity|].
      constructor; [apply (KW _ _ _ Kh eq_refl), utf8_is_bytes, TR|]. apply Forall_app. split.
      * destruct b as [b|]; cbn [opt_lines] in L1; [|subst; constructor]. destruct L1 as (l & -> & k & Kk & ->).
        constructor; [apply (KW _ _ _ Kk eq_refl); destruct b; reflexivity|constructor].
      * destruct t as [t|]; cbn [opt_lines] in L2; [|subst; constructor]. destruct L2 as (l & -> & k & Kk & ->).
        constructor; [apply (KW _ _ _ Kk eq_refl), utf8_is_bytes, TT|constructor].
Qed.
Lemma lines_wire sc len ls : flat_map (line_text sc len) ls = flat_map (fun t => t ++ [cLF]) (map (wire sc len) ls).
Proof. induction ls as [|l ls IH]; [reflexivity|]. cbn [flat_map map]. rewrite IH. destruct l; reflexivity. Qed.

Theorem observed_records sc len rs lss f v vs :
  Forall2 (record_lines sc) rs lss -> Forall record_ok rs ->
  vs = [] \/ (keyword "version" f /\ is_bytes v = true /\ vs = [Pair f v]) ->
  observed (flat_map (line_text sc len) (vs ++ concat lss) ++ [cLF]) = Some (flat_map record_reports rs).
Proof.
  intros F OK VS. rewrite lines_wire.
  assert (GL : Forall good_line (concat lss)).
  { clear VS. induction F as [|r ls rs lss L F IH]; [constructor|]. inversion OK; subst. cbn [concat]. apply Forall_app. split; [eapply good_record; eauto|auto]. }
  assert (GV : Forall good_line (vs ++ concat lss)).
  { apply Forall_app. split; [|exact GL]. destruct VS as [-> | (K & BV & ->)]; [constructor|]. constructor; [|constructor]. split; [exact (keyword_ok _ _ K eq_refl)|exact BV]. }
  assert (PH : Forall2 physical (map (wire sc len) (vs ++ concat lss)) (map (raw_of sc) (vs ++ concat lss))).
  { clear -GV. induction GV as [|l ls G GV IH]; [constructor|]. cbn [map]. constructor; [apply wire_physical, G|exact IH]. }
  rewrite (observed_lines _ _ PH).
  - f_equal. set (s0 := inline [] _).
    destruct VS as [-> | (K & BV & ->)].
    + cbn [app]. apply (read_records sc); auto.
    + cbn [app map]. assert (M0 : mode s0 = ENone) by reflexivity. assert (D0 : l_dn s0 = []) by reflexivity.
      pose proof (raw_pair sc f v (keyword_ok _ _ K eq_refl) BV) as RP.
      destruct (take_version _ s0 f v M0 D0 RP K) as (s1 & C & M1 & T).
      cbn [exec]. rewrite T, C. cbn [snd app]. rewrite <- (read_records sc rs lss F OK s1 M1). destruct (exec _ s1). reflexivity.
  - assert (NW : forall g w, attr_ok g = true -> is_bytes w = true -> wire sc len (Pair g w) <> []).
    { intros g w A W. destruct (wire_physical sc len (Pair g w) (conj A W)) as [[E1 E2]|(c & t' & u' & E & _)]; [|rewrite E; discriminate].
      destruct (raw_line_hd sc g w A) as (c & q & E & _). cbn [raw_of] in E2. congruence. }
    destruct VS as [-> | (K & BV & ->)]; [|cbn [app map]; apply NW; [exact (keyword_ok _ _ K eq_refl)|exact BV]].
    cbn [app]. destruct F as [|r ls rs lss L F]; [exact I|]. inversion OK as [|? ? O1 _]; subst.
    destruct L as (g & cs & xs & K & _ & _ & ->). cbn [concat app map]. apply NW; [exact (keyword_ok _ _ K eq_refl)|apply O1].
Qed.
