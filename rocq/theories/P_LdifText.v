(** The text the LDIF converter writes, as the reader sees it after [toLatin1]:
    lemmas for C28. *)
From Verif Require Import Base BaseFacts Utf8 Utf8Facts QtText M_ParamMap M_Values M_Date M_Addressee M_ContactGroup M_Ldif S_Ldif P_Ldif P_LdifEntry P_LdifConv.
Local Open Scope list_scope.
Local Open Scope nat_scope.

(** ** ASCII text *)

Definition ascii (s : list N) : Prop := Forall (fun c => (c < 128)%N) s.
Lemma ascii_loop s : ascii s -> forall n, length s <= n -> utf8_loop n s = s.
Proof.
  induction 1 as [|c s H A IH]; intros n L; [destruct n; reflexivity|]. destruct n as [|n]; [cbn in L; lia|].
  rewrite (utf8_loop_step n (c :: s) [c] s (dec1_enc1 c s H)). cbn [app]. f_equal. apply IH. cbn in L. lia.
Qed.
Lemma ascii_utf8 s : ascii s -> from_utf8 s = s.
Proof.
  intros H. unfold from_utf8. assert (S : skip_bom s = s).
  { unfold skip_bom. destruct s as [|a [|b [|c t]]]; try reflexivity. inversion H; subst.
    destruct (N.eqb_spec a 0xEF); [lia|reflexivity]. }
  rewrite S. apply ascii_loop; [exact H|lia].
Qed.
Lemma ascii_latin1 s : ascii s -> to_latin1 s = s.
Proof.
  induction 1 as [|c s H A IH]; [reflexivity|]. cbn [to_latin1 map]. destruct (N.ltb_spec c 256); [|lia]. f_equal. exact IH.
Qed.
Lemma ascii_app a b : ascii a -> ascii b -> ascii (a ++ b).
Proof. intros. apply Forall_app. auto. Qed.
Lemma folded_ascii t u : folded t u -> ascii u -> ascii t.
Proof.
  induction 1 as [|c t u H F IH|t u F IH]; intros A; [constructor|inversion A; subst; constructor; [assumption|apply IH; assumption]|].
  constructor; [reflexivity|]. constructor; [reflexivity|]. apply IH, A.
Qed.
Lemma attr_is_ascii f : forallb attr_char f = true -> ascii f.
Proof. intros H. rewrite forallb_forall in H. apply Forall_forall. intros c I. specialize (H c I). apply attr_char_spec in H. lia. Qed.
Lemma b64_ascii v : is_bytes v = true -> ascii (to_base64 v).
Proof.
  intros H. pose proof (to_base64_chars v H) as G. rewrite forallb_forall in G. apply Forall_forall. intros x I. specialize (G x I).
  unfold is_b64 in G. lia.
Qed.
Lemma safe_ascii v : safe_value true false v = true -> ascii v.
Proof.
  destruct v as [|c r]; intros H; [constructor|]. cbn [safe_value] in H. apply andb_true_iff in H. destruct H as [A C].
  constructor.
  - unfold safe_init, char_pos in A. cbn [negb orb] in A. rewrite !andb_true_iff, !N.ltb_lt in A. lia.
  - rewrite forallb_forall in C. apply Forall_forall. intros x I. specialize (C x I). unfold safe_char, char_pos in C. cbn [negb orb andb] in C.
    rewrite negb_true_iff, !orb_false_iff, negb_false_iff, andb_true_iff, !N.ltb_lt in C. lia.
Qed.
Lemma raw_ascii f v : forallb attr_char f = true -> is_bytes v = true ->
  safe_value true (leqb (to_lower f) (B "dn")) v = false \/ leqb (to_lower f) (B "dn") = false -> ascii (raw_line true f v).
Proof.
  intros F V H. unfold raw_line. rewrite (attr_ascii f F).
  destruct (safe_value true (leqb (to_lower f) (B "dn")) v) eqn:SV; (apply ascii_app; [apply attr_is_ascii, F|]); (apply ascii_app; [repeat constructor|]).
  - destruct H as [H|H]; [discriminate|]. rewrite H in SV. apply safe_ascii, SV.
  - apply b64_ascii, V.
Qed.
Lemma assemble_ascii f v len : forallb attr_char f = true -> is_bytes v = true ->
  safe_value true (leqb (to_lower f) (B "dn")) v = false \/ leqb (to_lower f) (B "dn") = false ->
  to_latin1 (from_utf8 (assemble_line true f v len false)) = assemble_line true f v len false.
Proof.
  intros F V H. assert (A : ascii (assemble_line true f v len false)) by (eapply folded_ascii; [apply assemble_folded; assumption|apply raw_ascii; assumption]).
  rewrite ascii_utf8 by exact A. apply ascii_latin1, A.
Qed.

(** ** Text that is not ASCII: it may be damaged, but a folded line stays one *)

Definition latin1_char (c : N) : N := if N.ltb c 256 then c else 63%N.
Lemma latin1_high_eol c : (128 <= c)%N -> is_eol (latin1_char c) = false.
Proof.
  intros H. unfold latin1_char, is_eol, cLF, cCR. apply orb_false_iff. split; apply N.eqb_neq; destruct (N.ltb c 256); lia.
Qed.
(** one step of the decoder *)
Lemma dec1_shape s us r : dec1 s = Some (us, r) ->
  (exists c, (c < 128)%N /\ s = c :: r /\ us = [c]) \/
  (exists p, s = p ++ r /\ p <> [] /\ Forall (fun c => (128 <= c)%N) p /\ Forall (fun c => (128 <= c)%N) us).
Proof.
  unfold dec1. destruct s as [|b0 t]; [discriminate|].
  destruct (N.ltb_spec b0 0x80) as [H|H]; [intros X; injection X as <- <-; left; eauto|].
  destruct (N.ltb_spec b0 0xC2) as [H1|H1]; [discriminate|].
  destruct (N.ltb_spec b0 0xE0) as [H2|H2].
  { destruct t as [|b1 t1]; [discriminate|]. destruct (is_cont b1) eqn:C1; [|discriminate]. intros X; injection X as <- <-. right.
    unfold is_cont in C1. rewrite andb_true_iff, N.leb_le in C1.
    exists [b0; b1]. split; [reflexivity|]. split; [discriminate|]. split; repeat constructor; lia. }
  destruct (N.ltb_spec b0 0xF0) as [H3|H3].
  { destruct t as [|b1 [|b2 t2]]; try discriminate. destruct (is_cont b1 && is_cont b2) eqn:C1; [|discriminate].
    apply andb_true_iff in C1. destruct C1 as [C1 C2]. unfold is_cont in C1, C2. rewrite andb_true_iff, N.leb_le in C1, C2.
    match goal with |- context [if ?b then _ else _] => destruct b eqn:U end; [discriminate|]. intros X; injection X as <- <-. right.
    exists [b0; b1; b2]. split; [reflexivity|]. split; [discriminate|]. apply orb_false_iff in U. destruct U as [U _]. apply N.ltb_ge in U.
    split; repeat constructor; lia. }
  destruct (N.ltb_spec b0 0xF5) as [H4|H4]; [|discriminate].
  destruct t as [|b1 [|b2 [|b3 t3]]]; try discriminate. destruct (is_cont b1 && is_cont b2 && is_cont b3) eqn:C1; [|discriminate].
  rewrite !andb_true_iff in C1. destruct C1 as [[C1 C2] C3]. unfold is_cont in C1, C2, C3. rewrite andb_true_iff, N.leb_le in C1, C2, C3.
  match goal with |- context [if ?b then _ else _] => destruct b eqn:U end; [discriminate|]. intros X; injection X as <- <-. right.
  exists [b0; b1; b2; b3]. split; [reflexivity|]. split; [discriminate|]. split; repeat constructor; lia.
Qed.
Lemma folded_skip p : forall r u, Forall (fun c => (128 <= c)%N) p -> folded (p ++ r) u -> exists u', folded r u'.
Proof.
  induction p as [|c p IH]; intros r u H F; [eauto|]. inversion H; subst. cbn [app] in F. inversion F; subst.
  - eapply IH; eassumption.
  - unfold cLF in *. lia.
Qed.
Lemma high_folded us : Forall (fun c => (128 <= c)%N) us -> forall t u, folded t u -> folded (map latin1_char us ++ t) (map latin1_char us ++ u).
Proof. induction 1 as [|c us H A IH]; intros t u F; [exact F|]. cbn [map app]. constructor; [apply latin1_high_eol, H|apply IH, F]. Qed.
Lemma mangled m : forall n s u, length s <= m -> length s <= n -> folded s u -> exists u', folded (map latin1_char (utf8_loop n s)) u'.
Proof.
  induction m as [|m IH]; intros n s u Lm Ln F.
  { destruct s; [|cbn in Lm; lia]. exists []. destruct n; constructor. }
  destruct s as [|c s]; [exists []; destruct n; constructor|]. destruct n as [|n]; [cbn in Ln; lia|].
  cbn [length] in *. inversion F as [|c' t' u0 NE F'|t' u0 F']; subst.
  - cbn [utf8_loop]. destruct (dec1 (c :: s)) as [[us r]|] eqn:D.
    + destruct (dec1_shape _ _ _ D) as [(x & X & Y & Z)|(p & Y & NP & P & US)].
      * injection Y as <- <-. subst us. destruct (IH n s u0 ltac:(lia) ltac:(lia) F') as (u' & G). exists (c :: u').
        cbn [app map]. unfold latin1_char at 1. destruct (N.ltb_spec c 256); [|lia]. constructor; assumption.
      * rewrite Y in F. destruct (folded_skip p r _ P F) as (u1 & F1).
        assert (length r <= length s) by (destruct p; [congruence|]; cbn in Y; injection Y as _ ->; rewrite app_length; lia).
        destruct (IH n r u1 ltac:(lia) ltac:(lia) F1) as (u' & G).
        exists (map latin1_char us ++ u'). rewrite map_app. apply high_folded; assumption.
    + destruct (IH n s u0 ltac:(lia) ltac:(lia) F') as (u' & G). exists (63%N :: u'). cbn [map]. constructor; [reflexivity|exact G].
  - cbn [length] in *. destruct n as [|n]; [lia|].
    change (utf8_loop (S (S n)) (cLF :: cSP :: t')) with (cLF :: cSP :: utf8_loop n t'). cbn [map].
    destruct (IH n t' u ltac:(lia) ltac:(lia) F') as (u' & G). exists u'. change (latin1_char cLF) with cLF. change (latin1_char cSP) with cSP.
    constructor. exact G.
Qed.

(** the line with the distinguished name *)
Lemma dn_line_ok v : is_bytes v = true ->
  exists w, line_ok (to_latin1 (from_utf8 (assemble_line true (B "dn") v 72 false))) (B "dn") w.
Proof.
  intros V. destruct (safe_value true (leqb (to_lower (B "dn")) (B "dn")) v) eqn:SV.
  - rewrite assemble_raw. change (Nat.eqb 72 0) with false. cbv iota. unfold raw_line. rewrite SV.
    change (to_utf8 (B "dn") ++ [cCOLON; cSP] ++ v) with ([100; 110; 58; 32]%N ++ v).
    change (Nat.max (length (B "dn") + 2) 72) with (length [100; 110; 58; 32]%N + 68). change (72 + 2) with 74.
    rewrite (fold_loop_prefix (length ([100; 110; 58; 32]%N ++ v)) 68 74 [100; 110; 58; 32]%N v).
    change (leqb (to_lower (B "dn")) (B "dn")) with true in SV. pose proof (safe_noeol _ _ _ SV) as NE.
    pose proof (fold_loop_folded (length ([100; 110; 58; 32]%N ++ v)) 68 72 v NE) as F. change (72 + 2) with 74 in F.
    set (t := fold_loop _ 68 74 v) in *. clearbody t.
    assert (X : to_latin1 (from_utf8 ([100; 110; 58; 32]%N ++ t)) = [100; 110; 58; 32]%N ++ map latin1_char (utf8_loop (length t) t)).
    { reflexivity. }
    rewrite X. destruct (mangled (length t) (length t) t v ltac:(lia) ltac:(lia) F) as (u' & G).
    exists u'. exists 100%N, ([110; 58; 32]%N ++ map latin1_char (utf8_loop (length t) t)), ([110; 58; 32]%N ++ u').
    split; [reflexivity|]. split; [reflexivity|]. split; [repeat (constructor; [reflexivity|]); exact G|].
    unfold split_line. change (index_of cCOLON _) with (Some 2). cbv iota. cbn [nth_error Nat.add app length firstn].
    change (N.eqb 32 cCOLON) with false. change (N.eqb 32 60) with false. cbv iota.
    change (from_utf8 (trimmed [100; 110]%N)) with (B "dn"). f_equal. unfold mid. cbn [skipn]. destruct u'; reflexivity.
  - rewrite assemble_ascii by (try reflexivity; auto). exists v. apply assemble_line_ok; [reflexivity|exact V].
Qed.

(** ** Pairs *)

Lemma latin1_app a b : to_latin1 (a ++ b) = to_latin1 a ++ to_latin1 b.
Proof. apply map_app. Qed.
Definition plain_name (f : ustring) : bool := attr_ok f && negb (leqb (to_lower f) (B "dn")).
Lemma ldif_out_line E f v : le_signed E = true -> plain_name f = true -> valid_utf16 v = true ->
  to_latin1 (ldif_out E f v) = if isnil v then [] else line_of true 72 (f, to_utf8 v).
Proof.
  intros SG F V. unfold plain_name in F. apply andb_true_iff in F. destruct F as [F D]. apply negb_true_iff in D.
  unfold ldif_out. rewrite SG. destruct v as [|c v]; [reflexivity|]. cbn [isnil]. rewrite latin1_app. unfold line_of. cbn [fst snd].
  rewrite assemble_ascii; [reflexivity|apply attr_ok_chars, F|eapply to_utf8_is_bytes; [reflexivity|exact V]|right; exact D].
Qed.
Definition written (ps : list (ustring * ustring)) : list (ustring * bytes) :=
  map (fun p => (fst p, to_utf8 (snd p))) (filter (fun p => negb (isnil (snd p))) ps).
Lemma pairs_lines E ps : le_signed E = true -> forallb (fun p => plain_name (fst p)) ps = true ->
  forallb (fun p => valid_utf16 (snd p)) ps = true ->
  to_latin1 (flat_map (fun p => ldif_out E (fst p) (snd p)) ps) = flat_map (line_of true 72) (written ps).
Proof.
  intros SG. induction ps as [|p ps IH]; intros F V; [reflexivity|]. cbn [forallb] in F, V. apply andb_true_iff in F, V.
  destruct F as [F Fs], V as [V Vs]. cbn [flat_map]. rewrite latin1_app, (IH Fs Vs), (ldif_out_line E _ _ SG F V).
  destruct p as [f v]. unfold written. cbn [filter fst snd]. destruct v; reflexivity.
Qed.
Lemma written_ok ps : forallb (fun p => plain_name (fst p)) ps = true ->
  forallb (fun p => valid_utf16 (snd p)) ps = true -> forallb pair_ok (written ps) = true.
Proof.
  intros F V. rewrite forallb_forall in F, V. apply forallb_forall. intros x I. unfold written in I. apply in_map_iff in I.
  destruct I as (p & <- & I). apply filter_In in I. destruct I as [I _]. specialize (F p I). specialize (V p I).
  unfold plain_name in F. apply andb_true_iff in F. destruct F as [F _]. unfold pair_ok. cbn [fst snd]. rewrite F.
  eapply to_utf8_is_bytes; [reflexivity|exact V].
Qed.

Lemma valid_utf16_app a : forall b, valid_utf16 a = true -> valid_utf16 b = true -> valid_utf16 (a ++ b) = true.
Proof.
  assert (G : forall m a b, length a <= m -> valid_utf16 a = true -> valid_utf16 b = true -> valid_utf16 (a ++ b) = true).
  { clear a. induction m as [|m IH]; intros a b L A V; destruct a as [|c a]; try exact V; cbn [length] in L; [lia|].
    cbn [valid_utf16 app] in *. destruct (is_high c).
    - destruct a as [|d a]; [discriminate|]. cbn [app]. apply andb_true_iff in A. destruct A as [A1 A2]. rewrite A1. cbn [andb].
      apply IH; [cbn in L; lia| |]; assumption.
    - rewrite !andb_true_iff in *. destruct A as [A1 A2]. split; [exact A1|]. apply IH; [lia| |]; assumption. }
  intros b. apply (G (length a)). lia.
Qed.

(** an entry with object classes *)
Definition entry_pairs (classes : list ustring) (ps : list (ustring * ustring)) : list (ustring * ustring) :=
  map (fun c => (B "objectclass", c)) classes ++ ps.

(** ** The text of a contact *)

Definition contact_classes : list ustring := [B "top"; B "person"; B "organizationalPerson"].
Lemma contact_names E a : forallb (fun p => plain_name (fst p)) (contact_pairs E a) = true.
Proof.
  unfold contact_pairs. cbv zeta. rewrite forallb_app. apply andb_true_iff. split; [reflexivity|].
  rewrite forallb_app. apply andb_true_iff. split.
  { unfold emails_pairs. destruct (emails_of a) as [|x [|y l]]; try reflexivity. cbn [forallb fst]. apply andb_true_iff. split; [reflexivity|].
    apply forallb_forall. intros p I. apply in_map_iff in I. destruct I as (z & <- & _). reflexivity. }
  rewrite forallb_app. apply andb_true_iff. split; [reflexivity|].
  destruct (dt_date (a_birthday a)) as [d|]; [|reflexivity]. destruct (0 <? d_year d)%Z; reflexivity.
Qed.
Lemma contact_lower E a : forallb (fun p => leqb (to_lower (fst p)) (fst p)) (contact_pairs E a) = true.
Proof.
  unfold contact_pairs. cbv zeta. rewrite forallb_app. apply andb_true_iff. split; [reflexivity|].
  rewrite forallb_app. apply andb_true_iff. split.
  { unfold emails_pairs. destruct (emails_of a) as [|x [|y l]]; try reflexivity. cbn [forallb fst]. apply andb_true_iff. split; [reflexivity|].
    apply forallb_forall. intros p I. apply in_map_iff in I. destruct I as (z & <- & _). reflexivity. }
  rewrite forallb_app. apply andb_true_iff. split; [reflexivity|].
  destruct (dt_date (a_birthday a)) as [d|]; [|reflexivity]. destruct (0 <? d_year d)%Z; reflexivity.
Qed.

(** what [ldif_out] of one pair does to the local variables when it is read *)
Definition take (E : LdifExt) (r : rstate) (p : ustring * ustring) : rstate :=
  if isnil (snd p) then r else evaluate_pair E (fst p) (snd p) r.
Lemma take_written E rev ps : forall r, forallb (fun p => leqb (to_lower (fst p)) (fst p)) ps = true ->
  forallb (fun p => text_ok (snd p)) ps = true ->
  process_events E rev (map item_event (written ps)) r = fold_left (take E) ps r.
Proof.
  induction ps as [|p ps IH]; intros r L T; [reflexivity|]. cbn [forallb] in L, T. apply andb_true_iff in L, T.
  destruct L as [L Ls], T as [T Ts]. cbn [fold_left]. rewrite <- (IH _ Ls Ts). destruct p as [f v]. cbn [fst snd] in *.
  unfold written, take. cbn [filter fst snd]. destruct v as [|c v]; [reflexivity|]. cbn [isnil negb map].
  unfold process_events. cbn [fold_left]. unfold ev_step at 2. cbn [item_event fst snd].
  apply leqb_eq in L. rewrite L, utf8_roundtrip by exact T. reflexivity.
Qed.

Definition entry_bytes (dn : bytes) (ps : list (ustring * bytes)) : bytes :=
  to_latin1 (from_utf8 (assemble_line true (B "dn") dn 72 false)) ++ [cLF] ++ flat_map (line_of true 72) ps ++ [cLF].
Lemma entry_evs dn p ps : is_bytes dn = true -> forallb pair_ok (p :: ps) = true -> ordinary (fst p) = true -> snd p <> [] ->
  exists w, evs (entry_bytes dn (p :: ps)) =
    (PNewEntry, B "dn", w) :: map item_event (p :: ps) ++ [(PEndEntry, [], [])].
Proof.
  intros D P O NV. destruct (dn_line_ok dn D) as (w & LD). exists w. unfold evs, entry_bytes.
  set (td := to_latin1 _) in *. clearbody td.
  destruct (run_entry td (B "dn") w (plines true 72 (p :: ps)) [] (ldif_start []) LD eq_refl eq_refl (plines_ok true 72 _ P)) as (s' & R & M).
  { cbn [plines map]. eexists _, _. split; [reflexivity|]. cbn [fst snd]. auto. }
  rewrite plines_line_of in R. rewrite (run_start_rest _ _ []).
  destruct (line_ok_start _ _ _ LD) as (c & r & -> & SS). cbn [app]. rewrite run_start by assumption.
  cbn [app] in R.
  replace (c :: (r ++ cLF :: flat_map (line_of true 72) (p :: ps) ++ [cLF]) ++ [cLF; cLF; cLF])
    with ((c :: (r ++ cLF :: flat_map (line_of true 72) (p :: ps) ++ [cLF])) ++ [cLF; cLF; cLF]) by reflexivity.
  rewrite run_app, R. cbn [fst snd]. rewrite run_lf3. destruct (commit_end s' M) as (s1 & -> & A1 & A2 & _).
  rewrite commit_start. unfold emit at 1. cbn [fst snd is_none app]. unfold emit. cbn [fst snd is_none]. rewrite A1, A2.
  unfold plines. rewrite map_map. reflexivity.
Qed.

Lemma text_valid ps : forallb (fun p : ustring * ustring => text_ok (snd p)) ps = true -> forallb (fun p => valid_utf16 (snd p)) ps = true.
Proof.
  intros H. rewrite forallb_forall in *. intros p I. specialize (H p I). unfold text_ok in H. apply andb_true_iff in H. tauto.
Qed.
Lemma contact_text E a : le_signed E = true -> a_empty a = false -> forallb (fun p => text_ok (snd p)) (contact_pairs E a) = true ->
  exists text, addressee_to_ldif E a = Some text /\
    to_latin1 text = entry_bytes (to_utf8 (cn_mail (simplified (a_formatted a)) (preferred_email a)))
                       (written (entry_pairs contact_classes (contact_pairs E a))).
Proof.
  intros SG NE T. unfold addressee_to_ldif. rewrite NE. eexists. split; [reflexivity|].
  pose proof (pairs_lines E (contact_pairs E a) SG (contact_names E a) (text_valid _ T)) as L.
  unfold entry_bytes. rewrite !latin1_app. rewrite L.
  assert (X : ldif_out E (B "dn") (cn_mail (simplified (a_formatted a)) (preferred_email a)) =
    from_utf8 (assemble_line true (B "dn") (to_utf8 (cn_mail (simplified (a_formatted a)) (preferred_email a))) 72 false) ++ [cLF]).
  { unfold ldif_out. rewrite SG. reflexivity. }
  rewrite X, latin1_app, <- app_assoc. f_equal.
Qed.
Lemma contact_dn_bytes E a : forallb (fun p => text_ok (snd p)) (contact_pairs E a) = true ->
  is_bytes (to_utf8 (cn_mail (simplified (a_formatted a)) (preferred_email a))) = true.
Proof.
  intros T. eapply to_utf8_is_bytes; [reflexivity|]. apply text_valid in T. rewrite forallb_forall in T.
  unfold cn_mail. apply valid_utf16_app; [reflexivity|]. apply valid_utf16_app.
  { apply (T (B "cn", simplified (a_formatted a))). unfold contact_pairs. cbv zeta. apply in_or_app. left. do 2 right. left. reflexivity. }
  apply valid_utf16_app; [reflexivity|].
  apply (T (B "mail", preferred_email a)). unfold contact_pairs. cbv zeta. apply in_or_app. left. do 7 right. left. reflexivity.
Qed.
Theorem contact_read E a : le_signed E = true -> a_empty a = false -> forallb (fun p => text_ok (snd p)) (contact_pairs E a) = true ->
  exists text, addressee_to_ldif E a = Some text /\
    (exists p, to_latin1 text = p ++ [cLF; cLF]) /\ (exists q, to_latin1 text = B "dn:" ++ q) /\
    forall rev r, process_events E rev (evs (to_latin1 text)) r = end_entry E rev (fold_left (take E) (contact_pairs E a) r).
Proof.
  intros SG NE T. destruct (contact_text E a SG NE T) as (text & X & L). exists text. split; [exact X|]. rewrite L.
  set (dn := to_utf8 _) in *. pose proof (contact_dn_bytes E a T) as D. fold dn in D.
  set (ps := entry_pairs contact_classes (contact_pairs E a)).
  assert (TP : forallb (fun p => text_ok (snd p)) ps = true) by (unfold ps, entry_pairs; rewrite forallb_app; apply andb_true_iff; split; [reflexivity|exact T]).
  assert (NP : forallb (fun p => plain_name (fst p)) ps = true) by (unfold ps, entry_pairs; rewrite forallb_app; apply andb_true_iff; split; [reflexivity|apply contact_names]).
  assert (LP : forallb (fun p => leqb (to_lower (fst p)) (fst p)) ps = true) by (unfold ps, entry_pairs; rewrite forallb_app; apply andb_true_iff; split; [reflexivity|apply contact_lower]).
  pose proof (written_ok ps NP (text_valid _ TP)) as WP.
  assert (W : written ps = (B "objectclass", B "top") :: written (entry_pairs [B "person"; B "organizationalPerson"] (contact_pairs E a))) by reflexivity.
  split; [|split].
  - rewrite W. unfold entry_bytes.
    assert (exists z y, flat_map (line_of true 72) ((B "objectclass", B "top") :: written (entry_pairs [B "person"; B "organizationalPerson"] (contact_pairs E a))) = z ++ [cLF] /\ y = z) as (z & _ & Z & _).
    { set (l := _ :: _). assert (NL : l <> []) by discriminate. clearbody l. rewrite (app_removelast_last (B "", []) NL), flat_map_app. cbn [flat_map].
      unfold line_of at 2. rewrite app_nil_r, app_assoc. eexists _, _. split; reflexivity. }
    rewrite Z. exists (to_latin1 (from_utf8 (assemble_line true (B "dn") dn 72 false)) ++ [cLF] ++ z). change [cLF; cLF] with ([cLF] ++ [cLF]). rewrite <- !app_assoc. reflexivity.
  - unfold entry_bytes. destruct (dn_line_ok dn D) as (w & c & t' & u & X1 & X2 & X3 & X4). 
    assert (P : exists q, to_latin1 (from_utf8 (assemble_line true (B "dn") dn 72 false)) = B "dn:" ++ q).
    { rewrite assemble_raw. change (Nat.eqb 72 0) with false. cbv iota.
      assert (R : exists v, raw_line true (B "dn") dn = B "dn:" ++ v).
      { unfold raw_line. destruct (safe_value _ _ _); [exists (cSP :: dn)|exists (cCOLON :: cSP :: to_base64 dn)]; reflexivity. }
      destruct R as (v & ->). change (Nat.max (length (B "dn") + 2) 72) with (length (B "dn:") + 69). rewrite fold_loop_prefix.
      eexists. reflexivity. }
    destruct P as (q & ->). eexists. rewrite <- app_assoc. reflexivity.
  - intros rev r. rewrite W. rewrite W in WP. destruct (entry_evs dn _ _ D WP eq_refl ltac:(discriminate)) as (w & EV).
    etransitivity; [exact (f_equal (fun z => process_events E rev z r) EV)|]. cbv beta. clear EV.
    match goal with |- context [map item_event ?l] => replace l with (written ps) by exact W end. unfold process_events. cbn [fold_left]. rewrite fold_left_app. cbn [fold_left].
    unfold ev_step at 1. cbn [fst snd]. f_equal. change (fold_left (ev_step E rev) ?l ?x) with (process_events E rev l x).
    rewrite (take_written E rev ps _ LP TP). unfold ps, entry_pairs. rewrite fold_left_app. reflexivity.
Qed.
