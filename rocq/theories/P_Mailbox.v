(** Proofs about the parts of a written e-mail address (C72). *)
From Verif Require Import Base BaseFacts Utf8 Utf8Facts S_Parse P_Parse2 M_Addressee M_Name S_Name P_Email S_Mailbox.
Open Scope list_scope.
Open Scope N_scope.

Section Scan.
  Variable A : Type.
  Variable f : N -> A -> option A.
  Hypothesis wide_kept : forall c x, 128 <= c -> f c x = Some x.

  Lemma scan_wide : forall u s e x, u <> [] -> wide u -> scan f e (u ++ s) x = scan f false s x.
  Proof using wide_kept.
    assert (K : forall u s x, wide u -> scan f false (u ++ s) x = scan f false s x).
    { induction 1 as [|c u H _ IH]; [reflexivity|]. cbn [app scan]. rewrite (neqb c 92) by lia. rewrite wide_kept by exact H. exact IH. }
    intros u s e x N W. destruct u as [|c u]; [congruence|]. destruct e; [|apply K; exact W].
    cbn [app scan]. inversion W; subst. apply K. assumption.
  Qed.
  Lemma enc_scan : forall s b, enc s b -> forall e x, scan f e b x = scan f e s x.
  Proof using wide_kept.
    induction 1 as [|c s b L E IH|u v s b Nu Nv Wu Wv E IH]; intros e x; [reflexivity| |].
    - cbn [scan]. rewrite !IH. destruct (f c x); [rewrite IH|]; reflexivity.
    - rewrite !scan_wide by assumption. apply IH.
  Qed.

  (** the loop follows the scan *)
  Variable g : A -> bytes -> estate.
  Hypothesis step_esc : forall x buf c d, add_here [c; d] (g x buf) = g x (buf ++ [c; d]).
  Hypothesis step_char : forall c x y buf r, c <> 0 -> c <> cBS -> f c x = Some y ->
    email_loop (c :: r) (g x buf) = email_loop r (g y (buf ++ [c])).
  Lemma loop_scan_aux : forall k b x y r buf, (length b <= k)%nat -> scan f false b x = Some y -> ~ In 0 b ->
    email_loop (b ++ r) (g x buf) = email_loop r (g y (buf ++ b)).
  Proof using wide_kept step_esc step_char.
    induction k as [|k IH]; intros b x y r buf L Q Z; (destruct b as [|c b];
      [cbn [scan] in Q; injection Q as <-; cbn [app]; rewrite app_nil_r; reflexivity|]); cbn [length] in L; [lia|].
    assert (C0 : c <> 0) by (intros ->; apply Z; left; reflexivity). cbn [scan] in Q.
    destruct (c =? 92) eqn:CB.
    - destruct b as [|d b]; [discriminate|]. assert (D0 : d <> 0) by (intros ->; apply Z; right; left; reflexivity).
      cbn [scan] in Q. cbn [length] in L. cbn [app email_loop]. rewrite (neqb c 0), (neqb d 0) by assumption.
      change cBS with 92. rewrite CB, step_esc, (IH b x y); [|lia|exact Q|intros I; apply Z; right; right; exact I].
      rewrite <- app_assoc. reflexivity.
    - destruct (f c x) as [x1|] eqn:F; [|discriminate]. cbn [app].
      rewrite (step_char c x x1); [|exact C0|intros ->; discriminate CB|exact F].
      rewrite (IH b x1 y); [|lia|exact Q|intros I; apply Z; right; exact I]. rewrite <- app_assoc. reflexivity.
  Qed.
  Lemma loop_scan : forall s x y r buf, valid_utf16 s = true -> scan f false s x = Some y -> ~ In 0 s ->
    email_loop (to_utf8 s ++ r) (g x buf) = email_loop r (g y (buf ++ to_utf8 s)).
  Proof using wide_kept step_esc step_char.
    intros s x y r buf V Q Z. pose proof (enc_to_utf8 s V) as E. apply (loop_scan_aux (length (to_utf8 s))); [lia| |].
    - rewrite (enc_scan _ _ E). exact Q.
    - intros I. apply Z. eapply enc_in; [exact E|lia|exact I].
  Qed.
End Scan.

Ltac loop1 := cbn [email_loop es_context]; rewrite ?neqb by (unfold cBS, cDQ, cCOMMA in *; try assumption; lia).
Lemma text_loop : forall s r d a m, piece_ok (Text s) ->
  email_loop (to_utf8 s ++ r) (mkE TopLevel false 0 d a m) = email_loop r (mkE TopLevel false 0 (d ++ to_utf8 s) a m).
Proof.
  intros s r d a m (V & Z & Q).
  refine (loop_scan _ in_text _ (fun _ b => mkE TopLevel false 0 b a m) _ _ s tt tt r d V Q Z).
  - intros c x H. unfold in_text. destruct (mem c [34; 40; 60; 44]) eqn:E; [|reflexivity].
    apply mem_In in E. cbn in E. lia.
  - reflexivity.
  - intros c x y b r' H0 HB H. unfold in_text in H. destruct (mem c [34; 40; 60; 44]) eqn:E; [discriminate|].
    apply mem_false in E. cbn [In] in E. loop1. destruct x, y. reflexivity.
Qed.
Lemma quoted_loop : forall s r d a m, piece_ok (Quoted s) ->
  email_loop (to_utf8 s ++ r) (mkE TopLevel true 0 d a m) = email_loop r (mkE TopLevel true 0 (d ++ to_utf8 s) a m).
Proof.
  intros s r d a m (V & Z & Q).
  refine (loop_scan _ in_quotes _ (fun _ b => mkE TopLevel true 0 b a m) _ _ s tt tt r d V Q Z).
  - intros c x H. unfold in_quotes. rewrite neqb by lia. reflexivity.
  - reflexivity.
  - intros c x y b r' H0 HB H. unfold in_quotes in H. destruct (N.eqb_spec c 34) as [E|E]; [discriminate|].
    cbn [email_loop es_context es_quoted]. rewrite (neqb c 0), (neqb c cBS), (neqb c cDQ) by assumption.
    destruct (c =? 40); [reflexivity|]. destruct (c =? 60); [reflexivity|]. destruct (c =? cCOMMA); reflexivity.
Qed.
Lemma comment_scan_loop : forall s n k r d a m, valid_utf16 s = true -> ~ In 0 s -> scan in_comment false s n = Some k ->
  email_loop (to_utf8 s ++ r) (mkE InComment false (Z.of_nat (S n)) d a m) =
  email_loop r (mkE InComment false (Z.of_nat (S k)) d a (m ++ to_utf8 s)).
Proof.
  intros s n k r d a m V Z Q.
  refine (loop_scan _ in_comment _ (fun n b => mkE InComment false (Z.of_nat (S n)) d a b) _ _ s n k r m V Q Z).
  - intros c x H. unfold in_comment. rewrite !neqb by lia. reflexivity.
  - reflexivity.
  - intros c x y b r' H0 HB H. unfold in_comment in H. cbn [email_loop es_context]. rewrite (neqb c 0), (neqb c cBS) by assumption.
    destruct (c =? 40) eqn:E1; [injection H as <-|destruct (c =? 41) eqn:E2].
    + unfold set_level, add_comment. cbn [es_context es_quoted es_level es_display es_addr es_comment].
      replace (Z.of_nat (S x) + 1)%Z with (Z.of_nat (S (S x))) by lia. reflexivity.
    + destruct x as [|x]; [discriminate|]. injection H as <-.
      unfold set_level, add_comment. cbn [es_context es_quoted es_level es_display es_addr es_comment].
      replace (Z.of_nat (S (S x)) - 1)%Z with (Z.of_nat (S x)) by lia.
      destruct (Z.eqb_spec (Z.of_nat (S x)) 0) as [K|_]; [lia|]. reflexivity.
    + injection H as <-. reflexivity.
Qed.
Lemma angle_scan_loop : forall s q k r d a m, valid_utf16 s = true -> ~ In 0 s -> scan in_angle false s q = Some k ->
  email_loop (to_utf8 s ++ r) (mkE InAngle q 0 d a m) = email_loop r (mkE InAngle k 0 d (a ++ to_utf8 s) m).
Proof.
  intros s q k r d a m V Z Q.
  refine (loop_scan _ in_angle _ (fun q b => mkE InAngle q 0 d b m) _ _ s q k r a V Q Z).
  - intros c x H. unfold in_angle. rewrite !neqb by lia. reflexivity.
  - reflexivity.
  - intros c x y b r' H0 HB H. unfold in_angle in H. cbn [email_loop es_context es_quoted]. rewrite (neqb c 0), (neqb c cBS) by assumption.
    change cDQ with 34. destruct (c =? 34) eqn:E1; [injection H as <-; reflexivity|].
    destruct (c =? 62); [destruct x; [injection H as <-; reflexivity|discriminate]|injection H as <-; reflexivity].
Qed.

(** ** The parts together *)
Lemma utf8_around : forall c s d t, c < 128 -> d < 128 -> valid_utf16 s = true ->
  to_utf8 (([c] ++ s ++ [d]) ++ t) = c :: to_utf8 s ++ d :: to_utf8 t.
Proof.
  intros c s d t C D V. assert (Ac : ascii [c]) by (repeat constructor; exact C). assert (Ad : ascii [d]) by (repeat constructor; exact D).
  rewrite <- app_assoc, (to_utf8_app [c]) by (apply ascii_utf8; exact Ac). rewrite (proj1 (ascii_utf8 _ Ac)).
  rewrite <- app_assoc, (to_utf8_app s) by exact V. rewrite (to_utf8_app [d]) by (apply ascii_utf8; exact Ad).
  rewrite (proj1 (ascii_utf8 _ Ad)). reflexivity.
Qed.
Lemma valid_around : forall c s d, c < 128 -> d < 128 -> valid_utf16 s = true -> valid_utf16 ([c] ++ s ++ [d]) = true.
Proof.
  intros c s d C D V. rewrite valid_app by (apply ascii_utf8; repeat constructor; exact C).
  rewrite valid_app by exact V. apply ascii_utf8. repeat constructor. exact D.
Qed.

Definition shown (f : list piece -> ustring) (ps : list piece) : bytes := to_utf8 (f ps).
Lemma parts_valid : forall ps, Forall piece_ok ps ->
  valid_utf16 (outside ps) = true /\ valid_utf16 (remarks ps) = true /\ valid_utf16 (bracketed ps) = true.
Proof.
  induction 1 as [|p ps (V & _) _ (I1 & I2 & I3)]; [auto|].
  unfold outside, remarks, bracketed. cbn [flat_map]. fold (outside ps) (remarks ps) (bracketed ps).
  destruct p as [s|s|s|s]; cbn [written body app] in *.
  - rewrite valid_app by exact V. auto.
  - split; [|auto]. change (34 :: (s ++ [34]) ++ outside ps) with ([34] ++ (s ++ [34]) ++ outside ps).
    rewrite valid_app by reflexivity. rewrite <- app_assoc, valid_app by exact V. rewrite valid_app by reflexivity. exact I1.
  - split; [exact I1|]. split; [|exact I3]. rewrite <- app_assoc, valid_app by exact V. rewrite valid_app by reflexivity. exact I2.
  - split; [exact I1|]. split; [exact I2|]. rewrite valid_app by exact V. exact I3.
Qed.

Lemma parts_loop : forall ps t d a m, Forall piece_ok ps ->
  email_loop (to_utf8 (address_text ps ++ t)) (mkE TopLevel false 0 d a m) =
  email_loop (to_utf8 t) (mkE TopLevel false 0 (d ++ to_utf8 (outside ps)) (a ++ to_utf8 (bracketed ps)) (m ++ to_utf8 (remarks ps))).
Proof.
  induction ps as [|p ps IH]; intros t d a m F.
  { cbn. rewrite !app_nil_r. reflexivity. }
  inversion F as [|? ? P F']; subst. pose proof P as (V & _).
  unfold address_text, outside, remarks, bracketed. cbn [flat_map]. fold (address_text ps) (outside ps) (remarks ps) (bracketed ps).
  rewrite <- app_assoc. destruct p as [s|s|s|s]; cbn [written body] in *.
  - rewrite to_utf8_app by exact V. rewrite text_loop by exact P. rewrite IH by exact F'.
    rewrite (to_utf8_app s) by exact V. rewrite !app_nil_l, <- app_assoc. reflexivity.
  - rewrite utf8_around by (lia || exact V). rewrite (utf8_around 34 s 34 (outside ps)) by (lia || exact V).
    transitivity (email_loop (to_utf8 s ++ 34 :: to_utf8 (address_text ps ++ t)) (mkE TopLevel true 0 (d ++ [34]) a m)); [reflexivity|].
    rewrite quoted_loop by exact P.
    transitivity (email_loop (to_utf8 (address_text ps ++ t)) (mkE TopLevel false 0 (((d ++ [34]) ++ to_utf8 s) ++ [34]) a m)); [reflexivity|].
    rewrite IH by exact F'. rewrite !app_nil_l. f_equal. f_equal. rewrite <- !app_assoc. reflexivity.
  - rewrite utf8_around by (lia || exact V).
    transitivity (email_loop (to_utf8 s ++ 41 :: to_utf8 (address_text ps ++ t)) (mkE InComment false (Z.of_nat 1) d a m)); [reflexivity|].
    destruct P as (_ & Z & Q). rewrite (comment_scan_loop s 0%nat 0%nat) by assumption.
    transitivity (email_loop (to_utf8 (address_text ps ++ t)) (mkE TopLevel false 0 d a ((m ++ to_utf8 s) ++ [32]))); [reflexivity|].
    rewrite IH by exact F'. rewrite !app_nil_l. rewrite <- (app_assoc s [32]), (to_utf8_app s) by exact V.
    rewrite (to_utf8_app [32]) by reflexivity. change (to_utf8 [32]) with [32]. f_equal. f_equal. rewrite <- !app_assoc. reflexivity.
  - rewrite utf8_around by (lia || exact V).
    transitivity (email_loop (to_utf8 s ++ 62 :: to_utf8 (address_text ps ++ t)) (mkE InAngle false 0 d a m)); [reflexivity|].
    destruct P as (_ & Z & Q). rewrite (angle_scan_loop s false false) by assumption.
    transitivity (email_loop (to_utf8 (address_text ps ++ t)) (mkE TopLevel false 0 d (a ++ to_utf8 s) m)); [reflexivity|].
    rewrite IH by exact F'. rewrite !app_nil_l. rewrite (to_utf8_app s) by exact V. f_equal. f_equal. rewrite <- app_assoc. reflexivity.
Qed.

(** trimming and encoding *)
Lemma trimmed_utf8 : forall n, valid_utf16 n = true ->
  trimmed (to_utf8 n) = to_utf8 (trimmed n) /\ valid_utf16 (trimmed n) = true.
Proof.
  intros n V. destruct (trimmed_split n) as [l [r [E [Fl Fr]]]].
  assert (Al : ascii l) by (apply spaces_ascii; exact Fl). assert (Ar : ascii r) by (apply spaces_ascii; exact Fr).
  assert (Vt : valid_utf16 (trimmed n) = true).
  { apply (valid_prefix_aux (length (trimmed n)) _ r); [lia|exact Ar|].
    rewrite <- (valid_app l); [rewrite <- E; exact V|apply ascii_utf8; exact Al]. }
  assert (Un : to_utf8 n = l ++ to_utf8 (trimmed n) ++ r).
  { rewrite E at 1. rewrite (to_utf8_app l) by (apply ascii_utf8; exact Al).
    rewrite (to_utf8_app (trimmed n)) by exact Vt.
    rewrite (proj1 (ascii_utf8 l Al)), (proj1 (ascii_utf8 r Ar)). reflexivity. }
  split; [|exact Vt]. rewrite Un. apply trimmed_around; [exact Fl|exact Fr|].
  apply (enc_bare (trimmed n)); [apply enc_to_utf8; exact Vt|apply trimmed_bare].
Qed.
Lemma trimmed_back : forall n, valid_utf16 n = true -> no_bom (trimmed n) = true ->
  from_utf8 (trimmed (to_utf8 n)) = trimmed n.
Proof.
  intros n V B. destruct (trimmed_utf8 n V) as [-> Vt]. apply utf8_roundtrip. unfold text_ok. rewrite Vt, B. reflexivity.
Qed.
Lemma utf8_isnil : forall s, valid_utf16 s = true -> isnil (to_utf8 s) = isnil s.
Proof.
  intros s V. pose proof (enc_to_utf8 s V) as E. destruct E as [|c s b L E|u x s b Nu Nx Wu Wx E]; [reflexivity|reflexivity|].
  destruct u; [congruence|]. destruct x; [congruence|]. reflexivity.
Qed.
Lemma trimmed_isnil : forall n, valid_utf16 n = true -> isnil (trimmed (to_utf8 n)) = isnil (trimmed n).
Proof. intros n V. destruct (trimmed_utf8 n V) as [-> Vt]. apply utf8_isnil. exact Vt. Qed.

Lemma strip_name : forall s, name_of s (strip_quotes (trimmed s)).
Proof.
  intros s. unfold strip_quotes, name_of. set (t := trimmed s). clearbody t.
  destruct (Nat.ltb_spec (length t) 3) as [L|L].
  { right. split; [reflexivity|]. intros (m & Hm & ->). rewrite !app_length in L. destruct m; [congruence|cbn in L; lia]. }
  destruct (starts_with [cDQ] t && ends_with [cDQ] t) eqn:E.
  - apply andb_true_iff in E as [E1 E2]. apply starts_with_spec in E1 as [r ->]. apply ends_with_1 in E2 as [q E2].
    destruct q as [|c q]; [destruct r; [cbn in L; lia|discriminate]|]. injection E2 as <- ->. left.
    assert (K : mid_len 1 (length ([cDQ] ++ q ++ [cDQ]) - 2) ([cDQ] ++ q ++ [cDQ]) = q).
    { unfold mid_len. cbn [app skipn length]. rewrite app_length. cbn [length].
      replace (S (length q + 1) - 2)%nat with (length q) by lia. rewrite firstn_app, firstn_all, Nat.sub_diag. cbn [firstn]. apply app_nil_r. }
    rewrite K. split; [reflexivity|]. intros ->. cbn in L. lia.
  - right. split; [reflexivity|]. intros (m & Hm & ->).
    assert (E1 : starts_with [cDQ] ([34] ++ m ++ [34]) = true) by reflexivity.
    assert (E2 : ends_with [cDQ] ([34] ++ m ++ [34]) = true) by (apply ends_with_1; exists ([34] ++ m); rewrite app_assoc; reflexivity).
    rewrite E1, E2 in E. discriminate.
Qed.
Lemma name_of_unique : forall s n n', name_of s n -> name_of s n' -> n = n'.
Proof.
  intros s n n' [[E N]|[E N]] [[E' N']|[E' N']].
  - rewrite E in E'. injection E' as E'. apply app_inj_tail in E' as [-> _]. reflexivity.
  - exfalso. apply N'. exists n. split; [exact N|]. congruence.
  - exfalso. apply N. exists n'. split; [exact N'|]. congruence.
  - congruence.
Qed.

Lemma ending_loop : forall t st, ending t -> es_context st = TopLevel -> es_quoted st = false -> email_loop (to_utf8 t) st = st.
Proof.
  intros t st [->|[r ->]] C Q; [reflexivity|]. change (44 :: r) with ([44] ++ r). rewrite to_utf8_app by reflexivity.
  change (to_utf8 [44]) with [44]. cbn [app email_loop]. rewrite C, Q. reflexivity.
Qed.
Lemma trimmed_nil : trimmed [] = []. Proof. reflexivity. Qed.

Lemma parse_parts : forall lower ps t, Forall piece_ok ps -> ending t ->
  let d := outside ps in let c := remarks ps in let a := bracketed ps in
  no_bom (trimmed d) = true -> no_bom (trimmed c) = true -> no_bom (trimmed a) = true ->
  parse_email lower (address_text ps ++ t) =
    if isnil (trimmed a) then if isnil (trimmed d) then ([], []) else (strip_quotes (trimmed c), lower (trimmed d))
    else (strip_quotes (trimmed d), lower (trimmed a)).
Proof.
  intros lower ps t F Ht d c a Bd Bc Ba. destruct (parts_valid ps F) as (V1 & V2 & V3).
  unfold parse_email. destruct (isnil (address_text ps ++ t)) eqn:Z.
  { apply isnil_true in Z. apply app_eq_nil in Z as [Z _].
    assert (N : forall f : piece -> ustring, (forall p, written p = [] -> f p = []) -> flat_map f ps = []).
    { intros f Hf. unfold address_text in Z. clear - Z Hf. induction ps as [|p ps IH]; [reflexivity|]. cbn [flat_map] in *.
      apply app_eq_nil in Z as [Z1 Z2]. rewrite Hf, IH by assumption. reflexivity. }
    assert (Ea : a = []) by (apply N; intros [s|s|s|s] E; cbn [written] in E; discriminate || reflexivity).
    assert (Ed : d = []) by (apply N; intros [s|s|s|s] E; cbn [written] in E; exact E || discriminate || reflexivity).
    rewrite Ea, Ed. reflexivity. }
  unfold estate_new. rewrite parts_loop by exact F. rewrite ending_loop by (auto || reflexivity). cbv zeta.
  cbn [es_display es_addr es_comment es_quoted es_context]. rewrite !app_nil_l. fold d c a.
  rewrite !trimmed_isnil, !trimmed_back by assumption.
  destruct (isnil (trimmed a)) eqn:Ea; cbn [andb]; [|reflexivity].
  destruct (isnil (trimmed d)) eqn:Ed; [|reflexivity].
  apply isnil_true in Ea, Ed. rewrite Ea, Ed. reflexivity.
Qed.

Lemma parse_unclosed : forall lower ps p, Forall piece_ok ps -> unclosed p ->
  let d := outside ps ++ match p with Quoted s => 34 :: s | _ => [] end in
  let a := bracketed ps ++ match p with Angle s => s | _ => [] end in
  no_bom (trimmed d) = true -> no_bom (trimmed a) = true ->
  parse_email lower (address_text ps ++ begun p) = (trimmed d, trimmed a).
Proof.
  intros lower ps p F (V & Z & Q) d a Bd Ba. destruct (parts_valid ps F) as (V1 & V2 & V3).
  unfold parse_email. destruct (isnil (address_text ps ++ begun p)) eqn:E.
  { apply isnil_true in E. apply app_eq_nil in E as [_ E]. destruct p; [destruct Q| | |]; discriminate E. }
  unfold estate_new. rewrite parts_loop by exact F. rewrite !app_nil_l.
  assert (W : forall c s, c < 128 -> to_utf8 (c :: s) = c :: to_utf8 s).
  { intros c s H. change (c :: s) with ([c] ++ s). assert (A : ascii [c]) by (repeat constructor; exact H).
    rewrite to_utf8_app by (apply ascii_utf8; exact A). rewrite (proj1 (ascii_utf8 _ A)). reflexivity. }
  destruct p as [s|s|s|s]; [destruct Q| | |]; cbn [begun body] in *; rewrite W by lia.
  - assert (L : email_loop (34 :: to_utf8 s) (mkE TopLevel false 0 (to_utf8 (outside ps)) (to_utf8 (bracketed ps)) (to_utf8 (remarks ps))) =
        mkE TopLevel true 0 (to_utf8 d) (to_utf8 a) (to_utf8 (remarks ps))).
    { unfold d, a. rewrite app_nil_r, to_utf8_app by exact V1. rewrite W by lia.
      transitivity (email_loop (to_utf8 s ++ []) (mkE TopLevel true 0 (to_utf8 (outside ps) ++ [34]) (to_utf8 (bracketed ps)) (to_utf8 (remarks ps))));
        [rewrite app_nil_r; reflexivity|].
      rewrite quoted_loop by (split; auto). rewrite <- app_assoc. reflexivity. }
    rewrite L. cbv zeta. cbn [es_display es_addr es_comment es_quoted es_context].
    rewrite !trimmed_back; auto.
    + unfold a. rewrite app_nil_r. exact V3.
    + unfold d. rewrite valid_app by exact V1. change (valid_utf16 ([34] ++ s) = true). rewrite valid_app by reflexivity. exact V.
  - destruct Q as [n Q].
    assert (L : email_loop (40 :: to_utf8 s) (mkE TopLevel false 0 (to_utf8 (outside ps)) (to_utf8 (bracketed ps)) (to_utf8 (remarks ps))) =
        mkE InComment false (Z.of_nat (S n)) (to_utf8 d) (to_utf8 a) (to_utf8 (remarks ps) ++ to_utf8 s)).
    { unfold d, a. rewrite !app_nil_r.
      transitivity (email_loop (to_utf8 s ++ []) (mkE InComment false (Z.of_nat 1) (to_utf8 (outside ps)) (to_utf8 (bracketed ps)) (to_utf8 (remarks ps))));
        [rewrite app_nil_r; reflexivity|]. rewrite (comment_scan_loop s 0%nat n) by assumption. reflexivity. }
    rewrite L. cbv zeta. cbn [es_display es_addr es_comment es_quoted es_context].
    unfold d, a in *. rewrite app_nil_r in *. rewrite app_nil_r in *. rewrite !trimmed_back; auto.
  - destruct Q as [q Q].
    assert (L : email_loop (60 :: to_utf8 s) (mkE TopLevel false 0 (to_utf8 (outside ps)) (to_utf8 (bracketed ps)) (to_utf8 (remarks ps))) =
        mkE InAngle q 0 (to_utf8 d) (to_utf8 a) (to_utf8 (remarks ps))).
    { unfold d, a. rewrite !app_nil_r, (to_utf8_app (bracketed ps)) by exact V3.
      transitivity (email_loop (to_utf8 s ++ []) (mkE InAngle false 0 (to_utf8 (outside ps)) (to_utf8 (bracketed ps)) (to_utf8 (remarks ps))));
        [rewrite app_nil_r; reflexivity|]. rewrite (angle_scan_loop s false q) by assumption. reflexivity. }
    rewrite L. cbv zeta. cbn [es_display es_addr es_comment es_quoted es_context].
    rewrite !trimmed_back; auto; [destruct q; reflexivity| |].
    + unfold a. rewrite valid_app by exact V3. exact V.
    + unfold d. rewrite app_nil_r. exact V1.
Qed.

(** ** Every text consists of such parts *)
Lemma scan_stop : forall (A : Type) (f : N -> A -> option A) k s x, (length s <= k)%nat -> bs_closed s = true ->
  (exists y, scan f false s x = Some y) \/
  exists b c t y, s = b ++ c :: t /\ scan f false b x = Some y /\ c <> 92 /\ f c y = None /\ bs_closed t = true.
Proof.
  intros A f. induction k as [|k IH]; intros s x L Q; (destruct s as [|c s]; [left; exists x; reflexivity|]); cbn [length] in L; [lia|].
  cbn [bs_closed] in Q. cbn [scan]. change cBS with 92 in Q. destruct (c =? 92) eqn:E.
  - destruct s as [|d s]; [discriminate|]. cbn [length] in L. cbn [scan].
    destruct (IH s x) as [[y K]|(b & c' & t & y & -> & K & N & F & C)]; [lia|exact Q|left; exists y; exact K|].
    right. exists (c :: d :: b), c', t, y. cbn [app scan]. rewrite E. auto 10.
  - destruct (f c x) as [z|] eqn:Fc.
    + destruct (IH s z) as [[y K]|(b & c' & t & y & -> & K & N & F & C)]; [lia|exact Q|left; exists y; exact K|].
      right. exists (c :: b), c', t, y. cbn [app scan]. rewrite E, Fc. auto 10.
    + right. exists [], c, s, x. apply N.eqb_neq in E. auto 10.
Qed.
Lemma valid_cut : forall k b c t, (length b <= k)%nat -> c < 128 -> valid_utf16 (b ++ c :: t) = true -> valid_utf16 b = true /\ valid_utf16 t = true.
Proof.
  assert (L1 : forall c, c < 128 -> is_high c = false /\ is_low c = false) by (intros c H; unfold is_high, is_low; lia).
  induction k as [|k IH]; intros b c t L C V; (destruct b as [|x b];
    [cbn [app valid_utf16] in V; destruct (L1 c C) as [E1 E2]; rewrite E1, E2 in V; split; [reflexivity|apply andb_true_iff in V; tauto]|]); cbn [length] in L; [lia|].
  cbn [app valid_utf16] in *. destruct (is_high x) eqn:Hx.
  - destruct b as [|y b]; cbn [app] in V.
    + destruct (L1 c C) as [_ E]. rewrite E in V. discriminate.
    + apply andb_true_iff in V as [Hy V]. cbn [length] in L. rewrite Hy. apply (IH b c t) in V; [tauto|lia|exact C].
  - apply andb_true_iff in V as [Hy V]. rewrite Hy. apply (IH b c t) in V; [tauto|lia|exact C].
Qed.

Lemma every_text : forall k s, (length s <= k)%nat -> valid_utf16 s = true -> ~ In 0 s -> bs_closed s = true ->
  exists ps rest, s = address_text ps ++ rest /\ Forall piece_ok ps /\ (ending rest \/ exists p, unclosed p /\ rest = begun p).
Proof.
  induction k as [|k IH]; intros s L V Z Q.
  { destruct s; [|cbn in L; lia]. exists [], []. split; [reflexivity|]. split; [constructor|left; left; reflexivity]. }
  destruct (scan_stop _ in_text (length s) s tt) as [[[] K]|(b & c & t & [] & -> & K & N & F & C)]; [lia|exact Q| |].
  { exists [Text s], []. split; [cbn; rewrite !app_nil_r; reflexivity|]. split; [|left; left; reflexivity].
    constructor; [split; [exact V|split; [exact Z|exact K]]|constructor]. }
  unfold in_text in F. destruct (mem c [34; 40; 60; 44]) eqn:M; [|discriminate]. apply mem_In in M.
  destruct (valid_cut (length b) b c t) as [Vb Vt]; [lia|cbn in M; lia|exact V|].
  assert (Zb : ~ In 0 b) by (intros I; apply Z; apply in_or_app; auto).
  assert (Zt : ~ In 0 t) by (intros I; apply Z; apply in_or_app; right; right; exact I).
  assert (Pb : piece_ok (Text b)) by (split; [exact Vb|split; [exact Zb|exact K]]).
  rewrite app_length in L. cbn [length] in L.
  assert (Close : forall (p : piece) (u : ustring) x, piece_ok p -> t = u ++ x -> (length x <= length t)%nat -> valid_utf16 x = true -> bs_closed x = true -> (c :: u = written p) ->
    exists ps rest, b ++ c :: t = address_text ps ++ rest /\ Forall piece_ok ps /\ (ending rest \/ exists p, unclosed p /\ rest = begun p)).
  { intros p u x Pp E Lx Vx Qx W. destruct (IH x) as (ps & rest & Ex & Hp & R); [lia|exact Vx| |exact Qx|].
    - intros I. apply Zt. rewrite E. apply in_or_app. auto.
    - exists (Text b :: p :: ps), rest. split; [|split; [constructor; [exact Pb|constructor; [exact Pp|exact Hp]]|exact R]].
      unfold address_text. cbn [flat_map]. fold (address_text ps). rewrite <- W, E, Ex, <- !app_assoc. reflexivity. }
  assert (Open : forall p : piece, unclosed p -> c :: t = begun p ->
    exists ps rest, b ++ c :: t = address_text ps ++ rest /\ Forall piece_ok ps /\ (ending rest \/ exists p, unclosed p /\ rest = begun p)).
  { intros p Hp E. exists [Text b], (c :: t). split; [cbn; rewrite app_nil_r; reflexivity|]. split; [constructor; [exact Pb|constructor]|].
    right. exists p. auto. }
  cbn [In] in M. destruct M as [<-|[<-|[<-|[<-|[]]]]].
  - destruct (scan_stop _ in_quotes (length t) t tt) as [[[] K2]|(b2 & c2 & t2 & [] & E2 & K2 & N2 & F2 & C2)]; [lia|exact C| |].
    + apply (Open (Quoted t)); [split; [exact Vt|split; [exact Zt|exact K2]]|reflexivity].
    + unfold in_quotes in F2. destruct (N.eqb_spec c2 34) as [->|]; [|discriminate].
      rewrite E2 in Vt. destruct (valid_cut (length b2) b2 34 t2) as [Vb2 Vt2]; [lia|lia|exact Vt|].
      apply (Close (Quoted b2) (b2 ++ [34]) t2); auto.
      * split; [exact Vb2|]. split; [|exact K2]. intros I. apply Zt. rewrite E2. apply in_or_app. auto.
      * rewrite E2, <- app_assoc. reflexivity.
      * rewrite E2, app_length. cbn. lia.
  - destruct (scan_stop _ in_comment (length t) t 0%nat) as [[n K2]|(b2 & c2 & t2 & n & E2 & K2 & N2 & F2 & C2)]; [lia|exact C| |].
    + apply (Open (Comment t)); [split; [exact Vt|split; [exact Zt|exists n; exact K2]]|reflexivity].
    + unfold in_comment in F2. destruct (c2 =? 40); [discriminate|]. destruct (N.eqb_spec c2 41) as [->|]; [|discriminate].
      destruct n; [|discriminate]. rewrite E2 in Vt. destruct (valid_cut (length b2) b2 41 t2) as [Vb2 Vt2]; [lia|lia|exact Vt|].
      apply (Close (Comment b2) (b2 ++ [41]) t2); auto.
      * split; [exact Vb2|]. split; [|exact K2]. intros I. apply Zt. rewrite E2. apply in_or_app. auto.
      * rewrite E2, <- app_assoc. reflexivity.
      * rewrite E2, app_length. cbn. lia.
  - destruct (scan_stop _ in_angle (length t) t false) as [[n K2]|(b2 & c2 & t2 & n & E2 & K2 & N2 & F2 & C2)]; [lia|exact C| |].
    + apply (Open (Angle t)); [split; [exact Vt|split; [exact Zt|exists n; exact K2]]|reflexivity].
    + unfold in_angle in F2. destruct (c2 =? 34); [discriminate|]. destruct (N.eqb_spec c2 62) as [->|]; [|discriminate].
      destruct n; [discriminate|]. rewrite E2 in Vt. destruct (valid_cut (length b2) b2 62 t2) as [Vb2 Vt2]; [lia|lia|exact Vt|].
      apply (Close (Angle b2) (b2 ++ [62]) t2); auto.
      * split; [exact Vb2|]. split; [|exact K2]. intros I. apply Zt. rewrite E2. apply in_or_app. auto.
      * rewrite E2, <- app_assoc. reflexivity.
      * rewrite E2, app_length. cbn. lia.
  - exists [Text b], (44 :: t). split; [cbn; rewrite app_nil_r; reflexivity|]. split; [constructor; [exact Pb|constructor]|].
    left. right. exists t. reflexivity.
Qed.
