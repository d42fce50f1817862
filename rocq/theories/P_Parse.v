(** The position loop of [parseVCards] is a fold over physical lines. *)
From Verif Require Import Base BaseFacts Utf8 Utf8Facts M_ParamMap M_VCard M_VCardText S_Parse.

Arguments is_begin : simpl never.
Arguments is_end : simpl never.
Arguments is_folded : simpl never.
Arguments trimmed : simpl never.
Arguments add_line : simpl never.

(** ** A line machine without positions *)
Record lm := mkLM { m_line : bytes; m_card : vcard; m_cards : list vcard; m_in : bool }.

Definition finish_pure (E : Ext) (x : pctx) (rest : option bytes) : vline :=
  match rest with
  | None => px_line x
  | Some raw =>
      let value := remove_escapes raw in
      let d := if isnil (px_enc x) then (value, false)
        else if leqb (px_enc x) (B "b") || leqb (px_enc x) (B "base64") then (from_base64 value, true)
        else if leqb (px_enc x) (B "quoted-printable") then (qp_decode E value, false)
        else if leqb (px_enc x) (B "8bit") then (value, false)
        else ([], false) in
      let v :=
        if negb (isnil (px_charset x)) then
          match charset_decode E (px_charset x) with
          | Some dec => QStr (dec (fst d))
          | None => QStr (from_utf8 (fst d))
          end
        else if snd d then QBytes (fst d) else QStr (from_utf8 (fst d)) in
      vl_set_value v (px_line x)
  end.
Definition parse_pure (E : Ext) (line : bytes) : vline :=
  let (x, rest) := px_run line px_init in finish_pure E x rest.

Definition quiet (line : bytes) : Prop :=
  let (x, rest) := px_run line px_init in
  match rest with
  | None => True
  | Some raw => px_enc x = B "quoted-printable" -> ends_with [cEQ] (remove_escapes raw) = false
  end.

Lemma qp_join_quiet fuel text v f : ends_with [cEQ] v = false -> qp_join fuel text v f = Some (v, f).
Proof. intros H. destruct fuel; cbn [qp_join]; rewrite H; auto. Qed.

Lemma parse_line_quiet E fuel text line f : quiet line ->
  parse_line E fuel text line f = Some (parse_pure E line, f).
Proof.
  unfold quiet, parse_line, parse_pure, finish_line, finish_pure.
  destruct (px_run line px_init) as [x [raw|]]; auto. intros H.
  destruct (isnil (px_enc x)); auto.
  destruct (leqb (px_enc x) (B "b") || leqb (px_enc x) (B "base64")); auto.
  destruct (leqb_spec (px_enc x) (B "quoted-printable")) as [Hq|].
  - rewrite qp_join_quiet by auto. auto.
  - destruct (leqb (px_enc x) (B "8bit")); auto.
Qed.

Definition lm_dispatch (cur : bytes) (m : lm) : lm :=
  if is_begin cur then mkLM [] [] (m_cards m) true
  else if is_end cur then mkLM [] [] (m_cards m ++ [m_card m]) false
  else mkLM cur (m_card m) (m_cards m) (m_in m).

Definition lm_step (E : Ext) (m : lm) (cur : bytes) : lm :=
  if is_folded cur then mkLM (m_line m ++ mid 1 cur) (m_card m) (m_cards m) (m_in m)
  else if isnil (trimmed cur) then m
  else
    lm_dispatch cur
      (if m_in m && negb (isnil (m_line m))
       then mkLM (m_line m) (add_line (parse_pure E (m_line m)) (m_card m)) (m_cards m) (m_in m)
       else m).

Definition lm_init : lm := mkLM [] [] [] false.
Definition lm_run (E : Ext) (m : lm) (ls : list bytes) : lm := fold_left (lm_step E) ls m.

(** every line that gets parsed along the run is quiet *)
Fixpoint lm_quiet (m : lm) (E : Ext) (ls : list bytes) : Prop :=
  match ls with
  | [] => True
  | cur :: r =>
      (is_folded cur = false -> isnil (trimmed cur) = false -> m_in m = true -> m_line m <> [] -> quiet (m_line m))
      /\ lm_quiet (lm_step E m cur) E r
  end.

(** ** Position loop = line machine *)
Definition lm_of (s : lstate) : lm := mkLM (l_line s) (l_card s) (l_cards s) (l_in s).
Definition st_of (m : lm) (a b : Z) : lstate := mkL a b (m_line m) (m_card m) (m_cards m) (m_in m).

Lemma body_lm E n text a b m :
  let cur := strip_cr (qmid a (b - a) text) in
  (is_folded cur = false -> isnil (trimmed cur) = false -> m_in m = true -> m_line m <> [] -> quiet (m_line m)) ->
  body E n text (st_of m a b) = Some (st_of (lm_step E m cur) a b).
Proof.
  intros cur H. unfold body, st_of. cbn [l_start l_end l_line l_card l_cards l_in].
  fold cur. unfold lm_step. destruct (is_folded cur) eqn:Ef; [reflexivity|].
  destruct (isnil (trimmed cur)) eqn:Et; [reflexivity|].
  destruct (m_in m && negb (isnil (m_line m))) eqn:Ei.
  - apply andb_true_iff in Ei as [Ei El]. apply negb_true_iff in El.
    rewrite parse_line_quiet by (apply H; auto; apply isnil_false; auto).
    unfold dispatch, lm_dispatch. cbn [f_cur f_start f_end l_cards l_card l_in m_cards m_card m_in m_line].
    destruct (is_begin cur); [reflexivity|]. destruct (is_end cur); reflexivity.
  - unfold dispatch, lm_dispatch. cbn [f_cur f_start f_end l_cards l_card l_in m_cards m_card m_in m_line].
    destruct (is_begin cur); [reflexivity|]. destruct (is_end cur); reflexivity.
Qed.

Lemma index_from_app pre l rest : ~ In cLF l ->
  index_from cLF (Z.of_nat (length pre)) (pre ++ l ++ cLF :: rest) = Z.of_nat (length pre + length l).
Proof.
  intros H. unfold index_from. rewrite Nat2Z.id, skipn_app_exact, index_of_app_notin by auto. lia.
Qed.
Lemma index_from_none pre l : ~ In cLF l ->
  index_from cLF (Z.of_nat (length pre)) (pre ++ l) = (-1)%Z.
Proof.
  intros H. unfold index_from. rewrite Nat2Z.id, skipn_app_exact.
  rewrite (proj2 (index_of_None cLF l)) by auto. auto.
Qed.
Lemma qmid_app pre l rest : qmid (Z.of_nat (length pre)) (Z.of_nat (length l)) (pre ++ l ++ rest) = l.
Proof.
  unfold qmid. rewrite !Nat2Z.id, skipn_app_exact. rewrite (proj2 (Z.ltb_ge _ _)) by lia. apply firstn_app_exact.
Qed.

Lemma loop_lm E ls : forall fuel pre m, ls <> [] -> Forall (fun l => ~ In cLF l) ls ->
  lm_quiet m E (map strip_cr ls) -> length ls <= fuel ->
  let text := pre ++ join [cLF] ls in
  parse_loop E fuel text (st_of m (Z.of_nat (length pre)) (Z.of_nat (length pre + length (hd [] ls)))) =
  Some (m_cards (lm_run E m (map strip_cr ls))).
Proof.
  induction ls as [|l ls IH]; intros fuel pre m Hne Hf Hq Hfuel text; [congruence|].
  inversion Hf as [|? ? Hl Hls]; subst. destruct fuel as [|n]; [cbn in Hfuel; lia|]. cbn [length] in Hfuel.
  cbn [parse_loop hd].
  assert (Hlen : length pre + length l <= length text).
  { unfold text. rewrite app_length. destruct ls; cbn [join]; rewrite ?app_length; lia. }
  unfold st_of at 1. cbn [l_start].
  rewrite (proj2 (Z.eqb_neq _ _)) by lia.
  cbn [map lm_quiet] in Hq. destruct Hq as [Hq1 Hq2].
  assert (Hcur : qmid (Z.of_nat (length pre)) (Z.of_nat (length pre + length l) - Z.of_nat (length pre)) text = l).
  { replace (Z.of_nat (length pre + length l) - Z.of_nat (length pre))%Z with (Z.of_nat (length l)) by lia.
    unfold text. destruct ls.
    - cbn [join]. rewrite <- (app_nil_r l) at 2. apply qmid_app.
    - rewrite join_cons by discriminate. apply qmid_app. }
  rewrite body_lm; rewrite Hcur; auto.
  unfold advance, st_of. cbn [l_end l_line l_card l_cards l_in].
  cbn [map lm_run fold_left].
  destruct ls as [|l2 ls].
  - cbn [join] in *.
    assert (Ei : index_from cLF (Z.of_nat (length pre + length l) + 1) text = (-1)%Z).
    { unfold index_from. rewrite skipn_all2; [auto|]. unfold text. rewrite app_length. lia. }
    rewrite Ei. cbn [Z.eqb].
    assert (Hs : (Z.of_nat (length pre + length l) + 1 = Z.of_nat (length text) + 1)%Z).
    { unfold text. rewrite app_length. lia. }
    destruct n; cbn [parse_loop l_start]; rewrite Hs, Z.eqb_refl; reflexivity.
  - set (pre' := pre ++ l ++ [cLF]).
    assert (Htext : text = pre' ++ join [cLF] (l2 :: ls)).
    { unfold text, pre'. rewrite join_cons by discriminate. rewrite <- !app_assoc. auto. }
    assert (Hp : (Z.of_nat (length pre + length l) + 1)%Z = Z.of_nat (length pre')).
    { unfold pre'. rewrite !app_length. cbn. lia. }
    rewrite Hp.
    inversion Hls as [|? ? Hl2 Hls']; subst.
    assert (Ei : (if (index_from cLF (Z.of_nat (length pre')) text =? -1)%Z then Z.of_nat (length text)
                 else index_from cLF (Z.of_nat (length pre')) text) = Z.of_nat (length pre' + length l2)).
    { rewrite Htext. destruct ls as [|l3 ls].
      - cbn [join]. rewrite index_from_none by auto. cbn [Z.eqb]. rewrite app_length. auto.
      - rewrite join_cons by discriminate. change ([cLF] ++ join [cLF] (l3 :: ls)) with (cLF :: join [cLF] (l3 :: ls)).
        rewrite index_from_app by auto. rewrite (proj2 (Z.eqb_neq _ _)) by lia. auto. }
    rewrite Ei, Htext.
    specialize (IH n pre' (lm_step E m (strip_cr l))). cbn [hd] in IH. unfold st_of in IH.
    apply IH; auto; [discriminate|cbn [length] in *; lia].
Qed.

Lemma reading_not_nil text : reading text <> [].
Proof.
  unfold reading, physical_lines. pose proof (split_nonnil 10 text).
  destruct (split 10 text); [congruence|]. destruct (mem 10 text); discriminate.
Qed.

Lemma parse_vcards_lm E fuel text :
  lm_quiet lm_init E (reading text) -> length (reading text) <= fuel ->
  parse_vcards E fuel text = Some (m_cards (lm_run E lm_init (reading text))).
Proof.
  unfold parse_vcards, parse_init, reading, physical_lines. intros Hq Hf.
  destruct (mem 10 text) eqn:Em.
  - destruct (split 10 text) as [|l ls] eqn:Es; [apply split_nonnil in Es; tauto|].
    pose proof (split_parts_notin 10 text) as Hp. rewrite Es in Hp.
    pose proof (join_split 10 text) as Hj. rewrite Es in Hj.
    assert (Hi : index_from cLF 0 text = Z.of_nat (length l)).
    { rewrite <- Hj. destruct ls as [|l2 ls].
      - exfalso. cbn in Hj. subst l. inversion Hp; subst. apply mem_In in Em. tauto.
      - rewrite join_cons by discriminate. inversion Hp; subst.
        apply (index_from_app [] l). auto. }
    rewrite Hi. rewrite <- Hj.
    apply (loop_lm E (l :: ls) fuel [] lm_init); auto; try discriminate. rewrite map_length in Hf. auto.
  - assert (Hn : ~ In 10%N text) by (apply mem_false; auto).
    rewrite split_notin in * by auto. cbn [map app] in *.
    destruct fuel as [|n]; [cbn in Hf; lia|].
    assert (Hi : index_from cLF 0 text = (-1)%Z) by (apply (index_from_none [] text); auto).
    rewrite Hi. cbn [parse_loop l_start].
    rewrite (proj2 (Z.eqb_neq _ _)) by lia.
    cbn [lm_quiet] in Hq. destruct Hq as (Hq1 & Hq2).
    assert (Hcur : qmid 0 (-1 - 0) text = text) by reflexivity.
    change (mkL 0 (-1) [] [] [] false) with (st_of lm_init 0 (-1)).
    rewrite body_lm; rewrite Hcur; auto.
    unfold advance, st_of. cbn [l_end l_line l_card l_cards l_in]. change (-1 + 1)%Z with 0%Z.
    rewrite Hi. cbn [Z.eqb].
    cbn [lm_run fold_left].
    pose proof (loop_lm E [text] n [] (lm_step E lm_init (strip_cr text))) as HL.
    cbn [hd length join app Nat.add] in HL. unfold st_of in HL. apply HL; auto; try discriminate. cbn in Hf. lia.
Qed.
