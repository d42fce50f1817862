(** Reading texts with quoted-printable soft line breaks (C02, C65). *)
From Verif Require Import Base BaseFacts Utf8 Utf8Facts M_ParamMap M_VCard M_VCardText S_Escape P_Escape S_Parse P_Parse P_Parse2 S_Soft.

(** ** A line machine that also joins soft line breaks *)
Inductive mode := Normal (m : lm) | Joining (x : pctx) (v : bytes) (m : lm).

Definition finish_qp (E : Ext) (x : pctx) (v : bytes) : vline :=
  vl_set_value
    (if negb (isnil (px_charset x)) then
       match charset_decode E (px_charset x) with
       | Some dec => QStr (dec (qp_decode E v))
       | None => QStr (from_utf8 (qp_decode E v))
       end
     else QStr (from_utf8 (qp_decode E v))) (px_line x).
Definition with_card_line (vl : vline) (m : lm) : lm :=
  mkLM [] (add_line vl (m_card m)) (m_cards m) (m_in m).
(** the assembled line does not matter once it is parsed *)
Definition forget (m : lm) : lm := mkLM [] (m_card m) (m_cards m) (m_in m).

Definition soft_of (line : bytes) : option (pctx * bytes) :=
  let (x, rest) := px_run line px_init in
  match rest with
  | None => None
  | Some raw =>
      if leqb (px_enc x) (B "quoted-printable") && ends_with [cEQ] (remove_escapes raw)
      then Some (x, remove_escapes raw) else None
  end.

Definition sstep (E : Ext) (u : mode) (cur : bytes) : mode :=
  match u with
  | Joining x v m =>
      if ends_with [cEQ] v then Joining x (chop1 v ++ cur) m
      else Normal (lm_dispatch cur (with_card_line (finish_qp E x v) m))
  | Normal m =>
      if is_folded cur then Normal (mkLM (m_line m ++ mid 1 cur) (m_card m) (m_cards m) (m_in m))
      else if isnil (trimmed cur) then Normal m
      else if m_in m && negb (isnil (m_line m)) then
        match soft_of (m_line m) with
        | Some (x, v) => Joining x (chop1 v ++ cur) (forget m)
        | None => Normal (lm_dispatch cur (with_card_line (parse_pure E (m_line m)) m))
        end
      else Normal (lm_dispatch cur m)
  end.

(** [None]: a soft line break reaches the end of the text. *)
Fixpoint srun (E : Ext) (u : mode) (ls : list bytes) : option (list vcard) :=
  match ls with
  | [] => None
  | [cur] => match u with
             | Joining _ _ _ => None
             | Normal _ => match sstep E u cur with Normal m => Some (m_cards m) | Joining _ _ _ => None end
             end
  | cur :: r => srun E (sstep E u cur) r
  end.

Lemma srun_cons E u cur r : r <> [] -> srun E u (cur :: r) = srun E (sstep E u cur) r.
Proof. destruct r; [congruence|reflexivity]. Qed.
Lemma srun_app E : forall ls u r, r <> [] -> srun E u (ls ++ r) = srun E (fold_left (sstep E) ls u) r.
Proof.
  induction ls as [|l ls IH]; intros u r Hr; auto. cbn [app fold_left].
  rewrite srun_cons; [apply IH; auto|]. destruct ls; [auto|discriminate].
Qed.

(** ** The position loop follows the machine *)
Lemma soft_of_quiet line : soft_of line = None -> quiet line.
Proof.
  unfold soft_of, quiet. destruct (px_run line px_init) as [x [raw|]]; auto.
  intros H Hq. rewrite Hq in H. rewrite leqb_refl in H. cbn [andb] in H.
  destruct (ends_with [cEQ] (remove_escapes raw)); [discriminate|auto].
Qed.

Lemma parse_line_soft E fuel text line f x v : soft_of line = Some (x, v) ->
  ends_with [cEQ] v = true /\
  parse_line E fuel text line f =
  match qp_join fuel text v f with None => None | Some (v', f') => Some (finish_qp E x v', f') end.
Proof.
  unfold soft_of, parse_line, finish_line. destruct (px_run line px_init) as [y [raw|]] eqn:Er; [|discriminate].
  destruct (leqb_spec (px_enc y) (B "quoted-printable")) as [Hq|]; [|discriminate]. cbn [andb].
  destruct (ends_with [cEQ] (remove_escapes raw)) eqn:Ee; [|discriminate]. intros H. injection H as <- <-.
  split; [auto|]. rewrite Hq.
  change (isnil (B "quoted-printable")) with false.
  change (leqb (B "quoted-printable") (B "b") || leqb (B "quoted-printable") (B "base64")) with false. cbn iota.
  destruct (qp_join fuel text (remove_escapes raw) f) as [[v' f']|]; auto.
Qed.

Definition pos (pre : bytes) : Z := Z.of_nat (length pre).

Lemma fetch_at pre l l2 r v : ~ In cLF l2 -> r <> [] ->
  fetch (pre ++ join [cLF] (l :: l2 :: r)) (mkF (pos pre) (pos pre + pos l) v) =
  (v, mkF (pos (pre ++ l ++ [cLF])) (pos (pre ++ l ++ [cLF]) + pos l2) (strip_cr l2)).
Proof.
  intros H2 Hr. unfold fetch. cbn [f_end f_cur].
  assert (Ht : pre ++ join [cLF] (l :: l2 :: r) = (pre ++ l ++ [cLF]) ++ l2 ++ cLF :: join [cLF] r).
  { rewrite (join_cons [cLF] l) by discriminate. rewrite (join_cons [cLF] l2) by auto. rewrite <- !app_assoc. reflexivity. }
  assert (Hp : (pos pre + pos l + 1)%Z = pos (pre ++ l ++ [cLF])).
  { unfold pos. rewrite !app_length. cbn. lia. }
  rewrite Hp, Ht. set (P := pre ++ l ++ [cLF]). set (R := join [cLF] r).
  assert (Hi : index_from cLF (pos P) (P ++ l2 ++ cLF :: R) = (pos P + pos l2)%Z).
  { unfold pos. rewrite index_from_app by auto. lia. }
  assert (Hm : qmid (pos P) (pos P + pos l2 - pos P) (P ++ l2 ++ cLF :: R) = l2).
  { replace (pos P + pos l2 - pos P)%Z with (Z.of_nat (length l2)) by (unfold pos; lia). apply qmid_app. }
  rewrite Hi, Hm. rewrite (proj2 (Z.eqb_neq _ _)) by (unfold pos; lia). reflexivity.
Qed.

Lemma join_run E x m cards : forall ls fuel pre cur v,
  let text := pre ++ join [cLF] (cur :: ls) in
  Forall (fun l => ~ In cLF l) (cur :: ls) -> length ls <= fuel ->
  srun E (Joining x v m) (map strip_cr (cur :: ls)) = Some cards ->
  exists v' pre' cur' ls',
    qp_join fuel text v (mkF (pos pre) (pos pre + pos cur) (strip_cr cur)) =
      Some (v', mkF (pos pre') (pos pre' + pos cur') (strip_cr cur')) /\
    text = pre' ++ join [cLF] (cur' :: ls') /\ ls' <> [] /\ length ls' <= length ls /\
    Forall (fun l => ~ In cLF l) (cur' :: ls') /\
    srun E (Normal (lm_dispatch (strip_cr cur') (with_card_line (finish_qp E x v') m))) (map strip_cr ls') = Some cards.
Proof.
  induction ls as [|l2 ls IH]; intros fuel pre cur v text Hf Hn Hs; [discriminate|].
  cbn [map] in Hs. rewrite srun_cons in Hs by discriminate.
  cbn [sstep] in Hs.
  destruct (ends_with [cEQ] v) eqn:Ee.
  - destruct ls as [|l3 ls]; [discriminate|].
    destruct fuel as [|n]; [cbn in Hn; lia|]. cbn [qp_join]. rewrite Ee.
    inversion Hf as [|? ? Hc Hf2]; subst. inversion Hf2 as [|? ? Hl2 Hf3]; subst.
    unfold text. rewrite fetch_at by (auto; discriminate).
    assert (Ht : pre ++ join [cLF] (cur :: l2 :: l3 :: ls) = (pre ++ cur ++ [cLF]) ++ join [cLF] (l2 :: l3 :: ls)).
    { rewrite (join_cons [cLF] cur) by discriminate. rewrite <- !app_assoc. reflexivity. }
    rewrite Ht.
    destruct (IH n (pre ++ cur ++ [cLF]) l2 (chop1 v ++ strip_cr cur)) as (v' & pre' & cur' & ls' & A & B & C & D & F & G);
      [auto|cbn [length] in *; lia|exact Hs|].
    exists v', pre', cur', ls'. split; [exact A|]. split; [exact B|]. split; [exact C|]. split; [cbn [length] in *; lia|]. auto.
  - exists v, pre, cur, (l2 :: ls). split; [apply qp_join_quiet; auto|]. split; [reflexivity|]. split; [discriminate|].
    split; [apply le_n|]. split; [auto|]. exact Hs.
Qed.

Lemma cur_at pre l ls : qmid (pos pre) (pos pre + pos l - pos pre) (pre ++ join [cLF] (l :: ls)) = l.
Proof.
  replace (pos pre + pos l - pos pre)%Z with (Z.of_nat (length l)) by (unfold pos; lia). unfold pos. destruct ls.
  - cbn [join]. rewrite <- (app_nil_r l) at 2. apply qmid_app.
  - rewrite (join_cons [cLF] l) by discriminate. apply qmid_app.
Qed.

(** after the body: on to the next line *)
Lemma advance_at pre l ls m : Forall (fun l => ~ In cLF l) (l :: ls) ->
  let text := pre ++ join [cLF] (l :: ls) in
  advance text (st_of m (pos pre) (pos pre + pos l)) =
  match ls with
  | [] => st_of m (Z.of_nat (length text) + 1) (Z.of_nat (length text))
  | l2 :: _ => st_of m (pos (pre ++ l ++ [cLF])) (pos (pre ++ l ++ [cLF]) + pos l2)
  end.
Proof.
  intros Hf text. unfold advance, st_of. cbn [l_end l_line l_card l_cards l_in].
  inversion Hf as [|? ? Hl Hls]; subst. destruct ls as [|l2 ls].
  - cbn [join] in text.
    assert (Ei : index_from cLF (pos pre + pos l + 1) text = (-1)%Z).
    { unfold index_from. rewrite skipn_all2; [auto|]. unfold text, pos. rewrite app_length. lia. }
    rewrite Ei. cbn [Z.eqb]. f_equal. unfold text, pos. rewrite app_length. lia.
  - assert (Ht : text = (pre ++ l ++ [cLF]) ++ join [cLF] (l2 :: ls)).
    { unfold text. rewrite (join_cons [cLF] l) by discriminate. rewrite <- !app_assoc. auto. }
    assert (Hp : (pos pre + pos l + 1)%Z = pos (pre ++ l ++ [cLF])) by (unfold pos; rewrite !app_length; cbn; lia).
    rewrite Hp. inversion Hls as [|? ? Hl2 Hls']; subst. rewrite Ht. set (P := pre ++ l ++ [cLF]).
    assert (Hi : (if (index_from cLF (pos P) (P ++ join [cLF] (l2 :: ls)) =? -1)%Z
                  then Z.of_nat (length (P ++ join [cLF] (l2 :: ls)))
                  else index_from cLF (pos P) (P ++ join [cLF] (l2 :: ls))) = (pos P + pos l2)%Z).
    { destruct ls as [|l3 ls].
      - cbn [join]. unfold pos. rewrite index_from_none by auto. rewrite Z.eqb_refl, app_length. lia.
      - rewrite (join_cons [cLF] l2) by discriminate. change ([cLF] ++ join [cLF] (l3 :: ls)) with (cLF :: join [cLF] (l3 :: ls)).
        unfold pos. rewrite index_from_app by auto. rewrite (proj2 (Z.eqb_neq _ _)) by lia. lia. }
    rewrite Hi. reflexivity.
Qed.

Lemma loop_soft E cards : forall k ls fuel pre m, length ls <= k -> ls <> [] -> Forall (fun l => ~ In cLF l) ls ->
  length ls <= fuel -> srun E (Normal m) (map strip_cr ls) = Some cards ->
  parse_loop E fuel (pre ++ join [cLF] ls) (st_of m (pos pre) (pos pre + pos (hd [] ls))) = Some cards.
Proof.
  induction k as [|k IH]; intros ls fuel pre m Hk Hne Hf Hfuel Hs.
  { destruct ls; [congruence|cbn in Hk; lia]. }
  destruct ls as [|l ls]; [congruence|]. destruct fuel as [|n]; [cbn in Hfuel; lia|].
  cbn [hd]. set (text := pre ++ join [cLF] (l :: ls)). cbn [parse_loop].
  assert (Hlen : length pre + length l <= length text).
  { unfold text. rewrite app_length. destruct ls; cbn [join]; rewrite ?app_length; lia. }
  unfold st_of at 1. cbn [l_start]. rewrite (proj2 (Z.eqb_neq _ _)) by (unfold pos; lia).
  (* what remains once the body has produced a state at [l'] *)
  assert (Hgo : forall m' pre' l' ls', text = pre' ++ join [cLF] (l' :: ls') -> length ls' <= length ls ->
    Forall (fun l => ~ In cLF l) (l' :: ls') ->
    (if isnil ls' then Some (m_cards m') else srun E (Normal m') (map strip_cr ls')) = Some cards ->
    parse_loop E n text (advance text (st_of m' (pos pre') (pos pre' + pos l'))) = Some cards).
  { intros m' pre' l' ls' Ht Hl' Hf' Hr. rewrite Ht. rewrite advance_at by auto. destruct ls' as [|l2 ls'].
    - cbn in Hr. destruct n; cbn [parse_loop st_of l_start]; rewrite Z.eqb_refl; exact Hr.
    - assert (Ht2 : pre' ++ join [cLF] (l' :: l2 :: ls') = (pre' ++ l' ++ [cLF]) ++ join [cLF] (l2 :: ls')).
      { rewrite (join_cons [cLF] l') by discriminate. rewrite <- !app_assoc. auto. }
      rewrite Ht2. cbn [length] in *.
      apply (IH (l2 :: ls') n (pre' ++ l' ++ [cLF]) m');
        [cbn [length]; lia|discriminate|inversion Hf'; auto|cbn [length]; lia|exact Hr]. }
  (* the body *)
  unfold body, st_of. cbn [l_start l_end l_line l_card l_cards l_in].
  assert (Hcur : qmid (pos pre) (pos pre + pos l - pos pre) text = l) by apply cur_at.
  rewrite Hcur. set (cur := strip_cr l) in *. cbn [map] in Hs. fold cur in Hs.
  assert (Hs' : match sstep E (Normal m) cur with
                | Normal m' => (if isnil ls then Some (m_cards m') else srun E (Normal m') (map strip_cr ls)) = Some cards
                | Joining x v m' => srun E (Joining x v m') (map strip_cr ls) = Some cards
                end).
  { destruct ls as [|l2 ls].
    - cbn [map srun] in Hs. destruct (sstep E (Normal m) cur); [exact Hs|discriminate].
    - rewrite srun_cons in Hs by discriminate. destruct (sstep E (Normal m) cur); exact Hs. }
  clear Hs. cbn [sstep] in Hs'.
  destruct (is_folded cur) eqn:Ef.
  { apply (Hgo (mkLM (m_line m ++ mid 1 cur) (m_card m) (m_cards m) (m_in m)) pre l ls); auto. }
  destruct (isnil (trimmed cur)) eqn:Et.
  { apply (Hgo m pre l ls); auto. }
  assert (Hd : forall pre' l' m', mkL (pos pre') (pos pre' + pos l')%Z (m_line m') (m_card m') (m_cards m') (m_in m') = st_of m' (pos pre') (pos pre' + pos l')) by reflexivity.
  assert (Hdis : forall pre' l' m' line, dispatch (mkF (pos pre') (pos pre' + pos l') (strip_cr l'))
     (mkL (pos pre) (pos pre + pos l) line (m_card m') (m_cards m') (m_in m')) =
     st_of (lm_dispatch (strip_cr l') m') (pos pre') (pos pre' + pos l')).
  { intros pre' l' m' line. unfold dispatch, lm_dispatch, st_of. cbn [f_cur f_start f_end l_cards l_card l_in l_line].
    destruct (is_begin (strip_cr l')); [reflexivity|]. destruct (is_end (strip_cr l')); reflexivity. }
  destruct (m_in m && negb (isnil (m_line m))) eqn:Ei.
  - destruct (soft_of (m_line m)) as [[x v]|] eqn:Es.
    + destruct (parse_line_soft E n text (m_line m) (mkF (pos pre) (pos pre + pos l) cur) x v Es) as [Hv ->].
      assert (Hj : srun E (Joining x v (forget m)) (map strip_cr (l :: ls)) = Some cards).
      { cbn [map]. destruct ls as [|l2 ls]; [discriminate|]. rewrite srun_cons by discriminate. cbn [sstep]. rewrite Hv. exact Hs'. }
      destruct (join_run E x (forget m) cards ls n pre l v Hf) as (v' & pre' & cur' & ls' & A & B & C & D & F & G);
        [cbn [length] in *; lia|exact Hj|].
      fold text in A, B. fold cur in A. rewrite A.
      pose proof (Hdis pre' cur' (with_card_line (finish_qp E x v') (forget m)) (m_line m)) as Hd2. cbn [with_card_line forget m_line m_card m_cards m_in] in Hd2.
      rewrite Hd2. eapply Hgo; [exact B|exact D|exact F|]. destruct ls'; [congruence|]. exact G.
    + rewrite parse_line_quiet by (apply soft_of_quiet; auto).
      pose proof (Hdis pre l (with_card_line (parse_pure E (m_line m)) m) (m_line m)) as Hd2. cbn [with_card_line forget m_line m_card m_cards m_in] in Hd2.
      fold cur in Hd2. rewrite Hd2. eapply Hgo; [reflexivity|lia|exact Hf|exact Hs'].
  - pose proof (Hdis pre l m (m_line m)) as Hd2. fold cur in Hd2. rewrite Hd2.
    eapply Hgo; [reflexivity|lia|exact Hf|exact Hs'].
Qed.

Lemma parse_soft E fuel text cards : In 10%N text -> length (physical_lines text) <= fuel ->
  srun E (Normal lm_init) (physical_lines text) = Some cards -> parse_vcards E fuel text = Some cards.
Proof.
  intros Hin Hf Hs. unfold parse_vcards, parse_init, physical_lines in *.
  destruct (split 10 text) as [|l ls] eqn:Es; [apply split_nonnil in Es; tauto|].
  pose proof (split_parts_notin 10 text) as Hp. rewrite Es in Hp.
  pose proof (join_split 10 text) as Hj. rewrite Es in Hj.
  assert (Hi : index_from cLF 0 text = Z.of_nat (length l)).
  { rewrite <- Hj. destruct ls as [|l2 ls].
    - exfalso. cbn in Hj. subst l. inversion Hp; subst. tauto.
    - rewrite (join_cons [10%N] l) by discriminate. inversion Hp; subst. apply (index_from_app [] l). auto. }
  rewrite Hi, <- Hj.
  apply (loop_soft E cards (length (l :: ls)) (l :: ls) fuel [] lm_init); auto; try discriminate.
  rewrite map_length in Hf. auto.
Qed.

(** ** Texts whose last line but one has no soft line break *)
Lemma soft_of_end line x v : soft_of line = Some (x, v) -> exists a, line = a ++ [61%N].
Proof.
  unfold soft_of. destruct (px_run line px_init) as [y [raw|]] eqn:E; [|discriminate].
  destruct (leqb (px_enc y) (B "quoted-printable") && ends_with [cEQ] (remove_escapes raw)) eqn:Eb; [|discriminate].
  intros _. apply andb_true_iff in Eb as [_ Eb]. apply remove_escapes_last in Eb as [a Ha].
  destruct (px_run_inv line [] px_init y raw E) as [[d Hd] _]; [exists []; auto|discriminate|].
  exists (d ++ a). rewrite Hd, Ha, app_assoc. auto.
Qed.

Definition ends_eq (s : bytes) : Prop := exists q, s = q ++ [61%N].
Lemma ends_eq_app a p : p <> [] -> ends_eq (a ++ p) -> ends_eq p.
Proof.
  intros Hp [q Hq]. destruct (exists_last Hp) as (r & c & ->). rewrite app_assoc in Hq.
  apply app_inj_tail in Hq as [_ ->]. exists r. auto.
Qed.

Lemma srun_last E m : srun E (Normal m) [[]] = Some (m_cards m).
Proof. reflexivity. Qed.

Lemma sstep_normal E m e : ~ ends_eq (m_line m) -> exists m', sstep E (Normal m) e = Normal m'.
Proof.
  intros Hm. cbn [sstep]. destruct (is_folded e); [eauto|]. destruct (isnil (trimmed e)); [eauto|].
  destruct (m_in m && negb (isnil (m_line m))); [|eauto].
  destruct (soft_of (m_line m)) as [[x v]|] eqn:Es; [|eauto]. exfalso. apply Hm. eapply soft_of_end; eauto.
Qed.
Lemma not_ends_nil : ~ ends_eq [].
Proof. intros [q Hq]. destruct q; discriminate. Qed.
Lemma dispatch_line p m : ~ ends_eq p -> ~ ends_eq (m_line (lm_dispatch p m)).
Proof.
  intros Hp. unfold lm_dispatch. destruct (is_begin p); [apply not_ends_nil|]. destruct (is_end p); [apply not_ends_nil|exact Hp].
Qed.
Lemma blank_not_nil p : ~ blank_line p -> p <> [].
Proof. intros H ->. apply H. constructor. Qed.

Lemma settled_run E u p e : ~ blank_line p -> ~ ends_eq p -> exists cards, srun E u [p; e; []] = Some cards.
Proof.
  intros Hb Hp. pose proof (blank_not_nil p Hb) as Hn.
  rewrite !srun_cons by discriminate.
  assert (H : exists m, sstep E (sstep E u p) e = Normal m).
  { assert (Hj : forall x v m, exists m', sstep E (Joining x (chop1 v ++ p) m) e = Normal m').
    { intros x v m. cbn [sstep]. destruct (ends_with [cEQ] (chop1 v ++ p)) eqn:Ee; [|eauto].
      exfalso. apply Hp. apply ends_with_1 in Ee. apply (ends_eq_app (chop1 v)); auto. }
    assert (Hd : forall m, exists m', sstep E (Normal (lm_dispatch p m)) e = Normal m').
    { intros m. apply sstep_normal, dispatch_line, Hp. }
    destruct u as [m|x v m].
    - cbn [sstep]. fold (sstep E). destruct (is_folded p) eqn:Ef.
      + apply sstep_normal. cbn [m_line]. intros H. apply Hp.
        apply is_folded_spec in Ef as (c & r & -> & Hc). change (mid 1 (c :: r)) with r in H.
        assert (Hr : r <> []).
        { intros ->. apply Hb. repeat constructor. destruct Hc as [->| ->]; reflexivity. }
        apply ends_eq_app in H; auto. destruct H as [q ->]. exists (c :: q). auto.
      + destruct (isnil (trimmed p)) eqn:Et; [exfalso; apply Hb, trimmed_nil, Et|].
        destruct (m_in m && negb (isnil (m_line m))); [|apply Hd].
        destruct (soft_of (m_line m)) as [[x v]|]; [apply Hj|apply Hd].
    - cbn [sstep]. fold (sstep E). destruct (ends_with [cEQ] v); [apply Hj|apply Hd]. }
  destruct H as [m ->]. eexists. apply srun_last.
Qed.

Lemma settled_srun E text : settled text -> exists cards, srun E (Normal lm_init) (physical_lines text) = Some cards.
Proof.
  intros (a & p & e & -> & Hb & Hp). rewrite srun_app by discriminate. apply settled_run; auto.
Qed.
Lemma settled_lf text : settled text -> In 10%N text.
Proof.
  intros (a & p & e & H & _). destruct (mem 10 text) eqn:Em; [apply mem_In; auto|exfalso].
  unfold physical_lines in H. rewrite split_notin in H by (apply mem_false; auto).
  apply (f_equal (@length _)) in H. rewrite app_length in H. cbn in H. lia.
Qed.
Lemma srun_parses E text cards : In 10%N text -> srun E (Normal lm_init) (physical_lines text) = Some cards ->
  forall fuel, 1 + count_occ N.eq_dec text 10%N <= fuel -> parse_vcards E fuel text = Some cards.
Proof.
  intros Hin Hs fuel Hf. apply parse_soft; auto. unfold physical_lines. rewrite map_length, split_length. lia.
Qed.

Lemma settled_terminates E text : settled text ->
  exists cards, forall fuel, 1 + count_occ N.eq_dec text 10%N <= fuel -> parse_vcards E fuel text = Some cards.
Proof.
  intros H. destruct (settled_srun E text H) as [cards Hc]. exists cards. apply srun_parses; auto. apply settled_lf; auto.
Qed.

(** ** The head of a quoted-printable property *)
Lemma run_name n : forall r x, ~ In 58%N n -> ~ In 59%N n -> px_state x = PInitial ->
  exists y, px_run (n ++ r) x = px_run r y /\ px_state y = PInitial /\ px_enc y = px_enc x.
Proof.
  induction n as [|c n IH]; intros r x H1 H2 Hx; [exists x; auto|].
  cbn [app px_run]. unfold px_step. rewrite Hx. cbn [In] in H1, H2.
  rewrite (proj2 (N.eqb_neq c cSEMI)) by (intros ->; apply H2; auto).
  rewrite (proj2 (N.eqb_neq c cCOLON)) by (intros ->; apply H1; auto).
  destruct (c =? cDOT)%N;
    match goal with |- exists y, px_run _ ?z = _ /\ _ => destruct (IH r z) as (y & A & B & C) end;
    try tauto; try reflexivity; exists y; rewrite A; auto.
Qed.

(** what a parameter text does to the encoding *)
Definition after_param (d : N) (r : bytes) (s : bytes) (x : pctx) (e : bytes) : Prop :=
  exists y, px_enc y = e /\
    ((d = 59%N -> px_run (s ++ d :: r) x = px_run r y /\ px_state y = PParamKey /\ px_acc y = []) /\
     (d = 58%N -> px_run (s ++ d :: r) x = (y, Some r))).

Lemma run_values d r k : leqb (to_lower k) (B "encoding") = false -> forall w x,
  param_text w -> px_state x = PParamValue -> px_key x = k -> (d = 58 \/ d = 59)%N ->
  after_param d r w x (px_enc x).
Proof.
  intros Hk. induction w as [|c w IH]; intros x Hw Hx Hkey Hd.
  - set (y := px_goto PParamValue [] (px_add_param (to_lower (px_key x)) (px_acc x) x)).
    assert (He : px_enc y = px_enc x).
    { unfold y, px_add_param. cbn [px_goto px_enc]. rewrite Hkey, Hk. reflexivity. }
    assert (Hst : px_run ([] ++ d :: r) x = if (d =? 59)%N then px_run r (px_goto PParamKey [] y) else (y, Some r)).
    { cbn [app px_run]. unfold px_step. rewrite Hx. fold y. destruct Hd as [->| ->]; reflexivity. }
    unfold after_param. rewrite Hst. destruct Hd as [->| ->].
    + exists y. split; [exact He|]. split; [discriminate|reflexivity].
    + exists (px_goto PParamKey [] y). split; [exact He|]. split; [auto|discriminate].
  - destruct Hw as (W1 & W2 & W3). cbn [In] in W1, W2, W3.
    assert (Hw' : param_text w) by (unfold param_text; tauto).
    assert (Hs : exists z, px_step c x = (z, true) /\ px_state z = PParamValue /\ px_key z = k /\ px_enc z = px_enc x).
    { unfold px_step, px_after. rewrite Hx.
      rewrite (proj2 (N.eqb_neq c cSEMI)) by (intros ->; tauto).
      rewrite (proj2 (N.eqb_neq c cCOLON)) by (intros ->; tauto).
      rewrite (proj2 (N.eqb_neq c cDQ)) by (intros ->; tauto). rewrite andb_false_r. cbn [orb].
      destruct (c =? cCOMMA)%N.
      - eexists. split; [reflexivity|]. unfold px_add_param; cbn [px_goto px_enc px_key px_state]; rewrite Hkey, Hk. auto.
      - eexists. split; [reflexivity|]. cbn. auto. }
    destruct Hs as (z & Hz & Z1 & Z2 & Z3).
    destruct (IH z Hw' Z1 Z2 Hd) as (y & Y1 & Y2 & Y3).
    exists y. split; [congruence|]. cbn [app px_run]. rewrite Hz. auto.
Qed.

Lemma run_one_value d r : forall w x, param_text w -> ~ In 44%N w -> px_state x = PParamValue ->
  to_lower (px_key x) = B "encoding" -> (d = 58 \/ d = 59)%N ->
  after_param d r w x (to_lower (px_acc x ++ w)).
Proof.
  induction w as [|c w IH]; intros x Hw Hc Hx Hkey Hd.
  - set (y := px_goto PParamValue [] (px_add_param (to_lower (px_key x)) (px_acc x) x)).
    assert (He : px_enc y = to_lower (px_acc x ++ [])).
    { unfold y, px_add_param. cbn [px_goto px_enc]. rewrite Hkey, leqb_refl, app_nil_r. reflexivity. }
    assert (Hst : px_run ([] ++ d :: r) x = if (d =? 59)%N then px_run r (px_goto PParamKey [] y) else (y, Some r)).
    { cbn [app px_run]. unfold px_step. rewrite Hx. fold y. destruct Hd as [->| ->]; reflexivity. }
    unfold after_param. rewrite Hst. destruct Hd as [->| ->].
    + exists y. split; [exact He|]. split; [discriminate|reflexivity].
    + exists (px_goto PParamKey [] y). split; [exact He|]. split; [auto|discriminate].
  - destruct Hw as (W1 & W2 & W3). cbn [In] in W1, W2, W3, Hc.
    assert (Hw' : param_text w) by (unfold param_text; tauto).
    assert (Hs : px_step c x = (px_goto PParamValue (px_acc x ++ [c]) x, true)).
    { unfold px_step, px_after. rewrite Hx.
      rewrite (proj2 (N.eqb_neq c cSEMI)) by (intros ->; tauto).
      rewrite (proj2 (N.eqb_neq c cCOLON)) by (intros ->; tauto).
      rewrite (proj2 (N.eqb_neq c cCOMMA)) by (intros ->; tauto).
      rewrite (proj2 (N.eqb_neq c cDQ)) by (intros ->; tauto). rewrite andb_false_r. reflexivity. }
    destruct (IH (px_goto PParamValue (px_acc x ++ [c]) x) Hw' ltac:(tauto) eq_refl Hkey Hd) as (y & Y1 & Y2 & Y3).
    exists y. split; [rewrite Y1; cbn [px_goto px_acc]; rewrite <- app_assoc; reflexivity|].
    cbn [app px_run]. rewrite Hs. auto.
Qed.

(** a parameter text: up to '=' it is a key *)
Lemma run_keys d r : forall p x, param_text p -> px_state x = PParamKey -> (d = 58 \/ d = 59)%N ->
  (~ In 61%N p /\
   after_param d r p x (if leqb (to_lower (px_acc x ++ p)) (B "quoted-printable") || leqb (to_lower (px_acc x ++ p)) (B "base64")
                        then to_lower (px_acc x ++ p) else px_enc x)) \/
  (exists k w, p = k ++ 61%N :: w /\ ~ In 61%N k /\
     px_run (p ++ d :: r) x = px_run (w ++ d :: r) (px_goto PParamValue [] (px_set_key (px_acc x ++ k) x))).
Proof.
  induction p as [|c p IH]; intros x Hp Hx Hd.
  - left. split; [auto|]. rewrite app_nil_r.
    set (b := leqb (to_lower (px_acc x)) (B "quoted-printable") || leqb (to_lower (px_acc x)) (B "base64")).
    set (key := if b then B "encoding" else B "type").
    set (y := px_goto PParamKey [] (px_add_param key (px_acc x) (px_set_key key x))).
    assert (He : px_enc y = if b then to_lower (px_acc x) else px_enc x) by (unfold y, key; destruct b; reflexivity).
    assert (Hst : px_run ([] ++ d :: r) x = if (d =? 59)%N then px_run r y else (y, Some r)).
    { cbn [app px_run]. unfold px_step. rewrite Hx. fold b. fold key. fold y. destruct Hd as [->| ->]; reflexivity. }
    unfold after_param. rewrite Hst. exists y. split; [exact He|]. destruct Hd as [->| ->]; (split; [auto|auto]); discriminate.
  - destruct Hp as (W1 & W2 & W3). cbn [In] in W1, W2, W3.
    assert (Hp' : param_text p) by (unfold param_text; tauto).
    destruct (N.eqb_spec c 61) as [->|N].
    + right. exists [], p. split; [auto|]. split; [auto|]. cbn [app px_run]. unfold px_step. rewrite Hx. cbn. rewrite app_nil_r. reflexivity.
    + assert (Hs : px_step c x = (px_goto PParamKey (px_acc x ++ [c]) x, true)).
      { unfold px_step. rewrite Hx.
        rewrite (proj2 (N.eqb_neq c cSEMI)) by (intros ->; tauto).
        rewrite (proj2 (N.eqb_neq c cCOLON)) by (intros ->; tauto).
        rewrite (proj2 (N.eqb_neq c cEQ)) by (intros ->; tauto). reflexivity. }
      destruct (IH (px_goto PParamKey (px_acc x ++ [c]) x) Hp' eq_refl Hd) as [[A B]|(k & w & A & B & C)].
      * left. split; [cbn [In]; intuition|]. cbn [px_goto px_acc px_enc] in B. rewrite <- app_assoc in B.
        destruct B as (y & Y1 & Y2 & Y3). exists y. split; [exact Y1|]. cbn [app px_run]. rewrite Hs. auto.
      * right. exists (c :: k), w. split; [cbn; congruence|]. split; [cbn [In]; intuition|].
        cbn [app px_run]. rewrite Hs. cbn [app] in C. rewrite C. cbn [px_goto px_acc]. rewrite <- app_assoc. reflexivity.
Qed.

Lemma to_lower_app a b : to_lower (a ++ b) = to_lower a ++ to_lower b.
Proof. apply map_app. Qed.
Lemma lower_eq61 k w : to_lower (k ++ 61%N :: w) = to_lower k ++ 61%N :: to_lower w.
Proof. rewrite to_lower_app. reflexivity. Qed.

Lemma lower_61 c : lower1 c = 61%N -> c = 61%N.
Proof. unfold lower1, is_upper. destruct ((65 <=? c)%N && (c <=? 90)%N) eqn:E; [|auto]. apply andb_true_iff in E as [A B]. apply N.leb_le in A, B. lia. Qed.

Lemma lower_in c s : (c < 97 \/ 122 < c)%N -> In c (to_lower s) -> ~ (65 <= c <= 90)%N -> In c s.
Proof.
  intros Hc H Hu. apply in_map_iff in H as (d & Hd & Hin). unfold lower1, is_upper in Hd.
  destruct ((65 <=? d)%N && (d <=? 90)%N) eqn:E; [|congruence].
  apply andb_true_iff in E as [A B]. apply N.leb_le in A, B. lia.
Qed.
Lemma in_lower c s : lower1 c = c -> In c s -> In c (to_lower s).
Proof. intros H Hin. rewrite <- H. apply in_map. auto. Qed.
Lemma split_at_eq k w k' w' : ~ In 61%N k -> ~ In 61%N k' -> k ++ 61%N :: w = k' ++ 61%N :: w' -> k = k' /\ w = w'.
Proof.
  revert k'. induction k as [|c k IH]; intros k' H1 H2 H; destruct k' as [|c' k']; cbn in *.
  - injection H as <-. auto.
  - injection H as <- _. tauto.
  - injection H as -> _. tauto.
  - injection H as <- H. destruct (IH k') as [-> ->]; auto.
Qed.

Definition QP : bytes := B "quoted-printable".

Lemma run_param d r p x : param_text p -> qp_param p \/ other_param p ->
  px_state x = PParamKey -> px_acc x = [] -> (d = 58 \/ d = 59)%N ->
  exists e, after_param d r p x e /\ (qp_param p \/ px_enc x = QP -> e = QP).
Proof.
  intros Hp Hk Hx Ha Hd. destruct (run_keys d r p x Hp Hx Hd) as [[N Hr]|(k & w & -> & Nk & Hr)].
  - rewrite Ha in Hr. cbn [app] in Hr. eexists. split; [exact Hr|].
    assert (Hq : qp_param p -> to_lower p = QP).
    { intros [H|H]; [exfalso|exact H]. apply N. apply (lower_in 61); [lia| |lia]. rewrite H. apply mem_In. reflexivity. }
    intros H. destruct (leqb_spec (to_lower p) (B "quoted-printable")) as [E|E]; [exact E|]. cbn [orb].
    destruct H as [H|H]; [apply Hq in H; contradiction|].
    destruct (leqb_spec (to_lower p) (B "base64")) as [E'|E']; [exfalso|exact H].
    destruct Hk as [Hk|[_ Hk]]; [apply Hq in Hk; contradiction|contradiction].
  - rewrite Ha in Hr. cbn [app] in Hr.
    assert (Hw : param_text w). { unfold param_text in *. rewrite !in_app_iff in Hp. cbn [In] in Hp. tauto. }
    assert (Nk' : ~ In 61%N (to_lower k)) by (intros H; apply lower_in in H; [tauto|lia|lia]).
    destruct (leqb_spec (to_lower k) (B "encoding")) as [Ek|Ek].
    + assert (Hq : qp_param (k ++ 61%N :: w)).
      { destruct Hk as [Hk|[Hk _]]; [exact Hk|]. exfalso. apply (Hk (to_lower w)). rewrite lower_eq61, Ek. reflexivity. }
      assert (Ew : to_lower w = QP).
      { destruct Hq as [H|H]; rewrite lower_eq61 in H.
        - apply (split_at_eq _ _ (B "encoding") QP) in H as [_ H]; [exact H|exact Nk'|].
          intros H1. apply mem_In in H1. discriminate.
        - exfalso. assert (In 61%N (to_lower k ++ 61%N :: to_lower w)) as H1 by (apply in_app_iff; cbn; auto).
          rewrite H in H1. apply mem_In in H1. discriminate. }
      assert (Nw : ~ In 44%N w).
      { intros H. apply (in_lower 44) in H; [|reflexivity]. rewrite Ew in H. apply mem_In in H. discriminate. }
      destruct (run_one_value d r w (px_goto PParamValue [] (px_set_key k x)) Hw Nw eq_refl Ek Hd) as (y & Y1 & Y2).
      cbn [px_goto px_acc app] in Y1. rewrite Ew in Y1.
      exists QP. split; [|auto]. exists y. split; [exact Y1|]. rewrite Hr. exact Y2.
    + assert (Ek' : leqb (to_lower k) (B "encoding") = false) by (destruct (leqb_spec (to_lower k) (B "encoding")); auto; contradiction).
      destruct (run_values d r k Ek' w (px_goto PParamValue [] (px_set_key k x)) Hw eq_refl eq_refl Hd) as (y & Y1 & Y2).
      exists (px_enc x). split; [exists y; split; [exact Y1|rewrite Hr; exact Y2]|].
      intros [[H|H]|H]; [..|exact H]; exfalso; rewrite lower_eq61 in H.
      * apply (split_at_eq _ _ (B "encoding") QP) in H as [H _]; [contradiction|exact Nk'|].
        intros H1. apply mem_In in H1. discriminate.
      * assert (In 61%N (to_lower k ++ 61%N :: to_lower w)) as H1 by (apply in_app_iff; cbn; auto).
        rewrite H in H1. apply mem_In in H1. discriminate.
Qed.

Lemma run_params r : forall ps p x, Forall param_text (p :: ps) -> Forall (fun p => qp_param p \/ other_param p) (p :: ps) ->
  px_state x = PParamKey -> px_acc x = [] ->
  exists y, px_run (p ++ flat_map (fun p => 59%N :: p) ps ++ 58%N :: r) x = (y, Some r) /\
    (Exists qp_param (p :: ps) \/ px_enc x = QP -> px_enc y = QP).
Proof.
  induction ps as [|q ps IH]; intros p x Hf Hk Hx Ha; inversion Hf; subst; inversion Hk; subst.
  - destruct (run_param 58 r p x) as (e & (y & Y1 & _ & Y2) & He); auto. exists y. cbn [flat_map app].
    split; [apply Y2; auto|]. rewrite Y1. intros [H|H]; apply He; [|auto]. left.
    apply Exists_cons in H as [H|H]; [exact H|inversion H].
  - cbn [flat_map app]. set (rest := q ++ flat_map (fun p => 59%N :: p) ps ++ 58%N :: r).
    destruct (run_param 59 rest p x) as (e & (y & Y1 & Y2 & _) & He); auto.
    destruct (Y2 eq_refl) as (A & Ys & Ya).
    destruct (IH q y) as (z & Z1 & Z2); auto.
    exists z. rewrite <- app_assoc. fold rest. rewrite A. split; [exact Z1|].
    intros H. apply Z2. destruct H as [H|H]; [|right; rewrite Y1; apply He; auto].
    apply Exists_cons in H as [H|H]; [right; rewrite Y1; apply He; auto|left; auto].
Qed.

Lemma run_head h r : qp_head h -> exists y, px_run (h ++ r) px_init = (y, Some r) /\ px_enc y = QP.
Proof.
  intros (n & ps & -> & Hn & N1 & N2 & Hf & He & Hk). rewrite <- !app_assoc.
  destruct (run_name n (flat_map (fun p => 59%N :: p) ps ++ [58%N] ++ r) px_init N1 N2 eq_refl) as (x & -> & Hx & Hxe).
  destruct ps as [|p ps]; [inversion He|]. cbn [flat_map app px_run]. unfold px_step. rewrite Hx. cbn iota beta.
  change (59 =? cSEMI)%N with true. cbn iota. rewrite <- app_assoc.
  match goal with |- context [px_run _ ?z] => destruct (run_params r ps p z) as (y & Y1 & Y2); auto end.
  exists y. split; [exact Y1|]. apply Y2. auto.
Qed.

(** ** Escapes in two pieces *)
Definition ends_in (c : N) (s : bytes) : Prop := exists q, s = q ++ [c].
Lemma ends_in_tail c x y t : ~ ends_in c (x :: y :: t) -> ~ ends_in c (y :: t).
Proof. intros H [q Hq]. apply H. exists (x :: q). rewrite Hq. auto. Qed.
Lemma replace2_skip a b by_ s : ~ In a s -> replace2 a b by_ s = s.
Proof.
  induction s as [|x s IH]; intros H; [reflexivity|]. cbn [replace2]. destruct s as [|y t]; [reflexivity|].
  cbn [In] in H. rewrite (proj2 (N.eqb_neq x a)) by (intros ->; tauto). cbn [andb].
  rewrite IH by (cbn [In]; tauto). reflexivity.
Qed.
Lemma replace2_app a b by_ c : ~ In a c -> forall v, ~ ends_in a v -> replace2 a b by_ (v ++ c) = replace2 a b by_ v ++ c.
Proof.
  intros Hc v. induction v as [|x|x y t IH1 IH2] using two_step_ind; intros Hv.
  - apply replace2_skip; auto.
  - cbn [app]. destruct c as [|y c]; [reflexivity|]. cbn [replace2].
    rewrite (proj2 (N.eqb_neq x a)) by (intros ->; apply Hv; exists []; auto). cbn [andb].
    pose proof (replace2_skip a b by_ (y :: c) Hc) as H. cbn [replace2] in H. rewrite H. reflexivity.
  - cbn [app]. rewrite !replace2_cons2. destruct ((x =? a)%N && (y =? b)%N).
    + rewrite IH1, <- app_assoc; [reflexivity|]. intros [q ->]. apply Hv. exists (x :: y :: q). auto.
    + change (y :: t ++ c) with ((y :: t) ++ c). rewrite IH2; [reflexivity|]. apply ends_in_tail in Hv. auto.
Qed.
Lemma replace2_ends a b d s : a <> d -> ~ ends_in a s -> ~ ends_in a (replace2 a b [d] s).
Proof. intros Hd Hs [q Hq]. apply Hs. eapply replace2_last; eauto. Qed.

Lemma remove_escapes_app v c : ~ ends_in 92%N v -> ~ In 92%N c -> remove_escapes (v ++ c) = remove_escapes v ++ c.
Proof.
  intros Hv Hc. unfold remove_escapes. fold cBS in Hv, Hc.
  assert (Hm : mem cBS (v ++ c) = mem cBS v).
  { destruct (mem cBS v) eqn:E.
    - apply mem_In. apply in_app_iff. left. apply mem_In. auto.
    - apply mem_false. rewrite in_app_iff. apply mem_false in E. tauto. }
  rewrite Hm. destruct (mem cBS v); [|reflexivity]. cbn [negb].
  repeat (rewrite (replace2_app cBS _ _ c Hc); [|repeat (apply replace2_ends; [discriminate|]); exact Hv]).
  reflexivity.
Qed.

(** ** One soft line break *)
Lemma starts_dark c x r : c = x :: r -> is_space x = false -> is_folded c = false /\ isnil (trimmed c) = false.
Proof.
  intros -> H. split.
  - destruct (is_folded (x :: r)) eqn:E; auto. apply is_folded_spec in E as (y & s & Hy & Hc). injection Hy as <- <-.
    destruct Hc as [->| ->]; discriminate.
  - destruct (isnil (trimmed (x :: r))) eqn:E; auto. apply trimmed_nil in E. inversion E; subst. congruence.
Qed.

Lemma head_dark h v : qp_head h -> exists x r, h ++ v = x :: r /\ is_space x = false.
Proof. intros (n & ps & -> & (c & r & -> & Hc) & _). cbn [app]. eauto. Qed.

Lemma head_not_tag h v w t : qp_head h -> (forall a b, t = a ++ 58%N :: b -> ~ In 59%N a) -> In 58%N t -> ~ In 59%N t ->
  to_lower w = t -> forall b, h ++ v <> w ++ b.
Proof.
  intros (n & ps & -> & _ & N1 & N2 & _ & He & _) _ T1 T2 Hw b H.
  destruct ps as [|p ps]; [inversion He|]. cbn [flat_map] in H. cbn [app] in H. rewrite <- !app_assoc in H. cbn [app] in H.
  (* the first ';' of the line comes before its first ':' *)
  assert (Hlt : In 58%N w) by (subst t; apply lower_in in T1; [auto|lia|lia]).
  assert (Hns : ~ In 59%N w) by (intros Hi; apply T2; subst t; apply in_lower; auto).
  clear - H N1 N2 Hlt Hns. revert w Hlt Hns H. induction n as [|c n IH]; intros w Hlt Hns H.
  - destruct w as [|y w]; [inversion Hlt|]. cbn in H. injection H as <- _. apply Hns. left. auto.
  - destruct w as [|y w]; [inversion Hlt|]. cbn in H. injection H as <- H. cbn [In] in *.
    apply (IH ltac:(tauto) ltac:(tauto) w); [|tauto|exact H]. destruct Hlt as [->|Hlt]; [tauto|exact Hlt].
Qed.
Lemma head_no_begin h v : qp_head h -> is_begin (h ++ v) = false.
Proof.
  intros Hh. destruct (is_begin (h ++ v)) eqn:E; auto. exfalso. apply is_begin_spec in E as (w & b & H & Hw).
  refine (head_not_tag h v w _ Hh _ _ _ Hw b H).
  - intros a b' Ha Hin. assert (In 59%N (B "begin:vcard")) as Hi by (rewrite Ha; apply in_app_iff; auto).
    apply mem_In in Hi. discriminate.
  - apply mem_In. reflexivity.
  - intros Hi. apply mem_In in Hi. discriminate.
Qed.
Lemma head_no_end h v : qp_head h -> is_end (h ++ v) = false.
Proof.
  intros Hh. destruct (is_end (h ++ v)) eqn:E; auto. exfalso. apply is_end_spec in E as (w & b & H & Hw).
  refine (head_not_tag h v w _ Hh _ _ _ Hw b H).
  - intros a b' Ha Hin. assert (In 59%N (B "end:vcard")) as Hi by (rewrite Ha; apply in_app_iff; auto).
    apply mem_In in Hi. discriminate.
  - apply mem_In. reflexivity.
  - intros Hi. apply mem_In in Hi. discriminate.
Qed.

Lemma px_run_shorter s : forall x y t, px_run s x = (y, Some t) -> length t < length s.
Proof.
  induction s as [|c s IH]; intros x y t H; [discriminate|]. cbn [px_run] in H.
  destruct (px_step c x) as [x' [|]]; [apply IH in H; cbn [length]; lia|]. injection H as _ <-. cbn [length]. lia.
Qed.
Lemma px_run_other h r w : forall x y, px_run (h ++ r) x = (y, Some r) -> px_run (h ++ w) x = (y, Some w).
Proof.
  induction h as [|c h IH]; intros x y H.
  - cbn [app] in H. apply px_run_shorter in H. lia.
  - cbn [app px_run] in *. destruct (px_step c x) as [x' [|]]; [apply IH; auto|].
    injection H as -> H. f_equal. f_equal. apply (f_equal (@length _)) in H. rewrite app_length in H.
    destruct h; [reflexivity|cbn in H; lia].
Qed.
Lemma head_ctx h : qp_head h -> exists x, px_enc x = QP /\ forall w, px_run (h ++ w) px_init = (x, Some w).
Proof.
  intros Hh. destruct (run_head h [] Hh) as (x & Hx & He). exists x. split; [auto|].
  intros w. eapply px_run_other. exact Hx.
Qed.

Lemma ends_with_snoc v : ends_with [cEQ] (v ++ [61%N]) = true.
Proof. apply ends_with_1. exists v. auto. Qed.
Lemma chop_snoc v : chop1 (v ++ [61%N]) = v.
Proof. apply removelast_last. Qed.

Lemma finish_pure_qp E h v x : px_enc x = QP -> (forall w, px_run (h ++ w) px_init = (x, Some w)) ->
  parse_pure E (h ++ v) = finish_qp E x (remove_escapes v).
Proof.
  intros He Hx. unfold parse_pure. rewrite Hx. unfold finish_pure, finish_qp. rewrite He.
  change (isnil QP) with false. change (leqb QP (B "b") || leqb QP (B "base64")) with false.
  change (leqb QP (B "quoted-printable")) with true. cbn iota. cbn [fst snd]. reflexivity.
Qed.
Lemma soft_of_qp h v x : px_enc x = QP -> (forall w, px_run (h ++ w) px_init = (x, Some w)) ->
  soft_of (h ++ v) = if ends_with [cEQ] (remove_escapes v) then Some (x, remove_escapes v) else None.
Proof.
  intros He Hx. unfold soft_of. rewrite Hx, He. change (leqb QP (B "quoted-printable")) with true. reflexivity.
Qed.

Lemma not_tag c : ~ begin_line c -> ~ end_line c -> is_begin c = false /\ is_end c = false.
Proof.
  intros Hb He. split.
  - destruct (is_begin c) eqn:E; auto. exfalso. apply Hb, is_begin_spec, E.
  - destruct (is_end c) eqn:E; auto. exfalso. apply He, is_end_spec, E.
Qed.

Lemma join_break E u h v c d : qp_head h -> ~ ends_in 92%N v -> more c ->
  (exists y s, d = y :: s /\ is_space y = false) ->
  fold_left (sstep E) [h ++ v ++ [61%N]; c; d] u = fold_left (sstep E) [h ++ v ++ c; d] u.
Proof.
  intros Hh Hv (Hc1 & Hc2 & _ & _ & Hc3 & Hc4) (yd & sd & Hd1 & Hd2).
  destruct (head_ctx h Hh) as (x & He & Hx).
  destruct (starts_dark d yd sd Hd1 Hd2) as [Fd Td].
  destruct Hc1 as (yc & sc & Ec & Sc). destruct (starts_dark c yc sc Ec Sc) as [Fc Tc].
  destruct (not_tag c Hc3 Hc4) as [Bc Nc].
  destruct (head_dark h (v ++ [61%N]) Hh) as (y1 & s1 & E1 & S1). destruct (starts_dark _ y1 s1 E1 S1) as [F1 T1].
  destruct (head_dark h (v ++ c) Hh) as (y2 & s2 & E2 & S2). destruct (starts_dark _ y2 s2 E2 S2) as [F2 T2].
  pose proof (head_no_begin h (v ++ [61%N]) Hh) as B1. pose proof (head_no_end h (v ++ [61%N]) Hh) as N1.
  pose proof (head_no_begin h (v ++ c) Hh) as B2. pose proof (head_no_end h (v ++ c) Hh) as N2.
  set (l1 := h ++ v ++ [61%N]) in *. set (l2 := h ++ v ++ c) in *.
  cbn [fold_left].
  (* both lines swallowed by an earlier soft line break *)
  assert (Hj : forall x0 w m, sstep E (Joining x0 (w ++ l1) m) c = Joining x0 (w ++ l2) m).
  { intros x0 w m. cbn [sstep]. unfold l1, l2. rewrite !app_assoc, ends_with_snoc, chop_snoc. reflexivity. }
  (* both lines become the current line *)
  assert (Hn : forall m, sstep E (sstep E (Normal (lm_dispatch l1 m)) c) d = sstep E (Normal (lm_dispatch l2 m)) d).
  { intros m. unfold lm_dispatch. rewrite B1, N1, B2, N2.
    cbn [sstep]. rewrite Fc, Tc, Fd, Td. cbn [m_in m_line].
    assert (L1 : isnil l1 = false) by (rewrite E1; auto). assert (L2 : isnil l2 = false) by (rewrite E2; auto).
    rewrite L1, L2. cbn [negb]. rewrite andb_true_r.
    destruct (m_in m) eqn:Em.
    - unfold l1 at 1. rewrite (soft_of_qp h (v ++ [61%N]) x He Hx).
      rewrite remove_escapes_app by (auto; intros [H|[]]; discriminate).
      rewrite ends_with_snoc, chop_snoc.
      cbn [sstep]. unfold l2 at 1. rewrite (soft_of_qp h (v ++ c) x He Hx).
      rewrite remove_escapes_app by auto.
      destruct (ends_with [cEQ] (remove_escapes v ++ c)) eqn:Ee; [reflexivity|].
      unfold l2. rewrite (finish_pure_qp E h (v ++ c) x He Hx), remove_escapes_app by auto. reflexivity.
    - unfold lm_dispatch at 1. rewrite Bc, Nc. cbn [sstep m_in m_line m_card m_cards]. rewrite Fd, Td. cbn [andb].
      unfold lm_dispatch. cbn [m_cards m_card m_in]. reflexivity. }
  destruct u as [m|x0 w m].
  - cbn [sstep]. rewrite F1, T1, F2, T2. fold (sstep E).
    destruct (m_in m && negb (isnil (m_line m))); [|apply Hn].
    destruct (soft_of (m_line m)) as [[x0 w]|]; [|apply Hn].
    rewrite Hj. reflexivity.
  - cbn [sstep]. destruct (ends_with [cEQ] w); [rewrite Hj; reflexivity|apply Hn].
Qed.

Lemma more_eq c : more c -> more (c ++ [61%N]).
Proof.
  assert (Htag : forall t, ~ In 61%N t -> forall c, (exists a b, c ++ [61%N] = a ++ b /\ to_lower a = t) ->
    exists a b, c = a ++ b /\ to_lower a = t).
  { intros t Ht c0 (a & b & H & Ha). destruct (exists_last (l := a ++ b)) as (r & z & Hz).
    { rewrite <- H. destruct c0; discriminate. }
    destruct b as [|b0 b].
    - exfalso. rewrite app_nil_r in H. apply Ht. rewrite <- Ha, <- H, to_lower_app. apply in_app_iff. right. left. reflexivity.
    - destruct (exists_last (l := b0 :: b)) as (b' & z' & Hb); [discriminate|]. rewrite Hb in H.
      rewrite app_assoc in H. apply app_inj_tail in H as [-> _]. exists a, b'. auto. }
  intros ((x & r & -> & Hx) & H1 & H2 & H3 & H4 & H5). split; [exists x, (r ++ [61%N]); auto|].
  assert (Hk : forall k, k <> 61%N -> ~ In k (x :: r) -> ~ In k ((x :: r) ++ [61%N])).
  { intros k K1 K2 K3. apply in_app_iff in K3 as [K3|[K3|[]]]; [tauto|congruence]. }
  split; [apply Hk; [discriminate|auto]|]. split; [apply Hk; [discriminate|auto]|]. split; [apply Hk; [discriminate|auto]|].
  split.
  - intros (a & b & H & Ha). apply H4. apply (Htag (B "begin:vcard")); [|exists a, b; auto].
    intros Hi. apply mem_In in Hi. discriminate.
  - intros (a & b & H & Ha). apply H5. apply (Htag (B "end:vcard")); [|exists a, b; auto].
    intros Hi. apply mem_In in Hi. discriminate.
Qed.

Definition dark (d : bytes) : Prop := exists y s, d = y :: s /\ is_space y = false.

Lemma join_breaks E h d : qp_head h -> dark d -> forall cs v u, ~ ends_in 92%N v -> Forall more cs ->
  fold_left (sstep E) (broken (h ++ v) cs ++ [d]) u = fold_left (sstep E) [h ++ v ++ concat cs; d] u.
Proof.
  intros Hh Hd. induction cs as [|c cs IH]; intros v u Hv Hc.
  - cbn [broken concat app]. rewrite app_nil_r. reflexivity.
  - inversion Hc as [|? ? Hc1 Hc2]; subst. cbn [broken app].
    assert (Hv' : ~ ends_in 92%N (v ++ c)).
    { destruct Hc1 as ((x & r & -> & _) & Hn & _). intros [q Hq]. apply Hn.
      destruct (exists_last (l := x :: r)) as (r' & z & Hz); [discriminate|]. rewrite Hz in *.
      rewrite app_assoc in Hq. apply app_inj_tail in Hq as [_ ->]. apply in_app_iff. right. left. reflexivity. }
    assert (Ew : (h ++ v) ++ [61%N] = h ++ v ++ [61%N]) by (rewrite app_assoc; auto). rewrite Ew.
    destruct cs as [|c2 cs].
    + cbn [broken concat app]. rewrite app_nil_r. apply join_break; auto.
    + specialize (IH (v ++ c) u Hv' Hc2).
      assert (Hrest : exists d2 tl, broken c2 cs ++ [d] = d2 :: tl /\ dark d2).
      { inversion Hc2 as [|? ? ((x & r & -> & Hx) & _) _]; subst. destruct cs; cbn [broken app]; do 2 eexists;
          (split; [reflexivity|]); exists x; eexists; (split; [reflexivity|exact Hx]). }
      destruct Hrest as (d2 & tl & Hr & Hd2).
      cbn [broken] in *. cbn [app] in *. rewrite Hr in *.
      change ((h ++ v ++ [61%N]) :: (c ++ [61%N]) :: d2 :: tl) with ([h ++ v ++ [61%N]; c ++ [61%N]; d2] ++ tl).
      rewrite fold_left_app, join_break by (auto using more_eq). rewrite <- fold_left_app. cbn [app].
      replace (h ++ v ++ c ++ [61%N]) with ((h ++ v ++ c) ++ [61%N]) by (rewrite <- !app_assoc; reflexivity).
      rewrite IH. cbn [concat]. rewrite <- !app_assoc. reflexivity.
Qed.

(** ** Texts *)
Definition clean (nl l : bytes) : bytes := strip_cr (l ++ removelast nl).

Lemma physical_text_of nl ls : newline nl -> Forall one_line ls ->
  physical_lines (text_of nl ls) = map (clean nl) ls ++ [[]].
Proof.
  intros Hn. unfold physical_lines, text_of. induction ls as [|l ls IH]; intros Hf; [reflexivity|].
  inversion Hf as [|? ? Hl Hls]; subst. cbn [flat_map].
  assert (En : nl = removelast nl ++ [10%N] /\ ~ In 10%N (removelast nl)).
  { destruct Hn as [->| ->]; cbn; (split; [reflexivity|]); [tauto|]. intros [H|[]]. discriminate. }
  destruct En as [En Nn].
  assert (Et : (l ++ nl) ++ flat_map (fun l => l ++ nl) ls = (l ++ removelast nl) ++ 10%N :: flat_map (fun l => l ++ nl) ls).
  { rewrite En at 1. rewrite <- !app_assoc. reflexivity. }
  etransitivity; [apply (f_equal (fun t => map strip_cr (split 10 t)) Et)|]. cbn beta.
  rewrite split_app_gen, split_notin by (rewrite in_app_iff; unfold one_line in Hl; tauto).
  rewrite map_app. cbn [map app]. f_equal. apply IH; auto.
Qed.

Lemma clean_keep nl l : newline nl -> (forall q, l <> q ++ [13%N]) -> clean nl l = l.
Proof.
  intros Hn Hl. unfold clean. destruct Hn as [->| ->]; cbn [removelast].
  - rewrite app_nil_r. unfold strip_cr. destruct (ends_with [cCR] l) eqn:E; auto.
    apply ends_with_1 in E as [q Hq]. exfalso. eapply Hl. exact Hq.
  - unfold strip_cr. rewrite (proj2 (ends_with_1 cCR (l ++ [13%N]))) by (exists l; auto). apply removelast_last.
Qed.
Lemma clean_dark nl d : newline nl -> dark d -> dark (clean nl d).
Proof.
  intros Hn (y & s & -> & Hy). destruct (exists_last (l := y :: s)) as (r & z & Hz); [discriminate|].
  destruct (N.eq_dec z 13) as [->|Nz].
  - unfold clean. destruct Hn as [->| ->]; cbn [removelast].
    + rewrite app_nil_r, Hz. unfold strip_cr. rewrite (proj2 (ends_with_1 cCR (r ++ [13%N]))) by (exists r; auto).
      unfold chop1. rewrite removelast_last. destruct r as [|y' r].
      * cbn in Hz. injection Hz as -> ->. discriminate.
      * cbn in Hz. injection Hz as <- _. exists y, r. auto.
    + unfold strip_cr. rewrite (proj2 (ends_with_1 cCR ((y :: s) ++ [13%N]))) by (exists (y :: s); auto).
      unfold chop1. rewrite removelast_last. exists y, s. auto.
  - rewrite clean_keep; [exists y, s; auto|auto|]. intros q Hq. rewrite Hq in Hz. apply app_inj_tail in Hz as [_ Hz]. congruence.
Qed.

Lemma more_keep nl c : newline nl -> more c -> clean nl c = c.
Proof.
  intros Hn (_ & _ & H & _). apply clean_keep; auto. intros q ->. apply H, in_app_iff. right. left. auto.
Qed.
Lemma clean_broken nl : newline nl -> forall cs l, cs <> [] -> Forall more cs -> map (clean nl) (broken l cs) = broken l cs.
Proof.
  intros Hn. induction cs as [|c cs IH]; intros l Hne Hf; [congruence|]. inversion Hf; subst. cbn [broken map].
  rewrite clean_keep; [|auto|intros q Hq; apply app_inj_tail in Hq as [_ Hq]; discriminate]. f_equal.
  destruct cs as [|c2 cs]; [cbn [broken map]; rewrite more_keep; auto|]. apply IH; [discriminate|auto].
Qed.
Lemma clean_joined nl l cs : newline nl -> cs <> [] -> Forall more cs -> clean nl (l ++ concat cs) = l ++ concat cs.
Proof.
  intros Hn Hne Hf. apply clean_keep; auto. intros q Hq.
  destruct (exists_last Hne) as (cs' & c & ->). rewrite concat_app in Hq. cbn [concat] in Hq. rewrite app_nil_r, app_assoc in Hq.
  apply Forall_app in Hf as [_ Hf]. inversion Hf as [|? ? ((x & r & Hx & _) & _ & H & _) _]; subst.
  destruct (exists_last (l := x :: r)) as (r' & z & Hz); [discriminate|]. rewrite Hz, app_assoc in Hq.
  apply app_inj_tail in Hq as [_ ->]. apply H. rewrite Hz. apply in_app_iff. right. left. auto.
Qed.

Lemma text_of_lf nl ls : newline nl -> ls <> [] -> In 10%N (text_of nl ls).
Proof.
  intros Hn Hne. destruct ls as [|l ls]; [congruence|]. unfold text_of. cbn [flat_map]. rewrite !in_app_iff.
  left. right. destruct Hn as [->| ->]; cbn; auto.
Qed.

Lemma soft_breaks_joined E nl A h v cs d B :
  newline nl -> Forall one_line (A ++ h :: v :: d :: B) -> qp_head h -> ~ ends_in 92%N v -> Forall more cs -> dark d ->
  let t1 := text_of nl (A ++ broken (h ++ v) cs ++ d :: B) in
  let t2 := text_of nl (A ++ (h ++ v ++ concat cs) :: d :: B) in
  settled t1 -> exists cards, parses_to E t1 cards /\ parses_to E t2 cards.
Proof.
  intros Hn Hf Hh Hv Hc Hd t1 t2 Hs.
  assert (Hp : forall t cards, In 10%N t -> srun E (Normal lm_init) (physical_lines t) = Some cards -> parses_to E t cards).
  { intros t cards Hin Hr. exists (1 + count_occ N.eq_dec t 10%N). apply srun_parses; auto. }
  destruct (settled_srun E t1 Hs) as [cards Hr]. exists cards.
  split; [apply Hp; [apply settled_lf; auto|exact Hr]|].
  destruct cs as [|c cs].
  { cbn [concat] in t2. assert (t2 = t1) as ->; [|apply Hp; [apply settled_lf; auto|exact Hr]].
    unfold t1, t2. cbn [broken app]. rewrite app_nil_r. reflexivity. }
  apply Hp; [apply text_of_lf; auto; destruct A; discriminate|]. rewrite <- Hr.
  apply Forall_app in Hf as [HA Hf]. inversion Hf as [|? ? Lh Hf2]; subst. inversion Hf2 as [|? ? Lv Hf3]; subst.
  assert (Lb : forall cs l, one_line l -> Forall more cs -> Forall one_line (broken l cs)).
  { clear. induction cs as [|c cs IH]; intros l Hl Hc; [repeat constructor; auto|]. inversion Hc as [|? ? Hc1 Hc2]; subst.
    cbn [broken]. constructor; [|apply IH; [|auto]].
    - unfold one_line in *. rewrite in_app_iff. intros [H|[H|[]]]; [tauto|discriminate].
    - destruct Hc1 as (_ & _ & _ & H & _). exact H. }
  assert (Lj : one_line (h ++ v ++ concat (c :: cs))).
  { unfold one_line in *. rewrite !in_app_iff. intros [H|[H|H]]; [tauto|tauto|].
    apply in_concat in H as (x & Hx & Hi). rewrite Forall_forall in Hc. destruct (Hc x Hx) as (_ & _ & _ & H & _). tauto. }
  assert (Lhv : one_line (h ++ v)) by (unfold one_line in *; rewrite in_app_iff; tauto).
  unfold t1, t2. rewrite !physical_text_of; auto.
  - assert (M1 : map (clean nl) (A ++ broken (h ++ v) (c :: cs) ++ d :: B) ++ [[]] =
       map (clean nl) A ++ (broken (h ++ v) (c :: cs) ++ clean nl d :: map (clean nl) B ++ [[]])).
    { rewrite !map_app, (clean_broken nl Hn (c :: cs)) by (auto; discriminate). rewrite <- !app_assoc. reflexivity. }
    assert (M2 : map (clean nl) (A ++ (h ++ v ++ concat (c :: cs)) :: d :: B) ++ [[]] =
       map (clean nl) A ++ ((h ++ v ++ concat (c :: cs)) :: clean nl d :: map (clean nl) B ++ [[]])).
    { rewrite map_app. cbn [map]. rewrite (app_assoc h v), (clean_joined nl (h ++ v)) by (auto; discriminate).
      rewrite <- !app_assoc. reflexivity. }
    rewrite M1, M2.
    rewrite (srun_app E (map (clean nl) A)) by discriminate. rewrite (srun_app E (map (clean nl) A)) by (destruct cs; discriminate).
    set (u := fold_left (sstep E) (map (clean nl) A) (Normal lm_init)).
    assert (Hd2 : dark (clean nl d)) by (apply clean_dark; auto).
    set (R := map (clean nl) B ++ [[]]).
    assert (HR : R <> []) by (unfold R; destruct (map (clean nl) B); discriminate).
    change ((h ++ v ++ concat (c :: cs)) :: clean nl d :: R) with ([h ++ v ++ concat (c :: cs); clean nl d] ++ R).
    replace (broken (h ++ v) (c :: cs) ++ clean nl d :: R) with ((broken (h ++ v) (c :: cs) ++ [clean nl d]) ++ R) by (rewrite <- app_assoc; reflexivity).
    rewrite !srun_app by auto. rewrite join_breaks by auto. reflexivity.
  - apply Forall_app. split; [auto|]. apply Forall_app. split; [apply Lb; auto|auto].
  - apply Forall_app. split; [auto|]. constructor; auto.
Qed.
