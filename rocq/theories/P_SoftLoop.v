(** A soft line break on the last line before the end: the parser never returns (C02). *)
From Verif Require Import Base BaseFacts Utf8 Utf8Facts M_ParamMap M_VCard M_VCardText S_Escape P_Escape S_Parse P_Parse P_Parse2
  S_Soft P_Soft.

Definition at_line (m : lm) (pre : bytes) (ls : list bytes) : lstate := st_of m (pos pre) (pos pre + pos (hd [] ls)).

Lemma not_finished pre l ls m : (l_start (at_line m pre (l :: ls)) =? Z.of_nat (length (pre ++ join [cLF] (l :: ls))) + 1)%Z = false.
Proof.
  apply Z.eqb_neq. unfold at_line, st_of, pos. cbn [l_start]. rewrite app_length. lia.
Qed.

(** one round on a line that is not parsed together with the next one *)
Lemma loop_one E n pre l l2 ls m : Forall (fun l => ~ In cLF l) (l :: l2 :: ls) -> quiet (m_line m) ->
  let text := pre ++ join [cLF] (l :: l2 :: ls) in
  parse_loop E (S n) text (at_line m pre (l :: l2 :: ls)) =
  parse_loop E n text (at_line (lm_step E m (strip_cr l)) (pre ++ l ++ [cLF]) (l2 :: ls)).
Proof.
  intros Hf Hq text. cbn [parse_loop].
  assert (Hnf : (l_start (at_line m pre (l :: l2 :: ls)) =? Z.of_nat (length text) + 1)%Z = false) by apply not_finished.
  rewrite Hnf. unfold at_line. cbn [hd].
  assert (Hcur : qmid (pos pre) (pos pre + pos l - pos pre) text = l) by apply cur_at.
  rewrite body_lm by auto. rewrite Hcur. unfold text. rewrite advance_at by auto. reflexivity.
Qed.

Definition Raw (nl l : bytes) : bytes := l ++ removelast nl.

(** the machine does not meet a soft line break on lines that do not end in '=' *)
Lemma step_line E m p : ~ ends_eq (m_line m) -> ~ ends_eq p -> ~ ends_eq (m_line (lm_step E m p)).
Proof.
  intros Hm Hp. unfold lm_step. destruct (is_folded p) eqn:Ef.
  - cbn [m_line]. apply is_folded_spec in Ef as (c & r & -> & _). change (mid 1 (c :: r)) with r.
    destruct r as [|y r]; [rewrite app_nil_r; auto|]. intros H. apply ends_eq_app in H; [|discriminate].
    apply Hp. destruct H as [q ->]. exists (c :: q). auto.
  - destruct (isnil (trimmed p)); [auto|]. apply dispatch_line, Hp.
Qed.
Lemma line_quiet s : ~ ends_eq s -> quiet s.
Proof. intros H. apply no_soft_break_quiet. intros [_ Hs]. apply H, Hs. Qed.

Lemma walk E text : forall ls rest fuel pre m, rest <> [] -> text = pre ++ join [cLF] (ls ++ rest) ->
  Forall (fun l => ~ In cLF l) (ls ++ rest) -> Forall (fun l => ~ ends_eq (strip_cr l)) ls -> ~ ends_eq (m_line m) ->
  (forall n pre', n <= fuel -> text = pre' ++ join [cLF] rest ->
     parse_loop E n text (at_line (lm_run E m (map strip_cr ls)) pre' rest) = None) ->
  parse_loop E fuel text (at_line m pre (ls ++ rest)) = None.
Proof.
  induction ls as [|l ls IH]; intros rest fuel pre m Hr Ht Hf Hl Hm Hk.
  - apply Hk; auto.
  - cbn [app] in *. destruct (ls ++ rest) as [|l2 r2] eqn:Er; [destruct ls; [contradiction|discriminate]|].
    destruct fuel as [|n].
    { cbn [parse_loop]. rewrite Ht. rewrite not_finished. reflexivity. }
    rewrite Ht. rewrite loop_one by (auto using line_quiet). rewrite <- Ht.
    apply Forall_inv_tail in Hf. pose proof (Forall_inv Hl) as Hl1. apply Forall_inv_tail in Hl.
    rewrite <- Er. apply IH; auto.
    + rewrite Ht, (join_cons [cLF] l) by discriminate. rewrite Er, <- !app_assoc. reflexivity.
    + rewrite Er. auto.
    + apply step_line; auto.
Qed.

(** the last line *)
Lemma last_round E fuel text pre m h v d raw : text = pre ++ join [cLF] [raw; []] -> ~ In cLF raw -> strip_cr raw = d ->
  qp_head h -> ~ ends_in 92%N v -> end_line d -> ~ ends_eq d ->
  m_in m = true -> m_line m = h ++ v ++ [61%N] ->
  (forall n cards, n < fuel ->
     parse_loop E n text (mkL 0 (index_from cLF 0 text) [] [] cards false) = None) ->
  parse_loop E fuel text (at_line m pre [raw; []]) = None.
Proof.
  intros Ht Hraw Hd Hh Hv He Hnd Hin Hline Hk.
  destruct fuel as [|n].
  { cbn [parse_loop]. rewrite Ht, not_finished. reflexivity. }
  cbn [parse_loop]. rewrite Ht at 1. rewrite not_finished.
  unfold body, at_line, st_of. cbn [l_start l_end l_line l_card l_cards l_in hd].
  assert (Hcur : qmid (pos pre) (pos pre + pos raw - pos pre) text = raw) by (rewrite Ht; apply cur_at).
  rewrite Hcur, Hd.
  assert (Hdark : exists y s, d = y :: s /\ is_space y = false).
  { destruct He as (a & b & Hab & Ha). destruct a as [|y a]; [discriminate|]. exists y, (a ++ b). split; [exact Hab|].
    cbn in Ha. injection Ha as Hy _. unfold lower1 in Hy. destruct (is_upper y) eqn:Eu.
    - assert (y = 69%N) as -> by lia. reflexivity.
    - rewrite Hy. reflexivity. }
  destruct Hdark as (y & s & Ey & Sy). destruct (starts_dark d y s Ey Sy) as [Fd Td]. rewrite Fd, Td, Hin.
  assert (Hne : isnil (m_line m) = false) by (rewrite Hline; destruct Hh as (? & ? & -> & (? & ? & -> & _) & _); reflexivity).
  rewrite Hne. cbn [negb andb].
  destruct (head_ctx h Hh) as (x & Hx1 & Hx2).
  assert (Hs : soft_of (m_line m) = Some (x, remove_escapes v ++ [61%N])).
  { rewrite Hline, (soft_of_qp h _ x Hx1 Hx2), remove_escapes_app by (auto; intros [H|[]]; discriminate).
    rewrite ends_with_snoc. reflexivity. }
  destruct (parse_line_soft E n text (m_line m) (mkF (pos pre) (pos pre + pos raw) d) _ _ Hs) as [_ ->].
  destruct n as [|n]; [cbn [qp_join]; rewrite ends_with_snoc; reflexivity|].
  cbn [qp_join]. rewrite ends_with_snoc, chop_snoc. unfold fetch. cbn [f_end f_cur].
  assert (Hlen : (pos pre + pos raw + 1)%Z = Z.of_nat (length text)).
  { rewrite Ht. unfold pos. cbn [join]. rewrite !app_length. cbn [length]. lia. }
  assert (Hi : index_from cLF (pos pre + pos raw + 1) text = (-1)%Z).
  { rewrite Hlen. unfold index_from. rewrite Nat2Z.id, skipn_all2 by auto. reflexivity. }
  rewrite Hi. cbn [Z.eqb]. change (Pos.eqb 1 1) with true. cbn iota.
  assert (Hj : ends_with [cEQ] (remove_escapes v ++ d) = false).
  { destruct (ends_with [cEQ] (remove_escapes v ++ d)) eqn:Ee; auto. exfalso. apply Hnd.
    apply ends_with_1 in Ee. apply (ends_eq_app (remove_escapes v)); auto. rewrite Ey. discriminate. }
  rewrite qp_join_quiet by exact Hj.
  unfold dispatch. cbn [f_cur f_start f_end l_cards l_card l_in].
  assert (Hb : is_begin d = false).
  { destruct (is_begin d) eqn:Eb; auto. exfalso. apply is_begin_spec in Eb as (a & b & Hab & Ha).
    destruct He as (a' & b' & Hab' & Ha'). rewrite Hab in Hab'. destruct a as [|z a]; [discriminate|]. destruct a' as [|z' a']; [discriminate|].
    cbn in Hab'. injection Hab' as <- _. cbn in Ha, Ha'. injection Ha as Ha _. injection Ha' as Ha' _. rewrite Ha in Ha'. discriminate. }
  rewrite Hb, (proj2 (is_end_spec d) He).
  unfold advance. cbn [l_end l_line l_card l_cards l_in]. change (-1 + 1)%Z with 0%Z.
  assert (Hlf : (index_from cLF 0 text =? -1)%Z = false).
  { apply Z.eqb_neq. unfold index_from. cbn [Z.to_nat skipn]. destruct (index_of cLF text) eqn:Ei; [lia|].
    exfalso. apply index_of_None in Ei. apply Ei. rewrite Ht. cbn [join]. rewrite !in_app_iff. cbn. auto. }
  rewrite Hlf. apply Hk. lia.
Qed.

(** ** A whole pass *)
Lemma raw_strip nl l : newline nl -> ~ In 13%N l -> strip_cr (Raw nl l) = l.
Proof. intros Hn Hl. apply (clean_keep nl l Hn). intros q ->. apply Hl, in_app_iff. right. left. auto. Qed.
Lemma join_raw nl ls : newline nl -> text_of nl ls = join [cLF] (map (Raw nl) ls ++ [[]]).
Proof.
  intros Hn. unfold text_of. induction ls as [|l ls IH]; [reflexivity|]. cbn [map app flat_map].
  rewrite (join_cons [cLF] (Raw nl l)) by (destruct (map (Raw nl) ls); discriminate).
  unfold Raw at 1. etransitivity; [|apply (f_equal (fun t => (l ++ removelast nl) ++ [cLF] ++ t) IH)].
  rewrite <- !app_assoc. f_equal. rewrite app_assoc. f_equal. destruct Hn as [->| ->]; reflexivity.
Qed.

Lemma run_in E : forall ls m, Forall (fun p => ~ end_line p) ls -> m_in m = true -> m_in (lm_run E m ls) = true.
Proof.
  induction ls as [|p ls IH]; intros m Hf Hm; [exact Hm|]. pose proof (Forall_inv Hf) as Hp. apply Forall_inv_tail in Hf.
  cbn [lm_run fold_left]. apply IH; [auto|]. unfold lm_step. destruct (is_folded p); [exact Hm|].
  destruct (isnil (trimmed p)); [exact Hm|]. unfold lm_dispatch. destruct (is_begin p); [reflexivity|].
  destruct (is_end p) eqn:Ee; [exfalso; apply Hp, is_end_spec, Ee|].
  destruct (m_in m && negb (isnil (m_line m))); exact Hm.
Qed.
Lemma begin_dark b : begin_line b -> is_folded b = false /\ isnil (trimmed b) = false.
Proof.
  intros (a & r & Hb & Ha). destruct a as [|y a]; [discriminate|]. cbn [app] in Hb.
  apply (starts_dark b y (a ++ r) Hb). cbn in Ha. injection Ha as Hy _. unfold lower1 in Hy. destruct (is_upper y) eqn:Eu.
  - assert (y = 66%N) as -> by lia. reflexivity.
  - rewrite Hy. reflexivity.
Qed.
Lemma run_begin E m A0 b A1 : begin_line b -> Forall (fun p => ~ end_line p) A1 -> m_in (lm_run E m (A0 ++ b :: A1)) = true.
Proof.
  intros Hb Hf. rewrite lm_run_app. cbn [lm_run fold_left]. apply run_in; auto.
  unfold lm_step. destruct (begin_dark b Hb) as [-> ->]. unfold lm_dispatch. rewrite (proj2 (is_begin_spec b) Hb). reflexivity.
Qed.

Definition plain_line (l : bytes) : Prop := ~ In 10%N l /\ ~ In 13%N l.

Lemma diverges E nl A0 b A1 h v d : newline nl -> Forall plain_line (A0 ++ b :: A1 ++ [h; v; d]) ->
  Forall (fun l => ~ ends_eq l) (A0 ++ b :: A1) -> begin_line b -> Forall (fun p => ~ end_line p) A1 ->
  qp_head h -> ~ ends_in 92%N v -> end_line d -> ~ ends_eq d ->
  forall fuel, parse_vcards E fuel (text_of nl (A0 ++ b :: A1 ++ [h ++ v ++ [61%N]; d])) = None.
Proof.
  intros Hn Hp Hl Hb He Hh Hv Hd Hnd fuel.
  set (text := text_of nl _). unfold parse_vcards, parse_init.
  set (A := A0 ++ b :: A1) in *.
  set (l := h ++ v ++ [61%N]) in *.
  assert (Hp2 : Forall plain_line (A ++ [l; d])).
  { assert (Hp' : Forall plain_line (A ++ [h; v; d])) by (unfold A; rewrite <- app_assoc; exact Hp).
    apply Forall_app in Hp' as [P2 P3]. apply Forall_app. split; [exact P2|].
    inversion P3 as [|? ? [X1 X2] P4]; subst. inversion P4 as [|? ? [Y1 Y2] P5]; subst. constructor; [|exact P5].
    unfold plain_line, l. split; intros H; apply in_app_iff in H as [H|H]; try tauto; apply in_app_iff in H as [H|H]; try tauto;
      destruct H as [H|[]]; discriminate. }
  assert (Et : text = join [cLF] (map (Raw nl) A ++ [Raw nl l; Raw nl d; []])).
  { unfold text. replace (A0 ++ b :: A1 ++ [l; d]) with (A ++ [l; d]) by (unfold A; rewrite <- app_assoc; reflexivity).
    rewrite join_raw by auto. rewrite map_app. cbn [map]. rewrite <- app_assoc. reflexivity. }
  assert (Hraw : Forall (fun l => ~ In cLF l) (map (Raw nl) A ++ [Raw nl l; Raw nl d; []])).
  { assert (H : Forall (fun l => ~ In cLF l) (map (Raw nl) (A ++ [l; d]))).
    { apply Forall_map. eapply Forall_impl; [|exact Hp2]. intros z [Hz _]. unfold Raw. rewrite in_app_iff. intros [H|H]; [exact (Hz H)|].
      destruct Hn as [->| ->]; cbn in H; [exact H|]. destruct H as [H|[]]. discriminate. }
    rewrite map_app in H. apply Forall_app in H as [H1 H2]. apply Forall_app. split; [exact H1|].
    cbn [map] in H2. inversion H2 as [|? ? X1 X2]; subst. inversion X2 as [|? ? Y1 Y2]; subst.
    constructor; [exact X1|]. constructor; [exact Y1|]. constructor; [intros []|constructor]. }
  assert (Hstrip : forall z, In z (A ++ [l; d]) -> strip_cr (Raw nl z) = z).
  { intros z Hz. rewrite Forall_forall in Hp2. apply raw_strip; [auto|]. apply (Hp2 z Hz). }
  assert (HmapA : map strip_cr (map (Raw nl) A) = A).
  { rewrite map_map. rewrite <- (map_id A) at 2. apply map_ext_in. intros z Hz. apply Hstrip, in_app_iff. auto. }
  (* every pass, whatever cards were collected before *)
  assert (Hpass : forall k n cards, n <= k -> parse_loop E n text (mkL 0 (index_from cLF 0 text) [] [] cards false) = None).
  { induction k as [|k IH]; intros n cards Hk.
    all: set (m0 := mkLM [] [] cards false).
    all: assert (Hst : mkL 0 (index_from cLF 0 text) [] [] cards false = at_line m0 [] (map (Raw nl) A ++ [Raw nl l; Raw nl d; []])).
    1, 3: unfold at_line, st_of, m0; cbn [m_line m_card m_cards m_in]; f_equal; rewrite Et;
      destruct (map (Raw nl) A) as [|z zs] eqn:Ez; [destruct A0; discriminate|];
      cbn [app hd]; rewrite (join_cons [cLF] z) by (destruct zs; discriminate);
      apply Forall_inv in Hraw; apply (index_from_app [] z); exact Hraw.
    all: rewrite Hst.
    - assert (n = 0) as -> by lia. destruct (map (Raw nl) A ++ [Raw nl l; Raw nl d; []]) as [|z zs] eqn:Ez; [destruct A0; discriminate|].
      cbn [parse_loop]. rewrite Et. rewrite (not_finished [] z zs). reflexivity.
    - replace (map (Raw nl) A ++ [Raw nl l; Raw nl d; []]) with ((map (Raw nl) A) ++ [Raw nl l; Raw nl d; []]) by reflexivity.
      apply walk; [discriminate|exact Et|exact Hraw| |apply not_ends_nil|].
      + apply Forall_map. rewrite Forall_forall. intros z Hz. rewrite Hstrip by (apply in_app_iff; auto).
        rewrite Forall_forall in Hl. auto.
      + intros n1 pre1 Hn1 Ht1. rewrite HmapA. set (m1 := lm_run E m0 A).
        assert (Hm1 : m_in m1 = true) by (apply run_begin; auto).
        assert (Hm1l : ~ ends_eq (m_line m1)).
        { unfold m1. clear - Hl. assert (G : forall ls m, Forall (fun l => ~ ends_eq l) ls -> ~ ends_eq (m_line m) -> ~ ends_eq (m_line (lm_run E m ls))).
          { induction ls as [|p ls IH]; intros m Hf Hm; [exact Hm|]. cbn [lm_run fold_left]. apply IH; [apply Forall_inv_tail in Hf; auto|].
            apply step_line; [auto|apply Forall_inv in Hf; auto]. }
          apply G; [exact Hl|apply not_ends_nil]. }
        destruct n1 as [|n1].
        { cbn [parse_loop]. rewrite Ht1, not_finished. reflexivity. }
        assert (Hf3 : Forall (fun l => ~ In cLF l) [Raw nl l; Raw nl d; []]) by (apply Forall_app in Hraw as [_ Hraw]; exact Hraw).
        assert (HL : parse_loop E (S n1) text (at_line m1 pre1 [Raw nl l; Raw nl d; []]) =
          parse_loop E n1 text (at_line (lm_step E m1 (strip_cr (Raw nl l))) (pre1 ++ Raw nl l ++ [cLF]) [Raw nl d; []])).
        { rewrite Ht1. apply loop_one; [exact Hf3|exact (line_quiet _ Hm1l)]. }
        etransitivity; [exact HL|]. clear HL.
        rewrite Hstrip by (apply in_app_iff; right; left; auto).
        eapply (last_round E n1 text _ _ h v d (Raw nl d)); auto.
        * rewrite Ht1. rewrite (join_cons [cLF] (Raw nl l)) by discriminate. rewrite <- !app_assoc. reflexivity.
        * apply Forall_inv_tail, Forall_inv in Hf3. exact Hf3.
        * apply Hstrip, in_app_iff. right. right. left. auto.
        * unfold lm_step. destruct (head_dark h (v ++ [61%N]) Hh) as (y1 & s1 & E1 & S1). fold l in E1.
          destruct (starts_dark l y1 s1 E1 S1) as [-> ->]. unfold lm_dispatch.
          unfold l. rewrite (head_no_begin h _ Hh), (head_no_end h _ Hh). destruct (m_in m1 && negb (isnil (m_line m1))); exact Hm1.
        * unfold lm_step. destruct (head_dark h (v ++ [61%N]) Hh) as (y1 & s1 & E1 & S1). fold l in E1.
          destruct (starts_dark l y1 s1 E1 S1) as [-> ->]. unfold lm_dispatch.
          unfold l. rewrite (head_no_begin h _ Hh), (head_no_end h _ Hh). destruct (m_in m1 && negb (isnil (m_line m1))); reflexivity.
        * intros n2 cards2 Hn2. apply IH. lia. }
  apply (Hpass fuel); auto.
Qed.
