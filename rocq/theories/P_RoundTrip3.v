(** Round trip of whole cards through text (C06). *)
From Verif Require Import Base BaseFacts Utf8 Utf8Facts M_ParamMap M_VCard M_VCardText
  S_Escape P_Escape S_Fold P_Fold S_CardText P_CardText S_Card P_Assoc P_Card S_Parse P_Parse P_Parse2
  S_RoundTrip P_RoundTrip P_RoundTrip2.

(** ** the first physical line is never empty *)
Lemma fix_line_size_head c t mb : (c < 128)%N -> exists r, fix_line_size (c :: t) mb = c :: r.
Proof.
  intros Hc. unfold fix_line_size. destruct (FOLD_WIDTH <? _); [|cbn; eauto]. destruct mb.
  - cbn [fold_mb]. destruct (leads c ltac:(lia)) as [-> _]. rewrite (proj2 (N.leb_gt _ _)) by lia.
    destruct (put_break t (0 + 1)) as [o' k']. cbn [app]. eauto.
  - unfold fold_plain. rewrite Nat.add_1_r. cbn [seq flat_map]. change (0 =? 0) with true. cbn iota.
    change (mid_len (0 * FOLD_WIDTH) FOLD_WIDTH (c :: t)) with (c :: firstn 74 t). cbn [app]. eauto.
Qed.
Lemma first_chunk c t mb c0 cs : (c < 128)%N -> c <> 13%N ->
  fix_line_size (c :: t) mb = join foldsep (c0 :: cs) ++ crlf -> List.concat (c0 :: cs) = c :: t ->
  exists r, c0 = c :: r.
Proof.
  intros Hc Hcr H Hs. destruct (fix_line_size_head c t mb Hc) as [r Hr]. rewrite Hr in H.
  destruct c0 as [|x c0].
  - exfalso. destruct cs as [|c1 cs].
    + cbn in Hs. discriminate.
    + rewrite join_cons in H by discriminate. cbn in H. injection H as H _. congruence.
  - exists c0. cbn in Hs. injection Hs as -> _. auto.
Qed.

(** ** the name part *)
Lemma first_sep (x : N) (a b c d : bytes) : ~ In x a -> ~ In x c -> a ++ x :: b = c ++ x :: d -> a = c /\ b = d.
Proof.
  intros Ha Hc H.
  pose proof (index_of_app_notin x a b Ha) as H1. rewrite H, index_of_app_notin in H1 by auto.
  injection H1 as H1.
  assert (a = c).
  { rewrite <- (firstn_app_exact a (x :: b)), H, <- H1. apply firstn_app_exact. }
  subst. apply app_inv_head in H. injection H as ->. auto.
Qed.

Lemma upper_in_key c p : Forall key_char p -> In c (to_upper p) -> (33 <= c <= 126)%N /\ c <> 58%N.
Proof.
  intros Hp H. unfold to_upper in H. apply in_map_iff in H as (x & E & H). rewrite Forall_forall in Hp.
  destruct (Hp _ H) as ([H1 H1'] & H2 & H3). cbn in H2. unfold upper1, is_lower in E.
  destruct ((97 <=? x)%N && (x <=? 122)%N) eqn:El; subst c; [lia|]. split; [lia|]. intros ->. apply H2; auto.
Qed.
Lemma params_text_in c l : wf_params (vl_params l) -> In c (params_text l) -> (32 <= c < 256)%N /\ c <> 58%N.
Proof.
  intros Hp H. rewrite params_text_pvs in H by auto. apply in_flat_map in H as (pv & Hin & H).
  pose proof (pvs_of_ok _ Hp) as Hok. rewrite Forall_forall in Hok. destruct (Hok _ Hin) as [Hk Hv].
  unfold pv_text in H. rewrite !in_app_iff in H. destruct H as [[H|[]]|[H|[[H|[]]|H]]].
  - unfold cSEMI in H. lia.
  - apply upper_in_key in H; auto. lia.
  - unfold cEQ in H. lia.
  - rewrite Forall_forall in Hv. destruct (Hv _ H) as [H1 H2]. cbn in H2. split; [lia|]. intros ->. apply H2; auto.
Qed.
Lemma name_in c s : Forall name_char s -> In c s -> (33 <= c <= 126)%N /\ c <> 58%N /\ c <> 46%N /\ c <> 59%N.
Proof.
  intros H Hin. rewrite Forall_forall in H. destruct (H _ Hin) as [[H1 H1'] H2]. cbn in H2.
  repeat split; try lia; intros ->; apply H2; auto.
Qed.
Lemma header_in c l : wf_name (vl_id l) -> Forall name_char (vl_group l) -> wf_params (vl_params l) ->
  In c (header_text l) -> (32 <= c < 256)%N /\ c <> 58%N.
Proof.
  intros [_ Hi] Hg Hp H. unfold header_text in H. rewrite (name_latin1 _ Hi), (name_latin1 _ Hg) in H.
  apply in_app_iff in H as [H|H]; [|eapply params_text_in; eauto].
  assert (H' : In c (vl_group l) \/ c = 46%N \/ In c (vl_id l)).
  { destruct (vl_has_group l); auto. rewrite !in_app_iff in H. destruct H as [H|[[H|[]]|H]]; auto. }
  destruct H' as [H'|[->|H']]; try (apply name_in in H'; auto); lia.
Qed.
Lemma header_head l : wf_name (vl_id l) -> Forall name_char (vl_group l) ->
  exists c t, header_text l = c :: t /\ (33 <= c <= 126)%N.
Proof.
  intros [Hne Hi] Hg. unfold header_text. rewrite (name_latin1 _ Hi), (name_latin1 _ Hg).
  destruct (vl_id l) as [|i it]; [congruence|]. unfold vl_has_group.
  destruct (vl_group l) as [|g gt]; cbn [isnil negb app].
  - eexists; eexists; split; eauto. apply (name_in i (i :: it) Hi). left; auto.
  - eexists; eexists; split; eauto. apply (name_in g (g :: gt) Hg). left; auto.
Qed.
Lemma header_lower l k : wf_name (vl_id l) -> Forall name_char (vl_group l) -> wf_params (vl_params l) ->
  to_lower (header_text l) = k -> ~ In 46%N k -> ~ In 59%N k -> to_lower (vl_id l) = k.
Proof.
  intros [_ Hi] Hg Hp H H1 H2. unfold header_text in H. rewrite (name_latin1 _ Hi), (name_latin1 _ Hg) in H.
  rewrite to_lower_app in H.
  assert (Hpt : params_text l = []).
  { rewrite params_text_pvs in * by auto. destruct (pvs_of (vl_params l)) as [|pv r]; auto. exfalso. apply H2.
    rewrite <- H. apply in_app_iff. right. cbn. left. auto. }
  rewrite Hpt in H. cbn [to_lower map] in H. rewrite app_nil_r in H.
  destruct (vl_has_group l); auto. exfalso. apply H1. rewrite <- H, !to_lower_app, !in_app_iff. right; left. cbn; auto.
Qed.
Lemma lower_in58 s : In 58%N (to_lower s) -> In 58%N s.
Proof.
  unfold to_lower. rewrite in_map_iff. intros (x & E & H). unfold lower1, is_upper in E.
  destruct ((65 <=? x)%N && (x <=? 90)%N) eqn:El; [exfalso; lia|subst; auto].
Qed.
Lemma not_marker l out k a b : wf_name (vl_id l) -> Forall name_char (vl_group l) -> wf_params (vl_params l) ->
  to_lower (vl_id l) <> k -> ~ In 46%N k -> ~ In 59%N k -> ~ In 58%N k ->
  header_text l ++ [cCOLON] ++ out = a ++ b -> to_lower a = k ++ cCOLON :: B "vcard" -> False.
Proof.
  intros Hi Hg Hp Hne H46 H59 H58 Heq Ha. apply (f_equal to_lower) in Heq. rewrite !to_lower_app, Ha in Heq.
  rewrite <- app_assoc in Heq. cbn [app] in Heq.
  change (to_lower [cCOLON]) with [cCOLON] in Heq. cbn [app] in Heq.
  apply first_sep in Heq as [Heq _]; auto.
  - apply Hne. eapply header_lower; eauto.
  - intros H. apply lower_in58 in H. apply header_in in H; auto. destruct H. congruence.
Qed.

(** ** one property line *)
Lemma physical_terminated ls : Forall (fun l => ~ In 13%N l /\ ~ In 10%N l) ls ->
  physical_lines (terminated ls) = ls ++ [[]].
Proof.
  unfold physical_lines. induction ls as [|l ls IH]; intros H; auto. inversion H as [|? ? [H1 H2] H3]; subst.
  replace (terminated (l :: ls)) with ((l ++ [13%N]) ++ 10%N :: terminated ls)
    by (cbn [terminated flat_map]; unfold crlf, cCR, cLF; rewrite <- !app_assoc; reflexivity).
  rewrite split_app.
  - cbn [map]. rewrite IH by auto. unfold strip_cr, cCR.
    rewrite (proj2 (ends_with_1 13 (l ++ [13%N]))) by eauto. unfold chop1. rewrite removelast_last. reflexivity.
  - rewrite in_app_iff. intros [?|[?|[]]]; [auto|discriminate].
Qed.

Definition pend (E : Ext) (m : lm) : vcard :=
  if isnil (m_line m) then m_card m else add_line (parse_pure E (m_line m)) (m_card m).
Definition Inv (m : lm) : Prop := m_in m = true /\ quiet (m_line m).

Lemma run_folds E cs : forall m, lm_run E m (map (cons 32%N) cs) = mkLM (m_line m ++ List.concat cs) (m_card m) (m_cards m) (m_in m).
Proof.
  induction cs as [|c cs IH]; intros m; cbn [map lm_run fold_left].
  - cbn. rewrite app_nil_r. destruct m; auto.
  - fold (lm_run E). change (fold_left (lm_step E)) with (fun l m => lm_run E m l). cbn beta. rewrite IH.
    unfold lm_step. change (is_folded (32%N :: c)) with true. cbn. rewrite app_assoc. auto.
Qed.
Lemma quiet_folds E cs : forall m, lm_quiet m E (map (cons 32%N) cs).
Proof. induction cs as [|c cs IH]; intros m; cbn [map lm_quiet]; auto. split; auto. intros H. discriminate. Qed.

Lemma wf_has_value E l : wf_value E l -> has_value l.
Proof. intros H. unfold has_value. destruct H as [u H|b e H|u e H|u cs enc dec H]; rewrite H; discriminate. Qed.

Lemma line_step E l : wf_line E l ->
  exists ls, line_text E l = terminated ls /\ Forall (fun x => ~ In 13%N x /\ ~ In 10%N x) ls /\
    forall m, Inv m -> lm_quiet m E ls /\ Inv (lm_run E m ls) /\
      pend E (lm_run E m ls) = add_line l (pend E m) /\ m_cards (lm_run E m ls) = m_cards m.
Proof.
  intros Hwf. destruct (line_reads_back E l Hwf) as (Hne & Hparse & Hquiet).
  destruct Hwf as (Hid & Hb & He & Hg & Hp & _ & Hv).
  rewrite line_text_value by (eapply wf_has_value; eauto). rewrite (proj2 (isnil_false _) Hne).
  fold (logical E l). destruct (fix_line_size_chunks (logical E l) (snd (value_text E l))) as (c0 & cs & Hf & Hc & _).
  exists (c0 :: map (cons 32%N) cs). rewrite Hf, join_terminated. split; auto.
  assert (Hno : forall c, (c = 13 \/ c = 10)%N -> ~ In c (logical E l)).
  { intros c Hc' H. unfold logical in H. rewrite !in_app_iff in H. destruct H as [H|[[H|[]]|H]].
    - apply header_in in H; auto. lia.
    - unfold cCOLON in H. lia.
    - revert H. apply value_text_no. auto. }
  assert (Hno' : forall c x, (c = 13 \/ c = 10)%N -> In x (c0 :: cs) -> ~ In c x).
  { intros c x Hc' Hx H. apply (Hno c Hc'). rewrite <- Hc. eapply in_concat_chunk; eauto. }
  split.
  { constructor; [split; apply Hno'; auto; left; auto|]. apply Forall_forall. intros x Hx.
    apply in_map_iff in Hx as (y & <- & Hy). split; (intros [H|H]; [discriminate|]).
    - apply (Hno' 13%N y); auto. right; auto.
    - apply (Hno' 10%N y); auto. right; auto. }
  destruct (header_head l Hid Hg) as (h & ht & Eh & Hh).
  assert (Hl : logical E l = h :: ht ++ [cCOLON] ++ fst (value_text E l)) by (unfold logical; rewrite Eh; auto).
  destruct (first_chunk h (ht ++ [cCOLON] ++ fst (value_text E l)) (snd (value_text E l)) c0 cs) as [r Hr];
    [lia|lia|rewrite <- Hl; auto|rewrite <- Hl; auto|].
  assert (Hnf : is_folded c0 = false).
  { destruct (is_folded c0) eqn:E1; auto. apply is_folded_spec in E1 as (c & r' & E1 & E2). rewrite Hr in E1.
    injection E1 as -> _. lia. }
  assert (Hnb : isnil (trimmed c0) = false).
  { destruct (isnil (trimmed c0)) eqn:E1; auto. apply trimmed_nil in E1. rewrite Hr in E1. inversion E1; subst.
    unfold is_space in *. lia. }
  assert (Hmark : forall k, to_lower (vl_id l) <> k -> ~ In 46%N k -> ~ In 59%N k -> ~ In 58%N k ->
            ~ exists a b, c0 = a ++ b /\ to_lower a = k ++ cCOLON :: B "vcard").
  { intros k Hk H1 H2 H3 (a & b & E1 & E2).
    eapply (not_marker l (fst (value_text E l)) k a (b ++ List.concat cs)); eauto.
    unfold logical in Hc. rewrite <- Hc. cbn [List.concat]. rewrite E1, <- app_assoc. auto. }
  assert (Hbeg : is_begin c0 = false).
  { destruct (is_begin c0) eqn:E1; auto. apply is_begin_spec in E1. exfalso.
    apply (Hmark (B "begin")); auto; apply mem_false; reflexivity. }
  assert (Hend : is_end c0 = false).
  { destruct (is_end c0) eqn:E1; auto. apply is_end_spec in E1. exfalso.
    apply (Hmark (B "end")); auto; apply mem_false; reflexivity. }
  assert (Hstep : forall m, m_in m = true -> lm_step E m c0 = mkLM c0 (pend E m) (m_cards m) true).
  { intros m Hm. unfold lm_step, lm_dispatch, pend. rewrite Hnf, Hnb, Hbeg, Hend, Hm. cbn [andb].
    destruct (isnil (m_line m)); cbn; rewrite ?Hm; auto. }
  assert (Hrun : forall m, m_in m = true -> lm_run E m (c0 :: map (cons 32%N) cs) = mkLM (logical E l) (pend E m) (m_cards m) true).
  { intros m Hm. change (lm_run E m (c0 :: map (cons 32%N) cs)) with (lm_run E (lm_step E m c0) (map (cons 32%N) cs)).
    rewrite Hstep, run_folds by auto. cbn. f_equal. exact Hc. }
  intros m [Hm Hq]. rewrite Hrun by auto. split; [|split; [|split]].
  - cbn [lm_quiet]. split; auto. apply quiet_folds.
  - split; auto.
  - unfold pend at 1. cbn [m_line m_card]. rewrite Hparse. rewrite (proj2 (isnil_false _)); auto. rewrite Hl; discriminate.
  - auto.
Qed.

Lemma lines_step E lines : Forall (wf_line E) lines ->
  exists ls, flat_map (line_text E) lines = terminated ls /\ Forall (fun x => ~ In 13%N x /\ ~ In 10%N x) ls /\
    forall m, Inv m -> lm_quiet m E ls /\ Inv (lm_run E m ls) /\
      pend E (lm_run E m ls) = fold_left (fun c l => add_line l c) lines (pend E m) /\ m_cards (lm_run E m ls) = m_cards m.
Proof.
  induction lines as [|l lines IH]; intros H.
  - exists []. split; auto. split; auto. intros m Hm. repeat split; cbn; auto; apply Hm.
  - inversion H as [|? ? H1 H2]; subst. destruct (line_step E l H1) as (l1 & E1 & F1 & R1).
    destruct (IH H2) as (l2 & E2 & F2 & R2). exists (l1 ++ l2). cbn [flat_map]. rewrite E1, E2, terminated_app.
    split; auto. split; [apply Forall_app; auto|]. intros m Hm. rewrite lm_run_app.
    destruct (R1 m Hm) as (Q1 & I1 & P1 & C1). destruct (R2 _ I1) as (Q2 & I2 & P2 & C2).
    split; [apply lm_quiet_app; auto|]. split; auto. split; [|congruence]. cbn [fold_left]. rewrite P2, P1. auto.
Qed.

(** ** whole cards *)
Definition written (c : vcard) : list vline := flat_map (fun id => card_lines id c) (ordered_idents c).

Lemma of_id_app id a b : of_id id (a ++ b) = of_id id a ++ of_id id b.
Proof. apply filter_app'. Qed.
Lemma of_id_other id id' ls : Forall (fun l => vl_id l = id') ls -> id <> id' -> of_id id ls = [].
Proof.
  intros H Hn. induction H as [|l ls Hl H IH]; auto. cbn [of_id filter].
  rewrite Hl, (proj2 (leqb_neq _ _)) by auto. exact IH.
Qed.
Lemma of_id_same id ls : Forall (fun l => vl_id l = id) ls -> of_id id ls = ls.
Proof. intros H. induction H as [|l ls Hl H IH]; auto. cbn [of_id filter]. rewrite Hl, leqb_refl. f_equal. exact IH. Qed.
Lemma of_id_flat (f : ustring -> list vline) id ids : NoDup ids -> (forall i, Forall (fun l => vl_id l = i) (f i)) ->
  of_id id (flat_map f ids) = if contains id ids then f id else [].
Proof.
  intros Hn Hf. induction Hn as [|i ids Hi Hn IH]; auto. cbn [flat_map contains]. rewrite of_id_app, IH.
  destruct (leqb_spec i id) as [->|N].
  - rewrite of_id_same by auto. rewrite (proj2 (contains_false id ids)) by auto. cbn. apply app_nil_r.
  - rewrite (of_id_other id i) by auto. auto.
Qed.
Lemma remove_first_in v x l : In x (remove_first v l) -> In x l.
Proof. induction l as [|y l IH]; cbn; auto. destruct (leqb y v); cbn; intuition. Qed.
Lemma remove_first_other v x l : x <> v -> In x l -> In x (remove_first v l).
Proof.
  intros Hx. induction l as [|y l IH]; cbn; auto. destruct (leqb_spec y v) as [->|N]; cbn; intuition congruence.
Qed.
Lemma remove_first_NoDup v l : NoDup l -> NoDup (remove_first v l) /\ ~ In v (remove_first v l).
Proof.
  induction 1 as [|y l Hy Hn [IH1 IH2]]; cbn; [split; [constructor|auto]|].
  destruct (leqb_spec y v) as [->|N]; auto. split.
  - constructor; auto. intros H. apply remove_first_in in H. auto.
  - intros [H|H]; auto.
Qed.
Lemma ordered_idents_spec c : NoDup (identifiers c) -> NoDup (ordered_idents c) /\
  forall x, In x (ordered_idents c) <-> In x (identifiers c).
Proof.
  intros H. unfold ordered_idents. destruct (contains (B "VERSION") (identifiers c)) eqn:E; [|split; [auto|tauto]].
  apply contains_In in E. destruct (remove_first_NoDup (B "VERSION") _ H) as [H1 H2]. split; [constructor; auto|].
  intros x. cbn [In]. split.
  - intros [<-|Hx]; auto. eapply remove_first_in; eauto.
  - intros Hx. destruct (list_eq_dec_N (B "VERSION") x) as [|N]; auto. right. apply remove_first_other; auto.
Qed.

Lemma rebuild_card E c : wf_card E c -> card_of (written c) = c /\ Forall (wf_line E) (written c).
Proof.
  intros [Hs Hf]. pose proof (increasing_NoDup _ Hs) as Hn. destruct (ordered_idents_spec c Hn) as [Hon Hoi].
  assert (Hl : forall id, Forall (fun l => vl_id l = id /\ wf_line E l) (card_lines id c)).
  { intros id. unfold card_lines. rewrite find_lines_afind. destruct (afind id c) as [ls|] eqn:Ea; [|constructor].
    apply afind_In in Ea. rewrite Forall_forall in Hf. destruct (Hf _ Ea) as [_ H]. exact H. }
  split.
  - destruct (card_of_ok (written c)) as [Hk1 Hk2]. apply asorted_ext; auto. intros id. rewrite <- !find_lines_afind, Hk2.
    unfold written. rewrite of_id_flat; auto.
    2:{ intros i. eapply Forall_impl; [|apply Hl]. cbn. tauto. }
    unfold card_lines. rewrite find_lines_afind. destruct (contains id (ordered_idents c)) eqn:Ec.
    + destruct (afind id c) as [ls|] eqn:Ea; auto. apply afind_In in Ea. rewrite Forall_forall in Hf.
      destruct (Hf _ Ea) as [H _]. cbn in H. destruct ls; [exfalso; apply H; reflexivity|auto].
    + apply contains_false in Ec. rewrite Hoi in Ec. symmetry. apply afind_None. exact Ec.
  - unfold written. apply Forall_flat_map. apply Forall_forall. intros id _.
    eapply Forall_impl; [|apply Hl]. cbn. tauto.
Qed.

Lemma flat_map_flat_map {A B C} (f : B -> list C) (g : A -> list B) l : flat_map f (flat_map g l) = flat_map (fun x => flat_map f (g x)) l.
Proof. induction l as [|a l IH]; auto. cbn. rewrite flat_map_app, IH. auto. Qed.

Lemma card_step E c : wf_card E c ->
  exists ls, ls <> [] /\ card_text E c = terminated ls /\ Forall (fun x => ~ In 13%N x /\ ~ In 10%N x) ls /\
    forall m, m_in m = false -> lm_quiet m E ls /\ lm_run E m ls = mkLM [] [] (m_cards m ++ [c]) false.
Proof.
  intros H. destruct (rebuild_card E c H) as [Hc Hw]. destruct (lines_step E _ Hw) as (ls & E1 & F1 & R1).
  exists (B "BEGIN:VCARD" :: ls ++ [B "END:VCARD"; []]). split; [discriminate|]. split; [|split].
  - unfold card_text. unfold written in E1. rewrite flat_map_flat_map in E1. rewrite E1.
    change (terminated (B "BEGIN:VCARD" :: ls ++ [B "END:VCARD"; []])) with
      ((B "BEGIN:VCARD" ++ crlf) ++ terminated (ls ++ [B "END:VCARD"; []])).
    rewrite terminated_app, <- !app_assoc. do 3 f_equal.
  - constructor; [split; apply mem_false; reflexivity|]. apply Forall_app. split; auto.
    constructor; [split; apply mem_false; reflexivity|]. constructor; [split; apply mem_false; reflexivity|constructor].
  - intros m Hm.
    assert (Hb : lm_step E m (B "BEGIN:VCARD") = mkLM [] [] (m_cards m) true).
    { unfold lm_step. rewrite Hm. cbn [andb]. reflexivity. }
    assert (HI : Inv (mkLM [] [] (m_cards m) true)) by (split; [reflexivity|exact I]).
    destruct (R1 _ HI) as (Q1 & [I1 I2] & P1 & C1).
    assert (He : lm_step E (lm_run E (mkLM [] [] (m_cards m) true) ls) (B "END:VCARD") = mkLM [] [] (m_cards m ++ [c]) false).
    { set (m' := lm_run E _ ls) in *. unfold lm_step.
      change (is_folded (B "END:VCARD")) with false. change (isnil (trimmed (B "END:VCARD"))) with false. cbn iota.
      unfold lm_dispatch. change (is_begin (B "END:VCARD")) with false. change (is_end (B "END:VCARD")) with true. cbn iota.
      rewrite I1. cbn [andb]. cbn in C1. unfold pend in P1. cbn [m_line m_card isnil] in P1.
      assert (Hc' : fold_left (fun c l => add_line l c) (written c) [] = c) by (exact Hc). rewrite Hc' in P1.
      destruct (isnil (m_line m')); cbn [negb m_cards m_card] in *; rewrite P1, C1; auto. }
    split.
    + cbn [lm_quiet]. rewrite Hb. split; [intros _ _ H1; congruence|]. apply lm_quiet_app; auto.
      cbn [lm_quiet]. split; [intros; auto|]. rewrite He. split; [intros _ H1; discriminate|auto].
    + cbn [lm_run fold_left]. rewrite Hb. change (fold_left (lm_step E)) with (fun l m => lm_run E m l). cbn beta.
      rewrite lm_run_app. cbn [lm_run fold_left]. rewrite He. reflexivity.
Qed.

Lemma cards_step E cards : Forall (wf_card E) cards ->
  exists ls, (cards <> [] -> ls <> []) /\ create_vcards E cards = terminated ls /\ Forall (fun x => ~ In 13%N x /\ ~ In 10%N x) ls /\
    forall m, m_in m = false -> lm_quiet m E ls /\ m_in (lm_run E m ls) = false /\ m_cards (lm_run E m ls) = m_cards m ++ cards.
Proof.
  induction cards as [|c cards IH]; intros H.
  - exists []. repeat split; auto; cbn; auto. rewrite app_nil_r. auto.
  - inversion H as [|? ? H1 H2]; subst. destruct (card_step E c H1) as (l1 & N1 & E1 & F1 & R1).
    destruct (IH H2) as (l2 & _ & E2 & F2 & R2). exists (l1 ++ l2). split.
    { intros _. destruct l1; [congruence|discriminate]. }
    unfold create_vcards in *. cbn [flat_map]. rewrite E1, E2, terminated_app. split; auto. split; [apply Forall_app; auto|].
    intros m Hm. destruct (R1 m Hm) as [Q1 M1]. rewrite lm_run_app, M1.
    destruct (R2 (mkLM [] [] (m_cards m ++ [c]) false) eq_refl) as (Q2 & I2 & C2).
    split; [apply lm_quiet_app; [auto|rewrite M1; auto]|]. split; auto. rewrite C2. cbn. rewrite <- app_assoc. auto.
Qed.

Theorem cards_roundtrip E cards : Forall (wf_card E) cards -> parses_to E (create_vcards E cards) cards.
Proof.
  intros H. destruct (cards_step E cards H) as (ls & Hne & E1 & F1 & R1).
  destruct (R1 lm_init eq_refl) as (Q & _ & C). cbn in C.
  assert (Hr : create_vcards E cards = [] /\ cards = [] \/ reading (create_vcards E cards) = ls ++ [[]]).
  { destruct cards as [|c cards]; [left; auto|right].
    unfold reading. rewrite E1, physical_terminated by auto.
    assert (Hm : mem 10 (terminated ls) = true).
    { apply mem_In. destruct ls as [|l ls]; [exfalso; apply Hne; [discriminate|auto]|]. cbn [terminated flat_map].
      apply in_app_iff. left. apply in_app_iff. right. right; left; auto. }
    rewrite Hm. auto. }
  destruct Hr as [[Ht ->]|Hr].
  - exists 2. intros fuel Hf. rewrite Ht. destruct fuel as [|[|n]]; try lia. destruct n; reflexivity.
  - replace cards with (m_cards (lm_run E lm_init (reading (create_vcards E cards)))) at 2.
    + apply parses_to_lm. rewrite Hr. apply lm_quiet_app; auto. cbn. split; auto. intros _ H1. discriminate.
    + rewrite Hr, lm_run_app. cbn [lm_run fold_left]. rewrite lm_blank_nil. exact C.
Qed.

(** ** deciding well-formedness of concrete lines *)
Definition in_b (c : N) (l : list N) : bool := mem c l.
Definition name_ok (s : ustring) : bool :=
  forallb (fun c => (33 <=? c)%N && (c <=? 126)%N && negb (mem c [46;58;59]%N)) s.
Definition key_ok (s : ustring) : bool :=
  forallb (fun c => (33 <=? c)%N && (c <=? 126)%N && negb (mem c [58;59;61]%N) && negb ((65 <=? c)%N && (c <=? 90)%N)) s.
Definition pvalue_ok (s : ustring) : bool :=
  forallb (fun c => (32 <=? c)%N && (c <? 256)%N && negb (mem c [34;44;58;59]%N)) s.
Fixpoint nodup_b (l : list ustring) : bool := match l with [] => true | x :: r => negb (contains x r) && nodup_b r end.
Fixpoint increasing_b (l : list ustring) : bool :=
  match l with [] => true | x :: r => forallb (lltb x) r && increasing_b r end.
Definition params_ok (m : pmap) : bool :=
  increasing_b (map fst m) &&
  forallb (fun pv => key_ok (fst pv) && negb (isnil (snd pv)) && nodup_b (snd pv) &&
                     forallb (fun v => negb (isnil v) && pvalue_ok v) (snd pv)) m.
Lemma name_ok_spec s : name_ok s = true -> Forall name_char s.
Proof.
  unfold name_ok. rewrite forallb_forall. intros H. apply Forall_forall. intros c Hc. specialize (H _ Hc).
  rewrite !andb_true_iff, negb_true_iff in H. destruct H as [[H1 H2] H3]. apply mem_false in H3.
  split; auto. unfold printable. lia.
Qed.
Lemma key_ok_spec s : key_ok s = true -> Forall key_char s.
Proof.
  unfold key_ok. rewrite forallb_forall. intros H. apply Forall_forall. intros c Hc. specialize (H _ Hc).
  rewrite !andb_true_iff, !negb_true_iff in H. destruct H as [[[H1 H2] H3] H4]. apply mem_false in H3.
  split; [unfold printable; lia|split; auto; lia].
Qed.
Lemma pvalue_ok_spec s : pvalue_ok s = true -> Forall pvalue_char s.
Proof.
  unfold pvalue_ok. rewrite forallb_forall. intros H. apply Forall_forall. intros c Hc. specialize (H _ Hc).
  rewrite !andb_true_iff, negb_true_iff in H. destruct H as [[H1 H2] H3]. apply mem_false in H3.
  split; auto. lia.
Qed.
Lemma nodup_b_spec l : nodup_b l = true -> NoDup l.
Proof.
  induction l as [|x l IH]; cbn; [constructor|]. rewrite andb_true_iff, negb_true_iff. intros [H1 H2].
  constructor; auto. apply contains_false; auto.
Qed.
Lemma increasing_b_spec l : increasing_b l = true -> increasing l.
Proof.
  induction l as [|x l IH]; cbn; [constructor|]. rewrite andb_true_iff. intros [H1 H2].
  constructor; [apply IH; auto|]. rewrite forallb_forall in H1. apply Forall_forall. auto.
Qed.
Lemma params_ok_spec m : params_ok m = true -> wf_params m.
Proof.
  unfold params_ok. rewrite andb_true_iff. intros [H1 H2]. split; [apply increasing_b_spec; auto|].
  rewrite forallb_forall in H2. apply Forall_forall. intros pv Hpv. specialize (H2 _ Hpv).
  rewrite !andb_true_iff, negb_true_iff in H2. destruct H2 as [[[K N] D] V].
  split; [apply key_ok_spec; auto|]. split; [apply isnil_false; auto|]. split; [apply nodup_b_spec; auto|].
  rewrite forallb_forall in V. apply Forall_forall. intros v Hv. specialize (V _ Hv).
  rewrite andb_true_iff, negb_true_iff in V. destruct V. split; [apply isnil_false; auto|apply pvalue_ok_spec; auto].
Qed.
Definition header_ok (l : vline) : bool :=
  negb (isnil (vl_id l)) && name_ok (vl_id l) && negb (leqb (to_lower (vl_id l)) (B "begin")) &&
  negb (leqb (to_lower (vl_id l)) (B "end")) && name_ok (vl_group l) && params_ok (vl_params l) && isnil (vl_b64 l).
Lemma header_ok_line E l : header_ok l = true -> wf_value E l -> wf_line E l.
Proof.
  unfold header_ok. rewrite !andb_true_iff, !negb_true_iff. intros [[[[[[H1 H2] H3] H4] H5] H6] H7] Hv.
  split; [split; [apply isnil_false; auto|apply name_ok_spec; auto]|].
  split; [apply leqb_neq; auto|]. split; [apply leqb_neq; auto|]. split; [apply name_ok_spec; auto|].
  split; [apply params_ok_spec; auto|]. split; [apply isnil_true; auto|auto].
Qed.
Definition unambiguous_b (s : list N) : bool := negb (adj 92 110 s || adj 92 78 s || adj 92 114 s).
Lemma unambiguous_spec s : unambiguous_b s = true -> ~ ambiguous s.
Proof.
  unfold unambiguous_b. rewrite negb_true_iff, !orb_false_iff, ambiguous_adj. intros [[H1 H2] H3] [H|[H|H]]; congruence.
Qed.
