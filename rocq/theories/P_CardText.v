(** Proofs about the physical lines of [createVCards]. *)
From Verif Require Import Base BaseFacts Utf8 Utf8Facts M_ParamMap M_VCard M_VCardText S_Escape P_Escape S_Fold P_Fold S_CardText.

Definition terminated (ls : list bytes) : bytes := flat_map (fun l => l ++ crlf) ls.

Lemma terminated_app a b : terminated (a ++ b) = terminated a ++ terminated b.
Proof. apply flat_map_app. Qed.

Lemma crlf_lines_terminated ls : Forall (fun l => ~ In 13%N l) ls ->
  crlf_lines (terminated ls) = ls ++ [[]].
Proof.
  induction ls as [|l ls IH]; intros H; auto. inversion H; subst.
  cbn [terminated flat_map]. rewrite <- app_assoc. unfold crlf, cCR, cLF.
  rewrite crlf_lines_app by auto. cbn [app]. f_equal. apply IH; auto.
Qed.

Lemma join_terminated c0 cs : join foldsep (c0 :: cs) ++ crlf = terminated (c0 :: map (cons 32%N) cs).
Proof.
  revert c0; induction cs as [|c1 cs IH]; intros c0.
  - cbn. rewrite ?app_nil_r. auto.
  - rewrite join_cons by discriminate. rewrite <- !app_assoc, IH. cbn [map terminated flat_map].
    rewrite <- !app_assoc. unfold foldsep, crlf, cCR, cLF. cbn. rewrite <- ?app_assoc. reflexivity.
Qed.

(** ** the written parts contain no CR *)
Lemma tok_no c excl x : (c = 13 \/ c = 10)%N -> ~ In c (tok true true excl x).
Proof.
  intros Hc. unfold tok.
  destruct (N.eqb_spec x 92), (N.eqb_spec x 44), (N.eqb_spec x 13), (N.eqb_spec x 10); destruct excl; cbn;
  try (destruct Hc; subst c; intuition congruence).
Qed.
Lemma add_escapes_no c excl s : (c = 13 \/ c = 10)%N -> ~ In c (add_escapes excl s).
Proof.
  intros Hc. rewrite add_escapes_tok, in_flat_map. intros (x & _ & H). revert H. apply tok_no; auto.
Qed.

Lemma to_latin1_in c s : c <> 63%N -> In c (to_latin1 s) -> In c s.
Proof.
  unfold to_latin1. rewrite in_map_iff. intros Hc (x & E & H). destruct (x <? 256)%N; [subst; auto|congruence].
Qed.
Lemma to_upper_in c s : (c < 65 \/ 122 < c)%N -> In c (to_upper s) -> In c s.
Proof.
  unfold to_upper. rewrite in_map_iff. intros Hc (x & E & H). unfold upper1, is_lower in E.
  destruct ((97 <=? x)%N && (x <=? 122)%N) eqn:El; [|subst; auto].
  exfalso. lia.
Qed.

Lemma find_param_in p m vs : find_param p m = Some vs -> exists q, q = p /\ In (q, vs) m.
Proof.
  induction m as [|[q ws] m IH]; cbn; try discriminate.
  destruct (leqb_spec q p); intros H.
  - injection H as ->. exists q; auto.
  - destruct (IH H) as (q' & ? & ?). exists q'; auto.
Qed.

Lemma header_text_no c l : (c < 46)%N -> c <> 61%N -> header_free c l -> ~ In c (header_text l).
Proof.
  intros Hc Hc' (Hg & Hi & Hp) H. unfold header_text in H.
  apply in_app_iff in H as [H|H].
  - assert (H' : In c (vl_group l) \/ In c (vl_id l)).
    { destruct (vl_has_group l).
      - rewrite !in_app_iff in H. destruct H as [H|[[H|[]]|H]].
        + left. eapply to_latin1_in; eauto. lia.
        + unfold cDOT in H. lia.
        + right. eapply to_latin1_in; eauto. lia.
      - right. eapply to_latin1_in; eauto. lia. }
    tauto.
  - unfold params_text in H. apply in_flat_map in H as (p & Hp1 & H).
    apply in_flat_map in H as (v & Hv & H).
    unfold vl_parameters in Hv. destruct (find_param p (vl_params l)) as [vs|] eqn:Ef; [|destruct Hv].
    apply find_param_in in Ef as (q & -> & Hin).
    rewrite Forall_forall in Hp. destruct (Hp _ Hin) as [Hp2 Hvs]. cbn [fst snd] in *.
    rewrite Forall_forall in Hvs.
    rewrite !in_app_iff in H. destruct H as [[H|[]]|[H|H]].
    + unfold cSEMI in H. lia.
    + apply Hp2. apply to_latin1_in; [lia|]. apply to_upper_in; [lia|auto].
    + destruct (isnil v); [destruct H|]. apply in_app_iff in H as [[H|[]]|H].
      * unfold cEQ in H. lia.
      * apply (Hvs v Hv). eapply to_latin1_in; eauto. lia.
Qed.

Lemma value_text_no c E l : (c = 13 \/ c = 10)%N -> ~ In c (fst (value_text E l)).
Proof.
  intros Hc. unfold value_text.
  match goal with |- context [let (_, _) := ?x in _] => destruct x as [input mb] end.
  match goal with |- context [let (_, _) := ?x in _] => destruct x as [output mb'] end.
  cbn [fst]. apply add_escapes_no; auto.
Qed.

Lemma in_concat_chunk (x : N) (cs : list bytes) c : In c cs -> In x c -> In x (List.concat cs).
Proof. intros H1 H2. apply in_concat. eauto. Qed.

(** ** physical lines of one property line *)
Lemma fix_line_size_terminated s mb : ~ In 13%N s ->
  exists ls, fix_line_size s mb = terminated ls /\ Forall (fun l => ~ In 13%N l) ls /\
             Forall (fun l => length l <= if mb then 75 else 76) ls.
Proof.
  intros Hs. destruct (fix_line_size_chunks s mb) as (c0 & cs & E & Hc & H0 & Hf).
  exists (c0 :: map (cons 32%N) cs). rewrite E, join_terminated. split; auto.
  assert (Hno : forall c, In c (c0 :: cs) -> ~ In 13%N c).
  { intros c Hin H. apply Hs. rewrite <- Hc. eapply in_concat_chunk; eauto. }
  split; constructor.
  - apply Hno; left; auto.
  - apply Forall_forall. intros x Hx. apply in_map_iff in Hx as (c & <- & Hx). intros [H|H]; [discriminate|].
    eapply Hno; [right; eauto|auto].
  - destruct mb; lia.
  - apply Forall_forall. intros x Hx. apply in_map_iff in Hx as (c & <- & Hx). cbn [length].
    rewrite Forall_forall in Hf. specialize (Hf _ Hx). destruct mb; cbn in *; lia.
Qed.

Lemma line_text_value E l : has_value l ->
  line_text E l = if isnil (fst (value_text E l)) then []
                  else fix_line_size (header_text l ++ [cCOLON] ++ fst (value_text E l)) (snd (value_text E l)).
Proof.
  unfold has_value, line_text. intros H. destruct (vl_value l); [congruence| |];
  destruct (value_text E l); auto.
Qed.

Lemma line_text_terminated E l : has_value l -> header_free 13 l ->
  exists ls, line_text E l = terminated ls /\ Forall (fun l => ~ In 13%N l) ls /\
             Forall (fun x => length x <= if snd (value_text E l) then 75 else 76) ls.
Proof.
  intros Hv Hh. rewrite line_text_value by auto.
  destruct (isnil _).
  - exists []. auto.
  - apply fix_line_size_terminated. rewrite !in_app_iff. intros [H|[[H|[]]|H]].
    + revert H. apply header_text_no; auto; lia.
    + discriminate.
    + revert H. apply value_text_no. auto.
Qed.

Lemma plain_text_mb E u l : plain_text_line u l ->
  value_text E l = (add_escapes (leqb (vl_id l) (B "CATEGORIES") || leqb (vl_id l) (B "GEO")) (to_utf8 u), true).
Proof.
  intros (Hv & Hc & He). unfold value_text.
  assert (H1 : vl_parameter (B "charset") l = []).
  { unfold vl_parameter, vl_parameters. rewrite Hc. auto. }
  rewrite H1. cbn [isnil negb]. rewrite Hv.
  assert (H2 : contains (B "encoding") (vl_param_list l) = false).
  { unfold vl_param_list. revert He. generalize (vl_params l) as m.
    induction m as [|[q ws] m IH]; cbn; auto. intros H. destruct (leqb q _) eqn:Eq; [discriminate|]. cbn. auto. }
  rewrite H2. reflexivity.
Qed.

Lemma crlf_lines_of_terminated n s : (exists ls, s = terminated ls /\ Forall (fun l => ~ In 13%N l) ls /\ Forall (fun l => length l <= n) ls) ->
  forall x, In x (crlf_lines s) -> length x <= n.
Proof.
  intros (ls & -> & H1 & H2) x Hx. rewrite crlf_lines_terminated in Hx by auto.
  apply in_app_iff in Hx as [Hx|[<-|[]]]; [|cbn; lia]. rewrite Forall_forall in H2; auto.
Qed.

Lemma line_width E l x : has_value l -> header_free 13 l -> In x (crlf_lines (line_text E l)) -> length x <= 76.
Proof.
  intros Hv Hh. apply crlf_lines_of_terminated. destruct (line_text_terminated E l Hv Hh) as (ls & H1 & H2 & H3).
  exists ls. repeat split; auto. eapply Forall_impl; [|exact H3]. intros a. cbn. destruct (snd _); lia.
Qed.
Lemma text_line_width E u l x : plain_text_line u l -> header_free 13 l -> In x (crlf_lines (line_text E l)) -> length x <= 75.
Proof.
  intros Hp Hh. apply crlf_lines_of_terminated.
  assert (Hv : has_value l) by (destruct Hp as [H _]; unfold has_value; rewrite H; discriminate).
  destruct (line_text_terminated E l Hv Hh) as (ls & H1 & H2 & H3).
  rewrite (plain_text_mb E u l Hp) in H3. cbn [snd] in H3.
  exists ls. auto.
Qed.

(** ** whole files *)
Definition termok (s : bytes) : Prop :=
  exists ls, s = terminated ls /\ Forall (fun l => ~ In 13%N l) ls /\ Forall (fun l => length l <= 76) ls.
Lemma termok_nil : termok []. Proof. exists []; auto. Qed.
Lemma termok_app a b : termok a -> termok b -> termok (a ++ b).
Proof.
  intros (l1 & -> & ? & ?) (l2 & -> & ? & ?). exists (l1 ++ l2). rewrite terminated_app.
  split; auto. split; apply Forall_app; auto.
Qed.
Lemma termok_flat_map {A} (f : A -> bytes) l : (forall x, In x l -> termok (f x)) -> termok (flat_map f l).
Proof.
  induction l as [|a l IH]; intros H; cbn; [apply termok_nil|]. apply termok_app; [apply H; left; auto|apply IH; intros; apply H; right; auto].
Qed.

Lemma find_lines_in id c ls : find_lines id c = Some ls -> In (id, ls) c.
Proof.
  induction c as [|[i ks] c IH]; cbn; try discriminate. destruct (leqb_spec i id); intros H.
  - injection H as ->. subst. auto.
  - auto.
Qed.
Lemma card_all_lines P id c l : card_all P c -> In l (card_lines id c) -> P l.
Proof.
  unfold card_all, card_lines. intros H Hl. destruct (find_lines id c) as [ls|] eqn:Ef; [|destruct Hl].
  apply find_lines_in in Ef. rewrite Forall_forall in H. specialize (H _ Ef). cbn in H.
  rewrite Forall_forall in H; auto.
Qed.

Lemma card_text_termok E c : card_all (fun l => has_value l /\ header_free 13 l) c -> termok (card_text E c).
Proof.
  intros H. unfold card_text.
  assert (T : forall s, ~ In 13%N s -> length s <= 76 -> termok (s ++ crlf)).
  { intros s H1 H2. exists [s]. cbn. rewrite app_nil_r. split; auto. }
  rewrite app_assoc. apply termok_app.
  { apply T; [rewrite <- mem_false; reflexivity|cbn; lia]. }
  apply termok_app.
  - apply termok_flat_map. intros id _. apply termok_flat_map. intros l Hl.
    destruct (card_all_lines _ _ _ _ H Hl) as [Hv Hh].
    destruct (line_text_terminated E l Hv Hh) as (ls & H1 & H2 & H3). exists ls. repeat split; auto.
    eapply Forall_impl; [|exact H3]. cbn. intros a. destruct (snd _); lia.
  - rewrite app_assoc. apply termok_app; [apply T; [rewrite <- mem_false; reflexivity|cbn; lia]|].
    apply (T []); [auto|cbn; lia].
Qed.

Lemma file_width E cards x :
  Forall (card_all (fun l => has_value l /\ header_free 13 l)) cards ->
  In x (crlf_lines (create_vcards E cards)) -> length x <= 76.
Proof.
  intros H. apply crlf_lines_of_terminated. apply termok_flat_map. intros c Hc.
  apply card_text_termok. rewrite Forall_forall in H; auto.
Qed.

(** ** folding of text lines does not split characters *)
Lemma bmp_app a b : bmp_text (a ++ b) = bmp_text a && bmp_text b.
Proof. apply forallb_app. Qed.
Lemma ascii_bmp s : ascii s -> bmp_text s = true.
Proof.
  unfold ascii, bmp_text. rewrite Forall_forall, forallb_forall. intros H x Hx. specialize (H x Hx).
  unfold is_surr, is_high, is_low. lia.
Qed.
Lemma to_utf8_ascii s : ascii s -> to_utf8 s = s.
Proof.
  induction s as [|c s IH]; intros H; auto. inversion H; subst. cbn [to_utf8].
  rewrite (proj2 (N.ltb_lt c 128)) by auto. cbn. rewrite IH; auto.
Qed.
Lemma to_utf8_app_bmp a b : bmp_text a = true -> to_utf8 (a ++ b) = to_utf8 a ++ to_utf8 b.
Proof.
  induction a as [|c a IH]; intros H; auto. apply bmp_cons in H as (H1 & H2 & H3).
  cbn [app]. rewrite !to_utf8_bmp_cons by auto. rewrite <- app_assoc, IH; auto.
Qed.
Lemma tok_ascii excl c : (c < 128)%N -> ascii (tok true true excl c).
Proof.
  intros H. unfold tok.
  destruct (N.eqb_spec c 92), (N.eqb_spec c 44), (N.eqb_spec c 13), (N.eqb_spec c 10); destruct excl; cbn;
  repeat constructor; try lia; auto.
Qed.
Lemma tok_high excl c : (128 <= c)%N -> tok true true excl c = [c].
Proof.
  intros H. unfold tok.
  destruct (N.eqb_spec c 92), (N.eqb_spec c 44), (N.eqb_spec c 13), (N.eqb_spec c 10); destruct excl; cbn; auto; lia.
Qed.
Lemma add_escapes_cons excl c s : add_escapes excl (c :: s) = tok true true excl c ++ add_escapes excl s.
Proof. rewrite !add_escapes_tok. reflexivity. Qed.
Lemma add_escapes_app excl s t : add_escapes excl (s ++ t) = add_escapes excl s ++ add_escapes excl t.
Proof. rewrite !add_escapes_tok. apply flat_map_app. Qed.
Lemma add_escapes_nil excl : add_escapes excl [] = [].
Proof. destruct excl; reflexivity. Qed.
Lemma add_escapes_high excl s : Forall (fun c => (128 <= c)%N) s -> add_escapes excl s = s.
Proof.
  induction s as [|c s IH]; intros H; [apply add_escapes_nil|]. inversion H; subst. rewrite add_escapes_cons, tok_high, IH by auto. reflexivity.
Qed.
Lemma add_escapes_utf8 excl u : bmp_text u = true ->
  add_escapes excl (to_utf8 u) = to_utf8 (add_escapes excl u) /\ bmp_text (add_escapes excl u) = true.
Proof.
  induction u as [|c u IH]; intros H; [cbn [to_utf8]; rewrite add_escapes_nil; split; reflexivity|].
  apply bmp_cons in H as (H1 & H2 & H3). destruct (IH H3) as [IH1 IH2].
  rewrite to_utf8_bmp_cons, add_escapes_app, IH1, add_escapes_cons by auto.
  assert (Hb : bmp_text (tok true true excl c) = true).
  { destruct (N.lt_ge_cases c 128).
    - apply ascii_bmp, tok_ascii; auto.
    - rewrite tok_high by auto. cbn. rewrite H2, (proj2 (N.ltb_lt _ _) H1). auto. }
  split; [|rewrite bmp_app, Hb; auto].
  rewrite to_utf8_app_bmp by auto. f_equal.
  destruct (N.lt_ge_cases c 128).
  - rewrite (to_utf8_ascii (tok _ _ _ _)) by (apply tok_ascii; auto).
    unfold enc_bmp, enc1. rewrite (proj2 (N.ltb_lt c 128)) by auto. cbv iota. rewrite add_escapes_cons. rewrite add_escapes_nil, app_nil_r. auto.
  - rewrite tok_high by auto. rewrite add_escapes_high.
    + rewrite (to_utf8_bmp_cons c []) by auto. cbn. rewrite app_nil_r; auto.
    + unfold enc_bmp, enc2, enc3. rewrite (proj2 (N.ltb_ge c 128)) by auto.
      destruct (c <? 2048)%N; repeat constructor; lia.
Qed.

Lemma ascii_app a b : ascii a -> ascii b -> ascii (a ++ b).
Proof. intros; apply Forall_app; auto. Qed.
Lemma ascii_latin1 s : ascii s -> to_latin1 s = s.
Proof.
  unfold to_latin1. induction s as [|c s IH]; intros H; auto. inversion H; subst. cbn.
  rewrite IH by auto. rewrite (proj2 (N.ltb_lt c 256)) by lia. auto.
Qed.
Lemma ascii_upper s : ascii s -> ascii (to_upper s).
Proof.
  intros H. unfold ascii, to_upper. apply Forall_map. eapply Forall_impl; [|exact H]. cbn. intros a Ha.
  unfold upper1. destruct (is_lower a); lia.
Qed.
Lemma ascii_flat_map {A} (f : A -> bytes) l : (forall x, In x l -> ascii (f x)) -> ascii (flat_map f l).
Proof.
  induction l; intros H; cbn; [constructor|]. apply ascii_app; [apply H; left; auto|apply IHl; intros; apply H; right; auto].
Qed.
Lemma header_text_ascii l : header_ascii l -> ascii (header_text l).
Proof.
  intros (Hg & Hi & Hp). unfold header_text. apply ascii_app.
  - rewrite !ascii_latin1 by auto. destruct (vl_has_group l); auto.
    repeat apply ascii_app; auto. repeat constructor.
  - unfold params_text. apply ascii_flat_map. intros p _. apply ascii_flat_map. intros v Hv.
    unfold vl_parameters in Hv. destruct (find_param p (vl_params l)) as [vs|] eqn:Ef; [|destruct Hv].
    apply find_param_in in Ef as (q & -> & Hin). rewrite Forall_forall in Hp. destruct (Hp _ Hin) as [H1 H2].
    cbn [fst snd] in *. rewrite Forall_forall in H2.
    apply ascii_app; [repeat constructor|]. apply ascii_app.
    + rewrite ascii_latin1 by auto. apply ascii_upper; auto.
    + destruct (isnil v); [constructor|]. apply ascii_app; [repeat constructor|]. rewrite ascii_latin1 by auto; auto.
Qed.

Lemma text_line_no_split E u l x : plain_text_line u l -> bmp_text u = true ->
  header_ascii l -> header_free 13 l -> In x (crlf_lines (line_text E l)) -> valid_utf8 x.
Proof.
  intros Hp Hu Ha Hf Hx.
  assert (Hv : has_value l) by (destruct Hp as [H _]; unfold has_value; rewrite H; discriminate).
  rewrite line_text_value in Hx by auto. rewrite (plain_text_mb E u l Hp) in Hx. cbn [fst snd] in Hx.
  destruct (isnil _).
  { destruct Hx as [<-|[]]. exists []. auto. }
  revert Hx. set (e := (_ || _)%bool).
  destruct (add_escapes_utf8 e u Hu) as [E1 E2].
  assert (Hh : ascii (header_text l ++ [cCOLON])).
  { apply ascii_app; [apply header_text_ascii; auto|repeat constructor]. }
  rewrite app_assoc, E1, <- (to_utf8_ascii _ Hh), <- to_utf8_app_bmp by (apply ascii_bmp; auto).
  apply fold_no_split.
  - rewrite bmp_app, E2, ascii_bmp; auto.
  - rewrite !in_app_iff. intros [[H|[H|[]]]|H]; [|discriminate|].
    + revert H. apply header_text_no; auto; lia.
    + revert H. apply add_escapes_no; auto.
Qed.
