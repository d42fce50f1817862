(** Undefined reading (C66) and unknown properties (C68). *)
From Verif Require Import Base BaseFacts Utf8 Utf8Facts M_ParamMap M_VCard M_VCardText S_Card P_Assoc P_Card S_Escape P_Escape
  S_Parse P_Parse P_Parse2 S_Soft P_Soft P_SoftLoop M_Split P_Split M_Values M_Date M_Addressee M_VCardTool P_ReadBack S_Order P_CardOrder.

(** ** C66 *)
Lemma find_sub_spec p s : find_sub p s <> None <-> has_part p s.
Proof.
  split.
  - induction s as [|c s IH]; cbn [find_sub]; intros H.
    + destruct (starts_with p []) eqn:E; [|congruence]. apply starts_with_spec in E as [r Hr]. exists [], r. exact Hr.
    + destruct (starts_with p (c :: s)) eqn:E.
      * apply starts_with_spec in E as [r Hr]. exists [], r. exact Hr.
      * destruct (find_sub p s); [|cbn in H; congruence]. destruct IH as (a & b & ->); [discriminate|]. exists (c :: a), b. reflexivity.
  - intros (a & b & ->). induction a as [|c a IH].
    + cbn [app]. assert (E : starts_with p (p ++ b) = true) by (apply starts_with_spec; exists b; auto).
      destruct (p ++ b); cbn [find_sub]; rewrite E; discriminate.
    + cbn [app find_sub]. destruct (starts_with p (c :: a ++ p ++ b)); [discriminate|]. destruct (find_sub p (a ++ p ++ b)); [discriminate|]. exact IH.
Qed.
Lemma find_sub_none p s : find_sub p s = None -> ~ has_part p s.
Proof. intros H K. apply find_sub_spec in K. congruence. Qed.

Lemma parse_picture_none l : parse_picture l = None <->
  vl_param_list l = [] /\ exists v, value_bytes l v /\ has_part (B "data:") v /\ has_part (B ";base64,") v /\ length v < 22.
Proof.
  unfold parse_picture. destruct (isnil (vl_param_list l)) eqn:Ep.
  2:{ split.
      - cbv zeta. intros H. repeat match type of H with context [if ?b then _ else _] => destruct b end; discriminate.
      - intros [H _]. rewrite H in Ep. discriminate. }
  apply isnil_true in Ep. unfold value_bytes. destruct (vl_value l) as [|s|b] eqn:Ev.
  { split; [discriminate|]. intros (_ & v & [H|(s & H & _)] & _); discriminate. }
  all: match goal with |- context [variant_bytes ?x] => set (w := variant_bytes x) end; cbn [variant_bytes] in w; cbv zeta.
  all: destruct (find_sub (B "data:") w) as [i|] eqn:E1; [|split; [discriminate|]; intros (_ & v & Hv & H1 & _);
         exfalso; apply (find_sub_none _ _ E1); subst w; destruct Hv as [Hv|(s' & Hv & ->)]; congruence].
  all: destruct (find_sub (B ";base64,") w) as [j|] eqn:E2; [|split; [discriminate|]; intros (_ & v & Hv & _ & H1 & _);
         exfalso; apply (find_sub_none _ _ E2); subst w; destruct Hv as [Hv|(s' & Hv & ->)]; congruence].
  all: destruct (length w <? 22) eqn:El.
  all: split; [intros H; try discriminate H|intros (_ & v & Hv & _ & _ & H1)]; try reflexivity.
  all: try (split; [exact Ep|]; exists w; split; [subst w; eauto|]; split; [apply find_sub_spec; congruence|];
    split; [apply find_sub_spec; congruence|]; apply Nat.ltb_lt; auto).
  all: exfalso; apply Nat.ltb_ge in El; subst w; destruct Hv as [Hv|(s' & Hv & ->)]; try discriminate; injection Hv as ->; lia.
Qed.

Lemma kind_of_in tab id k : kind_of tab id = k -> k <> LX -> k <> LOther -> exists n, In (n, k) tab /\ id = n.
Proof.
  induction tab as [|[n q] tab IH]; cbn [kind_of]; intros H H1 H2.
  - destruct (starts_with (B "x-") id); congruence.
  - destruct (leqb_spec id n) as [->|_]; [exists n; split; [left; congruence|reflexivity]|].
    destruct (IH H H1 H2) as (m & Hm & ->). exists m. split; [right; auto|reflexivity].
Qed.
Lemma picture_kind l : (line_kind l = LPhoto \/ line_kind l = LLogo) <->
  vl_group l = [] /\ (to_lower (vl_id l) = B "photo" \/ to_lower (vl_id l) = B "logo").
Proof.
  unfold line_kind. cbv zeta. split.
  - intros H. destruct (negb (isnil (vl_group l)) && negb (leqb (to_lower (vl_id l)) (B "adr"))) eqn:Eg; [destruct H; discriminate|].
    assert (Hid : to_lower (vl_id l) = B "photo" \/ to_lower (vl_id l) = B "logo").
    { destruct H as [H|H]; (apply kind_of_in in H as (n & Hn & ->); [|discriminate|discriminate]); cbv in Hn;
      repeat (destruct Hn as [Hn|Hn]; [try discriminate Hn|]); try contradiction.
      - left. injection Hn as <-. reflexivity.
      - right. injection Hn as <-. reflexivity. }
    split; [|exact Hid]. destruct (vl_group l); [reflexivity|]. exfalso.
    destruct Hid as [Hid|Hid]; rewrite Hid in Eg; discriminate.
  - intros [-> [->| ->]]; [left|right]; reflexivity.
Qed.

Lemma read_line_none T id l a : read_line T id l a = None <-> short_data l.
Proof.
  assert (Hsp : forall sep s, sep <> cBS -> split_string sep s <> None) by (intros sep s H; rewrite split_string_sp by auto; discriminate).
  assert (Hp : read_line T id l a = None <-> (line_kind l = LPhoto \/ line_kind l = LLogo) /\ parse_picture l = None).
  { unfold read_line. cbv zeta. destruct (line_kind l); try (split; [intros H; discriminate H|intros [[H|H] _]; discriminate H]).
    - unfold parse_address. destruct (split_string cSEMI (lvalue l)) eqn:E; [|exfalso; revert E; apply Hsp; discriminate].
      cbv zeta; cbn [option_map]; split; [intros H; discriminate H|intros [[H|H] _]; discriminate H].
    - destruct (parse_datetime (lvalue l)). split; [intros H; discriminate H|intros [[H|H] _]; discriminate H].
    - destruct (split_string cCOMMA (lvalue l)) eqn:E; [|exfalso; revert E; apply Hsp; discriminate].
      cbv zeta; cbn [option_map]; split; [intros H; discriminate H|intros [[H|H] _]; discriminate H].
    - destruct (parse_picture l); cbn [option_map]; split; [discriminate|intros [_ H]; discriminate|auto|auto].
    - destruct (split_string cSEMI (lvalue l)) eqn:E; [|exfalso; revert E; apply Hsp; discriminate].
      cbv zeta; cbn [option_map]; split; [intros H; discriminate H|intros [[H|H] _]; discriminate H].
    - destruct (split_string cSEMI (lvalue l)) eqn:E; [|exfalso; revert E; apply Hsp; discriminate].
      cbv zeta; cbn [option_map]; split; [intros H; discriminate H|intros [[H|H] _]; discriminate H].
    - destruct (parse_picture l); cbn [option_map]; split; [discriminate|intros [_ H]; discriminate|auto|auto]. }
  rewrite Hp, picture_kind, parse_picture_none. unfold short_data. tauto.
Qed.

Lemma read_lines_none T card ls : forall k a, read_lines T card k ls a = None <-> Exists short_data ls.
Proof.
  induction ls as [|l ls IH]; intros k a; cbn [read_lines].
  - split; [discriminate|]. intros H. inversion H.
  - rewrite Exists_cons. destruct (read_line T (t_newid T card k) l a) as [b|] eqn:E.
    + rewrite IH. split; [auto|]. intros [H|H]; [|exact H]. exfalso. apply (read_line_none T (t_newid T card k) l a) in H. congruence.
    + apply read_line_none in E. tauto.
Qed.
Lemma read_card_none T n c : read_card T n c = None <-> exists id l, In l (card_lines id c) /\ In id (identifiers c) /\ short_data l.
Proof.
  unfold read_card. rewrite read_lines_none, Exists_exists. split.
  - intros (l & Hl & Hs). apply in_flat_map in Hl as (id & H1 & H2). exists id, l. auto.
  - intros (id & l & H1 & H2 & H3). exists l. split; [apply in_flat_map; exists id; auto|auto].
Qed.
Lemma line_identifier id l c : In l (card_lines id c) -> In id (identifiers c).
Proof.
  unfold card_lines. rewrite find_lines_afind. destruct (afind id c) as [v|] eqn:E; [|intros []]. intros _.
  apply afind_In in E. apply (in_map fst) in E. exact E.
Qed.
Lemma read_cards_none T : forall cards n, read_cards T n cards = None <-> exists c id l, In c cards /\ In l (card_lines id c) /\ short_data l.
Proof.
  induction cards as [|c cards IH]; intros n; cbn [read_cards].
  - split; [discriminate|]. intros (c & _ & _ & [] & _).
  - destruct (read_card T n c) as [a|] eqn:E1.
    + assert (N1 : forall id l, In l (card_lines id c) -> short_data l -> False).
      { intros id l H1 H2. assert (H : read_card T n c = None); [|congruence]. apply read_card_none. exists id, l.
        split; [auto|]. split; [eapply line_identifier; eauto|auto]. }
      destruct (read_cards T (S n) cards) as [r|] eqn:E2.
      * split; [discriminate|]. intros (d & id & l & [<-|Hd] & H1 & H2); [exfalso; eauto|].
        assert (H : read_cards T (S n) cards = None); [|congruence]. apply IH. eauto 6.
      * split; [intros _|auto]. apply IH in E2 as (d & id & l & Hd & H1 & H2). exists d, id, l. split; [right; auto|auto].
    + split; [intros _|auto]. apply read_card_none in E1 as (id & l & H1 & _ & H2). exists c, id, l. split; [left; auto|auto].
Qed.

(** ** C68: the group of a line *)
Lemma px_step_group c x x' go : px_state x <> PInitial -> px_step c x = (x', go) -> vl_group (px_line x') = vl_group (px_line x).
Proof.
  intros Hx. unfold px_step, px_after. destruct (px_state x) eqn:Es; [congruence|..]; intros H;
  repeat match type of H with
  | context [if ?b then _ else _] => destruct b
  | (_, _) = (_, _) => injection H as <- <-
  end; try discriminate; reflexivity.
Qed.
Lemma px_run_group s : forall x, px_state x <> PInitial -> vl_group (px_line (fst (px_run s x))) = vl_group (px_line x).
Proof.
  induction s as [|c s IH]; intros x Hx; [reflexivity|]. cbn [px_run]. destruct (px_step c x) as [x' go] eqn:E.
  destruct (px_step_id c x x' go Hx E) as [H1 _]. pose proof (px_step_group c x x' go Hx E) as H2. destruct go; [rewrite IH; auto|exact H2].
Qed.
Lemma parse_pure_group E line : vl_group (parse_pure E line) = vl_group (px_line (fst (px_run line px_init))).
Proof.
  unfold parse_pure. destruct (px_run line px_init) as [x [raw|]]; [|reflexivity]. unfold finish_pure.
  cbn [fst]. destruct x as [? ? ? [] ? ?]. reflexivity.
Qed.
Lemma ungrouped_group E n b : ungrouped n b -> vl_group (parse_pure E (content b)) = [].
Proof.
  intros (d & r & Hb & Hd & Hn). rewrite parse_pure_group. unfold content. rewrite Hb, <- !app_assoc. cbn [app].
  rewrite run_ident by auto. cbn [app px_run]. change (px_acc px_init) with (@nil N). cbn [app].
  set (z := px_goto PInitial n px_init). unfold px_step. change (px_state z) with PInitial. cbn iota.
  destruct Hd as [->| ->]; [reflexivity|].
  change (59 =? cSEMI)%N with true. cbn iota. rewrite px_run_group by discriminate. reflexivity.
Qed.
Lemma ungrouped_named n b : ungrouped n b -> named n b.
Proof. intros (d & r & Hb & Hd & Hn). exists [], d, r. split; [exact Hb|]. split; [exact Hd|]. split; [auto|]. split; [intros c []|exact Hn]. Qed.

Lemma known_table : known_names = map fst kind_table.
Proof. reflexivity. Qed.
Lemma kind_of_unknown tab id : ~ In id (map fst tab) -> starts_with (B "x-") id = false -> kind_of tab id = LOther.
Proof.
  induction tab as [|[n k] tab IH]; cbn [map fst kind_of]; intros H Hx; [rewrite Hx; reflexivity|].
  destruct (leqb_spec id n) as [->|_]; [exfalso; apply H; left; auto|]. apply IH; auto. intros K. apply H. right. exact K.
Qed.
Lemma unknown_kind E n b : ungrouped n b -> unknown n -> line_kind (parse_pure E (content b)) = LOther.
Proof.
  intros Hu [H1 H2]. unfold line_kind. rewrite (ungrouped_group E n b Hu), (named_id E n b (ungrouped_named n b Hu)). cbn [isnil negb andb].
  apply kind_of_unknown; [intros K; apply H1; rewrite known_table; exact K|].
  destruct (starts_with (B "x-") (to_lower n)) eqn:Es; auto. exfalso. apply H2. apply starts_with_spec in Es. exact Es.
Qed.

(** ** C68: cards *)
Inductive lthin : list vline -> list vline -> Prop :=
| lthin_nil : lthin [] []
| lthin_keep l ps qs : lthin ps qs -> lthin (l :: ps) (l :: qs)
| lthin_drop l ps qs : line_kind l = LOther -> lthin ps qs -> lthin (l :: ps) qs.
Lemma thinned_lthin E bs cs : thinned bs cs ->
  lthin (map (fun b => parse_pure E (content b)) bs) (map (fun b => parse_pure E (content b)) cs).
Proof.
  induction 1 as [|b bs cs _ IH|n b bs cs H1 H2 _ IH]; cbn [map]; [constructor|constructor; auto|].
  apply lthin_drop; [eapply unknown_kind; eauto|exact IH].
Qed.
Lemma lthin_app a b c d : lthin a b -> lthin c d -> lthin (a ++ c) (b ++ d).
Proof. induction 1; cbn [app]; intros Hd; [exact Hd|constructor; auto|apply lthin_drop; auto]. Qed.
Lemma lthin_filter k a b : lthin a b -> lthin (filter k a) (filter k b).
Proof.
  induction 1 as [|l a b _ IH|l a b H _ IH]; cbn [filter]; [constructor| |]; destruct (k l); auto; [constructor|apply lthin_drop]; auto.
Qed.
Lemma lthin_in a b l : lthin a b -> In l b -> In l a.
Proof. induction 1; intros Hi; [exact Hi| |right; auto]. destruct Hi as [<-|Hi]; [left|right]; auto. Qed.

Lemma flat_map_wider (f : ustring -> list vline) : forall big small, increasing big -> increasing small ->
  (forall x, In x small -> In x big) -> (forall x, In x big -> ~ In x small -> f x = []) -> flat_map f big = flat_map f small.
Proof.
  unfold increasing. induction big as [|x big IH]; intros small Hb Hs Hin Hn.
  - destruct small as [|y small]; [reflexivity|]. destruct (Hin y (or_introl eq_refl)).
  - apply StronglySorted_inv in Hb as [Hb Hx]. rewrite Forall_forall in Hx. destruct small as [|y small].
    + cbn [flat_map]. rewrite (Hn x (or_introl eq_refl)) by (intros []). cbn [app]. apply (IH []); auto; [intros z []|].
      intros z Hz. apply Hn. right. exact Hz.
    + pose proof (StronglySorted_inv Hs) as [Hs' Hy]. rewrite Forall_forall in Hy.
      assert (Hlt : forall a b, lltb a b = true -> a <> b) by (intros a b H ->; rewrite lltb_irrefl in H; discriminate).
      destruct (Hin y (or_introl eq_refl)) as [->|Hyb].
      * cbn [flat_map]. f_equal. apply IH; auto.
        -- intros z Hz. destruct (Hin z (or_intror Hz)) as [->|H]; [|exact H]. exfalso. apply (Hlt z z); auto.
        -- intros z Hz Hnz. apply Hn; [right; auto|]. intros [->|K]; [|auto]. apply (Hlt z z); auto.
      * cbn [flat_map]. rewrite (Hn x (or_introl eq_refl)).
        2:{ intros [->|K]; [apply (Hlt x x); auto|]. apply (Hlt x x); [|auto]. eapply lltb_trans; [apply Hx; exact Hyb|apply Hy; exact K]. }
        cbn [app]. change (f y ++ flat_map f small) with (flat_map f (y :: small)). apply IH; auto.
        -- intros z [->|Hz]; [exact Hyb|]. destruct (Hin z (or_intror Hz)) as [->|H]; [|exact H]. exfalso.
           apply (Hlt z z); [|auto]. eapply lltb_trans; [apply Hx; exact Hyb|apply Hy; exact Hz].
        -- intros z Hz Hnz. apply Hn; [right; auto|exact Hnz].
Qed.

Lemma lthin_in_order a b : lthin a b -> lthin (in_order (card_of a)) (in_order (card_of b)).
Proof.
  intros H. destruct (identifiers_spec a) as [S1 I1]. destruct (identifiers_spec b) as [S2 I2]. unfold in_order.
  assert (Hb : flat_map (fun id => card_lines id (card_of b)) (identifiers (card_of b)) =
               flat_map (fun id => card_lines id (card_of b)) (identifiers (card_of a))).
  { symmetry. apply flat_map_wider; [exact S1|exact S2| |].
    - intros x Hx. apply I2 in Hx as (l & Hl & Hid). apply I1. exists l. split; [eapply lthin_in; eauto|auto].
    - intros x _ Hx. destruct (card_lines x (card_of b)) as [|l r] eqn:El; auto. exfalso. apply Hx.
      eapply line_identifier. rewrite El. left. reflexivity. }
  rewrite Hb. clear Hb S1 I1 S2 I2. generalize (identifiers (card_of a)). intros ids.
  induction ids as [|id ids IH]; [constructor|]. cbn [flat_map]. apply lthin_app; [|exact IH].
  rewrite !card_lines_spec. apply lthin_filter. exact H.
Qed.

(** ** C68: reading *)
Lemma read_line_ids f T id l a : read_line (other_ids f T) id l a = read_line T id l a.
Proof. destruct T. reflexivity. Qed.
Lemma read_lines_shift T1 T2 card ls : (forall id l a, read_line T1 id l a = read_line T2 id l a) -> forall k1 k2 a,
  (forall i, t_newid T1 card (k1 + i) = t_newid T2 card (k2 + i)) -> read_lines T1 card k1 ls a = read_lines T2 card k2 ls a.
Proof.
  intros Hr. induction ls as [|l ls IH]; intros k1 k2 a Hk; [reflexivity|]. cbn [read_lines].
  pose proof (Hk 0) as H0. rewrite !Nat.add_0_r in H0. rewrite H0, Hr. destruct (read_line T2 (t_newid T2 card k2) l a); [|reflexivity].
  apply IH. intros i. specialize (Hk (S i)). rewrite <- !plus_n_Sm in Hk. exact Hk.
Qed.
Lemma read_lines_thin T card : forall ls qs, lthin ls qs -> forall k, exists g, increasing_fun g /\ (forall i, i < k -> g i = i) /\
  forall a, read_lines T card k ls a = read_lines (other_ids (fun _ => g) T) card k qs a.
Proof.
  induction 1 as [|l ls qs _ IH|l ls qs Hk _ IH]; intros k.
  - exists (fun i => i). split; [intros i j H; exact H|]. split; auto.
  - destruct (IH (S k)) as (g & G1 & G2 & G3). exists g. split; [exact G1|]. split; [intros i Hi; apply G2; lia|].
    intros a. cbn [read_lines]. cbn [other_ids t_newid]. rewrite G2 by lia. rewrite read_line_ids.
    destruct (read_line T (t_newid T card k) l a); auto.
  - destruct (IH (S k)) as (g & G1 & G2 & G3). exists (fun i => if i <? k then i else g (S i)). split; [|split].
    + intros i j Hij. assert (Hge : forall i, i <= g i).
      { intros x. induction x as [|x IHx]; [lia|]. specialize (G1 x (S x) ltac:(lia)). lia. }
      destruct (i <? k) eqn:Ei, (j <? k) eqn:Ej; try lia.
      * specialize (Hge (S j)). lia.
      * apply G1. lia.
    + intros i Hi. apply Nat.ltb_lt in Hi. rewrite Hi. reflexivity.
    + intros a. cbn [read_lines].
      assert (Ho : read_line T (t_newid T card k) l a = Some a) by (unfold read_line; rewrite Hk; reflexivity).
      rewrite Ho, G3. apply read_lines_shift; [intros; rewrite !read_line_ids; reflexivity|].
      intros i. cbn [other_ids t_newid]. destruct (Nat.ltb_spec (k + i) k); [lia|]. f_equal; f_equal; lia.
Qed.

Lemma read_card_thin T n ls qs : lthin ls qs -> exists g, increasing_fun g /\ g 0 = 0 /\
  read_card T n (card_of ls) = read_card (other_ids (fun _ => g) T) n (card_of qs).
Proof.
  intros H. apply lthin_in_order in H. destruct (read_lines_thin T n _ _ H 1) as (g & G1 & G2 & G3). exists g.
  split; [exact G1|]. assert (G0 : g 0 = 0) by (apply G2; lia). split; [exact G0|]. unfold read_card. fold (in_order (card_of ls)). fold (in_order (card_of qs)).
  rewrite G3. cbn [other_ids t_newid]. rewrite G0. reflexivity.
Qed.
Lemma read_card_ids T f1 f2 n c : (forall k, f1 n k = f2 n k) -> read_card (other_ids f1 T) n c = read_card (other_ids f2 T) n c.
Proof.
  intros H. unfold read_card. cbn [other_ids t_newid]. rewrite H. apply read_lines_shift; [intros; rewrite !read_line_ids; reflexivity|].
  intros i. cbn [other_ids t_newid]. rewrite H. reflexivity.
Qed.
Lemma read_card_id T n c : read_card (other_ids (fun _ k => k) T) n c = read_card T n c.
Proof. destruct T; reflexivity. Qed.
Lemma read_cards_thin T g d c : forall before after n,
  read_card T (n + length before) c = read_card (other_ids (fun _ => g) T) (n + length before) d ->
  read_cards T n (before ++ c :: after) =
  read_cards (other_ids (fun m k => if Nat.eqb m (n + length before) then g k else k) T) n (before ++ d :: after).
Proof.
  set (G n0 := fun m k => if Nat.eqb m n0 then g k else k).
  assert (Hafter : forall n0 after n, n0 < n -> read_cards T n after = read_cards (other_ids (G n0) T) n after).
  { intros n0. induction after as [|x after IH]; intros n Hn; [reflexivity|]. cbn [read_cards].
    rewrite <- (IH (S n)) by lia. rewrite (read_card_ids T (G n0) (fun _ k => k)).
    - rewrite read_card_id. reflexivity.
    - intros k. unfold G. destruct (Nat.eqb_spec n n0); [lia|reflexivity]. }
  induction before as [|x before IH]; intros after n H.
  - cbn [app length read_cards] in *. rewrite Nat.add_0_r in *. rewrite H.
    rewrite (read_card_ids T _ (G n)); [|intros k; unfold G; rewrite Nat.eqb_refl; reflexivity].
    rewrite (Hafter n after (S n)) by lia. reflexivity.
  - cbn [app length read_cards] in *. rewrite <- plus_n_Sm in *. change (S (n + length before)) with (S n + length before) in *.
    rewrite (IH after (S n) H). f_equal. fold (G (S n + length before)).
    rewrite (read_card_ids T (G (S n + length before)) (fun _ k => k)), read_card_id; [reflexivity|].
    intros k. unfold G. destruct (Nat.eqb_spec n (S n + length before)); [lia|reflexivity].
Qed.

(** ** C68: texts *)
Definition pre (p : list vcard) (m : lm) : lm := mkLM (m_line m) (m_card m) (p ++ m_cards m) (m_in m).
Definition prem (p : list vcard) (u : mode) : mode :=
  match u with Normal m => Normal (pre p m) | Joining x v m => Joining x v (pre p m) end.
Lemma dispatch_pre p cur m : lm_dispatch cur (pre p m) = pre p (lm_dispatch cur m).
Proof.
  unfold lm_dispatch, pre. destruct m as [l c cs i]; cbn [m_line m_card m_cards m_in].
  destruct (is_begin cur); [reflexivity|]. destruct (is_end cur); [cbn; rewrite app_assoc; reflexivity|]. destruct i; reflexivity.
Qed.
Lemma sstep_pre E p u cur : sstep E (prem p u) cur = prem p (sstep E u cur).
Proof.
  destruct u as [m|x v m]; cbn [prem sstep].
  - change (m_line (pre p m)) with (m_line m). change (m_in (pre p m)) with (m_in m). change (m_card (pre p m)) with (m_card m).
    destruct (is_folded cur); [reflexivity|]. destruct (isnil (trimmed cur)); [reflexivity|].
    destruct (m_in m && negb (isnil (m_line m))).
    + destruct (soft_of (m_line m)) as [[x v]|]; [reflexivity|]. cbn [prem]. rewrite <- dispatch_pre. reflexivity.
    + cbn [prem]. rewrite dispatch_pre. reflexivity.
  - destruct (ends_with [cEQ] v); [reflexivity|]. cbn [prem]. rewrite <- dispatch_pre. reflexivity.
Qed.
Lemma srun_pre E p : forall ls u, srun E (prem p u) ls = option_map (app p) (srun E u ls).
Proof.
  induction ls as [|l ls IH]; intros u; [reflexivity|]. destruct ls as [|l2 ls].
  - cbn [srun]. rewrite sstep_pre. destruct u as [m|x v m]; [|reflexivity]. cbn [prem]. destruct (sstep E (Normal m) l); reflexivity.
  - rewrite !srun_cons by discriminate. rewrite sstep_pre. apply IH.
Qed.

Lemma unknown_free T E nl before b bs cs e after :
  one_card_text E nl before b bs e after -> Forall block_ok cs -> thinned bs cs ->
  settled (card_in nl before b bs e after) ->
  exists f fuel, (forall card, increasing_fun (f card) /\ f card 0 = 0) /\
    forall more, fuel <= more ->
      parse_text T E more (card_in nl before b bs e after) = parse_text (other_ids f T) E more (card_in nl before b cs e after) /\
      parse_text T E more (card_in nl before b bs e after) <> Running.
Proof.
  intros H1 Hc Ht Hset. assert (H2 : one_card_text E nl before b cs e after) by (unfold one_card_text in *; tauto).
  destruct (settled_srun E _ Hset) as [cards Hr].
  destruct (card_in_run E nl before b _ e after H1) as (L1 & m & Hm). destruct (card_in_run E nl before b _ e after H2) as (L2 & _).
  set (c1 := card_of (map (fun b0 => parse_pure E (content b0)) bs)) in *.
  set (c2 := card_of (map (fun b0 => parse_pure E (content b0)) cs)) in *.
  assert (Hcut : forall bs', one_card_text E nl before b bs' e after ->
    srun E (Normal lm_init) (physical_lines (card_in nl before b bs' e after)) =
    option_map (fun r => m_cards m ++ card_of (map (fun b0 => parse_pure E (content b0)) bs') :: r) (srun E (Normal lm_init) (after ++ [[]]))).
  { intros bs' Hb'. rewrite (Hm _ Hb').
    replace (Normal (mkLM [] [] (m_cards m ++ [card_of (map (fun b0 => parse_pure E (content b0)) bs')]) false))
      with (prem (m_cards m ++ [card_of (map (fun b0 => parse_pure E (content b0)) bs')]) (Normal lm_init))
      by (unfold prem, pre; cbn [m_cards lm_init m_line m_card m_in]; rewrite app_nil_r; reflexivity).
    rewrite srun_pre. destruct (srun E (Normal lm_init) (after ++ [[]])); [|reflexivity]. cbn [option_map]. rewrite <- app_assoc. reflexivity. }
  pose proof (Hcut _ H1) as R1. pose proof (Hcut _ H2) as R2. rewrite Hr in R1.
  destruct (srun E (Normal lm_init) (after ++ [[]])) as [r|]; [|discriminate]. cbn [option_map] in R1, R2. fold c1 in R1. fold c2 in R2.
  destruct (read_card_thin T (length (m_cards m)) _ _ (thinned_lthin E bs cs Ht)) as (g & G1 & G0 & G2).
  exists (fun n k => if Nat.eqb n (0 + length (m_cards m)) then g k else k).
  exists (1 + count_occ N.eq_dec (card_in nl before b bs e after) 10%N + count_occ N.eq_dec (card_in nl before b cs e after) 10%N).
  split.
  { intros n. destruct (Nat.eqb n (0 + length (m_cards m))); [split; [exact G1|exact G0]|]. split; [intros i j H; exact H|reflexivity]. }
  intros fuel Hf. unfold parse_text.
  rewrite (srun_parses E (card_in nl before b bs e after) _ L1 Hr fuel) by lia.
  rewrite (srun_parses E (card_in nl before b cs e after) _ L2 R2 fuel) by lia.
  injection R1 as ->. rewrite (read_cards_thin T g c2 c1 (m_cards m) r 0 G2). split; [reflexivity|].
  destruct (read_cards _ 0 (m_cards m ++ c2 :: r)); discriminate.
Qed.
