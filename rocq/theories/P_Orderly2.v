(** Contacts read from any text are in order (C58). *)
From Verif Require Import Base BaseFacts QtText Utf8 M_ParamMap M_VCard M_VCardText S_Card P_Assoc P_Card M_Split M_Values M_Date M_Addressee
  M_VCardTool S_Contact P_ReadFields P_Lists P_Values P_Types P_Addressee S_Orderly P_Orderly.

Lemma filled_ok x : pt_text x <> [] -> filled x. Proof. auto. Qed.
#[local] Hint Resolve filled_ok : core.
(** ** parameters of parsed lines *)
Definition line_orderly (l : vline) : Prop := exists ops, pm_ok (vl_params l) ops.
Lemma pm_ok_orderly m ops : pm_ok m ops -> params_orderly m.
Proof.
  intros [Hs Hf]. split; [exact Hs|]. apply Forall_forall. intros [p vs] Hi. cbn.
  pose proof (In_afind p m vs Hs Hi) as E. rewrite <- find_param_afind, Hf in E.
  destruct (added p ops) as [|x r]; [discriminate|]. injection E as <-. split; [discriminate|exact (firsts_NoDup (x :: r))].
Qed.
Lemma line_params_orderly l : line_orderly l -> params_orderly (vl_params l).
Proof. intros [ops H]. eapply pm_ok_orderly, H. Qed.
Lemma px_step_orderly ch x : line_orderly (px_line x) -> line_orderly (px_line (fst (px_step ch x))).
Proof.
  intros H. assert (A : forall p v, line_orderly (vl_add_param p v (px_line x))).
  { intros p v. destruct H as [ops H]. exists (ops ++ [(p, v)]). cbn. apply pm_add_ok, H. }
  assert (C : line_orderly (px_line (fst (match px_after ch x with Some x' => (x', true) | None => (x, false) end)))).
  { unfold px_after. repeat match goal with |- context [if ?b then _ else _] => destruct b end; exact H. }
  unfold px_step. destruct (px_state x); cbv zeta;
  repeat match goal with |- context [if ?b then _ else _] => destruct b end; first [exact H|exact C|apply A|idtac].
Qed.
Lemma px_run_orderly s : forall x, line_orderly (px_line x) -> line_orderly (px_line (fst (px_run s x))).
Proof.
  induction s as [|ch s IH]; intros x H; cbn [px_run]; auto.
  pose proof (px_step_orderly ch x H) as Hs. destruct (px_step ch x) as [x' go]. cbn in Hs. destruct go; auto.
Qed.
Lemma parse_line_orderly E fuel text line f l f' : parse_line E fuel text line f = Some (l, f') -> line_orderly l.
Proof.
  unfold parse_line. pose proof (px_run_orderly line px_init) as H.
  destruct (px_run line px_init) as [x rest]. cbn [fst] in H.
  assert (Hx : line_orderly (px_line x)) by (apply H; exists []; apply pm_ok_nil). clear H. unfold finish_line.
  destruct rest as [raw|]; [|intros E1; injection E1 as <- <-; exact Hx]. cbv zeta.
  match goal with |- match ?d with _ => _ end = _ -> _ => destruct d as [[[o w] g]|]; [|discriminate] end.
  intros E1. injection E1 as <- <-. exact Hx.
Qed.

(** ** cards *)
Definition card_good (c : vcard) : Prop := exists lines, Forall line_orderly lines /\ card_ok c lines.
Lemma card_good_nil : card_good [].
Proof. exists []. split; auto. exact (card_of_ok []). Qed.
Lemma card_good_add l c : line_orderly l -> card_good c -> card_good (add_line l c).
Proof.
  intros Hl (lines & Hf & Hc). exists (lines ++ [l]). split; [apply Forall_app; auto|apply add_line_ok, Hc].
Qed.
Lemma card_good_lines c : card_good c -> Forall line_orderly (flat_map (fun id => card_lines id c) (identifiers c)).
Proof.
  intros (lines & Hf & _ & Hc). apply Forall_forall. intros l Hl. apply in_flat_map in Hl as (id & _ & Hl).
  unfold card_lines in Hl. rewrite Hc in Hl. assert (In l (of_id id lines)) as Hi by (destruct (of_id id lines); auto).
  apply filter_In in Hi as [Hi _]. rewrite Forall_forall in Hf. auto.
Qed.
Definition loop_good (s : lstate) : Prop := card_good (l_card s) /\ Forall card_good (l_cards s).
Lemma dispatch_good f s : loop_good s -> loop_good (dispatch f s).
Proof.
  intros [H1 H2]. unfold dispatch. destruct (is_begin _); [split; cbn; auto using card_good_nil|].
  destruct (is_end _); split; cbn; auto using card_good_nil. apply Forall_app. auto.
Qed.
Lemma body_good E fuel text s s' : loop_good s -> body E fuel text s = Some s' -> loop_good s'.
Proof.
  intros H. unfold body. cbv zeta. destruct (is_folded _); [intros E1; injection E1 as <-; exact H|].
  destruct (isnil _); [intros E1; injection E1 as <-; exact H|].
  destruct (l_in s && _).
  - destruct (parse_line E fuel text (l_line s) _) as [[vl f']|] eqn:El; [|discriminate].
    intros E1. injection E1 as <-. apply dispatch_good. split; cbn; [|apply H].
    apply card_good_add; [|apply H]. eapply parse_line_orderly, El.
  - intros E1. injection E1 as <-. apply dispatch_good, H.
Qed.
Lemma parse_loop_good E text : forall fuel s cs, loop_good s -> parse_loop E fuel text s = Some cs -> Forall card_good cs.
Proof.
  induction fuel as [|n IH]; intros s cs H; cbn [parse_loop].
  - destruct (_ =? _)%Z; [|discriminate]. intros E1. injection E1 as <-. apply H.
  - destruct (_ =? _)%Z; [intros E1; injection E1 as <-; apply H|].
    destruct (body E n text s) as [s'|] eqn:Eb; [|discriminate]. apply IH. eapply body_good in Eb; eauto.
Qed.
Lemma parse_vcards_good E fuel text cs : parse_vcards E fuel text = Some cs -> Forall card_good cs.
Proof. apply parse_loop_good. split; cbn; auto using card_good_nil. Qed.

(** ** one line *)
Section Read.
Variable T : Tool.
Let V := t_env T.
(** the phone numbers have identifiers from before *)
Definition aged (card k : nat) (a : addressee) : Prop :=
  Forall (fun p => exists j, j < k /\ ph_id p = t_newid T card j) (a_phones a).
Lemma aged_same card k a b : a_phones b = a_phones a -> aged card k a -> aged card (S k) b.
Proof.
  unfold aged. intros ->. apply Forall_impl. intros p (j & Hj & E). exists j. split; auto.
Qed.
Definition quiet (f : addressee -> addressee) : Prop := forall a, a_phones (f a) = a_phones a.
Lemma set_part_of_keeps i set parts : (forall s, keeps filled V (set s)) -> keeps filled V (set_part_of i set parts).
Proof. intros H a Ha. unfold set_part_of. destruct (nth_error parts i); auto. apply H, Ha. Qed.
Lemma read_sort_as_keeps l : keeps filled V (read_sort_as l).
Proof. intros a Ha. unfold read_sort_as. destruct (isnil _); auto. apply text_keeps; auto. cbn. tauto. Qed.
Lemma read_calurl_keeps t l : line_orderly l -> keeps filled V (read_calurl T t l).
Proof. intros H a Ha. apply calurl_keeps; auto. apply line_params_orderly, H. Qed.
Lemma read_custom_keeps l : line_orderly l -> keeps filled V (read_custom T l).
Proof.
  intros Hl a Ha. unfold read_custom. cbv zeta. destruct (starts_with _ _).
  - generalize (filter (fun s => negb (isnil s)) (split 57344%N (lvalue l))) as vs.
    match goal with |- forall vs, orderly_with filled V (fst (fold_left ?f vs (a, ?u))) => generalize u; intros u0 vs; revert u0 end.
    revert a Ha. induction vs as [|v vs IH]; intros a Ha u0; cbn [fold_left fst snd]; auto. apply IH.
    apply impp_keeps; auto. apply line_params_orderly, Hl.
  - destruct (index_of _ _); apply custom_keeps, Ha.
Qed.
Ltac texts := apply text_keeps; [cbn; tauto|auto].
Lemma read_line_keeps card k l a b : line_orderly l -> fresh_ids T -> orderly_with filled V a -> aged card k a ->
  read_line T (t_newid T card k) l a = Some b -> orderly_with filled V b.
Proof.
  intros Hl Hfr Ha Hold. pose proof (line_params_orderly l Hl) as Hp.
  unfold read_line. cbv zeta. fold V. destruct (line_kind l);
    try (intros E; injection E as <-).
  - apply fgroup_keeps; auto.
  - destruct (parse_address T _ l) as [x|]; [|discriminate]. intros E. injection E as <-. apply address_keeps, Ha.
  - apply custom_keeps, Ha.
  - destruct (parse_datetime (lvalue l)). intros E. injection E as <-. apply birthday_keeps, Ha.
  - apply deathdate_keeps, Ha.
  - destruct (split_string _ _); [|discriminate]. intros E. injection E as <-. apply categories_keeps, Ha.
  - apply read_calurl_keeps; auto.
  - apply read_calurl_keeps; auto.
  - apply read_calurl_keeps; auto.
  - apply impp_keeps; auto.
  - apply secrecy_keeps, Ha.
  - destruct (parse_gender _); auto. apply gender_keeps, Ha.
  - apply lang_keeps; auto.
  - apply email_keeps; auto.
  - texts.
  - texts.
  - unfold read_geo. destruct (if starts_with _ _ then _ else _) as [|x [|y r]]; auto. apply geo_keeps, Ha.
  - apply key_keeps, Ha.
  - unfold read_label. cbv zeta. destruct (find _ _); apply address_keeps, Ha.
  - destruct (parse_picture l) as [p|]; [|discriminate]. intros E. injection E as <-.
    destruct (picture_empty _); [apply logo_keeps, Ha|apply xlogo_keeps, Ha].
  - texts.
  - destruct (split_string _ _); [|discriminate]. intros E. injection E as <-.
    apply read_sort_as_keeps. repeat (apply set_part_of_keeps; [intros s a0 Ha0; texts|]). auto.
  - texts.
  - apply nick_keeps; auto.
  - texts.
  - destruct (split_string _ _); [|discriminate]. intros E. injection E as <-.
    apply read_sort_as_keeps. apply set_part_of_keeps; [intros s a0 Ha0; texts|].
    apply set_part_of_keeps; [intros s a0 Ha0; apply org_keeps; auto|]. auto.
  - destruct (parse_picture l) as [p|]; [|discriminate]. intros E. injection E as <-.
    destruct (picture_empty _); [apply photo_keeps, Ha|apply xphoto_keeps, Ha].
  - texts.
  - apply revision_keeps, Ha.
  - apply role_keeps; auto.
  - texts.
  - destruct (sound_empty _); [apply sound_keeps, Ha|apply xsound_keeps, Ha].
  - apply phone_keeps'; auto; cbn [parse_phone ph_number ph_id]; [apply simplified_idem|].
    intros _ Hi. apply in_map_iff in Hi as (p & E & Hp'). unfold aged in Hold. rewrite Forall_forall in Hold.
    apply Hold in Hp' as (j & Hj & E'). rewrite E' in E. apply Hfr in E. lia.
  - apply title_keeps; auto.
  - destruct (parse_tz _); auto. apply tz_keeps, Ha.
  - texts.
  - apply url_keeps; auto.
  - apply source_keeps, Ha.
  - apply member_keeps, Ha.
  - apply related_keeps; auto.
  - apply pidmap_keeps; auto.
  - apply read_custom_keeps; auto.
  - auto.
Qed.

Lemma read_line_phones id l a b : read_line T id l a = Some b ->
  a_phones b = a_phones a \/ a_phones b = a_phones (insert_phone (parse_phone id l) a).
Proof.
  intros H. apply read_line_eff in H as (e & ->). unfold eff. cbv zeta. destruct (line_kind l); try (left; reflexivity).
  all: try (right; reflexivity); left; repeat match goal with |- context [match ?x with _ => _ end] => destruct x end; reflexivity.
Qed.
Lemma read_line_aged card k l a b : aged card k a -> read_line T (t_newid T card k) l a = Some b -> aged card (S k) b.
Proof.
  intros Ha H. destruct (read_line_phones _ _ _ _ H) as [E|E].
  - eapply aged_same; eauto.
  - unfold aged. rewrite E. change (a_phones (insert_phone (parse_phone (t_newid T card k) l) a)) with
      (replace_or (fun q => leqb (ph_id q) (t_newid T card k)) (parse_phone (t_newid T card k) l)
        (negb (isnil (simplified (ph_number (parse_phone (t_newid T card k) l))))) (a_phones a)).
    apply (forall_new _ (parse_phone (t_newid T card k) l) (a_phones a)); [intros x; apply replace_or_in| |].
    + exists k. split; auto.
    + eapply Forall_impl; [|exact Ha]. intros p (j & Hj & Ej). exists j. split; auto.
Qed.
Lemma read_lines_orderly card : fresh_ids T -> forall ls k a b, Forall line_orderly ls -> orderly_with filled V a -> aged card k a ->
  read_lines T card k ls a = Some b -> orderly_with filled V b.
Proof.
  intros Hfr. induction ls as [|l ls IH]; intros k a b Hl Ha Hold; cbn [read_lines].
  - intros E. injection E as <-. exact Ha.
  - inversion Hl; subst. destruct (read_line T (t_newid T card k) l a) as [a'|] eqn:E; [|discriminate].
    apply IH; auto; [eapply read_line_keeps; eauto|eapply read_line_aged; eauto].
Qed.
Lemma read_cards_orderly : fresh_ids T -> forall cs n res, Forall card_good cs -> read_cards T n cs = Some res -> Forall (orderly V) res.
Proof.
  intros Hfr. induction cs as [|c cs IH]; intros n res Hc; cbn [read_cards].
  - intros E. injection E as <-. constructor.
  - inversion Hc; subst. destruct (read_card T n c) as [a|] eqn:E; [|discriminate].
    destruct (read_cards T (S n) cs) as [r|] eqn:E2; [|discriminate]. intros E1. injection E1 as <-. constructor; [|eauto].
    unfold read_card in E. eapply read_lines_orderly; [exact Hfr| | | |exact E].
    + apply card_good_lines; auto.
    + apply new_orderly.
    + constructor.
Qed.
Lemma parse_text_orderly E fuel text res : fresh_ids T -> parse_text T E fuel text = Done res -> Forall (orderly V) res.
Proof.
  intros Hfr. unfold parse_text. destruct (parse_vcards E fuel text) as [cs|] eqn:Ec; [|discriminate].
  destruct (read_cards T 0 cs) as [l|] eqn:El; [|discriminate]. intros E1. injection E1 as <-.
  eapply read_cards_orderly; [exact Hfr| |exact El]. eapply parse_vcards_good, Ec.
Qed.
End Read.
