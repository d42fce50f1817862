(** What formatted addresses contain. *)
From Verif Require Import Base BaseFacts M_Values M_AddressFormat S_AddressFormat P_AddressFormat P_AddressFormat2.
Open Scope N_scope.

Lemma occurs_refl : forall w, occurs w w.
Proof. intros w. exists [], []. rewrite app_nil_r. reflexivity. Qed.
Lemma occurs_trans : forall u v w, occurs u v -> occurs v w -> occurs u w.
Proof.
  intros u v w [p [q H]] [p' [q' H']]. subst. exists (p' ++ p), (q ++ q').
  rewrite <- !app_assoc. reflexivity.
Qed.
Lemma occurs_app_l : forall u v w, occurs u v -> occurs u (v ++ w).
Proof. intros u v w [p [q H]]. subst. exists p, (q ++ w). rewrite <- !app_assoc. reflexivity. Qed.
Lemma occurs_app_r : forall u v w, occurs u w -> occurs u (v ++ w).
Proof. intros u v w [p [q H]]. subst. exists (v ++ p), q. rewrite <- !app_assoc. reflexivity. Qed.

Lemma occurs_join : forall sep l x, In x l -> occurs x (join sep l).
Proof.
  intros sep. induction l as [|y l IH]; intros x H; [destruct H|].
  destruct l as [|z l].
  - destruct H as [H|[]]. subst. cbn. apply occurs_refl.
  - change (join sep (y :: z :: l)) with (y ++ sep ++ join sep (z :: l)).
    destruct H as [H|H].
    + subst. apply occurs_app_l, occurs_refl.
    + apply occurs_app_r, occurs_app_r, IH, H.
Qed.

Lemma segments_in : forall es e, In e es -> is_sep e = false -> exists g, In g (segments es) /\ In e g.
Proof.
  induction es as [|x es IH]; intros e H Hs; [destruct H|].
  cbn [segments]. destruct (segments_cons es) as [h [hs Hh]].
  destruct H as [H|H].
  - subst x. rewrite Hs, Hh. exists (e :: h). split; left; reflexivity.
  - destruct (IH e H Hs) as [g [G1 G2]]. destruct (is_sep x).
    + exists g. split; [right|]; auto.
    + rewrite Hh in *. destruct G1 as [G1|G1].
      * subst h. exists (x :: g). split; [left; reflexivity|right; auto].
      * exists g. split; [right|]; auto.
Qed.

Lemma in_segments : forall es g e, In g (segments es) -> In e g -> In e es /\ is_sep e = false.
Proof.
  induction es as [|x es IH]; intros g e H1 H2; cbn [segments] in H1.
  - destruct H1 as [H1|[]]. subst g. destruct H2.
  - destruct (is_sep x) eqn:S.
    + destruct H1 as [H1|H1]; [subst g; destruct H2|].
      destruct (IH g e H1 H2). split; [right|]; auto.
    + destruct (segments_cons es) as [h [hs Hh]]. rewrite Hh in *.
      destruct H1 as [H1|H1].
      * subst g. destruct H2 as [H2|H2]; [subst; split; [left|]; auto|].
        destruct (IH h e (or_introl eq_refl) H2). split; [right|]; auto.
      * destruct (IH g e (or_intror H1) H2). split; [right|]; auto.
Qed.

Section Lines.
  Variable X : FmtExt.
  Variable a : address.
  Variables name org : ustring.
  Variable fmt : aformat.
  Variable style : fstyle.
  Hypothesis upper_keeps : forall s, fx_upper X s = [] -> s = [].
  Hypothesis all_proper : Forall proper (af_elements fmt).

  Notation es := (af_elements fmt).
  Notation value f := (cased X fmt style f (field_value X a name org fmt style f)).

  Lemma seg_second : forall g,
    (if isnil (if reverse_order es && existsb (fun e => negb (isnil (ext_of a style e))) g then ad_extended a else [])
     then [] else [if reverse_order es && existsb (fun e => negb (isnil (ext_of a style e))) g then ad_extended a else []])
    = if reverse_order es then (if existsb is_street g then extended_line a style else []) else [].
  Proof.
    intros g. destruct (reverse_order es); cbn [andb]; [|reflexivity].
    destruct (existsb is_street g) eqn:S.
    - apply existsb_exists in S. destruct S as [x [S1 S2]].
      destruct (extended_line a style) as [|w ws] eqn:EL.
      + assert (E0 : existsb (fun e => negb (isnil (ext_of a style e))) g = false).
        { apply not_true_is_false. intros K. apply existsb_exists in K. destruct K as [y [_ K]].
          unfold ext_of in K. rewrite EL in K. destruct (is_street y); discriminate. }
        rewrite E0. reflexivity.
      + assert (NE : ext_of a style x <> []) by (unfold ext_of; rewrite S2, EL; discriminate).
        assert (E1 : existsb (fun e => negb (isnil (ext_of a style e))) g = true).
        { apply existsb_exists. exists x. split; auto. apply negb_true_iff, isnil_false. exact NE. }
        rewrite E1. destruct (ext_street a style x NE) as [_ [_ [_ [Q4 Q5]]]].
        unfold ext_of in Q5. rewrite S2, EL in Q5. apply isnil_false in Q4. rewrite Q4. symmetry; exact Q5.
    - assert (E0 : existsb (fun e => negb (isnil (ext_of a style e))) g = false).
      { apply not_true_is_false. intros K. apply existsb_exists in K. destruct K as [y [K1 K2]].
        unfold ext_of in K2. assert (is_street y = false) as Z.
        { apply not_true_is_false. intros K. assert (existsb is_street g = true); [|rewrite H in S; discriminate].
          apply existsb_exists. eauto. }
        rewrite Z in K2. discriminate. }
      rewrite E0. reflexivity.
  Qed.

  Lemma format_lines_spec :
    format_lines X a name org fmt style
    = Some (force_country X a fmt style (expected_lines X a name org fmt style (segments es))).
  Proof.
    unfold format_lines.
    destruct (loop_some X a name org fmt style (length es) 0 (mkF [] [] [])) as [st' E]; [lia|].
    rewrite E. cbn [option_map]. do 2 f_equal.
    destruct (segments_cons es) as [g [gs Hg]]. rewrite Hg.
    rewrite (loop_lines X a name org fmt style upper_keeps es [] [] (mkF [] [] []) st' g gs); auto.
    - cbn [f_lines f_line f_second app isnil existsb negb]. rewrite !andb_false_r.
      match goal with |- _ ++ _ ++ ?x ++ _ = _ =>
        replace x with (if reverse_order es then (if existsb is_street g then extended_line a style else []) else [])
          by (symmetry; apply seg_second) end.
      cbn [expected_lines]. unfold seg_lines, seg_text. cbn [andb].
      destruct (reverse_order es); cbn [app]; rewrite <- ?app_assoc; reflexivity.
    - left. reflexivity.
    - constructor.
  Qed.

  (** ** Everything included is there *)

  Lemma in_rest_lines : forall gs g x, In g gs -> (forall b, In x (seg_lines X a name org fmt style b g)) ->
    In x (rest_lines X a name org fmt style gs).
  Proof.
    induction gs as [|h gs IH]; intros g x H1 H2; [destruct H1|].
    destruct gs as [|h' gs].
    - destruct H1 as [H1|[]]. subst. apply H2.
    - change (In x (seg_lines X a name org fmt style (is_newline style) h ++ rest_lines X a name org fmt style (h' :: gs))).
      apply in_or_app. destruct H1 as [H1|H1]; [subst; left; apply H2|right; eapply IH; eauto].
  Qed.
  Lemma in_expected : forall gs g x, In g gs -> (forall b, In x (seg_lines X a name org fmt style b g)) ->
    In x (expected_lines X a name org fmt style gs).
  Proof.
    intros [|h gs] g x H1 H2; [destruct H1|]. cbn [expected_lines]. apply in_or_app.
    destruct H1 as [H1|H1]; [subst; left; apply H2|right; eapply in_rest_lines; eauto].
  Qed.

  Lemma text_has : forall g e first seen, In e g -> is_field e = true -> has (st_fields style) (e_field e) = true ->
    occurs (value (e_field e)) (line_text X a name org fmt style first seen g).
  Proof.
    induction g as [|x g IH]; intros e first seen H F I; [destruct H|].
    cbn [line_text]. destruct H as [H|H].
    - subst x. rewrite F, I. apply occurs_app_l, occurs_refl.
    - apply occurs_app_r. apply IH; auto.
  Qed.

  Lemma seg_text_line : forall g b, seg_text X a name org fmt style g <> [] ->
    In (seg_text X a name org fmt style g) (seg_lines X a name org fmt style b g).
  Proof.
    intros g b H. unfold seg_lines. apply isnil_false in H. rewrite H.
    destruct (reverse_order es); apply in_or_app; [left|right]; left; reflexivity.
  Qed.

  Lemma field_line : forall e, In e es -> is_field e = true -> has (st_fields style) (e_field e) = true ->
    value (e_field e) <> [] ->
    exists l, In l (expected_lines X a name org fmt style (segments es)) /\ occurs (value (e_field e)) l.
  Proof.
    intros e H F I V.
    destruct (segments_in es e H) as [g [G1 G2]].
    { unfold is_sep. rewrite F. reflexivity. }
    assert (O : occurs (value (e_field e)) (seg_text X a name org fmt style g)) by (apply text_has; auto).
    exists (seg_text X a name org fmt style g). split; [|exact O].
    apply (in_expected _ g); auto. intros b. apply seg_text_line.
    destruct O as [p [q O]]. rewrite O. intros K. apply app_eq_nil in K. destruct K as [_ K].
    apply app_eq_nil in K. destruct K as [K _]. contradiction.
  Qed.

  Lemma extended_found : forall e, In e es -> e_field e = fStreet -> ext_of a style e <> [] ->
    In (ad_extended a) (expected_lines X a name org fmt style (segments es)).
  Proof.
    intros e H F V.
    destruct (segments_in es e H) as [g [G1 G2]].
    { unfold is_sep, is_field. rewrite F. reflexivity. }
    destruct (ext_street a style e V) as [_ [_ [_ [_ Q]]]].
    assert (S : is_street e = true) by (unfold is_street; rewrite F; reflexivity).
    unfold ext_of in Q. rewrite S in Q.
    apply (in_expected _ g); auto. intros b. unfold seg_lines. destruct (reverse_order es).
    - apply in_or_app. right.
      assert (E : existsb is_street g = true) by (apply existsb_exists; eauto).
      rewrite E, Q. left. reflexivity.
    - apply in_or_app. left. apply in_flat_map. exists e. split; auto. rewrite S, Q. left. reflexivity.
  Qed.

  Lemma force_keeps : forall l x, In x l -> In x (force_country X a fmt style l).
  Proof.
    intros l x H. unfold force_country. destruct (st_force style && _ && _); auto.
    destruct style; try (apply in_or_app; left; exact H).
    destruct (isnil l) eqn:Z; [apply isnil_true in Z; subst l; destruct H|].
    destruct (reverse_order _); cbn [In]; auto.
    apply in_or_app. left. apply in_or_app. left. exact H.
  Qed.

  (** ** Nothing else is there *)

  (** where the text of a line comes from *)
  Inductive allowed : ustring -> Prop :=
  | al_nil : allowed []
  | al_field : forall e w, In e es -> is_field e = true -> has (st_fields style) (e_field e) = true ->
      allowed w -> allowed (value (e_field e) ++ w)
  | al_lit : forall e w, In e es -> allowed w -> allowed (e_lit e ++ w).

  Lemma text_allowed : forall g first seen, (forall e, In e g -> In e es) ->
    allowed (line_text X a name org fmt style first seen g).
  Proof.
    induction g as [|x g IH]; intros first seen H; [constructor|].
    cbn [line_text].
    assert (K : allowed (line_text X a name org fmt style false
       (seen || is_field x && negb (field_empty a name org style (e_field x))) g)).
    { apply IH. intros e He. apply H. right. exact He. }
    destruct (is_field x) eqn:F.
    - destruct (has (st_fields style) (e_field x)) eqn:I; [|exact K].
      apply al_field; auto. apply H. left. reflexivity.
    - destruct ((first || seen) && _); [|exact K]. apply al_lit; auto. apply H. left. reflexivity.
  Qed.

  (** ** An empty address *)

  Lemma lean_empty : forall g first seen,
    Forall proper g -> nonsep g ->
    (forall e, In e g -> is_field e = true ->
       has (st_fields style) (e_field e) = true -> value (e_field e) = []) ->
    (forall f, field_empty a name org style f = true) ->
    (first = true -> match g with [] => True
                     | e :: g' => is_lit e = false \/ match g' with e' :: _ => is_field e' = true | [] => False end end) ->
    seen = false ->
    line_text X a name org fmt style first seen g = [].
  Proof.
    induction g as [|x g IH]; intros first seen Hp Hn Hv He Hl Hs; [reflexivity|].
    cbn [line_text]. inversion Hp; subst. inversion Hn; subst.
    rewrite He. cbn [negb]. rewrite andb_false_r. cbn [orb].
    rewrite IH; auto.
    - rewrite app_nil_r. destruct (is_field x) eqn:F.
      + destruct (has (st_fields style) (e_field x)) eqn:I; auto. apply Hv; auto. left; reflexivity.
      + rewrite orb_false_r. destruct first; [|reflexivity]. cbn [andb].
        assert (L : is_lit x = true).
        { match goal with H : is_sep x = false |- _ => unfold is_sep in H; rewrite F in H; destruct (is_lit x); auto end. }
        destruct (Hl eq_refl) as [K|K]; [rewrite K in L; discriminate|].
        destruct g as [|y g]; [destruct K|]. rewrite K, He. reflexivity.
    - intros e H F I. apply Hv; auto. right; exact H.
    - discriminate.
  Qed.
End Lines.
