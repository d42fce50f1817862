(** Addresses that agree on what is shown are formatted alike. *)
From Verif Require Import Base BaseFacts M_Values M_AddressFormat S_AddressFormat P_AddressFormat P_AddressFormat2 P_AddressFormat3.
Open Scope N_scope.

Section Two.
  Variable X : FmtExt.
  Variables a1 a2 : address.
  Variables name1 name2 org1 org2 : ustring.
  Variable fmt : aformat.
  Variable style : fstyle.
  Hypothesis same : same_shown style fmt a1 a2 name1 name2 org1 org2.

  Notation es := (af_elements fmt).

  Lemma shows_in : forall e, In e es -> has (st_fields style) (e_field e) = true -> shows style fmt (e_field e) = true.
  Proof.
    intros e H I. unfold shows. rewrite I. apply existsb_exists. exists e. split; auto. apply N.eqb_refl.
  Qed.

  Lemma country_eq : shows style fmt fCountry = true \/ st_force style = true ->
    country_name X a1 fmt style = country_name X a2 fmt style.
  Proof.
    intros H. destruct same as [_ [_ [_ [_ [_ [_ [_ S]]]]]]]. unfold country_name. rewrite (S H). reflexivity.
  Qed.

  Lemma both_eq : forall f, shows style fmt f = true ->
    field_empty a1 name1 org1 style f = field_empty a2 name2 org2 style f
    /\ field_value X a1 name1 org1 fmt style f = field_value X a2 name2 org2 fmt style f.
  Proof.
    intros f H. pose proof country_eq as C.
    destruct same as [S1 [S2 [S3 [S4 [S5 [S6 [S7 S8]]]]]]].
    unfold field_empty, field_value.
    destruct (has (st_fields style) f); cbn [negb];
    repeat match goal with |- context [N.eqb f ?g] => destruct (N.eqb_spec f g); [subst f|] end;
    try (rewrite S1 by exact H); try (rewrite S2 by exact H); try (rewrite S3 by exact H);
    try (destruct (S4 H) as [S4a S4b]; rewrite S4a, S4b); try (rewrite S5 by exact H); try (rewrite S6 by exact H);
    try (rewrite S7 by exact H); try (rewrite S8 by (left; exact H)); try (rewrite C by (left; exact H));
    split; reflexivity.
  Qed.

  Lemma empty_eq : forall e, In e es ->
    field_empty a1 name1 org1 style (e_field e) = field_empty a2 name2 org2 style (e_field e).
  Proof.
    intros e H. destruct (has (st_fields style) (e_field e)) eqn:I.
    - apply both_eq. apply shows_in; auto.
    - unfold field_empty. rewrite I. reflexivity.
  Qed.

  Lemma line_text_eq : forall g first seen, (forall e, In e g -> In e es) ->
    line_text X a1 name1 org1 fmt style first seen g = line_text X a2 name2 org2 fmt style first seen g.
  Proof.
    induction g as [|x g IH]; intros first seen H; [reflexivity|].
    cbn [line_text].
    assert (Hx : In x es) by (apply H; left; reflexivity).
    rewrite (empty_eq x Hx). rewrite IH by (intros e He; apply H; right; exact He). f_equal.
    destruct (is_field x).
    - destruct (has (st_fields style) (e_field x)) eqn:I; [|reflexivity].
      unfold cased. rewrite (proj2 (both_eq (e_field x) (shows_in x Hx I))). reflexivity.
    - destruct g as [|y g]; [reflexivity|].
      rewrite (empty_eq y) by (apply H; right; left; reflexivity). reflexivity.
  Qed.

  Lemma extended_eq : forall e, In e es -> is_street e = true -> extended_line a1 style = extended_line a2 style.
  Proof.
    intros e H S. unfold extended_line. destruct (has (st_fields style) fStreet) eqn:I; [|rewrite !andb_false_r; reflexivity].
    unfold is_street in S. apply N.eqb_eq in S.
    destruct same as [_ [_ [_ [S4 _]]]].
    destruct S4 as [E1 E2].
    { rewrite <- S. apply shows_in; [exact H|rewrite S; exact I]. }
    rewrite E1, E2. reflexivity.
  Qed.

  Lemma seg_lines_eq : forall g b, (forall e, In e g -> In e es) ->
    seg_lines X a1 name1 org1 fmt style b g = seg_lines X a2 name2 org2 fmt style b g.
  Proof.
    intros g b H. unfold seg_lines, seg_text. rewrite (line_text_eq g true false H).
    assert (E1 : (if existsb is_street g then extended_line a1 style else [])
                 = (if existsb is_street g then extended_line a2 style else [])).
    { destruct (existsb is_street g) eqn:S; [|reflexivity].
      apply existsb_exists in S. destruct S as [e [S1 S2]]. apply (extended_eq e); auto. }
    assert (E2 : flat_map (fun e => if is_street e then extended_line a1 style else []) g
                 = flat_map (fun e => if is_street e then extended_line a2 style else []) g).
    { clear E1. induction g as [|x g IH]; [reflexivity|]. cbn [flat_map]. rewrite IH by (intros e He; apply H; right; exact He).
      destruct (is_street x) eqn:S; [|reflexivity]. rewrite (extended_eq x); auto. apply H. left. reflexivity. }
    destruct (reverse_order es); [f_equal; exact E1|].
    f_equal. exact E2.
  Qed.

  Lemma rest_lines_eq : forall gs, (forall g e, In g gs -> In e g -> In e es) ->
    rest_lines X a1 name1 org1 fmt style gs = rest_lines X a2 name2 org2 fmt style gs.
  Proof.
    induction gs as [|g gs IH]; intros H; [reflexivity|].
    destruct gs as [|h gs].
    - cbn [rest_lines]. apply seg_lines_eq. intros e. apply H. left. reflexivity.
    - change (seg_lines X a1 name1 org1 fmt style (is_newline style) g ++ rest_lines X a1 name1 org1 fmt style (h :: gs)
              = seg_lines X a2 name2 org2 fmt style (is_newline style) g ++ rest_lines X a2 name2 org2 fmt style (h :: gs)).
      rewrite IH by (intros g' e Hg'; apply H; right; exact Hg').
      f_equal. apply seg_lines_eq. intros e. apply H. left. reflexivity.
  Qed.

  Lemma expected_eq : expected_lines X a1 name1 org1 fmt style (segments es) = expected_lines X a2 name2 org2 fmt style (segments es).
  Proof.
    assert (H : forall g e, In g (segments es) -> In e g -> In e es).
    { intros g e H1 H2. apply (in_segments es g e H1 H2). }
    destruct (segments_cons es) as [g [gs E]]. rewrite E in *. cbn [expected_lines].
    rewrite (seg_lines_eq g false) by (intros e; apply H; left; reflexivity).
    rewrite (rest_lines_eq gs); [reflexivity|]. intros g' e H1. apply H. right. exact H1.
  Qed.

  Lemma force_eq : forall l, force_country X a1 fmt style l = force_country X a2 fmt style l.
  Proof.
    intros l. unfold force_country. destruct (st_force style) eqn:F; [|reflexivity]. cbn [andb].
    pose proof (country_eq (or_intror F)) as C.
    destruct same as [_ [_ [_ [_ [_ [_ [_ S8]]]]]]]. rewrite (S8 (or_intror F)), C. reflexivity.
  Qed.
End Two.

Theorem shown_only : forall X a1 a2 name1 name2 org1 org2 fmt style,
  (forall s, fx_upper X s = [] -> s = []) -> Forall proper (af_elements fmt) ->
  same_shown style fmt a1 a2 name1 name2 org1 org2 ->
  (st_sep style = Native -> detect (fx_script X) a1 = detect (fx_script X) a2) ->
  format_address X a1 name1 org1 fmt style = format_address X a2 name2 org2 fmt style.
Proof.
  intros X a1 a2 name1 name2 org1 org2 fmt style U P S D. unfold format_address.
  rewrite !format_lines_spec by auto.
  rewrite (expected_eq X a1 a2 name1 name2 org1 org2 fmt style S).
  rewrite (force_eq X a1 a2 name1 name2 org1 org2 fmt style S).
  unfold separator. destruct (st_sep style) eqn:E; try reflexivity. rewrite (D eq_refl). reflexivity.
Qed.

Lemma detect_bound : forall script a, (forall c, (script c < 4)%nat) -> (detect script a < 4)%nat.
Proof.
  intros script a H. unfold detect.
  assert (T : forall s, (detect_text script s < 4)%nat).
  { induction s as [|c s IH]; cbn; [lia|]. specialize (H c). destruct (script c); auto. }
  pose proof (T (ad_street a)). pose proof (T (ad_locality a)). lia.
Qed.

Lemma separator_some : forall X a style, (forall c, (fx_script X c < 4)%nat) -> exists sep, separator X a style = Some sep.
Proof.
  intros X a style H. unfold separator. destruct (st_sep style); eauto.
  pose proof (detect_bound (fx_script X) a H) as D.
  destruct (nth_error native_separators (detect (fx_script X) a)) eqn:E; eauto.
  apply nth_error_None in E. cbn in E. lia.
Qed.

Theorem format_total : forall X a name org fmt style, (forall c, (fx_script X c < 4)%nat) ->
  exists s, format_address X a name org fmt style = Some s.
Proof.
  intros X a name org fmt style H. unfold format_address, format_lines.
  destruct (loop_some X a name org fmt style (length (af_elements fmt)) 0 (mkF [] [] [])) as [st E]; [lia|].
  rewrite E. destruct (separator_some X a style H) as [sep S]. rewrite S. cbn. eauto.
Qed.
