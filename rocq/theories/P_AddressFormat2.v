(** Proofs about the address formatter. *)
From Verif Require Import Base BaseFacts M_Values M_AddressFormat S_AddressFormat P_AddressFormat.
Open Scope N_scope.

Lemma isnil_false : forall (A : Type) (l : list A), isnil l = false <-> l <> [].
Proof. intros A [|x l]; cbn; split; intros H; try discriminate; auto. exfalso; auto. Qed.
Lemma isnil_true : forall (A : Type) (l : list A), isnil l = true <-> l = [].
Proof. intros A [|x l]; cbn; split; intros H; try discriminate; auto. Qed.

Lemma nth_error_mid : forall (A : Type) (l : list A) x r, nth_error (l ++ x :: r) (length l) = Some x.
Proof. intros A l x r. rewrite nth_error_app2, Nat.sub_diag by auto. reflexivity. Qed.

Section Format.
  Variable X : FmtExt.
  Variable a : address.
  Variables name org : ustring.
  Variable fmt : aformat.
  Variable style : fstyle.

  Notation es := (af_elements fmt).
  Notation empty := (field_empty a name org style).
  Notation ne := (fun e => is_field e && negb (empty (e_field e))).

  Definition boundary (pre : list elem) : Prop := pre = [] \/ exists p s, pre = p ++ [s] /\ is_sep s = true.
  Definition nonsep (l : list elem) : Prop := Forall (fun e => is_sep e = false) l.

  (** ** The positions read are inside the vector *)

  Lemma back_some : forall i, (i < length es)%nat -> exists b, back_content a name org fmt style i = Some b.
  Proof.
    induction i as [|i IH]; intros H.
    - cbn. destruct es as [|e l]; [cbn in H; lia|]. cbn.
      destruct (is_sep e); [eauto|]. destruct (is_field e && _); eauto.
    - cbn [back_content]. destruct (nth_error es (S i)) as [e|] eqn:E.
      + destruct (is_sep e); [eauto|]. destruct (is_field e && _); [eauto|]. apply IH. lia.
      + apply nth_error_None in E. lia.
  Qed.

  Lemma step_some : forall i st, (i < length es)%nat -> exists st', fmt_step X a name org fmt style i st = Some st'.
  Proof.
    intros i st H. unfold fmt_step.
    destruct (nth_error es i) as [e|] eqn:E; [|apply nth_error_None in E; lia].
    assert (P : exists b, prev_sep fmt i = Some b).
    { destruct i as [|j]; [cbn; eauto|]. cbn [prev_sep].
      destruct (nth_error es j) as [p|] eqn:Ep; [cbn; eauto|apply nth_error_None in Ep; lia]. }
    destruct P as [psep P]. rewrite P.
    destruct (is_sep e && _); [eauto|].
    destruct (back_some i H) as [b Hb]. rewrite Hb.
    assert (F : exists b, following_empty a name org fmt style i = Some b).
    { unfold following_empty. destruct (Nat.eqb_spec (S i) (length es)) as [Q|Q]; [eauto|].
      destruct (nth_error es (S i)) as [p|] eqn:Ep; [cbn; eauto|apply nth_error_None in Ep; lia]. }
    destruct F as [fe F]. rewrite F.
    destruct (is_lit e && _ && _); [eauto|]. destruct (is_field e && _); eauto.
  Qed.

  Lemma loop_some : forall n i st, (i + n <= length es)%nat -> exists st', fmt_loop X a name org fmt style n i st = Some st'.
  Proof.
    induction n as [|n IH]; intros i st H; cbn [fmt_loop]; [eauto|].
    destruct (step_some i st) as [st' E]; [lia|]. rewrite E. apply IH. lia.
  Qed.

  (** ** What is read around the current position *)

  Lemma prev_sep_at : forall pre cur e rest, es = pre ++ cur ++ e :: rest -> boundary pre -> nonsep cur ->
    prev_sep fmt (length (pre ++ cur)) = Some (isnil cur && negb (isnil pre)).
  Proof.
    intros pre cur e rest He Hb Hc.
    destruct cur as [|c cur] using rev_ind.
    - rewrite app_nil_r. cbn [isnil andb]. destruct Hb as [Hb|[p [s [Hb Hs]]]]; subst pre.
      + reflexivity.
      + rewrite app_length. cbn [length]. rewrite Nat.add_comm. cbn [plus prev_sep].
        rewrite He. cbn [app]. rewrite <- app_assoc. cbn [app]. rewrite nth_error_mid.
        cbn [option_map]. rewrite Hs. destruct p; reflexivity.
    - clear IHcur. apply Forall_app in Hc. destruct Hc as [_ Hc]. inversion Hc as [|? ? Hc1 _]; subst.
      rewrite app_assoc, app_length. cbn [length]. rewrite Nat.add_comm. cbn [plus prev_sep].
      rewrite He. rewrite <- app_assoc. cbn [app]. rewrite app_assoc, nth_error_mid.
      cbn [option_map]. rewrite Hc1. destruct cur; reflexivity.
  Qed.

  Lemma back_at : forall cur pre e rest, es = pre ++ cur ++ e :: rest -> boundary pre -> nonsep cur -> is_sep e = false ->
    back_content a name org fmt style (length (pre ++ cur)) = Some (existsb ne (cur ++ [e])).
  Proof.
    induction cur as [|c cur IH] using rev_ind; intros pre e rest He Hb Hc Hs.
    - rewrite app_nil_r. cbn [app existsb]. rewrite orb_false_r.
      assert (E : nth_error es (length pre) = Some e) by (rewrite He; cbn [app]; apply nth_error_mid).
      destruct Hb as [Hb|[p [s [Hb Hss]]]].
      + subst pre. cbn [length back_content] in *. rewrite E, Hs. destruct (is_field e && _); reflexivity.
      + subst pre. rewrite app_length in E |- *. cbn [length] in E |- *. rewrite Nat.add_comm in E |- *.
        cbn [plus] in E |- *. cbn [back_content]. rewrite E, Hs. destruct (is_field e && _); [reflexivity|].
        assert (E2 : nth_error es (length p) = Some s).
        { rewrite He. rewrite <- app_assoc. cbn [app]. apply nth_error_mid. }
        destruct (length p); cbn [back_content]; rewrite E2, Hss; reflexivity.
    - assert (E : nth_error es (length (pre ++ cur ++ [c])) = Some e).
      { rewrite He. rewrite app_assoc. apply nth_error_mid. }
      rewrite app_assoc, app_length in E |- *. cbn [length] in E |- *. rewrite Nat.add_comm in E |- *.
      cbn [plus] in E |- *. cbn [back_content]. rewrite E, Hs.
      apply Forall_app in Hc. destruct Hc as [Hc Hc1]. inversion Hc1 as [|? ? Hc2 _]; subst.
      rewrite existsb_app. cbn [existsb]. rewrite orb_false_r.
      destruct (is_field e && negb (empty (e_field e))) eqn:N.
      + rewrite orb_true_r. reflexivity.
      + rewrite orb_false_r. rewrite (IH pre c (e :: rest)); auto.
        rewrite He, <- !app_assoc. reflexivity.
  Qed.

  Lemma following_at : forall d e rest, es = d ++ e :: rest ->
    following_empty a name org fmt style (length d)
    = Some match rest with e' :: _ => is_field e' && empty (e_field e') | [] => false end.
  Proof.
    intros d e rest He. unfold following_empty. rewrite He, app_length. cbn [length].
    destruct rest as [|e' rest].
    - cbn [length]. destruct (Nat.eqb_spec (S (length d)) (length d + 1)) as [Q|Q]; [reflexivity|lia].
    - cbn [length]. destruct (Nat.eqb_spec (S (length d)) (length d + S (S (length rest)))) as [Q|Q]; [lia|].
      change (d ++ e :: e' :: rest) with (d ++ [e] ++ e' :: rest). rewrite app_assoc.
      replace (S (length d)) with (length (d ++ [e])) by (rewrite app_length; cbn; lia).
      rewrite nth_error_mid. reflexivity.
  Qed.

  Lemma sep_not : forall e, is_sep e = true -> is_field e = false /\ is_lit e = false.
  Proof. intros e H. unfold is_sep in H. apply andb_true_iff in H. rewrite !negb_true_iff in H. exact H. Qed.

  Lemma step_sep : forall pre cur e rest st, es = pre ++ cur ++ e :: rest -> boundary pre -> nonsep cur -> is_sep e = true ->
    fmt_step X a name org fmt style (length (pre ++ cur)) st
    = Some (if negb (isnil (f_line st)) || (isnil cur && negb (isnil pre) && is_newline style)
            then mkF (f_lines st ++ [f_line st] ++ (if isnil (f_second st) then [] else [f_second st])) [] []
            else st).
  Proof.
    intros pre cur e rest st He Hb Hc Hs. unfold fmt_step.
    rewrite (prev_sep_at pre cur e rest) by auto.
    assert (E : nth_error es (length (pre ++ cur)) = Some e) by (rewrite He, app_assoc; apply nth_error_mid).
    rewrite E, Hs. cbn [andb].
    destruct (negb (isnil (f_line st)) || _); [reflexivity|].
    destruct (back_some (length (pre ++ cur))) as [b Hb2].
    { rewrite He, app_assoc, (app_length (pre ++ cur)). cbn [length]. lia. }
    rewrite Hb2, (following_at (pre ++ cur) e rest) by (rewrite <- app_assoc; auto).
    destruct (sep_not e Hs) as [H1 H2]. rewrite H1, H2. reflexivity.
  Qed.

  Definition ext_of (e : elem) : list ustring := if is_street e then extended_line a style else [].

  Lemma step_elem : forall pre cur e rest st, es = pre ++ cur ++ e :: rest -> boundary pre -> nonsep cur ->
    is_sep e = false -> proper e ->
    fmt_step X a name org fmt style (length (pre ++ cur)) st
    = Some (mkF
        (f_lines st ++ (if reverse_order es then [] else ext_of e))
        (f_line st
         ++ (if is_field e then (if has (st_fields style) (e_field e)
                                 then cased X fmt style (e_field e) (field_value X a name org fmt style (e_field e)) else [])
             else if (isnil cur || existsb ne cur)
                     && negb match rest with e' :: _ => is_field e' && empty (e_field e') | [] => false end
                  then e_lit e else []))
        (if reverse_order es && negb (isnil (ext_of e)) then ad_extended a else f_second st)).
  Proof.
    intros pre cur e rest st He Hb Hc Hs Hp. unfold fmt_step.
    rewrite (prev_sep_at pre cur e rest) by auto.
    assert (E : nth_error es (length (pre ++ cur)) = Some e) by (rewrite He, app_assoc; apply nth_error_mid).
    rewrite E, Hs. cbn [andb].
    rewrite (back_at cur pre e rest), (following_at (pre ++ cur) e rest) by (rewrite <- ?app_assoc; auto).
    rewrite existsb_app. cbn [existsb]. rewrite orb_false_r.
    unfold ext_of, extended_line, is_street.
    destruct Hp as [[P1 P2]|[P1 P2]].
    - assert (L : is_lit e = false) by (unfold is_lit; rewrite P1; reflexivity).
      assert (F : is_field e = true).
      { unfold is_sep in Hs. rewrite L in Hs. destruct (is_field e); auto. }
      rewrite L, F. cbn [andb].
      destruct (has (st_fields style) (e_field e)) eqn:HI.
      + destruct (N.eqb_spec (e_field e) fStreet) as [S|S].
        * rewrite <- S, HI. rewrite andb_true_r. cbn [andb].
          destruct (negb (isnil (ad_street a)) && negb (isnil (ad_extended a)) && negb (is_geo style)) eqn:B0;
            destruct (reverse_order es); cbn [andb negb isnil]; rewrite ?app_nil_r; reflexivity.
        * cbn [andb isnil negb]. rewrite andb_false_r. destruct (reverse_order es); rewrite ?app_nil_r; reflexivity.
      + destruct (N.eqb_spec (e_field e) fStreet) as [S|S].
        * rewrite <- S, HI, andb_false_r. cbn [isnil negb andb]. rewrite andb_false_r.
          destruct (reverse_order es); rewrite !app_nil_r; destruct st; reflexivity.
        * cbn [andb isnil negb]. rewrite andb_false_r.
          destruct (reverse_order es); rewrite !app_nil_r; destruct st; reflexivity.
    - assert (L : is_lit e = true) by (unfold is_lit; destruct (e_lit e); [contradiction|reflexivity]).
      assert (F : is_field e = false) by (unfold is_field; rewrite P1; reflexivity).
      assert (S : (e_field e =? fStreet) = false) by (rewrite P1; reflexivity).
      rewrite L, F, S. cbn [andb isnil negb]. rewrite andb_false_r, orb_false_r.
      assert (I0 : Nat.eqb (length (pre ++ cur)) 0 || (isnil cur && negb (isnil pre)) || existsb ne cur
                   = isnil cur || existsb ne cur).
      { rewrite app_length. destruct pre, cur; cbn; auto. }
      rewrite I0. destruct ((isnil cur || existsb ne cur) && negb _);
        destruct (reverse_order es); rewrite ?app_nil_r; destruct st; reflexivity.
  Qed.

  (** ** The lines *)

  Hypothesis upper_keeps : forall s, fx_upper X s = [] -> s = [].

  Lemma ext_street : forall e, ext_of e <> [] ->
    e_field e = fStreet /\ has (st_fields style) fStreet = true /\ ad_street a <> [] /\ ad_extended a <> []
    /\ ext_of e = [ad_extended a].
  Proof.
    intros e H. unfold ext_of, is_street, extended_line in *.
    destruct (N.eqb_spec (e_field e) fStreet) as [E|E]; [|contradiction].
    destruct (negb (isnil (ad_street a)) && negb (isnil (ad_extended a)) && negb (is_geo style)
              && has (st_fields style) fStreet) eqn:B0; [|contradiction].
    apply andb_true_iff in B0. destruct B0 as [B0 B4]. apply andb_true_iff in B0. destruct B0 as [B0 B3].
    apply andb_true_iff in B0. destruct B0 as [B1 B2]. rewrite negb_true_iff, isnil_false in B1, B2. auto.
  Qed.

  Lemma ext_value : forall e, ext_of e <> [] ->
    is_field e = true /\ has (st_fields style) (e_field e) = true
    /\ cased X fmt style (e_field e) (field_value X a name org fmt style (e_field e)) <> [].
  Proof.
    intros e H. destruct (ext_street e H) as [H1 [H2 [H3 [H4 _]]]].
    split; [unfold is_field; rewrite H1; reflexivity|]. rewrite H1. split; [exact H2|].
    assert (V : field_value X a name org fmt style fStreet = ad_street a).
    { unfold field_value. change (fStreet =? fName) with false. change (fStreet =? fOrg) with false.
      change (fStreet =? fPobox) with false. rewrite N.eqb_refl. cbv iota.
      apply isnil_false in H3. rewrite H3. reflexivity. }
    rewrite V. unfold cased. destruct (st_upper style && _); auto.
  Qed.

  Notation text_of := (line_text X a name org fmt style).
  Notation rev_ord := (reverse_order es).

  Lemma next_segment : forall rest g gs, segments rest = g :: gs ->
    match rest with e' :: _ => is_field e' && empty (e_field e') | [] => false end
    = match g with e' :: _ => is_field e' && empty (e_field e') | [] => false end.
  Proof.
    intros [|e rest] g gs H; cbn [segments] in H.
    - inversion H; subst. reflexivity.
    - destruct (is_sep e) eqn:S.
      + inversion H; subst. destruct (sep_not e S) as [F _]. rewrite F. reflexivity.
      + destruct (segments rest) as [|h hs]; inversion H; subst; reflexivity.
  Qed.

  Lemma segments_cons : forall l, exists g gs, segments l = g :: gs.
  Proof.
    induction l as [|e l [g [gs IH]]]; cbn [segments]; [eauto|].
    destruct (is_sep e); [eauto|]. rewrite IH. eauto.
  Qed.

  Lemma loop_lines : forall rest pre cur st st' g gs,
    es = pre ++ cur ++ rest -> boundary pre -> nonsep cur -> Forall proper rest ->
    (f_second st <> [] -> f_line st <> []) ->
    fmt_loop X a name org fmt style (length rest) (length (pre ++ cur)) st = Some st' ->
    segments rest = g :: gs ->
    let T := f_line st ++ text_of (isnil cur) (existsb ne cur) g in
    let S := if rev_ord && existsb (fun e => negb (isnil (ext_of e))) g then ad_extended a else f_second st in
    final_lines st'
    = f_lines st
      ++ (if rev_ord then [] else flat_map ext_of g)
      ++ (if isnil T then (if negb (isnil gs) && is_newline style && isnil cur && isnil g && negb (isnil pre) then [[]] else [])
          else [T])
      ++ (if isnil S then [] else [S])
      ++ rest_lines X a name org fmt style gs.
  Proof.
    induction rest as [|e rest IH]; intros pre cur st st' g gs He Hb Hc Hp Hi Hl Hg T S.
    - cbn in Hg. inversion Hg; subst g gs. cbn in Hl. inversion Hl; subst st'.
      subst T S. cbn [line_text existsb flat_map isnil negb andb rest_lines].
      rewrite !andb_false_r, !app_nil_r. unfold final_lines.
      destruct rev_ord; destruct (isnil (f_line st)); reflexivity.
    - cbn [length fmt_loop] in Hl. inversion Hp as [|? ? Hp1 Hp2]; subst.
      destruct (is_sep e) eqn:Es.
      + rewrite (step_sep pre cur e rest) in Hl by auto.
        cbn [segments] in Hg. rewrite Es in Hg. inversion Hg; subst g gs. clear Hg.
        destruct (segments_cons rest) as [g [gs Hg]]. rewrite Hg.
        match type of Hl with context [if ?c then ?x else st] => set (st1 := if c then x else st) in Hl end.
        cbv beta iota in Hl.
        assert (L1 : f_line st1 = [] /\ f_second st1 = []).
        { subst st1. destruct (isnil (f_line st)) eqn:Ln; cbn [negb orb].
          - destruct (isnil cur && negb (isnil pre) && is_newline style); [split; reflexivity|].
            apply isnil_true in Ln. split; auto.
            destruct (f_second st) eqn:E2; auto. exfalso. apply Hi; [discriminate|auto].
          - split; reflexivity. }
        destruct L1 as [L1 L2].
        specialize (IH (pre ++ cur ++ [e]) [] st1 st' g gs).
        rewrite app_nil_r in IH.
        assert (IHc : final_lines st' = f_lines st1 ++ rest_lines X a name org fmt style (g :: gs)).
        { rewrite IH.
          - rewrite L1, L2. cbn [app existsb isnil]. f_equal.
            assert (PN : isnil (pre ++ cur ++ [e]) = false).
            { apply isnil_false. destruct pre, cur; discriminate. }
            rewrite PN. cbn [negb]. rewrite !andb_true_r.
            assert (R : rest_lines X a name org fmt style (g :: gs)
                        = seg_lines X a name org fmt style (negb (isnil gs) && is_newline style) g
                          ++ rest_lines X a name org fmt style gs).
            { destruct gs; cbn [rest_lines isnil negb andb]; [rewrite app_nil_r|]; reflexivity. }
            rewrite R. unfold seg_lines, seg_text.
            assert (EX : forall l, (if rev_ord && existsb (fun e => negb (isnil (ext_of e))) l then [ad_extended a] else [])
                         = if rev_ord then (if existsb is_street l then extended_line a style else []) else []).
            { intros l. destruct rev_ord; cbn [andb]; auto. induction l as [|x l IHl]; [reflexivity|].
              cbn [existsb]. unfold ext_of at 1. destruct (is_street x) eqn:Sx; cbn [orb].
              - destruct (extended_line a style) as [|w ws] eqn:EL; cbn [isnil negb orb].
                + rewrite IHl. destruct (existsb is_street l); auto.
                + destruct (ext_street x) as [_ [_ [_ [_ Q]]]].
                  { unfold ext_of. rewrite Sx, EL. discriminate. }
                  unfold ext_of in Q. rewrite Sx, EL in Q. symmetry; exact Q.
              - cbn [isnil negb orb]. exact IHl. }
            assert (EXn : (if isnil (if rev_ord && existsb (fun e => negb (isnil (ext_of e))) g then ad_extended a else [])
                           then [] else [if rev_ord && existsb (fun e => negb (isnil (ext_of e))) g then ad_extended a else []])
                          = (if rev_ord && existsb (fun e => negb (isnil (ext_of e))) g then [ad_extended a] else [])).
            { destruct (rev_ord && existsb _ g) eqn:Q; [|reflexivity].
              apply andb_true_iff in Q. destruct Q as [_ Q]. apply existsb_exists in Q. destruct Q as [x [_ Q]].
              rewrite negb_true_iff, isnil_false in Q. destruct (ext_street x Q) as [_ [_ [_ [Q4 _]]]].
              apply isnil_false in Q4. rewrite Q4. reflexivity. }
            match goal with |- _ ++ _ ++ ?x ++ _ = _ =>
              replace x with (if rev_ord then (if existsb is_street g then extended_line a style else []) else [])
                by (symmetry; etransitivity; [exact EXn|apply EX]) end.
            destruct rev_ord; cbn [app]; rewrite <- ?app_assoc; reflexivity.
          - rewrite He, <- !app_assoc. reflexivity.
          - right. exists (pre ++ cur), e. rewrite <- app_assoc. auto.
          - constructor.
          - exact Hp2.
          - rewrite L2. intros K; contradiction.
          - rewrite <- Hl. f_equal. rewrite app_assoc, (app_length (pre ++ cur)). cbn [length]. lia.
          - exact Hg. }
        rewrite IHc. subst T S. cbn [line_text existsb flat_map isnil negb andb].
        rewrite !andb_false_r, !andb_true_r, !app_nil_r. subst st1.
        destruct (isnil (f_line st)) eqn:Ln; cbn [negb orb].
        * assert (S0 : f_second st = []).
          { apply isnil_true in Ln. destruct (f_second st) eqn:E2; auto. exfalso. apply Hi; [discriminate|auto]. }
          assert (BB : is_newline style && isnil cur && negb (isnil pre) = isnil cur && negb (isnil pre) && is_newline style).
          { destruct (is_newline style), (isnil cur), (isnil pre); reflexivity. }
          rewrite BB, S0. apply isnil_true in Ln. rewrite Ln.
          destruct rev_ord; destruct (isnil cur && negb (isnil pre) && is_newline style);
            cbn [f_lines app isnil]; rewrite <- ?app_assoc; reflexivity.
        * destruct rev_ord; cbn [f_lines app]; rewrite <- ?app_assoc; reflexivity.
      + rewrite (step_elem pre cur e rest) in Hl by auto.
        cbn [segments] in Hg. rewrite Es in Hg.
        destruct (segments_cons rest) as [h [hs Hh]]. rewrite Hh in Hg. inversion Hg; subst g gs. clear Hg.
        rewrite (next_segment rest h hs Hh) in Hl.
        match type of Hl with context [mkF ?l (f_line st ++ ?ad) ?s] =>
          set (add := ad) in Hl; set (st1 := mkF l (f_line st ++ add) s) in Hl end.
        cbv beta iota in Hl.
        specialize (IH pre (cur ++ [e]) st1 st' h hs).
        rewrite IH; clear IH.
        * subst st1. cbn [f_lines f_line f_second].
          assert (CN : isnil (cur ++ [e]) = false) by (apply isnil_false; destruct cur; discriminate).
          rewrite CN. cbn [isnil]. rewrite !andb_false_r. cbn [andb].
          rewrite existsb_app. cbn [existsb]. rewrite orb_false_r.
          assert (ET : T = (f_line st ++ add) ++ text_of false (existsb ne cur || ne e) h).
          { subst T add. cbn [line_text]. rewrite <- app_assoc. reflexivity. }
          rewrite <- ET.
          assert (ES : (if rev_ord && existsb (fun e => negb (isnil (ext_of e))) h then ad_extended a
                        else if rev_ord && negb (isnil (ext_of e)) then ad_extended a else f_second st) = S).
          { subst S. cbn [existsb]. destruct rev_ord; cbn [andb]; auto.
            destruct (negb (isnil (ext_of e))); cbn [orb]; destruct (existsb _ h); reflexivity. }
          rewrite ES. cbn [flat_map]. destruct rev_ord; cbn [app]; rewrite <- ?app_assoc; [reflexivity|].
          reflexivity.
        * rewrite He, <- !app_assoc. reflexivity.
        * exact Hb.
        * apply Forall_app. split; auto.
        * exact Hp2.
        * subst st1. cbn [f_second f_line]. destruct (rev_ord && negb (isnil (ext_of e))) eqn:Q.
          -- intros _. apply andb_true_iff in Q. destruct Q as [_ Q]. rewrite negb_true_iff, isnil_false in Q.
             destruct (ext_value e Q) as [V1 [V2 V3]]. subst add. rewrite V1, V2.
             intros K. apply app_eq_nil in K. destruct K as [_ K]. contradiction.
          -- intros K1 K2. apply app_eq_nil in K2. destruct K2 as [K2 _]. apply Hi; auto.
        * rewrite <- Hl. f_equal. rewrite app_assoc, (app_length (pre ++ cur)). cbn [length]. lia.
        * exact Hh.
  Qed.
End Format.
