From Verif Require Import Base BaseFacts M_Split S_Split.

(** Reference splitter: [cur] is the part collected so far. *)
Definition ends_bs (s : ustring) : bool :=
  match rev s with c :: _ => N.eqb c cBS | [] => false end.

Fixpoint sp (sep : N) (cur s : ustring) : list ustring :=
  match s with
  | [] => [cur]
  | c :: t =>
      if N.eqb c sep then
        if ends_bs cur then sp sep (removelast cur ++ [sep]) t
        else cur :: sp sep [] t
      else sp sep (cur ++ [c]) t
  end.

Lemma ends_bs_snoc s c : ends_bs (s ++ [c]) = N.eqb c cBS.
Proof. unfold ends_bs. rewrite rev_app_distr. reflexivity. Qed.

Lemma ends_bs_spec s : ends_bs s = true <-> ends_in_backslash s.
Proof.
  destruct s as [|x s] using rev_ind.
  - split; [discriminate|]. intros [r Hr]. destruct r; discriminate.
  - rewrite ends_bs_snoc, N.eqb_eq. split.
    + intros ->. exists s. reflexivity.
    + intros [r Hr]. apply app_inj_tail in Hr. tauto.
Qed.

Lemma sp_notin sep a : mem sep a = false -> forall cur r, sp sep cur (a ++ r) = sp sep (cur ++ a) r.
Proof.
  induction a as [|x a IH]; cbn; intros H cur r.
  - rewrite app_nil_r. reflexivity.
  - apply orb_false_iff in H as [Hx Ha]. rewrite Hx, IH by exact Ha.
    rewrite <- app_assoc. reflexivity.
Qed.

Lemma index_from_app sep pre s :
  index_from sep (pre ++ s) (length pre) = option_map (fun k => length pre + k) (index_of sep s).
Proof.
  unfold index_from. rewrite skipn_app_exact by reflexivity. reflexivity.
Qed.

Lemma nth_before (pre : ustring) c rest d : nth (length (pre ++ [c]) - 1) ((pre ++ [c]) ++ rest) d = c.
Proof.
  rewrite app_length. cbn [length]. rewrite Nat.add_sub.
  rewrite <- app_assoc. rewrite app_nth2 by lia. rewrite Nat.sub_diag. reflexivity.
Qed.

Lemma split_loop_sp sep : sep <> cBS ->
  forall fuel pre cur rest acc,
    (pre = [] \/ exists p, pre = p ++ [sep]) ->
    length rest <= fuel ->
    split_loop fuel sep (pre ++ cur ++ rest) (length pre)
      (index_from sep (pre ++ cur ++ rest) (length (pre ++ cur))) acc
    = Some (acc ++ sp sep cur rest).
Proof.
  intros Hsep. induction fuel as [|f IH]; intros pre cur rest acc Hpre Hf.
  - destruct rest; [|cbn in Hf; lia].
    rewrite app_assoc, index_from_app. cbn [index_of option_map split_loop sp].
    rewrite app_nil_r.
    unfold mid_len. rewrite skipn_app_exact by reflexivity.
    rewrite firstn_all2; [reflexivity|]. rewrite app_length. lia.
  - rewrite app_assoc, index_from_app.
    destruct (index_of sep rest) as [k|] eqn:E.
    2:{ cbn [option_map split_loop].
        apply index_of_None in E. apply mem_false in E.
        replace (sp sep cur rest) with [cur ++ rest].
        2:{ rewrite <- (app_nil_r rest) at 2. rewrite sp_notin by exact E. reflexivity. }
        unfold mid_len. rewrite <- app_assoc, skipn_app_exact by reflexivity.
        rewrite firstn_all2; [reflexivity|]. rewrite !app_length. lia. }
    apply index_of_Some in E. destruct E as (a & b & -> & Ha & <-). apply mem_false in Ha.
    rewrite (app_assoc (pre ++ cur)).
    cbn [option_map split_loop].
    rewrite sp_notin by exact Ha.
    set (w := cur ++ a).
    assert (Hlen : length (pre ++ cur) + length a = length (pre ++ w)).
    { unfold w. rewrite !app_length. lia. }
    rewrite Hlen.
    replace ((pre ++ cur) ++ a) with (pre ++ w) by (unfold w; rewrite <- app_assoc; reflexivity).
    assert (Hf' : length b <= f). { rewrite app_length in Hf. cbn in Hf. lia. }
    clearbody w. clear Hlen Ha Hf cur a.
    assert (Hif : (Nat.eqb (length (pre ++ w)) 0
                   || negb (N.eqb (nth (length (pre ++ w) - 1) ((pre ++ w) ++ sep :: b) 0%N) cBS))%bool
                  = negb (ends_bs w)).
    { destruct w as [|c w _] using rev_ind.
      - rewrite app_nil_r. destruct Hpre as [->|[p ->]]; [reflexivity|].
        rewrite nth_before. apply N.eqb_neq in Hsep. rewrite Hsep. cbn.
        apply orb_true_r.
      - rewrite ends_bs_snoc. rewrite (app_assoc pre w).
        rewrite nth_before. rewrite app_length. cbn [length].
        replace (Nat.eqb (length (pre ++ w) + 1) 0) with false by (symmetry; apply Nat.eqb_neq; lia).
        reflexivity. }
    rewrite Hif. cbn [sp]. rewrite N.eqb_refl.
    destruct (ends_bs w) eqn:Ew; cbn [negb].
    + apply ends_bs_spec in Ew as [w' ->].
      rewrite removelast_last.
      replace (length (pre ++ w' ++ [cBS]) - 1) with (length (pre ++ w')) by (rewrite !app_length; cbn; lia).
      replace (firstn (length (pre ++ w')) ((pre ++ w' ++ [cBS]) ++ sep :: b)) with (pre ++ w').
      2:{ rewrite (app_assoc pre w'), <- (app_assoc (pre ++ w')). rewrite firstn_app_exact by reflexivity. reflexivity. }
      replace (skipn (length (pre ++ w' ++ [cBS]) + 1) ((pre ++ w' ++ [cBS]) ++ sep :: b)) with b.
      2:{ replace ((pre ++ w' ++ [cBS]) ++ sep :: b) with (((pre ++ w' ++ [cBS]) ++ [sep]) ++ b)
            by (rewrite <- !app_assoc; reflexivity).
          replace (length (pre ++ w' ++ [cBS]) + 1) with (length ((pre ++ w' ++ [cBS]) ++ [sep]))
            by (rewrite !app_length; cbn; lia).
          rewrite skipn_app_exact; reflexivity. }
      specialize (IH pre (w' ++ [sep]) b acc Hpre Hf').
      rewrite <- IH.
      replace (length (pre ++ w' ++ [cBS])) with (length (pre ++ w' ++ [sep])) by (rewrite !app_length; reflexivity).
      replace (pre ++ (w' ++ [sep]) ++ b) with ((pre ++ w') ++ [sep] ++ b) by (rewrite <- !app_assoc; reflexivity).
      reflexivity.
    + specialize (IH (pre ++ w ++ [sep]) [] b (acc ++ [w])).
      rewrite app_nil_r in IH. cbn [app] in IH.
      assert (Hpart : (if (Nat.ltb (length pre) (length (pre ++ w)) && Nat.leb (length (pre ++ w)) (length ((pre ++ w) ++ sep :: b)))%bool
                       then mid_len (length pre) (length (pre ++ w) - length pre) ((pre ++ w) ++ sep :: b) else []) = w).
      { unfold mid_len. rewrite <- app_assoc, skipn_app_exact by reflexivity.
        replace (length (pre ++ w) - length pre) with (length w) by (rewrite app_length; lia).
        rewrite firstn_app_exact by reflexivity.
        destruct w; [destruct (_ && _)%bool; reflexivity|].
        replace (Nat.ltb (length pre) (length (pre ++ n :: w))) with true.
        2:{ symmetry. apply Nat.ltb_lt. rewrite app_length. cbn. lia. }
        replace (Nat.leb (length (pre ++ n :: w)) (length (pre ++ (n :: w) ++ sep :: b))) with true.
        2:{ symmetry. apply Nat.leb_le. rewrite !app_length. lia. }
        reflexivity. }
      rewrite Hpart.
      replace (length (pre ++ w) + 1) with (length (pre ++ w ++ [sep])) by (rewrite !app_length; cbn; lia).
      replace ((pre ++ w) ++ sep :: b) with ((pre ++ w ++ [sep]) ++ b) by (rewrite <- !app_assoc; reflexivity).
      rewrite IH; [rewrite <- app_assoc; reflexivity| |exact Hf'].
      right. exists (pre ++ w). rewrite <- app_assoc. reflexivity.
Qed.

(** [split_string] never runs out of fuel and equals the reference splitter. *)
Lemma split_string_sp sep s : sep <> cBS -> split_string sep s = Some (sp sep [] s).
Proof.
  intros H. unfold split_string.
  apply (split_loop_sp sep H (length s) [] [] s []); auto.
Qed.

Lemma sp_escape sep : sep <> cBS -> forall p cur r, sp sep cur (escape_sep sep p ++ r) = sp sep (cur ++ p) r.
Proof.
  intros H. induction p as [|c p IH]; intros cur r.
  - cbn. rewrite app_nil_r. reflexivity.
  - change (escape_sep sep (c :: p)) with ((if N.eqb c sep then [cBS; sep] else [c]) ++ escape_sep sep p).
    rewrite <- app_assoc.
    destruct (N.eqb c sep) eqn:E.
    + apply N.eqb_eq in E; subst c. cbn [app sp].
      replace (N.eqb cBS sep) with false by (symmetry; apply N.eqb_neq; congruence).
      rewrite N.eqb_refl, ends_bs_snoc. cbn [N.eqb]. rewrite N.eqb_refl.
      rewrite removelast_last, IH, <- app_assoc. reflexivity.
    + cbn [app sp]. rewrite E, IH, <- app_assoc. reflexivity.
Qed.

Lemma join_components_cons sep p q l :
  join_components sep (p :: q :: l) = escape_sep sep p ++ sep :: join_components sep (q :: l).
Proof. reflexivity. Qed.

Fixpoint nonlast_bs (l : list ustring) : nat :=
  match l with
  | [] => 0
  | p :: r => match r with [] => 0 | _ => (if ends_bs p then 1 else 0) + nonlast_bs r end
  end.

Lemma ends_bs_app cur p : ends_bs cur = false -> ends_bs (cur ++ p) = ends_bs p.
Proof.
  intros H. destruct p as [|c p _] using rev_ind.
  - rewrite app_nil_r. exact H.
  - rewrite app_assoc, !ends_bs_snoc. reflexivity.
Qed.

Lemma sp_count sep : sep <> cBS -> forall ps p cur, ends_bs cur = false ->
  length (sp sep cur (join_components sep (p :: ps))) + nonlast_bs (p :: ps) = length (p :: ps).
Proof.
  intros Hs. induction ps as [|q ps IH]; intros p cur Hc.
  - unfold join_components. cbn [map join]. rewrite <- (app_nil_r (escape_sep sep p)), sp_escape by exact Hs.
    reflexivity.
  - rewrite join_components_cons, sp_escape by exact Hs. cbn [sp]. rewrite N.eqb_refl.
    rewrite ends_bs_app by exact Hc.
    change (nonlast_bs (p :: q :: ps)) with ((if ends_bs p then 1 else 0) + nonlast_bs (q :: ps)).
    destruct (ends_bs p) eqn:Ep.
    + specialize (IH q (removelast (cur ++ p) ++ [sep])). rewrite ends_bs_snoc in IH.
      apply N.eqb_neq in Hs. specialize (IH Hs). cbn [length] in *. lia.
    + specialize (IH q [] eq_refl). cbn [length] in *. lia.
Qed.

Lemma sp_good sep : sep <> cBS -> forall ps p cur, ends_bs cur = false -> nonlast_bs (p :: ps) = 0 ->
  sp sep cur (join_components sep (p :: ps)) = (cur ++ p) :: ps.
Proof.
  intros Hs. induction ps as [|q ps IH]; intros p cur Hc Hn.
  - unfold join_components. cbn [map join]. rewrite <- (app_nil_r (escape_sep sep p)), sp_escape by exact Hs.
    reflexivity.
  - rewrite join_components_cons, sp_escape by exact Hs. cbn [sp]. rewrite N.eqb_refl.
    rewrite ends_bs_app by exact Hc.
    change (nonlast_bs (p :: q :: ps)) with ((if ends_bs p then 1 else 0) + nonlast_bs (q :: ps)) in Hn.
    destruct (ends_bs p); [cbn in Hn; lia|].
    rewrite IH; [reflexivity|reflexivity|exact Hn].
Qed.

Lemma nonlast_bs_spec l : nonlast_bs l = 0 <-> separable l.
Proof.
  induction l as [|p r IH].
  - split; auto. intros _ b x y a H. destruct b; discriminate.
  - destruct r as [|q r].
    + split; auto. intros _ b x y a H. destruct b as [|? [|? ?]]; discriminate.
    + change (nonlast_bs (p :: q :: r)) with ((if ends_bs p then 1 else 0) + nonlast_bs (q :: r)).
      split.
      * intros H b x y a E. destruct b as [|z b].
        -- cbn in E. injection E as <- <- <-. rewrite <- ends_bs_spec. destruct (ends_bs p); [cbn in H; lia|discriminate].
        -- cbn in E. injection E as <- E. destruct IH as [IH _]. eapply IH; [|exact E]. lia.
      * intros H. assert (Hp : ends_bs p = false).
        { destruct (ends_bs p) eqn:Ep; auto. apply ends_bs_spec in Ep. exfalso. exact (H [] p q r eq_refl Ep). }
        rewrite Hp. cbn. apply IH. intros b x y a E. apply (H (p :: b) x y a). rewrite E. reflexivity.
Qed.

Lemma split_join_iff sep l : sep <> cBS -> l <> [] ->
  split_string sep (join_components sep l) = Some l <-> separable l.
Proof.
  intros Hs Hl. rewrite split_string_sp by exact Hs. rewrite <- nonlast_bs_spec.
  destruct l as [|p ps]; [congruence|]. split.
  - intros H. injection H as H. pose proof (sp_count sep Hs ps p [] eq_refl) as C. rewrite H in C. lia.
  - intros H. rewrite sp_good by auto. reflexivity.
Qed.
