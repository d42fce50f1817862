(** Proofs about names read from text. *)
From Verif Require Import Base BaseFacts M_Addressee M_Name S_Name.
Open Scope list_scope.

(** ** Words *)

Definition nospace (w : ustring) : Prop := ~ In cSP w.

Lemma filled_app : forall l1 l2, filled (l1 ++ l2) = filled l1 ++ filled l2.
Proof. intros. apply filter_app. Qed.

Lemma split_app_gen : forall c a b, split c (a ++ c :: b) = split c a ++ split c b.
Proof.
  intros c a b. induction a as [|x a IH].
  - cbn [app split]. rewrite N.eqb_refl. reflexivity.
  - cbn [app split]. rewrite IH. destruct (N.eqb x c); [reflexivity|].
    destruct (split c a) as [|p ps] eqn:E; [exfalso; apply (split_nonnil c a E)|]. reflexivity.
Qed.

Lemma spaced_nospace : forall w, nospace w -> spaced w = filled [w].
Proof. intros w H. unfold spaced. rewrite split_notin by exact H. reflexivity. Qed.

Lemma spaced_join2 : forall a b, spaced (a ++ cSP :: b) = spaced a ++ spaced b.
Proof. intros a b. unfold spaced. rewrite split_app_gen, filled_app. reflexivity. Qed.

Lemma spaced_append : forall acc w, nospace w -> spaced (append_word acc w) = spaced acc ++ filled [w].
Proof.
  intros acc w H. unfold append_word. destruct acc as [|c acc].
  - cbn [isnil app]. apply spaced_nospace. exact H.
  - cbn [isnil]. change ((c :: acc) ++ [cSP] ++ w) with ((c :: acc) ++ cSP :: w).
    rewrite spaced_join2, (spaced_nospace w H). reflexivity.
Qed.
Lemma spaced_prepend : forall w acc, nospace w -> spaced (prepend_word w acc) = filled [w] ++ spaced acc.
Proof.
  intros w acc H. unfold prepend_word. destruct acc as [|c acc].
  - cbn [isnil app]. rewrite app_nil_r, (spaced_nospace w H). cbn. rewrite app_nil_r. reflexivity.
  - cbn [isnil]. change (w ++ [cSP] ++ c :: acc) with (w ++ cSP :: c :: acc).
    rewrite spaced_join2, (spaced_nospace w H). reflexivity.
Qed.

Lemma spaced_fold : forall ws acc, Forall nospace ws ->
  spaced (fold_left append_word ws acc) = spaced acc ++ filled ws.
Proof.
  induction ws as [|w ws IH]; intros acc H; cbn [fold_left]; [rewrite app_nil_r; reflexivity|].
  inversion H; subst. rewrite IH, spaced_append by auto.
  change (w :: ws) with ([w] ++ ws). rewrite filled_app, app_assoc. reflexivity.
Qed.

(** ** The loops *)

Lemma left_loop_ok : forall ok parts n lo acc, (lo + n <= length parts)%nat ->
  exists k, (k <= n)%nat
    /\ left_loop ok parts n lo acc = Some ((lo + k)%nat, fold_left append_word (firstn k (skipn lo parts)) acc)
    /\ forallb ok (firstn k (skipn lo parts)) = true
    /\ (k = n \/ exists w, nth_error parts (lo + k) = Some w /\ ok w = false).
Proof.
  intros ok parts. induction n as [|n IH]; intros lo acc H.
  - exists 0%nat. cbn. rewrite Nat.add_0_r. repeat split; auto.
  - cbn [left_loop]. destruct (nth_error parts lo) as [w|] eqn:E; [|apply nth_error_None in E; lia].
    assert (SK : skipn lo parts = w :: skipn (S lo) parts).
    { clear -E. revert lo E. induction parts as [|x parts IH]; intros [|lo] E; cbn in *; try discriminate.
      - inversion E; reflexivity.
      - apply IH; exact E. }
    destruct (ok w) eqn:O.
    + destruct (IH (S lo) (append_word acc w)) as [k [K1 [K2 [K3 K4]]]]; [lia|].
      exists (S k). rewrite SK. cbn [firstn fold_left forallb]. rewrite O.
      replace (lo + S k)%nat with (S lo + k)%nat by lia. repeat split; auto; [lia|].
      destruct K4 as [K4|K4]; [left; lia|right; exact K4].
    + exists 0%nat. rewrite SK. cbn. rewrite Nat.add_0_r. repeat split; auto; [lia|].
      right. eauto.
Qed.

Lemma suffix_loop_ok : forall H parts n suffix, (n <= length parts)%nat ->
  exists k, (k <= n)%nat
    /\ suffix_loop H parts n suffix
       = Some ((Z.of_nat k - 1)%Z, fold_right prepend_word suffix (firstn (n - k) (skipn k parts)))
    /\ forallb (nx_suffix H) (firstn (n - k) (skipn k parts)) = true
    /\ (k = 0%nat \/ exists w, nth_error parts (k - 1) = Some w /\ nx_suffix H w = false).
Proof.
  intros H parts. induction n as [|n IH]; intros suffix L.
  - exists 0%nat. cbn. repeat split; auto.
  - cbn [suffix_loop]. destruct (nth_error parts n) as [w|] eqn:E; [|apply nth_error_None in E; lia].
    destruct (nx_suffix H w) eqn:O.
    + destruct (IH (prepend_word w suffix)) as [k [K1 [K2 [K3 K4]]]]; [lia|].
      exists k. split; [lia|]. rewrite K2.
      assert (F : firstn (S n - k) (skipn k parts) = firstn (n - k) (skipn k parts) ++ [w]).
      { replace (S n - k)%nat with (S (n - k)) by lia.
        assert (N : nth_error (skipn k parts) (n - k) = Some w).
        { rewrite <- E. clear -K1. revert k n K1. induction parts as [|x parts IH]; intros [|k] [|n] K; cbn; auto; try lia.
          - destruct (n - k)%nat; reflexivity.
          - apply IH. lia. }
        revert N. generalize (skipn k parts), (n - k)%nat. clear.
        induction l as [|x l IH]; intros [|m] N; cbn in N; try discriminate.
        - inversion N; reflexivity.
        - cbn [firstn app]. f_equal. apply IH. exact N. }
      rewrite F, fold_right_app, forallb_app. cbn [fold_right forallb]. rewrite K3, O. repeat split; auto.
    + exists (S n). split; [lia|]. rewrite Nat.sub_diag. cbn [firstn fold_right forallb].
      repeat split; auto.
      * do 2 f_equal. lia.
      * right. exists w. replace (S n - 1)%nat with n by lia. auto.
Qed.

Lemma spaced_prepends : forall ws, Forall nospace ws -> spaced (fold_right prepend_word [] ws) = filled ws.
Proof.
  induction ws as [|w ws IH]; intros H; [reflexivity|]. inversion H; subst.
  cbn [fold_right]. rewrite spaced_prepend, IH by auto. change (w :: ws) with ([w] ++ ws). rewrite filled_app. reflexivity.
Qed.

(** ** The name fields under the setters *)

Definition nv (a : addressee) : ustring * ustring * ustring * ustring * ustring :=
  (a_prefix a, a_given a, a_additional a, a_family a, a_suffix a).

Ltac setter := intros; unfold nv, set_prefix, set_given, set_additional, set_family, set_suffix, set_formatted, set_name,
  set_text, guarded;
  match goal with |- context [leqb ?v ?x] => destruct (leqb_spec v x); subst end;
  match goal with a : addressee |- _ => destruct a; reflexivity end.

Lemma nv_prefix : forall v a, nv (set_prefix v a) = (v, a_given a, a_additional a, a_family a, a_suffix a).
Proof. setter. Qed.
Lemma nv_given : forall v a, nv (set_given v a) = (a_prefix a, v, a_additional a, a_family a, a_suffix a).
Proof. setter. Qed.
Lemma nv_additional : forall v a, nv (set_additional v a) = (a_prefix a, a_given a, v, a_family a, a_suffix a).
Proof. setter. Qed.
Lemma nv_family : forall v a, nv (set_family v a) = (a_prefix a, a_given a, a_additional a, v, a_suffix a).
Proof. setter. Qed.
Lemma nv_suffix : forall v a, nv (set_suffix v a) = (a_prefix a, a_given a, a_additional a, a_family a, v).
Proof. setter. Qed.

Lemma nameless_set : forall v a,
  nameless (set_prefix v a) = nameless a /\ nameless (set_given v a) = nameless a
  /\ nameless (set_additional v a) = nameless a /\ nameless (set_family v a) = nameless a
  /\ nameless (set_suffix v a) = nameless a /\ nameless (set_name v a) = nameless a
  /\ nameless (set_formatted v a) = nameless a.
Proof. intros v a. repeat split; unfold nameless; setter. Qed.

Lemma keeps_names : forall v a,
  let same b := a_name b = a_name a /\ a_formatted b = a_formatted a in
  same (set_prefix v a) /\ same (set_given v a) /\ same (set_additional v a) /\ same (set_family v a) /\ same (set_suffix v a).
Proof. intros v a same. subst same. repeat split; setter. Qed.

(** projections of one setter at a time *)
Lemma nv_proj : forall a p g d f s, nv a = (p, g, d, f, s) ->
  a_prefix a = p /\ a_given a = g /\ a_additional a = d /\ a_family a = f /\ a_suffix a = s.
Proof. intros a p g d f s H. unfold nv in H. inversion H; subst. repeat split. Qed.

(** ** The given part *)

Lemma given_part_ok : forall H parts hi a, (hi <= length parts)%nat ->
  exists a' T G R,
    given_part H parts hi a = Some a'
    /\ firstn hi parts = T ++ G ++ R
    /\ forallb (nx_title H) T = true
    /\ ((G = [] /\ R = [] /\ a_given a' = a_given a) \/ (exists w, G = [w] /\ nx_title H w = false /\ a_given a' = w))
    /\ a_prefix a' = fold_left append_word T []
    /\ a_additional a' = fold_left append_word R []
    /\ a_family a' = a_family a /\ a_suffix a' = a_suffix a
    /\ nameless a' = nameless a /\ a_name a' = a_name a /\ a_formatted a' = a_formatted a.
Proof.
  intros H parts hi a L. unfold given_part.
  destruct (left_loop_ok (nx_title H) parts hi 0 []) as [k [K1 [K2 [K3 K4]]]]; [lia|].
  rewrite K2. cbn [plus] in *. cbn [skipn] in *.
  set (p := fold_left append_word (firstn k parts) []).
  destruct (Nat.ltb_spec k hi) as [Lt|Ge].
  - destruct (nth_error parts k) as [w|] eqn:E; [|apply nth_error_None in E; lia].
    destruct K4 as [K4|[w' [K4 K5]]]; [lia|]. inversion K4; subst w'.
    destruct (left_loop_ok any_word parts (hi - S k) (S k) []) as [m [M1 [M2 [M3 M4]]]]; [lia|].
    assert (Mn : m = (hi - S k)%nat).
    { destruct M4 as [M4|[x [_ M4]]]; [exact M4|discriminate]. }
    rewrite M2. subst m.
    eexists. exists (firstn k parts), [w], (firstn (hi - S k) (skipn (S k) parts)).
    split; [reflexivity|].
    assert (D : firstn hi parts = firstn k parts ++ [w] ++ firstn (hi - S k) (skipn (S k) parts)).
    { clear -E Lt. revert k hi E Lt. induction parts as [|x parts IH]; intros [|k] [|hi] E Lt; cbn in E; try discriminate; try lia.
      - inversion E; subst. cbn. rewrite Nat.sub_0_r. reflexivity.
      - cbn [firstn app skipn]. f_equal. rewrite (IH k hi E) by lia. do 3 f_equal. }
    split; [exact D|]. split; [exact K3|].
    destruct (nv_proj _ _ _ _ _ _ (nv_additional (fold_left append_word (firstn (hi - S k) (skipn (S k) parts)) []) (set_given w (set_prefix p a)))) as [A1 [A2 [A3 [A4 A5]]]].
    destruct (nv_proj _ _ _ _ _ _ (nv_given w (set_prefix p a))) as [B1 [B2 [B3 [B4 B5]]]].
    destruct (nv_proj _ _ _ _ _ _ (nv_prefix p a)) as [C1 [C2 [C3 [C4 C5]]]].
    destruct (keeps_names p a) as [[N1 N2] _].
    destruct (keeps_names w (set_prefix p a)) as [_ [[N3 N4] _]].
    destruct (keeps_names (fold_left append_word (firstn (hi - S k) (skipn (S k) parts)) []) (set_given w (set_prefix p a))) as [_ [_ [[N5 N6] _]]].
    split; [right; exists w; rewrite A2, B2; auto|].
    rewrite A1, B1, C1, A3, A4, B4, C4, A5, B5, C5, N5, N3, N1, N6, N4, N2.
    repeat split; auto.
    rewrite (proj1 (proj2 (proj2 (nameless_set _ _)))), (proj1 (proj2 (nameless_set _ _))), (proj1 (nameless_set _ _)). reflexivity.
  - assert (k = hi) by lia. subst k.
    rewrite Nat.sub_diag. cbn [left_loop].
    eexists. exists (firstn hi parts), [], []. split; [reflexivity|].
    split; [rewrite !app_nil_r; reflexivity|]. split; [exact K3|].
    destruct (nv_proj _ _ _ _ _ _ (nv_additional [] (set_prefix p a))) as [A1 [A2 [A3 [A4 A5]]]].
    destruct (nv_proj _ _ _ _ _ _ (nv_prefix p a)) as [C1 [C2 [C3 [C4 C5]]]].
    destruct (keeps_names p a) as [[N1 N2] _].
    destruct (keeps_names [] (set_prefix p a)) as [_ [_ [[N5 N6] _]]].
    split; [left; rewrite A2, C2; auto|].
    rewrite A1, C1, A3, A4, C4, A5, C5, N5, N1, N6, N2. repeat split; auto.
    rewrite (proj1 (proj2 (proj2 (nameless_set _ _)))), (proj1 (nameless_set _ _)). reflexivity.
Qed.

(** ** The whole function *)

Lemma firstn_snoc : forall (A : Type) (l : list A) k w, nth_error l k = Some w -> firstn (S k) l = firstn k l ++ [w].
Proof.
  induction l as [|x l IH]; intros [|k] w E; cbn in E; try discriminate.
  - inversion E; reflexivity.
  - cbn [firstn app]. f_equal. apply IH. exact E.
Qed.

Lemma parts_nospace : forall s, Forall nospace (split cSP s).
Proof. intros s. apply split_parts_notin. Qed.
Lemma Forall_firstn : forall (A : Type) (P : A -> Prop) n l, Forall P l -> Forall P (firstn n l).
Proof. intros A P n l H. rewrite <- (firstn_skipn n l) in H. apply Forall_app in H. tauto. Qed.
Lemma Forall_skipn : forall (A : Type) (P : A -> Prop) n l, Forall P l -> Forall P (skipn n l).
Proof. intros A P n l H. rewrite <- (firstn_skipn n l) in H. apply Forall_app in H. tauto. Qed.

Lemma name_prefix_ok : forall H parts k, (1 <= k)%nat -> (k <= length parts)%nat ->
  (exists p, name_prefix H parts (Z.of_nat k - 1) = Some (Some p) /\ (2 <= k)%nat /\ nth_error parts (k - 2) = Some p)
  \/ name_prefix H parts (Z.of_nat k - 1) = Some None.
Proof.
  intros H parts k K1 K2. unfold name_prefix.
  destruct (Z.leb_spec 0 (Z.of_nat k - 1 - 1)) as [L|L]; [|right; reflexivity].
  unfold at_index. destruct (Z.ltb_spec (Z.of_nat k - 1 - 1) 0) as [Q|Q]; [lia|].
  replace (Z.to_nat (Z.of_nat k - 1 - 1)) with (k - 2)%nat by lia.
  destruct (nth_error parts (k - 2)) as [p|] eqn:E; [|apply nth_error_None in E; lia].
  destruct (nx_prefix H (nx_lower H p)); [left|right; reflexivity].
  exists p. repeat split; auto. lia.
Qed.

Lemma at_index_ok : forall (parts : list ustring) k, (1 <= k)%nat -> at_index parts (Z.of_nat k - 1) = nth_error parts (k - 1).
Proof.
  intros parts k K. unfold at_index. destruct (Z.ltb_spec (Z.of_nat k - 1) 0) as [Q|Q]; [lia|].
  replace (Z.to_nat (Z.of_nat k - 1)) with (k - 1)%nat by lia. reflexivity.
Qed.

Definition kept_names (a a' : addressee) : Prop :=
  nameless a' = nameless a /\ a_name a' = a_name a /\ a_formatted a' = a_formatted a.

Lemma spaced_nil : spaced [] = [].
Proof. reflexivity. Qed.

Lemma no_comma_ok : forall H (parts : list ustring) a, Forall nospace parts ->
  a_prefix a = [] -> a_given a = [] -> a_additional a = [] -> a_family a = [] ->
  exists a', name_without_comma H parts a = Some a' /\ kept_names a a'
    /\ (nx_family H = true -> name_words a' = filled parts)
    /\ (name_words a' = filled parts \/ loses_one (filled parts) (name_words a')).
Proof.
  intros H parts a NS P0 G0 A0 F0. unfold name_without_comma.
  destruct (suffix_loop_ok H parts (length parts) []) as [k [K1 [K2 [K3 K4]]]]; [lia|].
  rewrite K2.
  assert (SKn : firstn (length parts - k) (skipn k parts) = skipn k parts).
  { apply firstn_all2. rewrite skipn_length. lia. }
  rewrite SKn in *. set (suf := fold_right prepend_word [] (skipn k parts)).
  assert (SUF : spaced suf = filled (skipn k parts)) by (apply spaced_prepends, Forall_skipn, NS).
  destruct (nv_proj _ _ _ _ _ _ (nv_suffix suf a)) as [S1 [S2 [S3 [S4 S5]]]].
  assert (KS : kept_names a (set_suffix suf a)).
  { split; [exact (proj1 (proj2 (proj2 (proj2 (proj2 (nameless_set suf a))))))|]. exact (proj2 (proj2 (proj2 (proj2 (keeps_names suf a))))). }
  destruct (Z.ltb_spec (Z.of_nat k - 1) 0) as [Z0|Z0].
  - assert (k = 0)%nat by lia. subst k. eexists. split; [reflexivity|]. split; [exact KS|].
    assert (W : name_words (set_suffix suf a) = filled parts).
    { unfold name_words. rewrite S1, S2, S3, S4, S5, P0, G0, A0, F0, SUF. reflexivity. }
    split; auto.
  - destruct K4 as [K4|[w [W1 W2]]]; [lia|].
    rewrite at_index_ok, W1 by lia.
    destruct (name_prefix_ok H parts k) as [[p [Q1 [Q2 Q3]]]|Q1]; [lia|lia| |]; rewrite Q1.
    + replace (Z.to_nat (Z.of_nat k - 1 - 1)) with (k - 2)%nat by lia.
      set (b := set_family (p ++ [cSP] ++ w) (set_suffix suf a)).
      destruct (given_part_ok H parts (k - 2) b) as [a' [T [G [R [E1 [E2 [E3 [E4 [E5 [E6 [E7 [E8 [E9 [E10 E11]]]]]]]]]]]]]]; [lia|].
      rewrite E1. exists a'. split; [reflexivity|].
      destruct (nv_proj _ _ _ _ _ _ (nv_family (p ++ [cSP] ++ w) (set_suffix suf a))) as [B1 [B2 [B3 [B4 B5]]]].
      fold b in B1, B2, B3, B4, B5.
      assert (KN : kept_names a a').
      { destruct KS as [KS1 [KS2 KS3]].
        destruct (keeps_names (p ++ [cSP] ++ w) (set_suffix suf a)) as [_ [_ [_ [[N1 N2] _]]]].
        split; [|split].
        - rewrite E9. unfold b. etransitivity; [exact (proj1 (proj2 (proj2 (proj2 (nameless_set _ _)))))|]. exact KS1.
        - rewrite E10. unfold b. rewrite N1. exact KS2.
        - rewrite E11. unfold b. rewrite N2. exact KS3. }
      split; [exact KN|].
      assert (W : name_words a' = filled parts).
      { unfold name_words. rewrite E7, B4, E8, B5, S5, SUF.
        change (p ++ [cSP] ++ w) with (p ++ cSP :: w). rewrite spaced_join2.
        assert (Np : nospace p) by (rewrite Forall_forall in NS; apply NS; eapply nth_error_In; eauto).
        assert (Nw : nospace w) by (rewrite Forall_forall in NS; apply NS; eapply nth_error_In; eauto).
        rewrite (spaced_nospace p Np), (spaced_nospace w Nw).
        assert (NF : Forall nospace (T ++ G ++ R)) by (rewrite <- E2; apply Forall_firstn, NS).
        apply Forall_app in NF. destruct NF as [NT NF]. apply Forall_app in NF. destruct NF as [NG NR].
        rewrite E5, (spaced_fold T) by exact NT. rewrite E6, (spaced_fold R) by exact NR.
        assert (GW : spaced (a_given a') = filled G).
        { destruct E4 as [[E4a [_ E4b]]|[x [E4a [_ E4b]]]].
          - rewrite E4b, E4a, B2, S2, G0. reflexivity.
          - rewrite E4b, E4a. apply spaced_nospace. rewrite E4a in NG; inversion NG; assumption. }
        rewrite GW, !spaced_nil. cbn [app].
        rewrite <- (firstn_skipn k parts) at 2.
        replace (firstn k parts) with (T ++ G ++ R ++ [p] ++ [w]).
        - rewrite !filled_app, <- !app_assoc. reflexivity.
        - replace k with (S (k - 1)) by lia. rewrite (firstn_snoc _ _ _ _ W1).
          replace (k - 1)%nat with (S (k - 2)) by lia. rewrite (firstn_snoc _ _ _ _ Q3), E2.
          rewrite <- !app_assoc. reflexivity. }
      split; auto.
    + replace (Z.to_nat (Z.of_nat k - 1)) with (k - 1)%nat by lia.
      set (b := if nx_family H then set_family w (set_suffix suf a) else set_given w (set_suffix suf a)).
      destruct (given_part_ok H parts (k - 1) b) as [a' [T [G [R [E1 [E2 [E3 [E4 [E5 [E6 [E7 [E8 [E9 [E10 E11]]]]]]]]]]]]]]; [lia|].
      rewrite E1. exists a'. split; [reflexivity|].
      assert (KN : kept_names a a').
      { destruct KS as [KS1 [KS2 KS3]].
        destruct (keeps_names w (set_suffix suf a)) as [_ [[M1 M2] [_ [[N1 N2] _]]]].
        split; [|split].
        - rewrite E9. unfold b. destruct (nx_family H).
          + etransitivity; [exact (proj1 (proj2 (proj2 (proj2 (nameless_set _ _)))))|]. exact KS1.
          + etransitivity; [exact (proj1 (proj2 (nameless_set _ _)))|]. exact KS1.
        - rewrite E10. unfold b. destruct (nx_family H); [rewrite N1|rewrite M1]; exact KS2.
        - rewrite E11. unfold b. destruct (nx_family H); [rewrite N2|rewrite M2]; exact KS3. }
      split; [exact KN|].
      assert (Nw : nospace w) by (rewrite Forall_forall in NS; apply NS; eapply nth_error_In; eauto).
      assert (NF : Forall nospace (T ++ G ++ R)) by (rewrite <- E2; apply Forall_firstn, NS).
      apply Forall_app in NF. destruct NF as [NT NF]. apply Forall_app in NF. destruct NF as [NG NR].
      assert (DP : filled parts = filled T ++ filled G ++ filled R ++ filled [w] ++ filled (skipn k parts)).
      { change (filled parts) with (filled parts). rewrite <- (firstn_skipn k parts) at 1.
        replace k with (S (k - 1)) at 1 by lia. rewrite (firstn_snoc _ _ _ _ W1), E2.
        rewrite !filled_app, <- !app_assoc. reflexivity. }
      assert (PT : spaced (a_prefix a') = filled T) by (rewrite E5, (spaced_fold T) by exact NT; reflexivity).
      assert (AR : spaced (a_additional a') = filled R) by (rewrite E6, (spaced_fold R) by exact NR; reflexivity).
      assert (SB : a_suffix b = suf).
      { unfold b. destruct (nx_family H).
        - destruct (nv_proj _ _ _ _ _ _ (nv_family w (set_suffix suf a))) as [_ [_ [_ [_ B5]]]]. rewrite B5. exact S5.
        - destruct (nv_proj _ _ _ _ _ _ (nv_given w (set_suffix suf a))) as [_ [_ [_ [_ B5]]]]. rewrite B5. exact S5. }
      destruct (nx_family H) eqn:FN.
      * assert (W : name_words a' = filled parts).
        { destruct (nv_proj _ _ _ _ _ _ (nv_family w (set_suffix suf a))) as [B1 [B2 [B3 [B4 B5]]]].
          unfold name_words. rewrite PT, AR, E7, E8, SB, SUF. unfold b. rewrite B4, (spaced_nospace w Nw), DP.
          assert (GW : spaced (a_given a') = filled G).
          { destruct E4 as [[E4a [_ E4b]]|[x [E4a [_ E4b]]]].
            - rewrite E4b, E4a. unfold b. rewrite B2, S2, G0. reflexivity.
            - rewrite E4b, E4a. apply spaced_nospace. rewrite E4a in NG; inversion NG; assumption. }
          rewrite GW. reflexivity. }
        split; auto.
      * split; [discriminate|].
        destruct (nv_proj _ _ _ _ _ _ (nv_given w (set_suffix suf a))) as [B1 [B2 [B3 [B4 B5]]]].
        unfold name_words. rewrite PT, AR, E7, E8, SB, SUF. unfold b. rewrite B4, S4, F0, spaced_nil, DP. cbn [app].
        destruct E4 as [[E4a [E4r E4b]]|[x [E4a [_ E4b]]]].
        -- left. rewrite E4b, E4a, E4r. unfold b. rewrite B2, (spaced_nospace w Nw). reflexivity.
        -- destruct (isnil w) eqn:Wn.
           ++ left. assert (Fw : filled [w] = []) by (unfold filled; cbn [filter]; rewrite Wn; reflexivity).
              rewrite Fw, E4b, E4a. rewrite (spaced_nospace x) by (rewrite E4a in NG; inversion NG; assumption). reflexivity.
           ++ right. exists (filled T ++ filled G ++ filled R), w, (filled (skipn k parts)).
              assert (Fw : filled [w] = [w]) by (unfold filled; cbn [filter]; rewrite Wn; reflexivity).
              rewrite Fw, <- !app_assoc. split; [reflexivity|].
              rewrite E4b, E4a. rewrite (spaced_nospace x) by (rewrite E4a in NG; inversion NG; assumption). reflexivity.
Qed.

Lemma with_comma_ok : forall H (parts parts2 : list ustring) a, Forall nospace parts -> Forall nospace parts2 ->
  existsb (fun w => negb (nx_suffix H w)) parts = true -> a_given a = [] ->
  exists a', name_with_comma H parts parts2 a = Some a' /\ kept_names a a'
    /\ spaced (a_prefix a') ++ spaced (a_given a') ++ spaced (a_additional a') = filled parts2
    /\ exists lost, filled parts = lost ++ spaced (a_family a') ++ spaced (a_suffix a').
Proof.
  intros H parts parts2 a NS NS2 EX G0. unfold name_with_comma.
  destruct (suffix_loop_ok H parts (length parts) []) as [k [K1 [K2 [K3 K4]]]]; [lia|].
  rewrite K2.
  assert (SKn : firstn (length parts - k) (skipn k parts) = skipn k parts).
  { apply firstn_all2. rewrite skipn_length. lia. }
  rewrite SKn in *. set (suf := fold_right prepend_word [] (skipn k parts)).
  assert (SUF : spaced suf = filled (skipn k parts)) by (apply spaced_prepends, Forall_skipn, NS).
  destruct (nv_proj _ _ _ _ _ _ (nv_suffix suf a)) as [S1 [S2 [S3 [S4 S5]]]].
  assert (KS : kept_names a (set_suffix suf a)).
  { split; [exact (proj1 (proj2 (proj2 (proj2 (proj2 (nameless_set suf a))))))|]. exact (proj2 (proj2 (proj2 (proj2 (keeps_names suf a))))). }
  destruct K4 as [K4|[w [W1 W2]]].
  { exfalso. subst k. cbn [skipn] in K3. apply existsb_exists in EX. destruct EX as [x [X1 X2]].
    rewrite forallb_forall in K3. rewrite (K3 x X1) in X2. discriminate. }
  assert (Kpos : (1 <= k)%nat).
  { destruct k; [|lia]. exfalso. cbn [skipn] in K3. apply nth_error_In in W1.
    rewrite forallb_forall in K3. rewrite (K3 w W1) in W2. discriminate. }
  rewrite at_index_ok, W1 by lia.
  assert (Nw : nospace w) by (rewrite Forall_forall in NS; apply NS; eapply nth_error_In; eauto).
  assert (KEY : forall fam hi lost,
    (hi <= length parts)%nat -> filled parts = lost ++ spaced fam ++ filled (skipn k parts) ->
    exists a', match left_loop (nx_title H) parts hi 0 [] with
               | None => None
               | Some _ => given_part H parts2 (length parts2) (set_family fam (set_suffix suf a))
               end = Some a' /\ kept_names a a'
      /\ spaced (a_prefix a') ++ spaced (a_given a') ++ spaced (a_additional a') = filled parts2
      /\ exists lost, filled parts = lost ++ spaced (a_family a') ++ spaced (a_suffix a')).
  { intros fam hi lost Hh SP.
    destruct (left_loop_ok (nx_title H) parts hi 0 []) as [x [_ [X2 _]]]; [lia|]. rewrite X2.
    set (b := set_family fam (set_suffix suf a)).
    destruct (given_part_ok H parts2 (length parts2) b) as [a' [T [G [R [E1 [E2 [E3 [E4 [E5 [E6 [E7 [E8 [E9 [E10 E11]]]]]]]]]]]]]]; [lia|].
    rewrite E1. exists a'. split; [reflexivity|].
    destruct (nv_proj _ _ _ _ _ _ (nv_family fam (set_suffix suf a))) as [B1 [B2 [B3 [B4 B5]]]].
    fold b in B1, B2, B3, B4, B5.
    assert (KN : kept_names a a').
    { destruct KS as [KS1 [KS2 KS3]].
      destruct (keeps_names fam (set_suffix suf a)) as [_ [_ [_ [[N1 N2] _]]]].
      split; [|split].
      - rewrite E9. unfold b. etransitivity; [exact (proj1 (proj2 (proj2 (proj2 (nameless_set _ _)))))|]. exact KS1.
      - rewrite E10. unfold b. rewrite N1. exact KS2.
      - rewrite E11. unfold b. rewrite N2. exact KS3. }
    split; [exact KN|]. rewrite firstn_all in E2.
    assert (NF : Forall nospace (T ++ G ++ R)) by (rewrite <- E2; exact NS2).
    apply Forall_app in NF. destruct NF as [NT NF]. apply Forall_app in NF. destruct NF as [NG NR].
    split.
    - rewrite E2, !filled_app, E5, (spaced_fold T), E6, (spaced_fold R) by auto.
      rewrite !spaced_nil. cbn [app]. f_equal. f_equal.
      destruct E4 as [[E4a [_ E4b]]|[y [E4a [_ E4b]]]].
      + rewrite E4b, E4a, B2, S2, G0. reflexivity.
      + rewrite E4b, E4a. apply spaced_nospace. rewrite E4a in NG; inversion NG; assumption.
    - exists lost. rewrite E7, B4, E8, B5, S5, SUF. exact SP. }
  assert (D1 : filled parts = filled (firstn (k - 1) parts) ++ filled [w] ++ filled (skipn k parts)).
  { change (filled parts) with (filled parts). rewrite <- (firstn_skipn k parts) at 1.
    replace k with (S (k - 1)) at 1 by lia. rewrite (firstn_snoc _ _ _ _ W1).
    rewrite !filled_app, <- !app_assoc. reflexivity. }
  destruct (name_prefix_ok H parts k) as [[p [Q1 [Q2 Q3]]]|Q1]; [lia|lia| |]; rewrite Q1.
  - apply (KEY _ _ (filled (firstn (k - 2) parts))); [lia|].
    rewrite D1. replace (k - 1)%nat with (S (k - 2)) by lia. rewrite (firstn_snoc _ _ _ _ Q3).
    change (p ++ [cSP] ++ w) with (p ++ cSP :: w). rewrite spaced_join2.
    assert (Np : nospace p) by (rewrite Forall_forall in NS; apply NS; eapply nth_error_In; eauto).
    rewrite (spaced_nospace p Np), (spaced_nospace w Nw), filled_app, <- !app_assoc. reflexivity.
  - apply (KEY _ _ (filled (firstn (k - 1) parts))); [lia|]. rewrite (spaced_nospace w Nw). exact D1.
Qed.

Lemma with_comma_ub : forall H (parts parts2 : list ustring) a, forallb (nx_suffix H) parts = true ->
  name_with_comma H parts parts2 a = None.
Proof.
  intros H parts parts2 a AL. unfold name_with_comma.
  destruct (suffix_loop_ok H parts (length parts) []) as [k [K1 [K2 [K3 K4]]]]; [lia|].
  rewrite K2. destruct K4 as [K4|[w [W1 W2]]].
  - subst k. unfold name_prefix, at_index. reflexivity.
  - apply nth_error_In in W1. rewrite forallb_forall in AL. rewrite (AL w W1) in W2. discriminate.
Qed.

(** the contact the parts are stored into *)
Definition cleared (str : ustring) (a : addressee) : addressee :=
  set_suffix [] (set_family [] (set_additional [] (set_given [] (set_prefix [] (set_name str (set_formatted str a)))))).

Lemma cleared_ok : forall str a,
  nv (cleared str a) = ([], [], [], [], []) /\ nameless (cleared str a) = nameless a
  /\ a_name (cleared str a) = str /\ a_formatted (cleared str a) = str.
Proof.
  intros str a. unfold cleared.
  assert (NM : forall v b, a_name (set_name v b) = v /\ a_formatted (set_name v b) = a_formatted b) by (split; setter).
  assert (FM : forall v b, a_formatted (set_formatted v b) = v) by setter.
  repeat split.
  - rewrite nv_suffix.
    destruct (nv_proj _ _ _ _ _ _ (nv_family [] (set_additional [] (set_given [] (set_prefix [] (set_name str (set_formatted str a))))))) as [-> [-> [-> [-> _]]]].
    destruct (nv_proj _ _ _ _ _ _ (nv_additional [] (set_given [] (set_prefix [] (set_name str (set_formatted str a)))))) as [-> [-> [-> _]]].
    destruct (nv_proj _ _ _ _ _ _ (nv_given [] (set_prefix [] (set_name str (set_formatted str a))))) as [-> [-> _]].
    destruct (nv_proj _ _ _ _ _ _ (nv_prefix [] (set_name str (set_formatted str a)))) as [-> _]. reflexivity.
  - repeat match goal with
    | |- nameless (set_suffix ?v ?b) = _ => transitivity (nameless b); [exact (proj1 (proj2 (proj2 (proj2 (proj2 (nameless_set v b))))))|]
    | |- nameless (set_family ?v ?b) = _ => transitivity (nameless b); [exact (proj1 (proj2 (proj2 (proj2 (nameless_set v b)))))|]
    | |- nameless (set_additional ?v ?b) = _ => transitivity (nameless b); [exact (proj1 (proj2 (proj2 (nameless_set v b))))|]
    | |- nameless (set_given ?v ?b) = _ => transitivity (nameless b); [exact (proj1 (proj2 (nameless_set v b)))|]
    | |- nameless (set_prefix ?v ?b) = _ => transitivity (nameless b); [exact (proj1 (nameless_set v b))|]
    | |- nameless (set_name ?v ?b) = _ => transitivity (nameless b); [exact (proj1 (proj2 (proj2 (proj2 (proj2 (proj2 (nameless_set v b)))))))|]
    | |- nameless (set_formatted ?v ?b) = _ => transitivity (nameless b); [exact (proj2 (proj2 (proj2 (proj2 (proj2 (proj2 (nameless_set v b)))))))|]
    end. reflexivity.
  - repeat match goal with
    | |- a_name (set_suffix ?v ?b) = _ => rewrite (proj1 (proj2 (proj2 (proj2 (proj2 (keeps_names v b))))))
    | |- a_name (set_family ?v ?b) = _ => rewrite (proj1 (proj1 (proj2 (proj2 (proj2 (keeps_names v b))))))
    | |- a_name (set_additional ?v ?b) = _ => rewrite (proj1 (proj1 (proj2 (proj2 (keeps_names v b)))))
    | |- a_name (set_given ?v ?b) = _ => rewrite (proj1 (proj1 (proj2 (keeps_names v b))))
    | |- a_name (set_prefix ?v ?b) = _ => rewrite (proj1 (proj1 (keeps_names v b)))
    end. apply NM.
  - repeat match goal with
    | |- a_formatted (set_suffix ?v ?b) = _ => rewrite (proj2 (proj2 (proj2 (proj2 (proj2 (keeps_names v b))))))
    | |- a_formatted (set_family ?v ?b) = _ => rewrite (proj2 (proj1 (proj2 (proj2 (proj2 (keeps_names v b))))))
    | |- a_formatted (set_additional ?v ?b) = _ => rewrite (proj2 (proj1 (proj2 (proj2 (keeps_names v b)))))
    | |- a_formatted (set_given ?v ?b) = _ => rewrite (proj2 (proj1 (proj2 (keeps_names v b))))
    | |- a_formatted (set_prefix ?v ?b) = _ => rewrite (proj2 (proj1 (keeps_names v b)))
    end. rewrite (proj2 (NM str (set_formatted str a))). apply FM.
Qed.

Lemma set_name_cases : forall H s a, set_name_from_string H s a =
  if isnil (unquote s) then Some (cleared (unquote s) a)
  else match index_of cCOMMA (unquote s) with
       | None => name_without_comma H (split cSP (unquote s)) (cleared (unquote s) a)
       | Some i => name_with_comma H (split cSP (firstn i (unquote s))) (split cSP (mid (S i) (unquote s))) (cleared (unquote s) a)
       end.
Proof. reflexivity. Qed.

Lemma index_of_comma : forall p1 p2, ~ In cCOMMA p1 -> index_of cCOMMA (p1 ++ cCOMMA :: p2) = Some (length p1).
Proof.
  induction p1 as [|x p1 IH]; intros p2 N; cbn [app index_of].
  - rewrite N.eqb_refl. reflexivity.
  - destruct (N.eqb_spec x cCOMMA) as [E|E]; [exfalso; apply N; left; auto|].
    rewrite IH; [reflexivity|]. intros K. apply N. right. exact K.
Qed.

Lemma set_name_comma : forall H s a p1 p2, unquote s = p1 ++ cCOMMA :: p2 -> ~ In cCOMMA p1 ->
  set_name_from_string H s a = name_with_comma H (split cSP p1) (split cSP p2) (cleared (unquote s) a).
Proof.
  intros H s a p1 p2 E N. rewrite set_name_cases, E, index_of_comma by exact N.
  assert (NN : isnil (p1 ++ cCOMMA :: p2) = false) by (destruct p1; reflexivity).
  rewrite NN. rewrite firstn_app, firstn_all, Nat.sub_diag. cbn [firstn]. rewrite app_nil_r.
  f_equal. f_equal. unfold mid. rewrite skipn_app, skipn_all2 by lia.
  replace (S (length p1) - length p1)%nat with 1%nat by lia. reflexivity.
Qed.

Lemma unquote_text : forall s str, name_text s str -> unquote s = str.
Proof.
  intros s str [E|[E N]].
  - subst s. unfold unquote. cbn [app].
    assert (L : Nat.ltb 1 (length (cDQ :: str ++ [cDQ])) = true).
    { apply Nat.ltb_lt. cbn. rewrite app_length. cbn. lia. }
    rewrite L. assert (LA : last (cDQ :: str ++ [cDQ]) 0%N = cDQ).
    { change (cDQ :: str ++ [cDQ]) with ((cDQ :: str) ++ [cDQ]). apply last_last. }
    rewrite LA. cbn [andb N.eqb]. rewrite N.eqb_refl. cbn [andb]. apply removelast_last.
  - subst str. unfold unquote. destruct s as [|c r]; [reflexivity|].
    destruct (Nat.ltb 1 (length (c :: r)) && N.eqb c cDQ && N.eqb (last (c :: r) 0%N) cDQ) eqn:K; [|reflexivity].
    exfalso. apply N. rewrite !andb_true_iff, Nat.ltb_lt, !N.eqb_eq in K. destruct K as [[K1 K2] K3].
    destruct r as [|d r]; [cbn in K1; lia|]. exists (removelast (d :: r)). subst c. cbn [app]. f_equal.
    assert (NN : d :: r <> []) by discriminate.
    change (last (d :: r) 0%N = cDQ) in K3. rewrite <- K3. exact (app_removelast_last 0%N NN).
Qed.

Lemma name_text_exists : forall s, exists str, name_text s str.
Proof.
  intros s. destruct s as [|c r].
  - exists []. right. split; [reflexivity|]. intros [m E]. destruct m; discriminate.
  - destruct r as [|d r].
    + exists [c]. right. split; [reflexivity|]. intros [m E]. destruct m; discriminate.
    + assert (NN : d :: r <> []) by discriminate.
      destruct (N.eq_dec c cDQ) as [C|C]; [destruct (N.eq_dec (last (d :: r) 0%N) cDQ) as [D|D]|].
      * exists (removelast (d :: r)). left. cbn [app]. rewrite C. f_equal. rewrite <- D. exact (app_removelast_last 0%N NN).
      * exists (c :: d :: r). right. split; [reflexivity|]. intros [m E]. cbn [app] in E. inversion E as [[E1 E2]].
        apply D. rewrite E2. apply last_last.
      * exists (c :: d :: r). right. split; [reflexivity|]. intros [m E]. cbn [app] in E. inversion E as [[E1 E2]]. auto.
Qed.
