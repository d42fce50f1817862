From Verif Require Import Base BaseFacts Utf8 M_Addressee M_Name M_NameWords S_Name S_NameWords P_Name P_Lists.
Open Scope list_scope.

(** ** Lines *)

Lemma fold_append_some : forall ws acc, acc <> [] -> fold_left append_word ws acc = join [cSP] (acc :: ws).
Proof.
  induction ws as [|w ws IH]; intros acc N; [reflexivity|]. cbn [fold_left].
  assert (E : append_word acc w = acc ++ cSP :: w) by (destruct acc; [congruence|reflexivity]).
  rewrite E, IH by (destruct acc; discriminate).
  destruct ws as [|x ws]; cbn [join app]; [reflexivity|]. rewrite <- app_assoc. reflexivity.
Qed.
Lemma fold_append : forall ws, fold_left append_word ws [] = in_line ws.
Proof.
  induction ws as [|w ws IH]; [reflexivity|]. unfold in_line. cbn [fold_left skip_empty].
  destruct w as [|c w]; cbn [isnil]; [exact IH|]. cbn [append_word]. apply fold_append_some. discriminate.
Qed.
Lemma skip_app_some : forall ws w, w <> [] -> skip_empty (ws ++ [w]) <> [].
Proof.
  induction ws as [|x ws IH]; intros w N; cbn; [destruct w; [congruence|discriminate]|].
  destruct (isnil x); [apply IH, N|discriminate].
Qed.
Lemma skip_empty_app : forall ws l, skip_empty (ws ++ l) = match skip_empty ws with [] => skip_empty l | x => x ++ l end.
Proof.
  induction ws as [|x ws IH]; intros l; [reflexivity|]. cbn [app skip_empty]. destruct (isnil x) eqn:E; [apply IH|].
  reflexivity.
Qed.
Lemma skip_empty_head : forall ws x r, skip_empty ws = x :: r -> x <> [].
Proof. induction ws as [|w ws IH]; intros x r E; [discriminate|]. cbn in E. destruct w; cbn in E; [eauto|inversion E; discriminate]. Qed.
Lemma join_nonempty_end : forall ws w, w <> [] -> join [cSP] (ws ++ [w]) <> [].
Proof.
  induction ws as [|x ws IH]; intros w N; [exact N|]. cbn [app].
  destruct (ws ++ [w]) eqn:E; [destruct ws; discriminate|]. rewrite <- E. cbn [join].
  rewrite E. destruct x; discriminate.
Qed.
Lemma fold_prepend : forall ws, fold_right prepend_word [] ws = in_line_end ws.
Proof.
  induction ws as [|w ws IH]; [reflexivity|]. cbn [fold_right]. rewrite IH. unfold in_line_end. cbn [rev].
  rewrite skip_empty_app. destruct (skip_empty (rev ws)) as [|x l] eqn:E.
  - cbn [rev join]. unfold prepend_word. cbn [isnil app]. rewrite app_nil_r.
    cbn [skip_empty]. destruct w; reflexivity.
  - pose proof (skip_empty_head _ _ _ E) as N. rewrite rev_app_distr. cbn [rev app].
    assert (G : forall v : list ustring, v <> [] -> join [cSP] v <> [] -> prepend_word w (join [cSP] v) = join [cSP] (w :: v)).
    { intros v V J. unfold prepend_word. destruct v as [|y m]; [congruence|].
      destruct (join [cSP] (y :: m)) as [|c r] eqn:Q; [exfalso; apply J; reflexivity|]. cbn [isnil]. rewrite <- Q. reflexivity. }
    apply G; [destruct (rev l); discriminate|]. apply (join_nonempty_end (rev l) x N).
Qed.

(** ** Distribution of the words *)

Lemma name_prefix_exact : forall H parts k, (1 <= k)%nat -> (k <= length parts)%nat ->
  (exists p, name_prefix H parts (Z.of_nat k - 1) = Some (Some p) /\ (2 <= k)%nat /\ nth_error parts (k - 2) = Some p /\ nobiliary H p = true)
  \/ (name_prefix H parts (Z.of_nat k - 1) = Some None /\ forall b p, firstn (k - 1) parts = b ++ [p] -> nobiliary H p = false).
Proof.
  intros H parts k K1 K2. unfold name_prefix.
  destruct (Z.leb_spec 0 (Z.of_nat k - 1 - 1)) as [L|L].
  - unfold at_index. destruct (Z.ltb_spec (Z.of_nat k - 1 - 1) 0) as [Q|Q]; [lia|].
    replace (Z.to_nat (Z.of_nat k - 1 - 1)) with (k - 2)%nat by lia.
    destruct (nth_error parts (k - 2)) as [p|] eqn:E; [|apply nth_error_None in E; lia].
    destruct (nx_prefix H (nx_lower H p)) eqn:P; [left|right].
    + exists p. repeat split; auto. lia.
    + split; [reflexivity|]. intros b q F. replace (k - 1)%nat with (S (k - 2)) in F by lia.
      rewrite (firstn_snoc _ _ _ _ E) in F. apply app_inj_tail in F as [_ <-]. exact P.
  - right. split; [reflexivity|]. intros b p F. exfalso. replace (k - 1)%nat with 0%nat in F by lia. destruct b; discriminate.
Qed.

(** given part in the words of the specification *)
Lemma given_part_parts : forall H parts hi a, (hi <= length parts)%nat ->
  exists a' T G R, given_part H parts hi a = Some a' /\ firstn hi parts = T ++ G ++ R /\ first_parts H T G R
    /\ a_prefix a' = in_line T /\ a_additional a' = in_line R
    /\ a_given a' = match G with w :: _ => w | [] => a_given a end
    /\ a_family a' = a_family a /\ a_suffix a' = a_suffix a.
Proof.
  intros H parts hi a L.
  destruct (given_part_ok H parts hi a L) as [a' [T [G [R [E1 [E2 [E3 [E4 [E5 [E6 [E7 [E8 _]]]]]]]]]]]].
  exists a', T, G, R. rewrite <- !fold_append. split; [exact E1|]. split; [exact E2|]. split.
  - split; [apply forallb_Forall in E3 || (apply Forall_forall; rewrite forallb_forall in E3; exact E3)|].
    destruct E4 as [[A [Q _]]|[w [A [Q _]]]]; [left; auto|right; eauto].
  - repeat split; auto. destruct E4 as [[-> [_ Q]]|[w [-> [_ Q]]]]; exact Q.
Qed.

(** the family part: what the loop over suffixes and the look-up of prefixes determine *)
Lemma family_part : forall H parts,
  exists k suf, suffix_loop H parts (length parts) [] = Some ((Z.of_nat k - 1)%Z, in_line_end suf)
    /\ Forall (fun w => nx_suffix H w = true) suf
    /\ ((k = 0%nat /\ parts = suf)
        \/ exists w, (1 <= k)%nat /\ at_index parts (Z.of_nat k - 1) = Some w /\ nx_suffix H w = false
           /\ ((exists p, name_prefix H parts (Z.of_nat k - 1) = Some (Some p) /\ (2 <= k)%nat /\ (k <= length parts)%nat /\ nobiliary H p = true
                  /\ parts = firstn (k - 2) parts ++ [p; w] ++ suf)
               \/ (name_prefix H parts (Z.of_nat k - 1) = Some None /\ (k <= length parts)%nat
                  /\ (forall b p, firstn (k - 1) parts = b ++ [p] -> nobiliary H p = false)
                  /\ parts = firstn (k - 1) parts ++ [w] ++ suf))).
Proof.
  intros H parts.
  destruct (suffix_loop_ok H parts (length parts) []) as [k [K1 [K2 [K3 K4]]]]; [lia|].
  assert (SKn : firstn (length parts - k) (skipn k parts) = skipn k parts).
  { apply firstn_all2. rewrite skipn_length. lia. }
  rewrite SKn in *. exists k, (skipn k parts). rewrite K2, fold_prepend. split; [reflexivity|].
  split; [apply Forall_forall; rewrite forallb_forall in K3; exact K3|].
  destruct K4 as [->|[w [W1 W2]]]; [left; auto|].
  destruct k as [|k].
  { exfalso. cbn [skipn] in K3. apply nth_error_In in W1. rewrite forallb_forall in K3. rewrite (K3 w W1) in W2. discriminate. }
  right. exists w. split; [lia|]. rewrite at_index_ok, W1 by lia. split; [reflexivity|]. split; [exact W2|].
  assert (D : parts = firstn (S k - 1) parts ++ [w] ++ skipn (S k) parts).
  { rewrite <- (firstn_skipn (S k) parts) at 1. replace (S k) with (S (S k - 1)) at 1 by lia.
    rewrite (firstn_snoc _ _ _ _ W1), <- app_assoc. reflexivity. }
  destruct (name_prefix_exact H parts (S k)) as [[p [Q1 [Q2 [Q3 Q4]]]]|[Q1 Q2]]; [lia|lia| |].
  - left. exists p. repeat split; auto. etransitivity; [exact D|].
    replace (S k - 1)%nat with (S (S k - 2)) by lia. rewrite (firstn_snoc _ _ _ _ Q3), <- app_assoc. reflexivity.
  - right. repeat split; auto.
Qed.

(** the fields of a contact whose name was read from a text without comma *)
Lemma no_comma_parts : forall H (parts : list ustring) a,
  a_prefix a = [] -> a_given a = [] -> a_additional a = [] -> a_family a = [] ->
  exists a' T G R F S, name_without_comma H parts a = Some a'
    /\ parts = T ++ G ++ R ++ F ++ S /\ first_parts H T G R /\ last_parts H (T ++ G ++ R) F S
    /\ a_prefix a' = in_line T /\ a_additional a' = in_line R /\ a_suffix a' = in_line_end S
    /\ (if nx_family H || negb (Nat.eqb (length F) 1)
        then a_given a' = join [cSP] G /\ a_family a' = join [cSP] F
        else a_given a' = (match G with w :: _ => w | [] => join [cSP] F end) /\ a_family a' = []).
Proof.
  intros H parts a P0 G0 A0 F0. unfold name_without_comma.
  destruct (family_part H parts) as [k [suf [K2 [K3 K4]]]]. rewrite K2.
  set (s := in_line_end suf) in *.
  destruct (nv_proj _ _ _ _ _ _ (nv_suffix s a)) as [S1 [S2 [S3 [S4 S5]]]].
  assert (GJ : forall (G : list ustring) T R, first_parts H T G R -> match G with w :: _ => w | [] => [] end = join [cSP] G).
  { intros G T R [_ [[-> _]|[w [-> _]]]]; reflexivity. }
  destruct K4 as [[-> E]|[w [Kp [W1 [W2 K4]]]]].
  - cbn [Z.of_nat Z.sub Z.add Z.opp Z.ltb Z.compare]. eexists _, [], [], [], [], suf. split; [reflexivity|]. split; [exact E|].
    split; [split; [constructor|left; auto]|]. split; [split; [exact K3|left; auto]|].
    rewrite S1, S2, S3, S4, S5. cbn. rewrite orb_true_r. auto.
  - destruct (Z.ltb_spec (Z.of_nat k - 1) 0) as [Z0|_]; [lia|]. rewrite W1.
    destruct K4 as [[p [Q1 [Q2 [Q3 [Q4 Q5]]]]]|[Q1 [Q2 [Q3 Q4]]]]; rewrite Q1.
    + replace (Z.to_nat (Z.of_nat k - 1 - 1)) with (k - 2)%nat by lia.
      destruct (nv_proj _ _ _ _ _ _ (nv_family (p ++ [cSP] ++ w) (set_suffix s a))) as [B1 [B2 [B3 [B4 B5]]]].
      set (b := set_family (p ++ [cSP] ++ w) (set_suffix s a)) in *.
      destruct (given_part_parts H parts (k - 2) b) as [a' [T [G [R [E1 [E2 [E3 [E4 [E5 [E6 [E7 E8]]]]]]]]]]]; [lia|].
      exists a', T, G, R, [p; w], suf. rewrite E1. split; [reflexivity|].
      split; [rewrite E2 in Q5; rewrite Q5, <- !app_assoc; reflexivity|]. split; [exact E3|].
      split; [split; [exact K3|right; exists w; split; [exact W2|left; exists p; auto]]|].
      split; [exact E4|]. split; [exact E5|]. split; [rewrite E8, B5; exact S5|].
      cbn [length Nat.eqb negb]. rewrite orb_true_r. split; [|rewrite E7; exact B4].
      rewrite E6, B2, S2, G0. apply (GJ G T R E3).
    + replace (Z.to_nat (Z.of_nat k - 1)) with (k - 1)%nat by lia.
      destruct (nv_proj _ _ _ _ _ _ (nv_family w (set_suffix s a))) as [B1 [B2 [B3 [B4 B5]]]].
      destruct (nv_proj _ _ _ _ _ _ (nv_given w (set_suffix s a))) as [C1 [C2 [C3 [C4 C5]]]].
      set (b := if nx_family H then set_family w (set_suffix s a) else set_given w (set_suffix s a)).
      assert (Sb : a_suffix b = s) by (unfold b; destruct (nx_family H); [rewrite B5|rewrite C5]; exact S5).
      destruct (given_part_parts H parts (k - 1) b) as [a' [T [G [R [E1 [E2 [E3 [E4 [E5 [E6 [E7 E8]]]]]]]]]]]; [lia|].
      exists a', T, G, R, [w], suf. rewrite E1. split; [reflexivity|].
      split; [rewrite E2 in Q4; rewrite Q4, <- !app_assoc; reflexivity|]. split; [exact E3|].
      split; [split; [exact K3|right; exists w; split; [exact W2|right; split; [reflexivity|rewrite <- E2; exact Q3]]]|].
      split; [exact E4|]. split; [exact E5|]. split; [rewrite E8; exact Sb|].
      cbn [length Nat.eqb negb]. rewrite orb_false_r, E6, E7. unfold b. destruct (nx_family H).
      * split; [|exact B4]. rewrite B2, S2, G0. apply (GJ G T R E3).
      * rewrite C2, C4, S4. split; [reflexivity|exact F0].
Qed.

Lemma comma_parts : forall H (parts parts2 : list ustring) a a', a_given a = [] ->
  name_with_comma H parts parts2 a = Some a' ->
  exists T G R L F S, parts = L ++ F ++ S /\ F <> [] /\ last_parts H L F S
    /\ parts2 = T ++ G ++ R /\ first_parts H T G R
    /\ a_prefix a' = in_line T /\ a_given a' = join [cSP] G /\ a_additional a' = in_line R
    /\ a_family a' = join [cSP] F /\ a_suffix a' = in_line_end S.
Proof.
  intros H parts parts2 a a' G0 E0. unfold name_with_comma in E0.
  destruct (family_part H parts) as [k [suf [K2 [K3 K4]]]]. rewrite K2 in E0.
  set (s := in_line_end suf) in *.
  destruct (nv_proj _ _ _ _ _ _ (nv_suffix s a)) as [S1 [S2 [S3 [S4 S5]]]].
  destruct K4 as [[-> E]|[w [Kp [W1 [W2 K4]]]]].
  { exfalso. cbn in E0. discriminate. }
  rewrite W1 in E0.
  assert (KEY : forall fam hi, (hi <= length parts)%nat ->
     match left_loop (nx_title H) parts hi 0 [] with
     | None => None
     | Some _ => given_part H parts2 (length parts2) (set_family fam (set_suffix s a))
     end = Some a' ->
     exists T G R, parts2 = T ++ G ++ R /\ first_parts H T G R
       /\ a_prefix a' = in_line T /\ a_given a' = join [cSP] G /\ a_additional a' = in_line R
       /\ a_family a' = fam /\ a_suffix a' = s).
  { intros fam hi Hh E. destruct (left_loop_ok (nx_title H) parts hi 0 []) as [x [_ [X2 _]]]; [lia|]. rewrite X2 in E.
    destruct (given_part_parts H parts2 (length parts2) (set_family fam (set_suffix s a))) as [a2 [T [G [R [E1 [E2 [E3 [E4 [E5 [E6 [E7 E8]]]]]]]]]]]; [lia|].
    rewrite E1 in E. injection E as <-. rewrite firstn_all in E2. exists T, G, R.
    destruct (nv_proj _ _ _ _ _ _ (nv_family fam (set_suffix s a))) as [B1 [B2 [B3 [B4 B5]]]].
    repeat (split; [assumption|]). rewrite E6, E7, E8, B2, B4, B5, S2, S5, G0. repeat split; auto.
    destruct E3 as [_ [[-> _]|[y [-> _]]]]; reflexivity. }
  destruct K4 as [[p [Q1 [Q2 [Q3 [Q4 Q5]]]]]|[Q1 [Q2 [Q3 Q4]]]]; rewrite Q1 in E0.
  - destruct (KEY _ _ (ltac:(lia) : (Z.to_nat (Z.of_nat k - 1 - 1) <= length parts)%nat) E0) as [T [G [R [D1 [D2 [D3 [D4 [D5 [D6 D7]]]]]]]]].
    exists T, G, R, (firstn (k - 2) parts), [p; w], suf. split; [exact Q5|]. split; [discriminate|].
    split; [split; [exact K3|right; exists w; split; [exact W2|left; exists p; auto]]|]. repeat (split; [assumption|]). assumption.
  - destruct (KEY _ _ (ltac:(lia) : (Z.to_nat (Z.of_nat k - 1) <= length parts)%nat) E0) as [T [G [R [D1 [D2 [D3 [D4 [D5 [D6 D7]]]]]]]]].
    exists T, G, R, (firstn (k - 1) parts), [w], suf. split; [exact Q4|]. split; [discriminate|].
    split; [split; [exact K3|right; exists w; split; [exact W2|right; auto]]|]. repeat (split; [assumption|]). assumption.
Qed.

(** ** There is only one distribution *)

Lemma ends_unique : forall (P : ustring -> bool) l1 w1 s1 l2 w2 s2,
  Forall (fun w => P w = true) s1 -> Forall (fun w => P w = true) s2 -> P w1 = false -> P w2 = false ->
  l1 ++ w1 :: s1 = l2 ++ w2 :: s2 -> l1 = l2 /\ w1 = w2 /\ s1 = s2.
Proof.
  intros P. induction l1 as [|x l1 IH]; intros w1 s1 [|y l2] w2 s2 F1 F2 N1 N2 E; cbn [app] in E.
  - inversion E; auto.
  - exfalso. injection E as -> E. subst s1. apply Forall_app in F1 as [_ F1]. inversion F1; congruence.
  - exfalso. injection E as -> E. subst s2. apply Forall_app in F2 as [_ F2]. inversion F2; congruence.
  - injection E as -> E. destruct (IH w1 s1 l2 w2 s2 F1 F2 N1 N2 E) as [-> [-> ->]]. auto.
Qed.

Lemma last_unique : forall H b1 f1 s1 b2 f2 s2, last_parts H b1 f1 s1 -> last_parts H b2 f2 s2 ->
  b1 ++ f1 ++ s1 = b2 ++ f2 ++ s2 -> b1 = b2 /\ f1 = f2 /\ s1 = s2.
Proof.
  intros H b1 f1 s1 b2 f2 s2 [A1 B1] [A2 B2] E.
  assert (NO : forall l w s t, Forall (fun w => nx_suffix H w = true) t -> nx_suffix H w = false -> l ++ w :: s = t -> False).
  { intros l w s t F N Q. subst t. apply Forall_app in F as [_ F]. inversion F; congruence. }
  destruct B1 as [[-> ->]|[w1 [W1 B1]]], B2 as [[-> ->]|[w2 [W2 B2]]].
  - auto.
  - exfalso. destruct B2 as [[p [-> _]]|[-> _]]; cbn [app] in E.
    + apply (NO (b2 ++ [p]) w2 s2 s1 A1 W2). rewrite <- app_assoc. symmetry. exact E.
    + apply (NO b2 w2 s2 s1 A1 W2). symmetry. exact E.
  - exfalso. destruct B1 as [[p [-> _]]|[-> _]]; cbn [app] in E.
    + apply (NO (b1 ++ [p]) w1 s1 s2 A2 W1). rewrite <- app_assoc. exact E.
    + apply (NO b1 w1 s1 s2 A2 W1). exact E.
  - destruct B1 as [[p1 [-> P1]]|[-> P1]], B2 as [[p2 [-> P2]]|[-> P2]]; cbn [app] in E.
    + change (p1 :: w1 :: s1) with ([p1] ++ w1 :: s1) in E. change (p2 :: w2 :: s2) with ([p2] ++ w2 :: s2) in E. rewrite !app_assoc in E.
      destruct (ends_unique _ _ _ _ _ _ _ A1 A2 W1 W2 E) as [Q [-> ->]]. apply app_inj_tail in Q as [-> ->]. auto.
    + exfalso. change (p1 :: w1 :: s1) with ([p1] ++ w1 :: s1) in E. rewrite app_assoc in E.
      destruct (ends_unique _ _ _ _ _ _ _ A1 A2 W1 W2 E) as [Q _]. rewrite (P2 b1 p1) in P1 by (symmetry; exact Q). discriminate.
    + exfalso. change (p2 :: w2 :: s2) with ([p2] ++ w2 :: s2) in E. rewrite app_assoc in E.
      destruct (ends_unique _ _ _ _ _ _ _ A1 A2 W1 W2 E) as [Q _]. rewrite (P1 b2 p2 Q) in P2. discriminate.
    + destruct (ends_unique _ _ _ _ _ _ _ A1 A2 W1 W2 E) as [-> [-> ->]]. auto.
Qed.

Lemma first_unique : forall H t1 g1 r1 t2 g2 r2, first_parts H t1 g1 r1 -> first_parts H t2 g2 r2 ->
  t1 ++ g1 ++ r1 = t2 ++ g2 ++ r2 -> t1 = t2 /\ g1 = g2 /\ r1 = r2.
Proof.
  intros H. induction t1 as [|x t1 IH]; intros g1 r1 [|y t2] g2 r2 [A1 B1] [A2 B2] E; cbn [app] in E.
  - destruct B1 as [[-> ->]|[w1 [-> W1]]], B2 as [[-> ->]|[w2 [-> W2]]]; cbn in E; try discriminate; auto. inversion E; auto.
  - exfalso. inversion A2; subst. destruct B1 as [[-> ->]|[w1 [-> W1]]]; cbn in E; [discriminate|]. inversion E; subst. congruence.
  - exfalso. inversion A1; subst. destruct B2 as [[-> ->]|[w1 [-> W1]]]; cbn in E; [discriminate|]. inversion E; subst. congruence.
  - injection E as -> E. inversion A1; inversion A2; subst.
    destruct (IH g1 r1 t2 g2 r2) as [-> [-> ->]]; auto; split; auto.
Qed.

(** ** The settings *)

Lemma insert_contains : forall w x s, set_contains w (set_insert x s) = true <-> w = x \/ set_contains w s = true.
Proof.
  intros w x s. unfold set_contains, set_insert. destruct (existsb (leqb x) s) eqn:E.
  - rewrite !existsb_leqb_In in *. split; [auto|]. intros [->|I]; auto.
  - rewrite !existsb_leqb_In, in_app_iff. cbn. split; [intros [I|[->|[]]]; auto|intros [->|I]; auto].
Qed.
Lemma add_contains : forall w l s, set_contains w (add_to_set l s) = true <-> (w <> [] /\ In w l) \/ set_contains w s = true.
Proof.
  intros w l. unfold add_to_set. induction l as [|x l IH]; intros s; cbn [fold_left].
  - split; [auto|]. intros [[_ []]|I]; exact I.
  - rewrite IH. destruct x as [|c x]; cbn [isnil].
    + cbn [In]. split; [intros [[N I]|I]; auto|]. intros [[N [<-|I]]|I]; auto; congruence.
    + rewrite insert_contains. cbn [In]. split.
      * intros [[N I]|[->|I]]; auto. left. split; [discriminate|auto].
      * intros [[N [<-|I]]|I]; auto.
Qed.
