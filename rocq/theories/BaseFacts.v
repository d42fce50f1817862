(** Lemmas about the functions of [Base]. *)
From Verif Require Import Base.

Lemma leqb_spec a b : reflect (a = b) (leqb a b).
Proof.
  revert b; induction a as [|x a IH]; destruct b as [|y b]; cbn; try (constructor; congruence).
  destruct (N.eqb_spec x y) as [->|Hne]; cbn.
  - destruct (IH b) as [->|Hb]; constructor; congruence.
  - constructor; congruence.
Qed.
Lemma leqb_refl a : leqb a a = true.
Proof. destruct (leqb_spec a a); congruence. Qed.
Lemma leqb_eq a b : leqb a b = true <-> a = b.
Proof. destruct (leqb_spec a b); split; congruence. Qed.
Lemma leqb_neq a b : leqb a b = false <-> a <> b.
Proof. destruct (leqb_spec a b); split; congruence. Qed.
Lemma leqb_sym a b : leqb a b = leqb b a.
Proof. destruct (leqb_spec a b), (leqb_spec b a); congruence. Qed.

Lemma list_eq_dec_N (a b : list N) : {a = b} + {a <> b}.
Proof. decide equality; apply N.eq_dec. Defined.

(** strict order *)
Lemma lltb_irrefl a : lltb a a = false.
Proof. induction a as [|x a IH]; cbn; auto. rewrite N.ltb_irrefl, N.eqb_refl; auto. Qed.
Lemma lltb_trans a b c : lltb a b = true -> lltb b c = true -> lltb a c = true.
Proof.
  revert b c; induction a as [|x a IH]; destruct b as [|y b], c as [|z c]; cbn; try congruence.
  destruct (N.ltb_spec x y); destruct (N.eqb_spec x y); destruct (N.ltb_spec y z);
    destruct (N.eqb_spec y z); destruct (N.ltb_spec x z); destruct (N.eqb_spec x z);
    try congruence; try lia; eauto.
Qed.
Lemma lltb_total a b : lltb a b = false -> lltb b a = false -> a = b.
Proof.
  revert b; induction a as [|x a IH]; destruct b as [|y b]; cbn; try congruence.
  destruct (N.ltb_spec x y); destruct (N.eqb_spec x y); destruct (N.ltb_spec y x);
    destruct (N.eqb_spec y x); try congruence; try lia.
  intros; f_equal; auto.
Qed.
Lemma lltb_asym a b : lltb a b = true -> lltb b a = false.
Proof.
  intros H; destruct (lltb b a) eqn:E; auto.
  pose proof (lltb_trans _ _ _ H E) as H'; rewrite lltb_irrefl in H'; discriminate.
Qed.
Lemma lltb_neq a b : lltb a b = true -> a <> b.
Proof. intros H ->; rewrite lltb_irrefl in H; discriminate. Qed.

(** membership *)
Lemma mem_In c s : mem c s = true <-> In c s.
Proof.
  induction s as [|x s IH]; cbn; [split; [congruence|tauto]|].
  rewrite orb_true_iff, IH, N.eqb_eq; tauto.
Qed.
Lemma mem_app c s t : mem c (s ++ t) = mem c s || mem c t.
Proof. induction s; cbn; auto. rewrite IHs, orb_assoc; auto. Qed.
Lemma mem_false c s : mem c s = false <-> ~ In c s.
Proof. rewrite <- mem_In; destruct (mem c s); split; congruence. Qed.

(** prefixes *)
Lemma starts_with_spec p s : starts_with p s = true <-> exists t, s = p ++ t.
Proof.
  revert s; induction p as [|x p IH]; intros s; cbn.
  - split; eauto.
  - destruct s as [|y s].
    + split; [congruence|intros [t H]; discriminate].
    + rewrite andb_true_iff, N.eqb_eq, IH; split.
      * intros [-> [t ->]]; eauto.
      * intros [t H]; injection H as -> ->; eauto.
Qed.
Lemma starts_with_app p t : starts_with p (p ++ t) = true.
Proof. apply starts_with_spec; eauto. Qed.

(** slicing *)
Lemma mid_len_all n l s : n + l >= length s -> mid_len n l s = mid n s.
Proof. intros H; unfold mid_len, mid; apply firstn_all2; rewrite skipn_length; lia. Qed.
Lemma mid_app_exact s t : mid (length s) (s ++ t) = t.
Proof. unfold mid; rewrite skipn_app, skipn_all, Nat.sub_diag; reflexivity. Qed.
Lemma firstn_app_exact {A} (s t : list A) : firstn (length s) (s ++ t) = s.
Proof. rewrite firstn_app, Nat.sub_diag, firstn_all; cbn; apply app_nil_r. Qed.
Lemma skipn_app_exact {A} (s t : list A) : skipn (length s) (s ++ t) = t.
Proof. rewrite skipn_app, skipn_all, Nat.sub_diag; reflexivity. Qed.

(** index_of *)
Lemma index_of_None c s : index_of c s = None <-> ~ In c s.
Proof.
  induction s as [|x s IH]; cbn; [tauto|].
  destruct (N.eqb_spec x c) as [->|Hne].
  - split; [discriminate|]; tauto.
  - transitivity (index_of c s = None).
    + destruct (index_of c s); cbn; split; congruence.
    + rewrite IH; tauto.
Qed.
Lemma index_of_Some c s i :
  index_of c s = Some i <-> exists p t, s = p ++ c :: t /\ ~ In c p /\ length p = i.
Proof.
  revert i; induction s as [|x s IH]; intros i; cbn.
  - split; [discriminate|]. intros ([|? ?] & t & H & _); discriminate.
  - destruct (N.eqb_spec x c) as [->|Hne].
    + split.
      * intros [= <-]; exists [], s; cbn; auto.
      * intros ([|y p] & t & H & Hp & Hl); cbn in *; [congruence|].
        injection H as -> ->; exfalso; apply Hp; auto.
    + split.
      * destruct (index_of c s) as [j|] eqn:E; cbn; [|discriminate].
        intros [= <-]. destruct (proj1 (IH j) eq_refl) as (p & t & -> & Hp & Hl).
        exists (x :: p), t; cbn; repeat split; auto. intros [?|?]; auto.
      * intros ([|y p] & t & H & Hp & Hl); cbn in *; [congruence|].
        injection H as -> ->. subst i.
        rewrite (proj2 (IH (length p))); cbn; eauto.
        exists p, t; repeat split; auto.
Qed.
Lemma index_of_app_notin c p t : ~ In c p -> index_of c (p ++ c :: t) = Some (length p).
Proof. intros H; apply index_of_Some; eauto. Qed.

(** join / split *)
Lemma split_nonnil c s : split c s <> [].
Proof. destruct s as [|x s]; cbn; [discriminate|]. destruct (N.eqb x c); [discriminate|]. destruct (split c s); discriminate. Qed.
Lemma split_app c p t : ~ In c p -> split c (p ++ c :: t) = p :: split c t.
Proof.
  induction p as [|x p IH]; cbn; intros H.
  - rewrite N.eqb_refl; auto.
  - destruct (N.eqb_spec x c); [exfalso; auto|]. rewrite IH; auto.
Qed.
Lemma split_notin c p : ~ In c p -> split c p = [p].
Proof.
  induction p as [|x p IH]; cbn; intros H; auto.
  destruct (N.eqb_spec x c); [exfalso; auto|]. rewrite IH; auto.
Qed.
Lemma join_cons sep x r : r <> [] -> join sep (x :: r) = x ++ sep ++ join sep r.
Proof. destruct r; cbn; congruence. Qed.
Lemma split_join c l : l <> [] -> Forall (fun s => ~ In c s) l -> split c (join [c] l) = l.
Proof.
  induction l as [|x l IH]; [congruence|]; intros _ H.
  inversion H as [|? ? Hx Hl]; subst. destruct l as [|y l].
  - cbn; apply split_notin; auto.
  - rewrite join_cons by discriminate. cbn [app]. rewrite split_app by auto. f_equal; apply IH; auto; discriminate.
Qed.
Lemma join_split c s : join [c] (split c s) = s.
Proof.
  induction s as [|x s IH]; cbn; auto.
  destruct (N.eqb_spec x c) as [->|Hne].
  - rewrite join_cons by apply split_nonnil. rewrite IH; auto.
  - pose proof (split_nonnil c s) as Hn. destruct (split c s) as [|p ps]; [congruence|].
    destruct ps as [|q ps]; cbn in *; congruence.
Qed.
Lemma split_parts_notin c s : Forall (fun p => ~ In c p) (split c s).
Proof.
  induction s as [|x s IH]; cbn; [constructor; auto|].
  destruct (N.eqb_spec x c) as [->|Hne]; [constructor; auto|].
  destruct (split c s) as [|p ps]; [constructor; auto; cbn; intuition|].
  inversion IH as [|? ? Hp Hps]; subst; constructor; auto. cbn; intuition.
Qed.

(** case mapping *)
Lemma lower1_idem c : lower1 (lower1 c) = lower1 c.
Proof.
  unfold lower1, is_upper; destruct (65 <=? c)%N eqn:E1, (c <=? 90)%N eqn:E2; cbn; rewrite ?E1, ?E2; cbn; auto.
  destruct (65 <=? c + 32)%N eqn:E3, (c + 32 <=? 90)%N eqn:E4; cbn; auto; lia.
Qed.
Lemma to_lower_idem s : to_lower (to_lower s) = to_lower s.
Proof. unfold to_lower; rewrite map_map; apply map_ext; apply lower1_idem. Qed.
Lemma to_lower_app s t : to_lower (s ++ t) = to_lower s ++ to_lower t.
Proof. apply map_app. Qed.
Lemma to_upper_app s t : to_upper (s ++ t) = to_upper s ++ to_upper t.
Proof. apply map_app. Qed.

(** trimming *)
Lemma trim_left_nospace c s : is_space c = false -> trim_left (c :: s) = c :: s.
Proof. intros H; cbn; rewrite H; auto. Qed.

Lemma isnil_true {A} (l : list A) : isnil l = true <-> l = [].
Proof. destruct l; cbn; split; congruence. Qed.
Lemma isnil_false {A} (l : list A) : isnil l = false <-> l <> [].
Proof. destruct l; cbn; split; congruence. Qed.
