(** Association lists sorted by key, shared by parameter maps, cards and
    custom fields. *)
From Verif Require Import Base BaseFacts M_ParamMap M_VCard S_Card.

Section Assoc.
Context {A : Type}.
Implicit Types (m : list (ustring * A)) (p q : ustring).

Fixpoint afind p m : option A :=
  match m with [] => None | (q, vs) :: r => if leqb q p then Some vs else afind p r end.
Fixpoint ains p (vs : A) m : list (ustring * A) :=
  match m with
  | [] => [(p, vs)]
  | (q, ws) :: r => if lltb q p then (q, ws) :: ains p vs r else (p, vs) :: m
  end.
Fixpoint aupd p (f : A -> A) m : list (ustring * A) :=
  match m with
  | [] => []
  | (q, ws) :: r => if leqb q p then (q, f ws) :: r else (q, ws) :: aupd p f r
  end.

Definition asorted m : Prop := increasing (map fst m).

Lemma afind_None p m : afind p m = None <-> ~ In p (map fst m).
Proof.
  induction m as [|[q ws] m IH]; cbn; [tauto|]. destruct (leqb_spec q p) as [->|N].
  - split; [discriminate|intros H; exfalso; auto].
  - rewrite IH. tauto.
Qed.
Lemma afind_In p m v : afind p m = Some v -> In (p, v) m.
Proof.
  induction m as [|[q ws] m IH]; cbn; try discriminate. destruct (leqb_spec q p) as [->|N].
  - intros H; injection H as ->; auto.
  - auto.
Qed.
Lemma In_afind p m v : asorted m -> In (p, v) m -> afind p m = Some v.
Proof.
  induction m as [|[q ws] m IH]; cbn; [tauto|]. intros Hs [H|H].
  - injection H as -> ->. rewrite leqb_refl; auto.
  - inversion Hs as [|? ? Hs' Hf]; subst. cbn in *. destruct (leqb_spec q p) as [->|N]; auto.
    rewrite Forall_forall in Hf. exfalso. apply (lltb_neq p p); auto. apply Hf. apply in_map_iff. exists (p, v); auto.
Qed.

Lemma aupd_keys p f m : map fst (aupd p f m) = map fst m.
Proof. induction m as [|[q ws] m IH]; cbn; auto. destruct (leqb q p); cbn; congruence. Qed.
Lemma aupd_find p f m q : afind q (aupd p f m) =
  if leqb q p then option_map f (afind p m) else afind q m.
Proof.
  induction m as [|[r ws] m IH]; cbn; [destruct (leqb q p); auto|].
  destruct (leqb_spec r p) as [->|N]; cbn.
  - destruct (leqb_spec p q) as [->|N]; [rewrite leqb_refl; auto|].
    rewrite (proj2 (leqb_neq q p)) by congruence. auto.
  - rewrite IH. destruct (leqb_spec r q) as [->|N']; auto. rewrite (proj2 (leqb_neq q p)) by congruence. auto.
Qed.
Lemma aupd_sorted p f m : asorted m -> asorted (aupd p f m).
Proof. unfold asorted. rewrite aupd_keys. auto. Qed.

Lemma ains_keys_in p vs m q : In q (map fst (ains p vs m)) <-> q = p \/ In q (map fst m).
Proof.
  induction m as [|[r ws] m IH]; cbn; [intuition|]. destruct (lltb r p); cbn; [rewrite IH|]; intuition.
Qed.
Lemma ains_In p vs m x : In x (ains p vs m) <-> x = (p, vs) \/ In x m.
Proof.
  induction m as [|[r ws] m IH]; cbn; [intuition|]. destruct (lltb r p); cbn; [rewrite IH|]; intuition.
Qed.
Lemma ains_sorted p vs m : afind p m = None -> asorted m -> asorted (ains p vs m).
Proof.
  unfold asorted. induction m as [|[q ws] m IH]; cbn; intros Hf Hs.
  - repeat constructor.
  - inversion Hs as [|? ? Hs' Hall]; subst. destruct (leqb_spec q p) as [->|N]; [discriminate|].
    destruct (lltb q p) eqn:El; cbn.
    + constructor; [apply IH; auto|]. apply Forall_forall. intros x Hx. apply ains_keys_in in Hx as [->|Hx]; auto.
      rewrite Forall_forall in Hall; auto.
    + assert (Hpq : lltb p q = true).
      { destruct (lltb p q) eqn:E'; auto. exfalso. apply N. apply lltb_total; auto. }
      constructor; [constructor; auto|]. constructor; auto. eapply Forall_impl; [|exact Hall].
      cbn. intros a Ha. eapply lltb_trans; eauto.
Qed.
Lemma ains_find p vs m q : afind p m = None -> afind q (ains p vs m) = if leqb q p then Some vs else afind q m.
Proof.
  induction m as [|[r ws] m IH]; cbn; intros Hf.
  - rewrite (leqb_sym p q). destruct (leqb q p); auto.
  - destruct (leqb_spec r p) as [->|N]; [discriminate|].
    destruct (lltb r p); cbn.
    + rewrite IH by auto. destruct (leqb_spec r q) as [->|N']; auto. rewrite (proj2 (leqb_neq q p)) by congruence; auto.
    + rewrite (leqb_sym p q). destruct (leqb q p); auto.
Qed.

(** two sorted association lists with the same lookups are equal *)
Lemma asorted_ext m1 m2 : asorted m1 -> asorted m2 -> (forall p, afind p m1 = afind p m2) -> m1 = m2.
Proof.
  revert m2. induction m1 as [|[p v] m1 IH]; intros [|[q w] m2] H1 H2 He; auto.
  - specialize (He q). cbn in He. rewrite leqb_refl in He. discriminate.
  - specialize (He p). cbn in He. rewrite leqb_refl in He. discriminate.
  - inversion H1 as [|? ? H1' F1]; inversion H2 as [|? ? H2' F2]; subst. cbn in *.
    rewrite Forall_forall in F1, F2.
    assert (p = q) as ->.
    { pose proof (He p) as Ep. pose proof (He q) as Eq. rewrite leqb_refl in Ep, Eq.
      destruct (leqb_spec q p) as [->|N]; auto. destruct (leqb_spec p q) as [->|N']; auto.
      symmetry in Ep. apply afind_In in Ep. apply afind_In in Eq.
      assert (lltb q p = true) by (apply F2; apply in_map_iff; exists (p, v); auto).
      assert (lltb p q = true) by (apply F1; apply in_map_iff; exists (q, w); auto).
      rewrite lltb_asym in H; [discriminate|auto]. }
    pose proof (He q) as Eq. rewrite leqb_refl in Eq. injection Eq as ->. f_equal.
    apply IH; auto. intros r. specialize (He r). destruct (leqb_spec q r) as [->|N]; auto.
    assert (Hn1 : afind r m1 = None).
    { apply afind_None. intros H. specialize (F1 _ H). rewrite lltb_irrefl in F1. discriminate. }
    assert (Hn2 : afind r m2 = None).
    { apply afind_None. intros H. specialize (F2 _ H). rewrite lltb_irrefl in F2. discriminate. }
    congruence.
Qed.
End Assoc.

(** the model functions are instances *)
Lemma find_param_afind p m : find_param p m = afind p m. Proof. reflexivity. Qed.
Lemma insert_param_ains p vs m : insert_param p vs m = ains p vs m. Proof. reflexivity. Qed.
Lemma update_param_aupd p vs m : update_param p vs m = aupd p (fun _ => vs) m.
Proof. induction m as [|[q ws] m IH]; cbn; auto. destruct (leqb q p); congruence. Qed.
Lemma find_lines_afind id c : find_lines id c = afind id c. Proof. reflexivity. Qed.
Lemma insert_entry_ains id ls c : insert_entry id ls c = ains id ls c. Proof. reflexivity. Qed.
Lemma append_line_aupd id l c : append_line id l c = aupd id (fun ls => ls ++ [l]) c.
Proof. induction c as [|[q ws] m IH]; cbn; auto. destruct (leqb q id); congruence. Qed.
