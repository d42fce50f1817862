(** Lemmas about the list operations of a contact. *)
From Coq Require Import Permutation.
From Verif Require Import Base BaseFacts QtText M_ParamMap M_Values M_Addressee S_Addressee.

(** ** find_split *)
Lemma find_split_Some {A} (p : A -> bool) l b x t :
  find_split p l = Some (b, x, t) -> l = b ++ x :: t /\ p x = true /\ Forall (fun y => p y = false) b.
Proof.
  revert b x t. induction l as [|y l IH]; cbn; intros b x t H; [discriminate|].
  destruct (p y) eqn:E.
  - injection H as <- <- <-. auto.
  - destruct (find_split p l) as [[[b' x'] t']|] eqn:F; [|discriminate]. injection H as <- <- <-.
    destruct (IH _ _ _ eq_refl) as (-> & H1 & H2). auto.
Qed.
Lemma find_split_None {A} (p : A -> bool) l : find_split p l = None <-> Forall (fun y => p y = false) l.
Proof.
  induction l as [|y l IH]; cbn; [split; auto|]. destruct (p y) eqn:E.
  - split; [discriminate|]. intros H; inversion H; congruence.
  - destruct (find_split p l) as [[[b x] t]|]; split; intros H; try discriminate.
    + inversion H; subst. apply IH in H3. discriminate.
    + constructor; auto. apply IH; auto.
    + auto.
Qed.
Lemma find_split_exists {A} (p : A -> bool) l x : In x l -> p x = true -> exists b y t, find_split p l = Some (b, y, t).
Proof.
  intros H1 H2. destruct (find_split p l) as [[[b y] t]|] eqn:E; eauto.
  apply find_split_None in E. rewrite Forall_forall in E. rewrite E in H2; auto. discriminate.
Qed.

Section Keyed.
Context {A : Type} (key : A -> ustring).
Implicit Types (l : list A) (k : ustring).
Definition keyed k : A -> bool := fun x => leqb (key x) k.
Definition but k l : list A := filter (fun x => negb (leqb (key x) k)) l.

Lemma keyed_eq k x : keyed k x = true <-> key x = k.
Proof. unfold keyed. destruct (leqb_spec (key x) k); split; congruence. Qed.
Lemma keyed_neq k x : keyed k x = false <-> key x <> k.
Proof. unfold keyed. destruct (leqb_spec (key x) k); split; congruence. Qed.
Lemma but_id k l : Forall (fun x => keyed k x = false) l -> but k l = l.
Proof.
  unfold but, keyed. induction 1 as [|x l H _ IH]; cbn; [reflexivity|]. rewrite H. cbn. congruence.
Qed.
Lemma but_cons k x l : but k (x :: l) = if leqb (key x) k then but k l else x :: but k l.
Proof. unfold but. cbn. destruct (leqb (key x) k); reflexivity. Qed.
Lemma but_app k l1 l2 : but k (l1 ++ l2) = but k l1 ++ but k l2.
Proof. apply filter_app. Qed.
Lemma but_hit k x l : key x = k -> but k (x :: l) = but k l.
Proof. intros <-. cbn. rewrite leqb_refl. reflexivity. Qed.
Lemma but_in k l x : In x (but k l) <-> In x l /\ key x <> k.
Proof.
  unfold but. rewrite filter_In. destruct (leqb_spec (key x) k) as [E|E]; cbn;
    split; intros [H1 H2]; split; auto; try discriminate; contradiction.
Qed.
Lemma but_keys k l : map key (but k l) = filter (fun y => negb (leqb y k)) (map key l).
Proof.
  unfold but. induction l as [|x l IH]; cbn; [reflexivity|].
  destruct (leqb (key x) k); cbn; [exact IH|f_equal; exact IH].
Qed.
Lemma find_split_keyed_None k l : find_split (keyed k) l = None <-> ~ In k (map key l).
Proof.
  rewrite find_split_None. rewrite Forall_forall, in_map_iff. split.
  - intros H (x & Hk & Hi). apply (keyed_neq k x) in Hk; auto.
  - intros H x Hi. apply keyed_neq. intros Hk. apply H. eauto.
Qed.
Lemma nodup_split k b x t : NoDup (map key (b ++ x :: t)) -> key x = k ->
  Forall (fun y => keyed k y = false) b /\ Forall (fun y => keyed k y = false) t.
Proof.
  rewrite map_app. cbn. intros H Hk. rewrite !Forall_forall. split; intros y Hy; apply keyed_neq; intros E; subst k;
  apply NoDup_remove_2 in H; apply H; apply in_app_iff; [left|right]; apply in_map_iff; exists y; auto.
Qed.
Lemma find_app_first k b x t : Forall (fun y => keyed k y = false) b -> keyed k x = true ->
  find (keyed k) (b ++ x :: t) = Some x.
Proof. induction 1 as [|y b H _ IH]; cbn; intros E; [rewrite E; auto|rewrite H; auto]. Qed.
Lemma find_None_iff k l : find (keyed k) l = None <-> ~ In k (map key l).
Proof.
  rewrite <- find_split_keyed_None, find_split_None. induction l as [|x l IH]; cbn; [intuition|].
  destruct (keyed k x) eqn:E.
  - split; [discriminate|]. intros H; inversion H; congruence.
  - rewrite IH. split; intros H; [constructor; auto|inversion H; auto].
Qed.
Lemma find_keyed_but k k' l : k' <> k -> find (keyed k') (but k l) = find (keyed k') l.
Proof.
  intros N. induction l as [|x l IH]; [reflexivity|]. rewrite but_cons. cbn [find].
  destruct (leqb_spec (key x) k) as [E|E]; cbn [find].
  - rewrite IH. unfold keyed at 2. rewrite E, (proj2 (leqb_neq k k')) by congruence. reflexivity.
  - rewrite IH. reflexivity.
Qed.
Lemma find_but_self k l : find (keyed k) (but k l) = None.
Proof. apply find_None_iff. rewrite in_map_iff. intros (x & E & H). apply but_in in H. tauto. Qed.

(** replacing in place or appending *)
Lemma replace_or_but x app l : NoDup (map key l) -> but (key x) (replace_or (keyed (key x)) x app l) = but (key x) l.
Proof.
  intros Hn. unfold replace_or. destruct (find_split _ l) as [[[b y] t]|] eqn:F.
  - apply find_split_Some in F as (-> & Hy & Hb). apply keyed_eq in Hy.
    rewrite !but_app, !but_hit; auto.
  - destruct app; auto. rewrite but_app, but_hit; auto. cbn. apply app_nil_r.
Qed.
Lemma replace_or_keys x app l : map key (replace_or (keyed (key x)) x app l) =
  if existsb (leqb (key x)) (map key l) then map key l else if app then map key l ++ [key x] else map key l.
Proof.
  unfold replace_or. destruct (find_split _ l) as [[[b y] t]|] eqn:F.
  - apply find_split_Some in F as (-> & Hy & Hb). apply keyed_eq in Hy.
    rewrite !map_app. cbn. rewrite existsb_app. cbn. rewrite Hy, leqb_refl, orb_true_r. reflexivity.
  - apply find_split_keyed_None in F.
    replace (existsb (leqb (key x)) (map key l)) with false.
    + destruct app; auto. rewrite map_app. reflexivity.
    + symmetry. apply not_true_iff_false. intros H. apply existsb_exists in H as (k & Hk & E).
      apply leqb_eq in E. subst. auto.
Qed.
Lemma existsb_leqb_In k ks : existsb (leqb k) ks = true <-> In k ks.
Proof.
  rewrite existsb_exists. split.
  - intros (x & H & E). apply leqb_eq in E. subst. auto.
  - intros H. exists k. rewrite leqb_refl. auto.
Qed.
Lemma NoDup_snoc (k : ustring) ks : NoDup ks -> ~ In k ks -> NoDup (ks ++ [k]).
Proof.
  intros H1 H2. apply NoDup_rev in H1. rewrite <- (rev_involutive (ks ++ [k])). apply NoDup_rev.
  rewrite rev_app_distr. cbn. constructor; auto. rewrite <- in_rev. auto.
Qed.
Lemma replace_or_nodup x app l : NoDup (map key l) -> NoDup (map key (replace_or (keyed (key x)) x app l)).
Proof.
  intros H. rewrite replace_or_keys. destruct (existsb (leqb (key x)) (map key l)) eqn:E; auto.
  destruct app; auto. apply NoDup_snoc; auto. rewrite <- existsb_leqb_In. congruence.
Qed.
Lemma replace_or_find x app l k : NoDup (map key l) ->
  find (keyed k) (replace_or (keyed (key x)) x app l) =
  if leqb k (key x) then (if find (keyed (key x)) l then Some x else if app then Some x else None)
  else find (keyed k) l.
Proof.
  intros Hn. destruct (leqb_spec k (key x)) as [->|N].
  - unfold replace_or. destruct (find_split _ l) as [[[b y] t]|] eqn:F.
    + apply find_split_Some in F as (-> & Hy & Hb).
      rewrite !find_app_first; auto. apply keyed_eq; auto.
    + pose proof F as F'. apply find_split_keyed_None, find_None_iff in F'. rewrite F'.
      apply find_split_None in F. destruct app; auto.
      apply find_app_first; auto. apply keyed_eq; auto.
  - rewrite <- (find_keyed_but (key x)) by auto. rewrite replace_or_but by auto. apply find_keyed_but; auto.
Qed.

(** erasing *)
Lemma erase_first_but k l : NoDup (map key l) -> erase_first (keyed k) l = but k l.
Proof.
  intros Hn. unfold erase_first. destruct (find_split _ l) as [[[b y] t]|] eqn:F.
  - apply find_split_Some in F as (-> & Hy & Hb). apply keyed_eq in Hy.
    destruct (nodup_split _ _ _ _ Hn Hy) as [H1 H2].
    rewrite but_app, but_hit, !but_id; auto.
  - apply find_split_None in F. rewrite but_id; auto.
Qed.
Lemma but_nodup k l : NoDup (map key l) -> NoDup (map key (but k l)).
Proof. rewrite but_keys. apply NoDup_filter. Qed.
Lemma but_find k k' l : find (keyed k') (but k l) = if leqb k' k then None else find (keyed k') l.
Proof. destruct (leqb_spec k' k) as [->|N]; [apply find_but_self|apply find_keyed_but; auto]. Qed.
End Keyed.

(** ** E-mail *)
Lemma others_but m l : others m l = but em_mail m l. Proof. reflexivity. Qed.

Lemma add_email_list_others e l : others (em_mail e) (add_email_list e l) = others (em_mail e) l.
Proof.
  unfold add_email_list. change (fun x => leqb (em_mail x) (em_mail e)) with (keyed em_mail (em_mail e)).
  destruct (find_split _ l) as [[[b y] t]|] eqn:F.
  - apply find_split_Some in F as (-> & Hy & Hb). apply keyed_eq in Hy.
    change (others (em_mail e)) with (but em_mail (em_mail e)). destruct (email_preferred e).
    + rewrite but_hit by auto. rewrite !but_app, but_hit; auto.
    + rewrite !but_app, !but_hit; auto.
  - change (others (em_mail e)) with (but em_mail (em_mail e)). destruct (email_preferred e).
    + rewrite but_hit; auto.
    + rewrite but_app, but_hit by auto. cbn. apply app_nil_r.
Qed.
Lemma add_email_list_in e l : In e (add_email_list e l).
Proof.
  unfold add_email_list. destruct (find_split _ l) as [[[b y] t]|]; destruct (email_preferred e); cbn; auto;
  apply in_app_iff; cbn; auto.
Qed.
Lemma add_email_list_nodup e l : NoDup (map em_mail l) -> NoDup (map em_mail (add_email_list e l)).
Proof.
  unfold add_email_list. change (fun x => leqb (em_mail x) (em_mail e)) with (keyed em_mail (em_mail e)).
  destruct (find_split _ l) as [[[b y] t]|] eqn:F.
  - apply find_split_Some in F as (-> & Hy & Hb). apply keyed_eq in Hy. rewrite map_app. cbn. intros H.
    rewrite Hy in H. destruct (email_preferred e).
    + cbn. rewrite map_app. constructor; [apply NoDup_remove_2 in H|apply NoDup_remove_1 in H]; auto.
    + rewrite map_app. cbn. auto.
  - apply find_split_keyed_None in F. intros H. destruct (email_preferred e); cbn.
    + constructor; auto.
    + rewrite map_app. cbn. apply NoDup_snoc; auto.
Qed.
Lemma add_email_fields e a : add_email e a =
  put_emails (add_email_list e (a_emails a)) (if has_email (em_mail e) (a_emails a) then a else touch a).
Proof. unfold add_email. destruct (has_email _ _); reflexivity. Qed.
Lemma add_email_emails e a : a_emails (add_email e a) = add_email_list e (a_emails a).
Proof. rewrite add_email_fields. reflexivity. Qed.

(** the loop of [removeEmail] without indices *)
Fixpoint skip_remove {A} (p : A -> bool) (l : list A) : list A :=
  match l with
  | [] => []
  | x :: r => if p x then match r with [] => [] | y :: r' => y :: skip_remove p r' end
              else x :: skip_remove p r
  end.
Lemma skip_remove_ind {A} (p : A -> bool) (P : list A -> Prop) :
  P [] -> (forall x, P [x]) -> (forall x y r, P r -> P (y :: r) -> P (x :: y :: r)) -> forall l, P l.
Proof.
  intros H0 H1 H2. assert (forall n l, (length l <= n)%nat -> P l) as H.
  { induction n as [|n IH]; intros [|x [|y l]] Hl; auto; cbn in Hl; try lia. apply H2; apply IH; cbn; lia. }
  intros l. apply (H (length l)). auto.
Qed.
Lemma nth_error_mid {A} (b : list A) x t : nth_error (b ++ x :: t) (length b) = Some x.
Proof. rewrite nth_error_app2, Nat.sub_diag; auto. Qed.
Lemma remove_at_mid {A} (b : list A) x t : remove_at (length b) (b ++ x :: t) = b ++ t.
Proof.
  unfold remove_at. rewrite firstn_app_exact. f_equal.
  change (b ++ x :: t) with (b ++ [x] ++ t). rewrite app_assoc.
  replace (S (length b)) with (length (b ++ [x])) by (rewrite app_length; cbn; lia). apply skipn_app_exact.
Qed.
Lemma remove_email_loop_skip m : forall l b fuel, (length l <= fuel)%nat ->
  remove_email_loop fuel (length b) m (b ++ l) = b ++ skip_remove (fun e => leqb (em_mail e) m) l.
Proof.
  intros l. pattern l. apply (skip_remove_ind (fun e => leqb (em_mail e) m)); clear l.
  - intros b fuel _. cbn [skip_remove]. rewrite !app_nil_r. destruct fuel; cbn [remove_email_loop]; auto.
    rewrite (proj2 (nth_error_None b (length b))) by lia. reflexivity.
  - intros x b fuel Hf. cbn in Hf. destruct fuel as [|f]; [lia|]. cbn [remove_email_loop skip_remove].
    rewrite nth_error_mid. destruct (leqb (em_mail x) m).
    + rewrite remove_at_mid. rewrite app_nil_r. destruct f; cbn [remove_email_loop]; auto.
      rewrite (proj2 (nth_error_None b (S (length b)))) by lia. reflexivity.
    + destruct f; cbn [remove_email_loop]; auto.
      rewrite (proj2 (nth_error_None (b ++ [x]) (S (length b)))) by (rewrite app_length; cbn; lia). reflexivity.
  - intros x y r IH1 IH2 b fuel Hf. cbn in Hf. destruct fuel as [|f]; [lia|]. cbn [remove_email_loop skip_remove].
    rewrite nth_error_mid. destruct (leqb (em_mail x) m).
    + rewrite remove_at_mid. replace (S (length b)) with (length (b ++ [y])) by (rewrite app_length; cbn; lia).
      replace (b ++ y :: r) with ((b ++ [y]) ++ r) by (rewrite <- app_assoc; reflexivity).
      rewrite IH1 by lia. rewrite <- app_assoc. reflexivity.
    + replace (S (length b)) with (length (b ++ [x])) by (rewrite app_length; cbn; lia).
      replace (b ++ x :: y :: r) with ((b ++ [x]) ++ y :: r) by (rewrite <- app_assoc; reflexivity).
      rewrite IH2 by (cbn; lia). rewrite <- app_assoc. reflexivity.
Qed.
Lemma remove_email_skip m l : remove_email_list m l = skip_remove (fun e => leqb (em_mail e) m) l.
Proof. unfold remove_email_list. apply (remove_email_loop_skip m l [] (length l)). lia. Qed.

Lemma remove_lang_loop_skip m : forall l b fuel, (length l <= fuel)%nat ->
  remove_lang_loop fuel (length b) m (b ++ l) = b ++ skip_remove (fun e => leqb (pt_text e) m) l.
Proof.
  intros l. pattern l. apply (skip_remove_ind (fun e => leqb (pt_text e) m)); clear l.
  - intros b fuel _. cbn [skip_remove]. rewrite !app_nil_r. destruct fuel; cbn [remove_lang_loop]; auto.
    rewrite (proj2 (nth_error_None b (length b))) by lia. reflexivity.
  - intros x b fuel Hf. cbn in Hf. destruct fuel as [|f]; [lia|]. cbn [remove_lang_loop skip_remove].
    rewrite nth_error_mid. destruct (leqb (pt_text x) m).
    + rewrite remove_at_mid. rewrite app_nil_r. destruct f; cbn [remove_lang_loop]; auto.
      rewrite (proj2 (nth_error_None b (S (length b)))) by lia. reflexivity.
    + destruct f; cbn [remove_lang_loop]; auto.
      rewrite (proj2 (nth_error_None (b ++ [x]) (S (length b)))) by (rewrite app_length; cbn; lia). reflexivity.
  - intros x y r IH1 IH2 b fuel Hf. cbn in Hf. destruct fuel as [|f]; [lia|]. cbn [remove_lang_loop skip_remove].
    rewrite nth_error_mid. destruct (leqb (pt_text x) m).
    + rewrite remove_at_mid. replace (S (length b)) with (length (b ++ [y])) by (rewrite app_length; cbn; lia).
      replace (b ++ y :: r) with ((b ++ [y]) ++ r) by (rewrite <- app_assoc; reflexivity).
      rewrite IH1 by lia. rewrite <- app_assoc. reflexivity.
    + replace (S (length b)) with (length (b ++ [x])) by (rewrite app_length; cbn; lia).
      replace (b ++ x :: y :: r) with ((b ++ [x]) ++ y :: r) by (rewrite <- app_assoc; reflexivity).
      rewrite IH2 by (cbn; lia). rewrite <- app_assoc. reflexivity.
Qed.
Lemma remove_lang_skip m l : remove_lang_loop (length l) 0 m l = skip_remove (fun e => leqb (pt_text e) m) l.
Proof. apply (remove_lang_loop_skip m l [] (length l)). lia. Qed.

Section Skip.
Context {A : Type} (key : A -> ustring).
Lemma skip_remove_but k l : ~ twice_in_a_row k (map key l) -> skip_remove (keyed key k) l = but key k l.
Proof.
  pattern l. apply (skip_remove_ind (keyed key k)); clear l.
  - reflexivity.
  - intros x _. cbn. unfold keyed. destruct (leqb (key x) k); reflexivity.
  - intros x y r IH1 IH2 H. cbn [skip_remove].
    assert (Hr : ~ twice_in_a_row k (map key (y :: r))).
    { intros (p & t & E). apply H. exists (key x :: p), t. cbn in *. rewrite E. reflexivity. }
    assert (Hr2 : ~ twice_in_a_row k (map key r)).
    { intros (p & t & E). apply Hr. exists (key y :: p), t. cbn in *. rewrite E. reflexivity. }
    destruct (keyed key k x) eqn:E.
    + apply keyed_eq in E. rewrite but_hit by auto. rewrite IH1 by auto. rewrite but_cons.
      destruct (leqb_spec (key y) k) as [Ey|Ey]; [|reflexivity].
      exfalso. apply H. exists [], (map key r). cbn. congruence.
    + rewrite but_cons. unfold keyed in E. rewrite E. f_equal. apply IH2; auto.
Qed.
Lemma skip_remove_gone k l : ~ In k (map key (skip_remove (keyed key k) l)) <-> ~ twice_in_a_row k (map key l).
Proof.
  split.
  - pattern l. apply (skip_remove_ind (keyed key k)); clear l.
    + intros _ (p & t & E). destruct p; discriminate.
    + intros x _ (p & t & E). destruct p as [|? [|? ?]]; discriminate.
    + intros x y r IH1 IH2 H (p & t & E). cbn [skip_remove] in H.
      destruct (keyed key k x) eqn:Ex.
      * cbn [map In] in H. destruct p as [|z p]; cbn in E; [injection E as E1 E2 E3; auto|].
        injection E as E1 E2. destruct p as [|z' p]; cbn in E2; [injection E2 as E2 E3; auto|].
        injection E2 as E2 E3. apply IH1; [tauto|]. exists p, t. auto.
      * apply keyed_neq in Ex. cbn [map In] in H. destruct p as [|z p]; cbn in E; [congruence|].
        injection E as E1 E2. apply IH2; [tauto|]. exists p, t. auto.
  - intros H. rewrite skip_remove_but by auto. rewrite in_map_iff. intros (x & E & Hx). apply but_in in Hx. tauto.
Qed.
Lemma nodup_not_twice k l : NoDup (map key l) -> ~ twice_in_a_row k (map key l).
Proof.
  intros H (p & t & E). rewrite E in H. apply NoDup_remove_2 in H. apply H. apply in_app_iff. cbn. auto.
Qed.
End Skip.

Lemma remove_email_nodup m a : NoDup (emails_of a) -> a_emails (remove_email m a) = others m (a_emails a).
Proof.
  intros H. cbn. rewrite remove_email_skip. apply (skip_remove_but em_mail). apply nodup_not_twice; auto.
Qed.

Lemma run_emails_nodup ops : forall a, NoDup (emails_of a) -> NoDup (emails_of (run_emails ops a)).
Proof.
  unfold run_emails. induction ops as [|o ops IH]; cbn; intros a H; auto. apply IH. destruct o as [e|m]; cbn [do_email].
  - unfold emails_of. rewrite add_email_emails. apply add_email_list_nodup; auto.
  - unfold emails_of. rewrite remove_email_nodup by auto. rewrite others_but. apply but_nodup. auto.
Qed.
