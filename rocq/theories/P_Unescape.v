(** Escapes read from left to right (C01, C76). *)
From Verif Require Import Base BaseFacts M_VCardText S_Escape P_Escape S_Coding.

Definition passes (s : bytes) : bytes :=
  replace2 92 92 [92%N] (replace2 92 44 [44%N] (replace2 92 114 [13%N] (replace2 92 78 [10%N] (replace2 92 110 [10%N] s)))).
Definition half (k : nat) : bytes := repeat 92%N (Nat.div2 (S k)).
Lemma repl_half k r : nb 92 r -> replace2 92 92 [92%N] (repeat 92%N k ++ r) = half k ++ replace2 92 92 [92%N] r.
Proof.
  intros Hr. unfold half. destruct (Nat.Even_or_Odd k) as [[j ->]|[j ->]].
  - replace (Nat.div2 (S (2 * j))) with j; [replace (2 * j) with (j + j) by lia; apply repl_bs_even; auto|].
    rewrite Nat.div2_succ_double. reflexivity.
  - replace (Nat.div2 (S (2 * j + 1))) with (S j); [replace (2 * j + 1) with (S (j + j)) by lia; apply repl_bs_odd; auto|].
    replace (S (2 * j + 1)) with (2 * (S j)) by lia. rewrite Nat.div2_double. reflexivity.
Qed.
Lemma run_pass b by_ k c t : b <> 92%N -> c <> b -> c <> 92%N ->
  replace2 92 b by_ (repeat 92%N k ++ c :: t) = repeat 92%N k ++ c :: replace2 92 b by_ t.
Proof. intros Hb Hc H9. rewrite repl_run by (cbn; auto). rewrite replace2_skip by auto. reflexivity. Qed.
Lemma run_hit b x k t : b <> 92%N -> 
  replace2 92 b [x] (repeat 92%N (S k) ++ b :: t) = repeat 92%N k ++ x :: replace2 92 b [x] t.
Proof. intros Hb. rewrite repl_run_hit by auto. reflexivity. Qed.
Lemma zero_pass b by_ c t : c <> 92%N -> replace2 92 b by_ (c :: t) = c :: replace2 92 b by_ t.
Proof. intros H. apply replace2_skip. auto. Qed.
Definition image (k : nat) (c : N) : bytes :=
  match k with
  | O => [c]
  | S j => if (c =? 110)%N || (c =? 78)%N then half j ++ [10%N] else if (c =? 114)%N then half j ++ [13%N]
           else if (c =? 44)%N then half j ++ [44%N] else half k ++ [c]
  end.
Lemma passes_run k c t : c <> 92%N -> passes (repeat 92%N k ++ c :: t) = image k c ++ passes t.
Proof.
  intros Hc. unfold passes. destruct k as [|k].
  { cbn [repeat app image]. rewrite !zero_pass by auto. reflexivity. }
  cbn [image]. destruct (N.eqb_spec c 110) as [->|N1]; cbn [orb].
  { rewrite run_hit by discriminate. do 3 rewrite run_pass by discriminate. rewrite repl_half, zero_pass by (cbn; discriminate). rewrite <- app_assoc. reflexivity. }
  rewrite (run_pass 110) by (auto; discriminate).
  destruct (N.eqb_spec c 78) as [->|N2].
  { rewrite run_hit by discriminate. do 2 rewrite run_pass by discriminate. rewrite repl_half, zero_pass by (cbn; discriminate). rewrite <- app_assoc. reflexivity. }
  rewrite (run_pass 78) by (auto; discriminate).
  destruct (N.eqb_spec c 114) as [->|N3].
  { rewrite run_hit by discriminate. rewrite run_pass by discriminate. rewrite repl_half, zero_pass by (cbn; discriminate). rewrite <- app_assoc. reflexivity. }
  rewrite (run_pass 114) by (auto; discriminate).
  destruct (N.eqb_spec c 44) as [->|N4].
  { rewrite run_hit by discriminate. rewrite repl_half, zero_pass by (cbn; discriminate). rewrite <- app_assoc. reflexivity. }
  rewrite (run_pass 44) by (auto; discriminate). rewrite repl_half, zero_pass by (cbn; auto). rewrite <- app_assoc. reflexivity.
Qed.
Lemma passes_end k : passes (repeat 92%N k) = half k.
Proof.
  unfold passes. rewrite <- (app_nil_r (repeat 92%N k)) at 1. do 4 (rewrite repl_run by (cbn; auto; discriminate); rewrite ?replace2_nil).
  rewrite repl_half by (cbn; auto). rewrite replace2_nil, app_nil_r. reflexivity.
Qed.
Lemma half_two k : half (S (S k)) = 92%N :: half k.
Proof. reflexivity. Qed.
Lemma unescapes_passes w v : unescapes w v -> passes w = v.
Proof.
  intros H. induction H as [|c w v Hc H IH|w v H IH|c w v Hc H IH|w v H IH|w v Hn H IH|c w v Hc H IH|].
  - reflexivity.
  - change (c :: w) with (repeat 92%N 0 ++ c :: w). rewrite passes_run by auto. cbn. congruence.
  - change (92 :: 44 :: w)%N with (repeat 92%N 1 ++ 44%N :: w). rewrite passes_run by discriminate. cbn. congruence.
  - change (92%N :: c :: w) with (repeat 92%N 1 ++ c :: w). destruct Hc as [-> | ->]; rewrite passes_run by discriminate; cbn; congruence.
  - change (92 :: 114 :: w)%N with (repeat 92%N 1 ++ 114%N :: w). rewrite passes_run by discriminate. cbn. congruence.
  - rewrite <- IH. destruct (run_split w) as (k & r & -> & Hr). destruct r as [|c t].
    + rewrite app_nil_r. change (92%N :: 92%N :: repeat 92%N k) with (repeat 92%N (S (S k))). rewrite !passes_end. apply half_two.
    + cbn in Hr. change (92%N :: 92%N :: repeat 92%N k ++ c :: t) with (repeat 92%N (S (S k)) ++ c :: t). rewrite !passes_run by auto.
      change (92%N :: image k c ++ passes t) with ((92%N :: image k c) ++ passes t). f_equal.
      destruct k as [|k]; cbn [image].
      * destruct (N.eqb_spec c 110) as [->|N1]; [destruct Hn; exists 110%N, t; auto|].
        destruct (N.eqb_spec c 78) as [->|N2]; [destruct Hn; exists 78%N, t; auto|].
        destruct (N.eqb_spec c 114) as [->|N3]; [destruct Hn; exists 114%N, t; auto|].
        destruct (N.eqb_spec c 44) as [->|N4]; reflexivity.
      * rewrite !half_two. destruct (_ || _); [reflexivity|]. destruct (c =? 114)%N; [reflexivity|]. destruct (c =? 44)%N; reflexivity.
  - change (92%N :: c :: w) with (repeat 92%N 1 ++ c :: w). cbn [In] in Hc. rewrite passes_run by (intros ->; tauto). cbn [image].
    rewrite !(proj2 (N.eqb_neq _ _)) by (intros ->; tauto). cbn. congruence.
  - reflexivity.
Qed.
Lemma unescapes_read w v : unescapes w v -> remove_escapes w = v.
Proof. intros H. rewrite remove_escapes_slow. apply unescapes_passes, H. Qed.

(** the two simplest cases *)
Lemma plain_unescapes w : ~ In 92%N w -> unescapes w w.
Proof. induction w as [|c w IH]; intros H; constructor; [intros ->; apply H; left; reflexivity|apply IH; intros K; apply H; right; exact K]. Qed.
Lemma escaped_unescapes v : ~ ambiguous v -> unescapes (escaped v) v.
Proof.
  induction v as [|c v IH]; intros H; [constructor|].
  assert (IH' : unescapes (escaped v) v) by (apply IH; intros (a & b & d & -> & K); apply H; exists (c :: a), b, d; auto).
  cbn [escaped flat_map]. fold (escaped v).
  destruct (N.eqb_spec c 92) as [->|N1]; [|destruct (N.eqb_spec c 44) as [->|N2]; [|destruct (N.eqb_spec c 13) as [->|N3]; [|destruct (N.eqb_spec c 10) as [->|N4]]]]; cbn [app]; try (constructor; auto; fail).
  apply un_backslash; [|exact IH']. intros (c & r & E & K). destruct v as [|x v]; [discriminate|].
  apply H. exists [], v, c. split; [|exact K]. cbn [escaped flat_map] in E. cbn [app]. do 2 f_equal.
  destruct (N.eqb_spec x 92) as [->|M1]; [injection E; intros; subst; destruct K as [K|[K|K]]; discriminate|].
  destruct (N.eqb_spec x 44) as [->|M2]; [injection E; intros; subst; destruct K as [K|[K|K]]; discriminate|].
  destruct (N.eqb_spec x 13) as [->|M3]; [injection E; intros; subst; destruct K as [K|[K|K]]; discriminate|].
  destruct (N.eqb_spec x 10) as [->|M4]; [injection E; intros; subst; destruct K as [K|[K|K]]; discriminate|].
  injection E; auto.
Qed.
