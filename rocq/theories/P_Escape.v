(** Proofs about escaping (vcardparser.cpp:40-61). *)
From Verif Require Import Base BaseFacts M_VCardText S_Escape.

(** adjacent pair *)
Fixpoint adj (a b : N) (s : bytes) : bool :=
  match s with
  | [] => false
  | x :: t => (N.eqb x a && match t with y :: _ => N.eqb y b | [] => false end) || adj a b t
  end.

Lemma adj_spec a b s : adj a b s = true <-> exists p t, s = p ++ a :: b :: t.
Proof.
  induction s as [|x s IH]; cbn.
  - split; [discriminate|intros ([|? ?] & t & H); discriminate].
  - rewrite orb_true_iff, andb_true_iff, IH, N.eqb_eq. split.
    + intros [[-> H]|(p & t & ->)].
      * destruct s as [|y s]; [discriminate|]. apply N.eqb_eq in H as ->. exists [], s; auto.
      * exists (x :: p), t; auto.
    + intros ([|y p] & t & H); cbn in H; injection H as -> ->.
      * left; rewrite N.eqb_refl; auto.
      * right; eauto.
Qed.

Lemma replace2_skip a b by_ x r :
  (x <> a \/ match r with y :: _ => y <> b | [] => True end) ->
  replace2 a b by_ (x :: r) = x :: replace2 a b by_ r.
Proof.
  intros H; cbn [replace2]. destruct r as [|y t]; auto.
  destruct (N.eqb_spec x a), (N.eqb_spec y b); cbn; auto; tauto.
Qed.
Lemma replace2_hit a b by_ r : replace2 a b by_ (a :: b :: r) = by_ ++ replace2 a b by_ r.
Proof. cbn [replace2]. rewrite !N.eqb_refl; auto. Qed.
Lemma replace2_cons2 a b by_ x y t : replace2 a b by_ (x :: y :: t) =
  if (N.eqb x a && N.eqb y b)%bool then by_ ++ replace2 a b by_ t else x :: replace2 a b by_ (y :: t).
Proof. reflexivity. Qed.
Lemma replace2_nil a b by_ : replace2 a b by_ [] = [].
Proof. auto. Qed.
Lemma replace2_absent a b by_ s : ~ In a s -> replace2 a b by_ s = s.
Proof.
  induction s as [|x s IH]; intros H; auto. rewrite replace2_skip.
  - f_equal; apply IH; intros ?; apply H; right; auto.
  - left; intros ->; apply H; left; auto.
Qed.

(** token maps *)
Definition tok (lf cr excl : bool) (c : N) : bytes :=
  if N.eqb c 92 then [92;92]%N
  else if N.eqb c 44 then (if excl then [44] else [92;44])%N
  else if N.eqb c 13 then (if cr then [92;114] else [13])%N
  else if N.eqb c 10 then (if lf then [92;110] else [10])%N
  else [c].

Lemma add_escapes_tok excl s : add_escapes excl s = flat_map (tok true true excl) s.
Proof.
  unfold add_escapes, replace_ch; induction s as [|c s IH]; [destruct excl; auto|].
  cbn [flat_map]. unfold tok at 1. cbv zeta in *.
  unfold cBS, cCOMMA, cCR, cLF in *.
  destruct (N.eqb_spec c 92) as [->|H92].
  { destruct excl; cbn in *; rewrite IH; auto. }
  cbn [app flat_map].
  destruct (N.eqb_spec c 44) as [->|H44].
  { destruct excl; cbn in *; rewrite IH; auto. }
  destruct (N.eqb_spec c 13) as [->|H13].
  { destruct excl; cbn in *; rewrite IH; auto. }
  destruct (N.eqb_spec c 10) as [->|H10].
  { destruct excl; cbn in *; rewrite IH; auto. }
  apply N.eqb_neq in H92, H44, H13, H10.
  destruct excl; cbn [flat_map app]; rewrite ?H92, ?H44, ?H13, ?H10; cbn [flat_map app]; rewrite ?H92, ?H44, ?H13, ?H10; cbn [flat_map app];
    rewrite ?H92, ?H44, ?H13, ?H10; cbn [flat_map app];  rewrite IH; auto.
Qed.

(** head of a tokenised text *)
Lemma tok_hd lf cr excl s b :
  b <> 92%N -> b <> 13%N -> b <> 10%N -> b <> 44%N ->
  match s with y :: _ => y <> b | [] => True end ->
  match flat_map (tok lf cr excl) s with y :: _ => y <> b | [] => True end.
Proof.
  intros H1 H2 H3 H4 H. destruct s as [|y s]; cbn; auto. unfold tok.
  destruct (N.eqb_spec y 92); [cbn; congruence|].
  destruct (N.eqb_spec y 44); [destruct excl; cbn; congruence|].
  destruct (N.eqb_spec y 13); [destruct cr; cbn; congruence|].
  destruct (N.eqb_spec y 10); [destruct lf; cbn; congruence|].
  cbn; auto.
Qed.

Lemma adj_cons_false a b x s : adj a b (x :: s) = false ->
  adj a b s = false /\ (x = a -> match s with y :: _ => y <> b | [] => True end).
Proof.
  cbn. rewrite orb_false_iff, andb_false_iff. intros [H1 H2]; split; auto.
  intros ->. rewrite N.eqb_refl in H1. destruct s; auto. destruct H1 as [?|H1]; [discriminate|].
  apply N.eqb_neq; auto.
Qed.

Lemma step_n cr excl s : adj 92 110 s = false ->
  replace2 92 110 [10%N] (flat_map (tok true cr excl) s) = flat_map (tok false cr excl) s.
Proof.
  induction s as [|c s IH]; auto. intros H. apply adj_cons_false in H as [Hs Hc].
  specialize (IH Hs). cbn [flat_map].
  assert (Hd : c = 92%N -> match flat_map (tok true cr excl) s with y :: _ => y <> 110%N | [] => True end).
  { intros Ec. apply tok_hd; try discriminate. exact (Hc Ec). }
  revert IH Hd. generalize (flat_map (tok true cr excl) s) (flat_map (tok false cr excl) s). intros X Y IH Hd. unfold tok.
  destruct (N.eqb_spec c 92) as [->|H92].
  { cbn [app]. rewrite replace2_skip by (right; discriminate). rewrite replace2_skip by (right; exact (Hd eq_refl)). rewrite IH; auto. }
  destruct (N.eqb_spec c 44) as [->|H44].
  { destruct excl; cbn [app].
    - rewrite replace2_skip by (left; discriminate). rewrite IH; auto.
    - rewrite replace2_skip by (right; discriminate). rewrite replace2_skip by (left; discriminate). rewrite IH; auto. }
  destruct (N.eqb_spec c 13) as [->|H13].
  { destruct cr; cbn [app].
    - rewrite replace2_skip by (right; discriminate). rewrite replace2_skip by (left; discriminate). rewrite IH; auto.
    - rewrite replace2_skip by (left; discriminate). rewrite IH; auto. }
  destruct (N.eqb_spec c 10) as [->|H10].
  { cbn [app]. rewrite replace2_hit, IH. auto. }
  cbn [app]. rewrite replace2_skip by (left; auto). rewrite IH; auto.
Qed.

Lemma step_N lf cr excl s : adj 92 78 s = false ->
  replace2 92 78 [10%N] (flat_map (tok lf cr excl) s) = flat_map (tok lf cr excl) s.
Proof.
  induction s as [|c s IH]; auto. intros H. apply adj_cons_false in H as [Hs Hc].
  specialize (IH Hs). cbn [flat_map].
  assert (Hd : c = 92%N -> match flat_map (tok lf cr excl) s with y :: _ => y <> 78%N | [] => True end).
  { intros Ec. apply tok_hd; try discriminate. exact (Hc Ec). }
  revert IH Hd. generalize (flat_map (tok lf cr excl) s). intros X IH Hd. unfold tok.
  destruct (N.eqb_spec c 92) as [->|H92].
  { cbn [app]. rewrite replace2_skip by (right; discriminate). rewrite replace2_skip by (right; exact (Hd eq_refl)). rewrite IH; auto. }
  destruct (N.eqb_spec c 44) as [->|H44].
  { destruct excl; cbn [app].
    - rewrite replace2_skip by (left; discriminate). rewrite IH; auto.
    - rewrite replace2_skip by (right; discriminate). rewrite replace2_skip by (left; discriminate). rewrite IH; auto. }
  destruct (N.eqb_spec c 13) as [->|H13].
  { destruct cr; cbn [app].
    - rewrite replace2_skip by (right; discriminate). rewrite replace2_skip by (left; discriminate). rewrite IH; auto.
    - rewrite replace2_skip by (left; discriminate). rewrite IH; auto. }
  destruct (N.eqb_spec c 10) as [->|H10].
  { destruct lf; cbn [app].
    - rewrite replace2_skip by (right; discriminate). rewrite replace2_skip by (left; discriminate). rewrite IH; auto.
    - rewrite replace2_skip by (left; discriminate). rewrite IH; auto. }
  cbn [app]. rewrite replace2_skip by (left; auto). rewrite IH; auto.
Qed.

Lemma step_r lf excl s : adj 92 114 s = false ->
  replace2 92 114 [13%N] (flat_map (tok lf true excl) s) = flat_map (tok lf false excl) s.
Proof.
  induction s as [|c s IH]; auto. intros H. apply adj_cons_false in H as [Hs Hc].
  specialize (IH Hs). cbn [flat_map].
  assert (Hd : c = 92%N -> match flat_map (tok lf true excl) s with y :: _ => y <> 114%N | [] => True end).
  { intros Ec. apply tok_hd; try discriminate. exact (Hc Ec). }
  revert IH Hd. generalize (flat_map (tok lf true excl) s) (flat_map (tok lf false excl) s). intros X Y IH Hd. unfold tok.
  destruct (N.eqb_spec c 92) as [->|H92].
  { cbn [app]. rewrite replace2_skip by (right; discriminate). rewrite replace2_skip by (right; exact (Hd eq_refl)). rewrite IH; auto. }
  destruct (N.eqb_spec c 44) as [->|H44].
  { destruct excl; cbn [app].
    - rewrite replace2_skip by (left; discriminate). rewrite IH; auto.
    - rewrite replace2_skip by (right; discriminate). rewrite replace2_skip by (left; discriminate). rewrite IH; auto. }
  destruct (N.eqb_spec c 13) as [->|H13].
  { cbn [app]. rewrite replace2_hit, IH. auto. }
  destruct (N.eqb_spec c 10) as [->|H10].
  { destruct lf; cbn [app].
    - rewrite replace2_skip by (right; discriminate). rewrite replace2_skip by (left; discriminate). rewrite IH; auto.
    - rewrite replace2_skip by (left; discriminate). rewrite IH; auto. }
  cbn [app]. rewrite replace2_skip by (left; auto). rewrite IH; auto.
Qed.

(** runs of backslashes *)
Definition nb (b : N) (r : bytes) := match r with y :: _ => y <> b | [] => True end.

Lemma repl_run b by_ k r : b <> 92%N -> nb b r ->
  replace2 92 b by_ (repeat 92%N k ++ r) = repeat 92%N k ++ replace2 92 b by_ r.
Proof.
  intros Hb Hr; induction k as [|k IH]; auto. cbn [repeat app]. rewrite replace2_skip.
  - rewrite IH; auto.
  - right. destruct k; cbn; auto.
Qed.
Lemma repl_run_hit b by_ k r : b <> 92%N ->
  replace2 92 b by_ (repeat 92%N (S k) ++ b :: r) = repeat 92%N k ++ by_ ++ replace2 92 b by_ r.
Proof.
  intros Hb; induction k as [|k IH].
  - cbn [repeat app]. rewrite replace2_hit; auto.
  - cbn [repeat app] in *. rewrite replace2_skip by (right; auto). rewrite IH; auto.
Qed.
Lemma repl_bs_even k r : nb 92 r ->
  replace2 92 92 [92%N] (repeat 92%N (k + k) ++ r) = repeat 92%N k ++ replace2 92 92 [92%N] r.
Proof.
  intros Hr; induction k as [|k IH]; auto.
  replace (S k + S k) with (S (S (k + k))) by lia. cbn [repeat app]. rewrite replace2_hit, IH. auto.
Qed.
Lemma repl_bs_odd k r : nb 92 r ->
  replace2 92 92 [92%N] (repeat 92%N (S (k + k)) ++ r) = repeat 92%N (S k) ++ replace2 92 92 [92%N] r.
Proof.
  intros Hr; induction k as [|k IH].
  - cbn [Nat.add repeat app]. rewrite replace2_skip; auto.
  - replace (S (S k + S k)) with (S (S (S (k + k)))) by lia. cbn [repeat app] in *. rewrite replace2_hit, IH. auto.
Qed.

Lemma run_split s : exists k r, s = repeat 92%N k ++ r /\ nb 92 r.
Proof.
  induction s as [|c s (k & r & -> & Hr)].
  - exists 0, []; cbn; auto.
  - destruct (N.eqb_spec c 92) as [->|Hc].
    + exists (S k), r; auto.
    + exists 0, (c :: repeat 92%N k ++ r); cbn; auto.
Qed.
Lemma tok_run lf cr excl k : flat_map (tok lf cr excl) (repeat 92%N k) = repeat 92%N (k + k).
Proof. induction k as [|k IH]; auto. replace (S k + S k) with (S (S (k + k))) by lia. cbn. rewrite IH; auto. Qed.
Lemma repeat_snoc (c : N) k : repeat c k ++ [c] = repeat c (S k).
Proof. induction k as [|k IH]; cbn in *; congruence. Qed.

Lemma tok_nb92 excl c t : c <> 92%N -> (c <> 44%N \/ excl = true) ->
  flat_map (tok false false excl) (c :: t) = c :: flat_map (tok false false excl) t.
Proof.
  intros H1 H2. cbn [flat_map]. unfold tok at 1. apply N.eqb_neq in H1. rewrite H1.
  destruct (N.eqb_spec c 44) as [->|H44]; [destruct H2 as [?| ->]; [congruence|reflexivity]|].
  destruct (N.eqb_spec c 13) as [->|]; [reflexivity|].
  destruct (N.eqb_spec c 10) as [->|]; reflexivity.
Qed.

Lemma step_comma_bs excl n : forall s, length s <= n ->
  replace2 92 92 [92%N] (replace2 92 44 [44%N] (flat_map (tok false false excl) s)) = s.
Proof.
  induction n as [|n IH]; intros s Hn; [destruct s; [reflexivity|cbn in Hn; lia]|].
  destruct (run_split s) as (k & r & -> & Hr).
  rewrite flat_map_app, tok_run.
  destruct r as [|c t].
  - cbn [flat_map]. rewrite !app_nil_r.
    rewrite <- (app_nil_r (repeat _ (k+k))), repl_run by (cbn; auto; discriminate).
    rewrite repl_bs_even by (cbn; auto). cbn; rewrite app_nil_r; auto.
  - cbn in Hr. rewrite app_length in Hn; cbn [length] in Hn.
    destruct (N.eq_dec c 44) as [->|H44].
    + destruct excl.
      * rewrite tok_nb92 by auto. destruct k as [|j].
        { cbn [Nat.add repeat app].
          rewrite replace2_skip by (left; discriminate). rewrite replace2_skip by (left; discriminate).
          rewrite IH by lia; auto. }
        replace (S j + S j) with (S (S (j + j))) by lia.
        rewrite repl_run_hit by discriminate. cbn [app].
        rewrite repl_bs_odd by (cbn; discriminate). rewrite replace2_skip by (left; discriminate).
        rewrite IH by lia. auto.
      * cbn [flat_map]. unfold tok at 1. cbn [N.eqb Pos.eqb app].
        change (92%N :: 44%N :: flat_map (tok false false false) t) with ([92%N] ++ 44%N :: flat_map (tok false false false) t).
        rewrite app_assoc, repeat_snoc, repl_run_hit by discriminate. cbn [app].
        rewrite repl_bs_even by (cbn; discriminate). rewrite replace2_skip by (left; discriminate).
        rewrite IH by lia. auto.
    + rewrite tok_nb92 by auto. rewrite repl_run by (cbn; auto; discriminate).
      rewrite replace2_skip by auto. rewrite repl_bs_even by (cbn; auto).
      rewrite replace2_skip by auto. rewrite IH by lia; auto.
Qed.

Lemma remove_escapes_slow s :
  remove_escapes s =
  replace2 92 92 [92%N] (replace2 92 44 [44%N] (replace2 92 114 [13%N]
    (replace2 92 78 [10%N] (replace2 92 110 [10%N] s)))).
Proof.
  unfold remove_escapes, cBS, cLF, cCR, cCOMMA. destruct (mem 92 s) eqn:E; cbn [negb]; auto.
  apply mem_false in E. do 5 rewrite (fun a b => replace2_absent 92 a b s E). auto.
Qed.

Lemma escape_roundtrip excl s :
  adj 92 110 s = false -> adj 92 78 s = false -> adj 92 114 s = false ->
  remove_escapes (add_escapes excl s) = s.
Proof.
  intros Hn HN Hr. rewrite remove_escapes_slow, add_escapes_tok.
  rewrite step_n, step_N, step_r by auto. eapply step_comma_bs; eauto.
Qed.

(** ** The other direction: counting LF and CR *)
Fixpoint count (c : N) (s : bytes) : nat :=
  match s with [] => 0 | x :: t => (if N.eqb x c then 1 else 0) + count c t end.
Fixpoint occ2 (a b : N) (s : bytes) : nat :=
  match s with
  | [] => 0
  | x :: t => (if N.eqb x a && match t with y :: _ => N.eqb y b | [] => false end then 1 else 0) + occ2 a b t
  end.

Lemma occ2_adj a b s : adj a b s = true -> occ2 a b s >= 1.
Proof.
  induction s as [|x t IH]; [discriminate|]. cbn [adj occ2]. destruct (_ && _)%bool; cbn; [lia|]. intros H; apply IH in H; lia.
Qed.

Lemma two_step_ind (P : list N -> Prop) :
  P [] -> (forall x, P [x]) -> (forall x y t, P t -> P (y :: t) -> P (x :: y :: t)) -> forall s, P s.
Proof.
  intros H0 H1 H2 s. assert (H : P s /\ forall x, P (x :: s)); [|tauto].
  induction s as [|y t [IH1 IH2]]; auto.
Qed.

Lemma count_hit a b c (s : list N) : a <> b -> c <> a -> c <> b ->
  count c (replace2 a b [c] s) = count c s + occ2 a b s.
Proof.
  intros Hab Hca Hcb. induction s as [|x|x y t IHt IHy] using two_step_ind; auto.
  - cbn. rewrite andb_false_r. lia.
  - rewrite replace2_cons2. destruct (N.eqb_spec x a) as [->|Hx], (N.eqb_spec y b) as [->|Hy]; cbn [andb].
    + cbn [app count occ2]. rewrite !N.eqb_refl. cbn [andb].
      destruct (N.eqb_spec a c), (N.eqb_spec b c), (N.eqb_spec b a); try congruence. cbn [andb]. lia.
    + cbn [count] in *. rewrite IHy. cbn [occ2]. rewrite N.eqb_refl. destruct (N.eqb_spec y b); [congruence|]. cbn [andb]. lia.
    + cbn [count] in *. rewrite IHy. cbn [occ2]. destruct (N.eqb_spec x a); [congruence|]. cbn [andb]. lia.
    + cbn [count] in *. rewrite IHy. cbn [occ2]. destruct (N.eqb_spec x a); [congruence|]. cbn [andb]. lia.
Qed.

Lemma count_other a b d c (s : list N) : c <> a -> c <> b -> c <> d ->
  count c (replace2 a b [d] s) = count c s.
Proof.
  intros Hca Hcb Hcd. induction s as [|x|x y t IHt IHy] using two_step_ind; auto.
  rewrite replace2_cons2. destruct (N.eqb_spec x a) as [->|Hx], (N.eqb_spec y b) as [->|Hy]; cbn [andb];
    cbn [app count] in *; rewrite ?IHy, ?IHt; try lia.
  destruct (N.eqb_spec a c), (N.eqb_spec b c), (N.eqb_spec d c); try congruence; try lia.
Qed.

(** replacing [a b] by [d] does not change the number of occurrences of [a b'] *)
Lemma occ2_replace a b d b' (s : list N) : a <> b -> b' <> b -> b' <> d -> d <> a -> b' <> a ->
  occ2 a b' (replace2 a b [d] s) = occ2 a b' s /\
  (match replace2 a b [d] s with y :: _ => N.eqb y b' | [] => false end =
   match s with y :: _ => N.eqb y b' | [] => false end).
Proof.
  intros H1 H2 H3 H4 H5. induction s as [|x|x y t IHt IHy] using two_step_ind; auto.
  rewrite replace2_cons2. destruct (N.eqb_spec x a) as [->|Hx], (N.eqb_spec y b) as [->|Hy]; cbn [andb app].
  - destruct IHt as [IHt Ht]. cbn [occ2]. rewrite IHt, !N.eqb_refl.
    destruct (N.eqb_spec d a), (N.eqb_spec b b'), (N.eqb_spec b a), (N.eqb_spec d b'), (N.eqb_spec a b'); try congruence; cbn; auto.
  - destruct IHy as [IHy Hh]. cbn [occ2] in *. rewrite IHy, Hh. auto.
  - destruct IHy as [IHy Hh]. cbn [occ2] in *. rewrite IHy, Hh. auto.
  - destruct IHy as [IHy Hh]. cbn [occ2] in *. rewrite IHy, Hh. auto.
Qed.

Lemma occ2_app_tok excl b c r :
  b <> 92%N -> b <> 13%N -> b <> 10%N -> b <> 44%N ->
  occ2 92 b (tok true true excl c ++ r) =
  occ2 92 b r
  + (if N.eqb c 13 && N.eqb b 114 then 1 else 0) + (if N.eqb c 10 && N.eqb b 110 then 1 else 0)
  + (if N.eqb c 92 && match r with y :: _ => N.eqb y b | [] => false end then 1 else 0).
Proof.
  intros H1 H2 H3 H4. unfold tok.
  destruct (N.eqb_spec c 92) as [->|H92].
  { cbn [app occ2 andb]. destruct (N.eqb_spec 92 b); [congruence|]. cbn. lia. }
  destruct (N.eqb_spec c 44) as [->|H44].
  { destruct excl; cbn [app occ2 andb]; [cbn; lia|]. destruct (N.eqb_spec 44 b); [congruence|]. cbn; lia. }
  destruct (N.eqb_spec c 13) as [->|H13].
  { cbn [app occ2 andb]. rewrite (N.eqb_sym 114 b). cbn. destruct (N.eqb b 114); lia. }
  destruct (N.eqb_spec c 10) as [->|H10].
  { cbn [app occ2 andb]. rewrite (N.eqb_sym 110 b). cbn. destruct (N.eqb b 110); lia. }
  cbn [app occ2 andb]. destruct (N.eqb_spec c 92); [congruence|]. cbn. lia.
Qed.

Lemma hd_tok_eqb excl b s : b <> 92%N -> b <> 13%N -> b <> 10%N -> b <> 44%N ->
  match flat_map (tok true true excl) s with y :: _ => N.eqb y b | [] => false end =
  match s with y :: _ => N.eqb y b | [] => false end.
Proof.
  intros H1 H2 H3 H4. destruct s as [|y s]; auto. cbn [flat_map]. unfold tok.
  destruct (N.eqb_spec y 92); [subst; auto|].
  destruct (N.eqb_spec y 44); [subst; destruct excl; cbn; auto; destruct (N.eqb_spec 92 b), (N.eqb_spec 44 b); congruence|].
  destruct (N.eqb_spec y 13); [subst; cbn; destruct (N.eqb_spec 92 b), (N.eqb_spec 13 b); congruence|].
  destruct (N.eqb_spec y 10); [subst; cbn; destruct (N.eqb_spec 92 b), (N.eqb_spec 10 b); congruence|].
  cbn; auto.
Qed.

Lemma occ2_esc excl b s : b <> 92%N -> b <> 13%N -> b <> 10%N -> b <> 44%N ->
  occ2 92 b (flat_map (tok true true excl) s) =
  occ2 92 b s + (if N.eqb b 114 then count 13 s else 0) + (if N.eqb b 110 then count 10 s else 0).
Proof.
  intros H1 H2 H3 H4. induction s as [|c s IH].
  - cbn. destruct (N.eqb b 114), (N.eqb b 110); lia.
  - cbn [flat_map]. rewrite occ2_app_tok, IH, hd_tok_eqb by auto. cbn [occ2 count].
    destruct (N.eqb c 92 && _)%bool, (N.eqb c 13), (N.eqb c 10), (N.eqb b 114), (N.eqb b 110); cbn [andb]; lia.
Qed.
Lemma count_esc excl d s : (d = 10 \/ d = 13)%N -> count d (flat_map (tok true true excl) s) = 0.
Proof.
  intros Hd; induction s as [|c s IH]; auto. cbn [flat_map]. unfold tok.
  destruct (N.eqb_spec c 92); [cbn; destruct Hd; subst d; cbn; auto|].
  destruct (N.eqb_spec c 44); [destruct excl; cbn; destruct Hd; subst d; cbn; auto|].
  destruct (N.eqb_spec c 13); [cbn; destruct Hd; subst d; cbn; auto|].
  destruct (N.eqb_spec c 10); [cbn; destruct Hd; subst d; cbn; auto|].
  cbn [app count]. destruct (N.eqb_spec c d); [destruct Hd; congruence|]. auto.
Qed.

Lemma lf_after excl s :
  count 10 (remove_escapes (add_escapes excl s)) = count 10 s + occ2 92 110 s + occ2 92 78 s.
Proof.
  rewrite remove_escapes_slow, add_escapes_tok.
  rewrite !(count_other 92 92 92 10), (count_other 92 44 44 10), (count_other 92 114 13 10) by discriminate.
  rewrite !count_hit by discriminate.
  rewrite (proj1 (occ2_replace 92 110 10 78 _ ltac:(discriminate) ltac:(discriminate) ltac:(discriminate) ltac:(discriminate) ltac:(discriminate))).
  rewrite count_esc, !occ2_esc by (auto; discriminate). cbn. lia.
Qed.
Lemma cr_after excl s :
  count 13 (remove_escapes (add_escapes excl s)) = count 13 s + occ2 92 114 s.
Proof.
  rewrite remove_escapes_slow, add_escapes_tok.
  rewrite !(count_other 92 92 92 13), (count_other 92 44 44 13) by discriminate.
  rewrite count_hit by discriminate.
  rewrite !(count_other 92 78 10 13), (count_other 92 110 10 13) by discriminate.
  rewrite (proj1 (occ2_replace 92 78 10 114 _ ltac:(discriminate) ltac:(discriminate) ltac:(discriminate) ltac:(discriminate) ltac:(discriminate))).
  rewrite (proj1 (occ2_replace 92 110 10 114 _ ltac:(discriminate) ltac:(discriminate) ltac:(discriminate) ltac:(discriminate) ltac:(discriminate))).
  rewrite count_esc, !occ2_esc by (auto; discriminate). cbn. lia.
Qed.

Lemma ambiguous_adj s :
  ambiguous s <-> adj 92 110 s = true \/ adj 92 78 s = true \/ adj 92 114 s = true.
Proof.
  unfold ambiguous. rewrite !adj_spec. split.
  - intros (p & t & c & -> & [->|[->| ->]]); eauto 6.
  - intros [(p & t & ->)|[(p & t & ->)|(p & t & ->)]]; repeat eexists; auto.
Qed.

Lemma escape_iff excl s : remove_escapes (add_escapes excl s) = s <-> ~ ambiguous s.
Proof.
  rewrite ambiguous_adj. split.
  - intros H [Ha|[Ha|Ha]]; apply occ2_adj in Ha.
    + pose proof (lf_after excl s) as Hc. rewrite H in Hc. lia.
    + pose proof (lf_after excl s) as Hc. rewrite H in Hc. lia.
    + pose proof (cr_after excl s) as Hc. rewrite H in Hc. lia.
  - intros H. apply escape_roundtrip.
    + destruct (adj 92 110 s); tauto.
    + destruct (adj 92 78 s); tauto.
    + destruct (adj 92 114 s); tauto.
Qed.
