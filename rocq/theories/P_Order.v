(** The order of the lines of a card: sorted by identifier, and a rearrangement of
    the lines that were added. *)
From Coq Require Import Permutation.
From Verif Require Import Base BaseFacts Utf8 M_ParamMap M_VCard M_VCardText S_Card P_Assoc P_Card
  S_RoundTrip P_RoundTrip P_RoundTrip2 P_RoundTrip3 P_ReadBack.

Lemma perm_filter_split {A} (p q : A -> bool) l : (forall x, In x l -> p x && q x = false) ->
  Permutation (filter p l ++ filter q l) (filter (fun x => p x || q x) l).
Proof.
  induction l as [|x l IH]; intros H; auto. cbn [filter]. specialize (H x) as Hx.
  assert (IH' : Permutation (filter p l ++ filter q l) (filter (fun x => p x || q x) l)) by (apply IH; intros; apply H; right; auto).
  destruct (p x) eqn:Ep; destruct (q x) eqn:Eq; cbn [orb app].
  - discriminate Hx. left; auto.
  - constructor. auto.
  - etransitivity; [|constructor; exact IH']. symmetry. apply Permutation_middle.
  - auto.
Qed.
Lemma perm_by_id ids L : NoDup ids ->
  Permutation (flat_map (fun id => of_id id L) ids) (filter (fun l => contains (vl_id l) ids) L).
Proof.
  induction ids as [|k ids IH]; intros Hn.
  - cbn. induction L; auto.
  - inversion Hn as [|? ? Hk Hn']; subst. cbn [flat_map]. etransitivity; [apply Permutation_app_head, IH; auto|].
    unfold of_id. etransitivity; [apply perm_filter_split|].
    + intros x _. destruct (leqb_spec (vl_id x) k) as [->|]; auto. cbn. apply contains_false. auto.
    + rewrite (filter_ext_in' (fun x => leqb (vl_id x) k || contains (vl_id x) ids) (fun l => contains (vl_id l) (k :: ids))); [reflexivity|].
      intros x _. cbn [contains]. rewrite (leqb_sym k). auto.
Qed.
Lemma filter_all {A} (p : A -> bool) l : (forall x, In x l -> p x = true) -> filter p l = l.
Proof. induction l as [|x l IH]; intros H; auto. cbn. rewrite (H x) by (left; auto). rewrite IH; auto. intros; apply H; right; auto. Qed.
Lemma filter_none {A} (p : A -> bool) l : (forall x, In x l -> p x = false) -> filter p l = [].
Proof. induction l as [|x l IH]; intros H; auto. cbn. rewrite (H x) by (left; auto). apply IH. intros; apply H; right; auto. Qed.

Lemma flat_map_ext_in' {A C} (f g : A -> list C) l : (forall x, f x = g x) -> flat_map f l = flat_map g l.
Proof. intros H. induction l; cbn; congruence. Qed.

Lemma in_order_perm L : Permutation (in_order (card_of L)) L.
Proof.
  unfold in_order. destruct (identifiers_spec L) as [Hs Hi].
  rewrite (flat_map_ext_in' _ (fun id => of_id id L)) by (intros; apply card_lines_spec).
  etransitivity; [apply perm_by_id, increasing_NoDup; auto|]. rewrite filter_all; auto.
  intros l Hl. apply contains_In. apply Hi. eauto.
Qed.
Lemma written_perm L : Permutation (written (card_of L)) L.
Proof.
  unfold written. destruct (identifiers_spec L) as [Hs Hi].
  destruct (ordered_idents_spec (card_of L) (increasing_NoDup _ Hs)) as [Hn Ho].
  rewrite (flat_map_ext_in' _ (fun id => of_id id L)) by (intros; apply card_lines_spec).
  etransitivity; [apply perm_by_id; auto|]. rewrite filter_all; auto.
  intros l Hl. apply contains_In. apply Ho. apply Hi. eauto.
Qed.
Lemma perm_filter {A} (p : A -> bool) l m : Permutation l m -> Permutation (filter p l) (filter p m).
Proof.
  induction 1 as [|x l m H IH|x y l|l m n H1 IH1 H2 IH2]; cbn; auto.
  - destruct (p x); auto.
  - destruct (p x); destruct (p y); auto. constructor.
  - etransitivity; eauto.
Qed.
Lemma reread_perm E L : Permutation (in_order (reread_card E (card_of L))) (readings E L).
Proof.
  unfold reread_card. etransitivity; [apply in_order_perm|]. unfold readings. apply Permutation_map, perm_filter, written_perm.
Qed.

(** sortedness *)
Definition not_after (x y : vline) : Prop := lltb (vl_id y) (vl_id x) = false.
Lemma in_order_sorted L : StronglySorted not_after (in_order (card_of L)).
Proof.
  unfold in_order. destruct (identifiers_spec L) as [Hs _].
  rewrite (flat_map_ext_in' _ (fun id => of_id id L)) by (intros; apply card_lines_spec).
  induction Hs as [|k ids Hs IH Hall]; [constructor|]. cbn [flat_map].
  assert (Hid : forall l k, In l (of_id k L) -> vl_id l = k).
  { intros l k0 Hl. apply filter_In in Hl as [_ Hl]. apply leqb_eq in Hl. auto. }
  assert (Hfirst : forall ls rest, (forall l, In l ls -> vl_id l = k) -> StronglySorted not_after rest ->
     (forall l, In l rest -> lltb k (vl_id l) = true) -> StronglySorted not_after (ls ++ rest)).
  { induction ls as [|l ls IHl]; intros rest H1 H2 H3; auto. cbn [app]. constructor.
    - apply IHl; auto. intros; apply H1; right; auto.
    - apply Forall_forall. intros y Hy. unfold not_after. rewrite (H1 l) by (left; auto). apply in_app_iff in Hy as [Hy|Hy].
      + rewrite (H1 y) by (right; auto). apply lltb_irrefl.
      + apply lltb_asym. auto. }
  apply Hfirst; auto.
  intros l Hl. apply in_flat_map in Hl as (i & Hi & Hl). apply Hid in Hl. subst i. rewrite Forall_forall in Hall. auto.
Qed.

Lemma sorted_filter_app (p q : vline -> bool) l : StronglySorted not_after l ->
  (forall x y, In x l -> In y l -> p x = true -> q y = true -> lltb (vl_id x) (vl_id y) = true) ->
  filter (fun x => p x || q x) l = filter p l ++ filter q l.
Proof.
  induction 1 as [|x l Hs IH Hall]; intros H; auto. cbn [filter].
  assert (IH' : filter (fun x => p x || q x) l = filter p l ++ filter q l).
  { apply IH. intros; apply H; auto; right; auto. }
  destruct (p x) eqn:Ep; destruct (q x) eqn:Eq; cbn [orb app].
  - assert (lltb (vl_id x) (vl_id x) = true) by (apply H; auto; left; auto). rewrite lltb_irrefl in *. discriminate.
  - rewrite IH'. auto.
  - rewrite IH'. rewrite (filter_none p l); auto. intros y Hy. destruct (p y) eqn:Epy; auto.
    assert (lltb (vl_id y) (vl_id x) = true) by (apply H; auto; [right; auto|left; auto]).
    rewrite Forall_forall in Hall. specialize (Hall _ Hy). unfold not_after in Hall. congruence.
  - auto.
Qed.
