(** Proofs about parameter maps and cards (C08, C09). *)
From Verif Require Import Base BaseFacts M_ParamMap M_VCard S_Card P_Assoc.

Lemma contains_In v l : contains v l = true <-> In v l.
Proof.
  induction l as [|x l IH]; cbn; [split; [discriminate|tauto]|]. rewrite orb_true_iff, IH, leqb_eq. tauto.
Qed.
Lemma contains_false v l : contains v l = false <-> ~ In v l.
Proof. rewrite <- contains_In. destruct (contains v l); intuition congruence. Qed.

Lemma firsts_in v l : In v (firsts l) <-> In v l.
Proof.
  induction l as [|x l IH]; cbn; [tauto|]. rewrite filter_In, IH, negb_true_iff, leqb_neq.
  destruct (leqb_spec v x) as [->|N]; [tauto|]. intuition.
Qed.
Lemma filter_app' {A} (f : A -> bool) l1 l2 : filter f (l1 ++ l2) = filter f l1 ++ filter f l2.
Proof. induction l1; cbn; auto. destruct (f a); cbn; congruence. Qed.
Lemma firsts_snoc l v : firsts (l ++ [v]) = if contains v (firsts l) then firsts l else firsts l ++ [v].
Proof.
  induction l as [|x l IH]; cbn [app firsts contains]; auto. rewrite IH.
  destruct (leqb_spec x v) as [->|N]; cbn [orb].
  - f_equal. destruct (contains v (firsts l)); auto. rewrite filter_app'. cbn. rewrite leqb_refl. cbn. apply app_nil_r.
  - assert (E : contains v (filter (fun y => negb (leqb y x)) (firsts l)) = contains v (firsts l)).
    { apply Bool.eq_true_iff_eq. rewrite !contains_In, filter_In, negb_true_iff, leqb_neq. intuition. }
    rewrite E. destruct (contains v (firsts l)); auto. rewrite filter_app'. cbn.
    rewrite (proj2 (leqb_neq v x)) by congruence. reflexivity.
Qed.
Lemma firsts_NoDup l : NoDup (firsts l).
Proof.
  induction l as [|x l IH]; cbn; constructor.
  - rewrite filter_In, negb_true_iff, leqb_neq. tauto.
  - apply NoDup_filter; auto.
Qed.

Definition pm_ok (m : pmap) (ops : list (ustring * ustring)) : Prop :=
  asorted m /\ forall p, find_param p m = match added p ops with [] => None | _ => Some (firsts (added p ops)) end.

Lemma added_snoc p ops q v : added p (ops ++ [(q, v)]) = added p ops ++ (if leqb q p then [v] else []).
Proof. unfold added. rewrite filter_app', map_app. cbn. destruct (leqb q p); auto. Qed.

Lemma pm_add_ok m ops p v : pm_ok m ops -> pm_ok (pm_add p v m) (ops ++ [(p, v)]).
Proof.
  intros [Hs Hf]. unfold pm_add. pose proof (Hf p) as Hp.
  destruct (find_param p m) as [vs|] eqn:E.
  - destruct (added p ops) as [|a0 ar] eqn:Ea; [discriminate|]. assert (Hvs : vs = firsts (a0 :: ar)) by congruence. clear Hp.
    assert (Hn : added p (ops ++ [(p, v)]) = (a0 :: ar) ++ [v]).
    { rewrite added_snoc, Ea, leqb_refl. auto. }
    destruct (contains v vs) eqn:Ec.
    + split; auto. intros q. destruct (leqb_spec q p) as [->|N].
      * rewrite Hn, E. cbn [app]. change (a0 :: ar ++ [v]) with ((a0 :: ar) ++ [v]). rewrite firsts_snoc, <- Hvs, Ec. auto.
      * rewrite added_snoc, (proj2 (leqb_neq p q)), app_nil_r by congruence. apply Hf.
    + split; [rewrite update_param_aupd; apply aupd_sorted; auto|]. intros q.
      rewrite find_param_afind, update_param_aupd, aupd_find. destruct (leqb_spec q p) as [->|N].
      * rewrite find_param_afind in E. rewrite E. cbn [option_map]. rewrite Hn. cbn [app].
        change (a0 :: ar ++ [v]) with ((a0 :: ar) ++ [v]). rewrite firsts_snoc, <- Hvs, Ec. auto.
      * rewrite added_snoc, (proj2 (leqb_neq p q)), app_nil_r by congruence. apply Hf.
  - destruct (added p ops) eqn:Ea; [|discriminate].
    rewrite insert_param_ains. split; [apply ains_sorted; auto|]. intros q.
    rewrite find_param_afind, ains_find by auto. destruct (leqb_spec q p) as [->|N].
    + rewrite added_snoc, Ea, leqb_refl. reflexivity.
    + rewrite added_snoc, (proj2 (leqb_neq p q)), app_nil_r by congruence. apply Hf.
Qed.

Lemma add_all_ok ops l ops0 : pm_ok (vl_params l) ops0 -> pm_ok (vl_params (add_all ops l)) (ops0 ++ ops).
Proof.
  revert l ops0. induction ops as [|[p v] ops IH]; intros l ops0 H; cbn [add_all fold_left].
  - rewrite app_nil_r. auto.
  - replace (ops0 ++ (p, v) :: ops) with ((ops0 ++ [(p, v)]) ++ ops) by (rewrite <- app_assoc; auto).
    apply IH. cbn. apply pm_add_ok; auto.
Qed.
Lemma pm_ok_nil : pm_ok [] [].
Proof. split; [constructor|auto]. Qed.

Lemma add_params_spec ops l : vl_params l = [] ->
  increasing (vl_param_list (add_all ops l)) /\
  (forall p, vl_parameters p (add_all ops l) = firsts (added p ops)) /\
  (forall p, NoDup (vl_parameters p (add_all ops l))).
Proof.
  intros H. destruct (add_all_ok ops l [] ) as [Hs Hf]; [rewrite H; apply pm_ok_nil|]. cbn [app] in *.
  assert (Hv : forall p, vl_parameters p (add_all ops l) = firsts (added p ops)).
  { intros p. unfold vl_parameters. rewrite Hf. destruct (added p ops); auto. }
  repeat split; auto. intros p. rewrite Hv. apply firsts_NoDup.
Qed.

Lemma add_params_names ops l p : vl_params l = [] ->
  (In p (vl_param_list (add_all ops l)) <-> exists v, In (p, v) ops).
Proof.
  intros H. destruct (add_all_ok ops l [] ) as [Hs Hf]; [rewrite H; apply pm_ok_nil|]. cbn [app] in *.
  specialize (Hf p). rewrite find_param_afind in Hf.
  assert (Ha : (exists v, In (p, v) ops) <-> added p ops <> []).
  { unfold added. split.
    - intros (v & Hv) E. assert (Hi : In v (map snd (filter (fun pv => leqb (fst pv) p) ops))).
      { apply in_map_iff. exists (p, v). split; auto. apply filter_In. cbn. rewrite leqb_refl. auto. }
      rewrite E in Hi. destruct Hi.
    - destruct (filter (fun pv => leqb (fst pv) p) ops) as [|[q v] r] eqn:E; [cbn; congruence|]. intros _.
      assert (Hi : In (q, v) (filter (fun pv => leqb (fst pv) p) ops)) by (rewrite E; left; auto).
      apply filter_In in Hi as [Hi Hq]. cbn in Hq. apply leqb_eq in Hq as ->. eauto. }
  rewrite Ha. unfold vl_param_list. destruct (added p ops) eqn:E.
  - apply afind_None in Hf. intuition.
  - split; [discriminate|]. intros _. destruct (in_dec list_eq_dec_N p (map fst (vl_params (add_all ops l)))) as [Hi|Hi]; auto.
    apply afind_None in Hi. congruence.
Qed.

(** ** cards *)
Definition of_id (id : ustring) (lines : list vline) : list vline :=
  filter (fun l => leqb (vl_id l) id) lines.
Definition card_ok (c : vcard) (lines : list vline) : Prop :=
  asorted c /\ forall id, find_lines id c = match of_id id lines with [] => None | ls => Some ls end.

Lemma of_id_snoc id lines l : of_id id (lines ++ [l]) = of_id id lines ++ (if leqb (vl_id l) id then [l] else []).
Proof. unfold of_id. rewrite filter_app'. cbn. destruct (leqb (vl_id l) id); auto. Qed.

Lemma add_line_ok c lines l : card_ok c lines -> card_ok (add_line l c) (lines ++ [l]).
Proof.
  intros [Hs Hf]. unfold add_line. pose proof (Hf (vl_id l)) as Hp.
  destruct (find_lines (vl_id l) c) as [ls|] eqn:E.
  - rewrite append_line_aupd. split; [apply aupd_sorted; auto|]. intros id.
    rewrite find_lines_afind, aupd_find, of_id_snoc. rewrite (leqb_sym (vl_id l) id).
    destruct (leqb_spec id (vl_id l)) as [->|N].
    + rewrite find_lines_afind in E. rewrite E. cbn. destruct (of_id (vl_id l) lines) eqn:Eo; [discriminate|].
      injection Hp as ->. reflexivity.
    + rewrite app_nil_r. apply Hf.
  - destruct (of_id (vl_id l) lines) eqn:Eo; [|discriminate].
    rewrite insert_entry_ains. split; [apply ains_sorted; auto|]. intros id.
    rewrite find_lines_afind, ains_find by auto. rewrite of_id_snoc, (leqb_sym (vl_id l) id).
    destruct (leqb_spec id (vl_id l)) as [->|N]; [rewrite Eo; auto|rewrite app_nil_r; apply Hf].
Qed.
Lemma card_of_ok_gen lines : forall c lines0, card_ok c lines0 ->
  card_ok (fold_left (fun c l => add_line l c) lines c) (lines0 ++ lines).
Proof.
  induction lines as [|l lines IH]; intros c lines0 H; cbn; [rewrite app_nil_r; auto|].
  replace (lines0 ++ l :: lines) with ((lines0 ++ [l]) ++ lines) by (rewrite <- app_assoc; auto).
  apply IH, add_line_ok; auto.
Qed.
Lemma card_of_ok lines : card_ok (card_of lines) lines.
Proof. apply (card_of_ok_gen lines [] []). split; [constructor|auto]. Qed.

Lemma card_lines_spec lines id : card_lines id (card_of lines) = filter (fun l => leqb (vl_id l) id) lines.
Proof.
  destruct (card_of_ok lines) as [_ H]. unfold card_lines. rewrite H. unfold of_id.
  destruct (filter (fun l => leqb (vl_id l) id) lines); auto.
Qed.
Lemma identifiers_spec lines : increasing (identifiers (card_of lines)) /\
  forall id, In id (identifiers (card_of lines)) <-> exists l, In l lines /\ vl_id l = id.
Proof.
  destruct (card_of_ok lines) as [Hs Hf]. split; auto. intros id. specialize (Hf id).
  rewrite find_lines_afind in Hf. unfold identifiers.
  assert (Ha : (exists l, In l lines /\ vl_id l = id) <-> of_id id lines <> []).
  { unfold of_id. split.
    - intros (l & Hl & Hi) E. assert (Hx : In l (filter (fun l => leqb (vl_id l) id) lines)).
      { apply filter_In. split; auto. apply leqb_eq; auto. }
      rewrite E in Hx. destruct Hx.
    - destruct (filter (fun l => leqb (vl_id l) id) lines) as [|l r] eqn:E; [congruence|]. intros _.
      assert (Hx : In l (filter (fun l => leqb (vl_id l) id) lines)) by (rewrite E; left; auto).
      apply filter_In in Hx as [Hx Hi]. apply leqb_eq in Hi. eauto. }
  rewrite Ha. destruct (of_id id lines) eqn:E.
  - apply afind_None in Hf. intuition.
  - split; [discriminate|]. intros _. destruct (in_dec list_eq_dec_N id (map fst (card_of lines))) as [Hi|Hi]; auto.
    apply afind_None in Hi. congruence.
Qed.
Lemma increasing_NoDup l : increasing l -> NoDup l.
Proof.
  induction l as [|a l IH]; intros H; constructor; inversion H as [|? ? Hs Hf]; subst; auto.
  intros Hi. rewrite Forall_forall in Hf. specialize (Hf _ Hi). rewrite lltb_irrefl in Hf. discriminate.
Qed.
