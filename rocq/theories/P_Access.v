(** Proofs for C62, C63. *)
From Verif Require Import Base BaseFacts QtText M_ParamMap M_Values M_Addressee M_ContactGroup M_Access S_Access.

(** ** addresses *)
Lemma aread_other f g v a : f <> g -> aread g (awrite f v a) = aread g a.
Proof. intros H. destruct f; destruct g; solve [reflexivity|destruct (H eq_refl)]. Qed.
Lemma aread_same f v a : aread f (awrite f v a) = v.
Proof. destruct f; reflexivity. Qed.
Lemma acalls_untouched f cs : forall a, Forall (fun c => projT1 c <> f) cs -> aread f (acalls cs a) = aread f a.
Proof.
  induction cs as [|c cs IH]; intros a H; [reflexivity|]. change (aread f (acalls cs (awrite (projT1 c) (projT2 c) a)) = aread f a).
  rewrite IH; [|exact (Forall_inv_tail H)]. apply aread_other. exact (Forall_inv H).
Qed.
Lemma acalls_empty cs : forall a, cs <> [] -> ad_empty (acalls cs a) = false.
Proof.
  assert (K : forall cs a, ad_empty a = false -> ad_empty (acalls cs a) = false).
  { induction cs0 as [|c cs0 IH]; intros a H; [exact H|]. apply (IH (awrite (projT1 c) (projT2 c) a)). destruct c as [f v]. destruct f; reflexivity. }
  intros a H. destruct cs as [|c cs]; [congruence|]. apply (K cs (awrite (projT1 c) (projT2 c) a)). destruct c as [f v]. destruct f; reflexivity.
Qed.

(** ** pictures *)
Lemma data_after I r p : pi_data_of I (picture_after I r p) = pi_data_of I p.
Proof.
  destruct r; unfold picture_after, pi_after_data, pi_after_raw, pi_data_of, pi_raw_of; cbn [pi_data pi_raw].
  - destruct (pi_data p); [reflexivity|]. destruct (isnil (pi_raw p)) eqn:E; [reflexivity|]. destruct (img_load I (pi_raw p)); reflexivity.
  - destruct (pi_data p); [reflexivity|]. destruct (pi_raw p); reflexivity.
Qed.
Lemma raw_after I r p : pi_raw_of I (picture_after I r p) = pi_raw_of I p.
Proof.
  destruct r; unfold picture_after, pi_after_data, pi_after_raw, pi_data_of, pi_raw_of; cbn [pi_data pi_raw pi_type].
  - destruct (pi_raw p); [|reflexivity]. destruct (pi_data p); reflexivity.
  - destruct (pi_raw p) eqn:E; [|reflexivity]. destruct (pi_data p); [|reflexivity]. destruct (img_save I l (to_upper (pi_type p))) eqn:Es; auto.
Qed.
Lemma shows_after I c r p : picture_shows I c p -> picture_shows I c (picture_after I r p).
Proof.
  assert (K : pi_intern (picture_after I r p) = pi_intern p /\ pi_url (picture_after I r p) = pi_url p /\ pi_type (picture_after I r p) = pi_type p) by (destruct r; auto).
  destruct K as (K1 & K2 & K3). destruct c; cbn [picture_shows]; rewrite ?K1, ?K2, ?K3, ?data_after, ?raw_after; auto.
Qed.
Lemma shows_set I c p : picture_shows I c (picture_set c p).
Proof.
  destruct c; cbn [picture_shows picture_set]; try (repeat split; reflexivity).
  - unfold pi_raw_of. cbn. destruct d; repeat split; reflexivity.
  - unfold pi_data_of, pi_raw_of. cbn. destruct im; repeat split; reflexivity.
Qed.

(** ** custom entries of members *)
Lemma value_insert k v m j : cm_value j (cm_insert k v m) = if leqb k j then v else cm_value j m.
Proof.
  induction m as [|[q w] m IH]; cbn [cm_insert cm_value]; [destruct (leqb k j); reflexivity|].
  destruct (leqb q k) eqn:E; cbn [cm_value].
  - apply leqb_eq in E. subst q. destruct (leqb k j); reflexivity.
  - destruct (lltb q k); cbn [cm_value]; [|destruct (leqb k j); reflexivity].
    rewrite IH. destruct (leqb q j) eqn:E2; [|reflexivity]. apply leqb_eq in E2. subst q.
    destruct (leqb k j) eqn:E3; [|reflexivity]. apply leqb_eq in E3. subst k. rewrite leqb_refl in E. discriminate.
Qed.
Lemma value_remove k m j : cm_value j (cm_remove k m) = if leqb k j then [] else cm_value j m.
Proof.
  unfold cm_remove. induction m as [|[q w] m IH]; cbn [filter cm_value fst]; [destruct (leqb k j); reflexivity|].
  destruct (leqb q k) eqn:E; cbn [negb cm_value].
  - rewrite IH. apply leqb_eq in E. subst q. destruct (leqb k j); reflexivity.
  - rewrite IH. destruct (leqb q j) eqn:E2; [|reflexivity]. apply leqb_eq in E2. subst q.
    destruct (leqb k j) eqn:E3; [|reflexivity]. apply leqb_eq in E3. subst k. rewrite leqb_refl in E. discriminate.
Qed.
Lemma custom_calls_value {A} (get : A -> cmap) insert remove :
  (forall k v x, get (insert k v x) = cm_insert k v (get x)) -> (forall k x, get (remove k x) = cm_remove k (get x)) ->
  forall cs x k, cm_value k (get (custom_calls insert remove cs x)) =
    fold_left (fun cur c => if leqb (fst c) k then match snd c with Some v => v | None => [] end else cur) cs (cm_value k (get x)).
Proof.
  intros Hi Hr. induction cs as [|[q [v|]] cs IH]; intros x k; [reflexivity| |];
    unfold custom_calls in *; cbn [fold_left fst snd]; rewrite IH, ?Hi, ?Hr, ?value_insert, ?value_remove; destruct (leqb q k); reflexivity.
Qed.
Lemma custom_calls_same {A C} (get : A -> C) insert remove :
  (forall k v x, get (insert k v x) = get x) -> (forall k x, get (remove k x) = get x) ->
  forall cs x, get (custom_calls insert remove cs x) = get x.
Proof.
  intros Hi Hr. induction cs as [|[q [v|]] cs IH]; intros x; [reflexivity| |]; unfold custom_calls in *; cbn [fold_left fst snd]; rewrite IH; auto.
Qed.

(** ** labels *)
Lemma join_snoc c (l : list (list N)) w : join [c] (l ++ [w]) = if isnil l then w else join [c] l ++ c :: w.
Proof.
  induction l as [|x l IH]; [reflexivity|]. cbn [app isnil]. rewrite join_cons by (destruct l; discriminate). rewrite IH.
  destruct l as [|y l]; [reflexivity|]. cbn [isnil]. rewrite (join_cons [c] x (y :: l)) by discriminate. rewrite <- !app_assoc. reflexivity.
Qed.
Lemma join_words_inj tr ws l1 l2 : clear_words tr ws -> Forall (fun w => In w ws) l1 -> Forall (fun w => In w ws) l2 ->
  join [47%N] (map tr l1) = join [47%N] (map tr l2) -> l1 = l2.
Proof.
  intros [Hi Hf] H1 H2 H. rewrite Forall_forall in Hf.
  assert (N0 : forall l, Forall (fun w => In w ws) l -> l <> [] -> join [47%N] (map tr l) <> []).
  { intros l Hl Hn E. destruct l as [|w l]; [congruence|]. pose proof (Forall_inv Hl) as Hw. destruct (Hf w Hw) as [Hw1 _].
    cbn [map] in E. destruct l as [|y l]; [exact (Hw1 E)|]. cbn [map] in E. rewrite join_cons in E by discriminate. destruct (tr w) eqn:Et; [congruence|discriminate E]. }
  assert (M : map tr l1 = map tr l2).
  { destruct l1 as [|a l1]; destruct l2 as [|b l2]; [reflexivity| | |].
    - exfalso. apply (N0 _ H2); [discriminate|]. symmetry. exact H.
    - exfalso. apply (N0 _ H1); [discriminate|]. exact H.
    - rewrite <- (split_join 47%N (map tr (a :: l1))), <- (split_join 47%N (map tr (b :: l2))); [rewrite H; reflexivity|discriminate| |discriminate|];
        rewrite Forall_map; [eapply Forall_impl; [|exact H2]|eapply Forall_impl; [|exact H1]]; intros w Hw; apply (Hf w Hw). }
  clear N0 H. revert l2 H2 M. induction H1 as [|a l1 Ha H1 IH]; intros [|b l2] H2 M; try discriminate M; [reflexivity|].
  cbn [map] in M. injection M as M1 M2. f_equal; [apply Hi; [exact Ha|exact (Forall_inv H2)|exact M1]|apply IH; [exact (Forall_inv_tail H2)|exact M2]].
Qed.

Definition phone_pieces (t : N) : list ustring :=
  if N.eqb t tPref then [B "Preferred Number"]
  else
    let '(ws, t') :=
      if flag_set t tFax then
        if flag_set t tHome then ([B "Home Fax"], N.ldiff (N.ldiff t tFax) tHome)
        else if flag_set t tWork then ([B "Work Fax"], N.ldiff (N.ldiff t tFax) tWork)
        else ([], t)
      else ([], t) in
    ws ++ map (phone_flag_label (fun s => s)) (filter (flag_set t') phone_types).
Lemma phone_flag_tr tr f : phone_flag_label tr f = tr (phone_flag_label (fun s => s) f).
Proof. reflexivity. Qed.
Lemma phone_fold tr t fs : forall ws, fold_left (phone_label_step tr t) fs (join [47%N] (map tr ws), isnil ws) =
  let all := ws ++ map (phone_flag_label (fun s => s)) (filter (flag_set t) fs) in (join [47%N] (map tr all), isnil all).
Proof.
  induction fs as [|f fs IH]; intros ws; cbn [fold_left filter map]; [rewrite app_nil_r; reflexivity|].
  unfold phone_label_step at 2. destruct (flag_set t f); [|apply IH]. cbn [fst snd map].
  assert (E : ((if isnil ws then join [47%N] (map tr ws) else join [47%N] (map tr ws) ++ [47%N]) ++ phone_flag_label tr f, false)
    = (join [47%N] (map tr (ws ++ [phone_flag_label (fun s => s) f])), isnil (ws ++ [phone_flag_label (fun s => s) f]))).
  { rewrite map_app. cbn [map]. rewrite join_snoc, <- phone_flag_tr. destruct ws as [|w ws]; [reflexivity|]. cbn [isnil map app]. rewrite <- app_assoc. reflexivity. }
  rewrite E, IH, <- app_assoc. reflexivity.
Qed.
Lemma phone_label_pieces tr t : phone_type_label tr t = join [47%N] (map tr (phone_pieces t)).
Proof.
  unfold phone_type_label, phone_pieces. destruct (N.eqb t tPref); [reflexivity|].
  destruct (flag_set t tFax); [destruct (flag_set t tHome); [|destruct (flag_set t tWork)]|];
    match goal with |- fst (fold_left (phone_label_step tr ?t') _ (?l, ?b)) = join _ (map tr (?ws ++ _)) =>
      change (fst (fold_left (phone_label_step tr t') phone_types (join [47%N] (map tr ws), isnil ws)) = join [47%N] (map tr (ws ++ map (phone_flag_label (fun s => s)) (filter (flag_set t') phone_types)))) end;
    rewrite phone_fold; reflexivity.
Qed.
(** the words as numbers: a flag, or one of the three special cases *)
Definition phone_codes (t : N) : list N :=
  if N.eqb t tPref then [100000%N]
  else if flag_set t tFax then
    if flag_set t tHome then 200000%N :: filter (flag_set (N.ldiff (N.ldiff t tFax) tHome)) phone_types
    else if flag_set t tWork then 300000%N :: filter (flag_set (N.ldiff (N.ldiff t tFax) tWork)) phone_types
    else filter (flag_set t) phone_types
  else filter (flag_set t) phone_types.
Definition code_word (c : N) : ustring :=
  if N.eqb c 100000 then B "Preferred Number" else if N.eqb c 200000 then B "Home Fax" else if N.eqb c 300000 then B "Work Fax" else phone_flag_label (fun s => s) c.
Definition all_codes : list N := 100000%N :: 200000%N :: 300000%N :: phone_types.
Definition code_flags (c : N) : N :=
  if N.eqb c 100000 then tPref else if N.eqb c 200000 then N.lor tFax tHome else if N.eqb c 300000 then N.lor tFax tWork else c.
Lemma filter_in {A} (p : A -> bool) l : Forall (fun x => In x l) (filter p l).
Proof. rewrite Forall_forall. intros x Hx. apply filter_In in Hx. apply Hx. Qed.
Lemma codes_in t : Forall (fun c => In c all_codes) (phone_codes t).
Proof.
  assert (K : forall p, Forall (fun c => In c all_codes) (filter p phone_types)).
  { intros p. eapply Forall_impl; [|apply filter_in]. intros x Hx. do 3 right. exact Hx. }
  unfold phone_codes. destruct (N.eqb t tPref); [repeat constructor|].
  destruct (flag_set t tFax); [destruct (flag_set t tHome); [|destruct (flag_set t tWork)]|]; try apply K; (constructor; [cbn; auto|apply K]).
Qed.
Lemma code_words p : map code_word (filter p phone_types) = map (phone_flag_label (fun s => s)) (filter p phone_types).
Proof.
  apply map_ext_in. intros x Hx. apply filter_In in Hx as [Hx _]. unfold phone_types in Hx. cbn [In] in Hx.
  repeat (destruct Hx as [<-|Hx]; [reflexivity|]). destruct Hx.
Qed.
Lemma pieces_codes t : phone_pieces t = map code_word (phone_codes t).
Proof.
  unfold phone_pieces, phone_codes. destruct (N.eqb t tPref); [reflexivity|].
  destruct (flag_set t tFax); [destruct (flag_set t tHome); [|destruct (flag_set t tWork)]|]; cbn [map app]; rewrite code_words; reflexivity.
Qed.
Lemma code_word_inj c d : In c all_codes -> In d all_codes -> code_word c = code_word d -> c = d.
Proof.
  assert (K : forallb (fun c => forallb (fun d => negb (leqb (code_word c) (code_word d)) || N.eqb c d) all_codes) all_codes = true) by (vm_compute; reflexivity).
  rewrite forallb_forall in K. intros Hc Hd H. specialize (K c Hc). rewrite forallb_forall in K. specialize (K d Hd).
  rewrite H, leqb_refl in K. cbn [negb orb] in K. apply N.eqb_eq. exact K.
Qed.
Lemma code_word_in c : In c all_codes -> In (code_word c) phone_words.
Proof.
  intros H. assert (K : forallb (fun c => existsb (leqb (code_word c)) phone_words) all_codes = true) by (vm_compute; reflexivity).
  rewrite forallb_forall in K. specialize (K c H). apply existsb_exists in K as (x & Hx & E). apply leqb_eq in E. rewrite E. exact Hx.
Qed.
Definition pieces_ok (t : N) : bool := N.eqb (fold_left N.lor (map code_flags (phone_codes t)) 0%N) t.
(** all sets of [k] more flags *)
Fixpoint below (k : nat) (p : N -> bool) (acc : N) : bool :=
  match k with O => p acc | S k' => below k' p (2 * acc) && below k' p (2 * acc + 1) end.
Lemma below_spec p k : forall acc t, below k p acc = true -> (acc * 2 ^ N.of_nat k <= t < (acc + 1) * 2 ^ N.of_nat k)%N -> p t = true.
Proof.
  induction k as [|k IH]; intros acc t H Ht.
  - cbn in H, Ht. replace t with acc by lia. exact H.
  - cbn [below] in H. apply andb_true_iff in H as [H1 H2]. rewrite Nat2N.inj_succ, N.pow_succ_r' in Ht.
    destruct (N.lt_ge_cases t ((2 * acc + 1) * 2 ^ N.of_nat k)) as [L|L]; [apply (IH (2 * acc)%N)|apply (IH (2 * acc + 1)%N)]; auto; lia.
Qed.
Lemma pieces_checked : below 15 pieces_ok 0 = true.
Proof. vm_cast_no_check (eq_refl true). Qed.
Lemma phone_label_inj tr t u : clear_words tr phone_words -> (t < 32768)%N -> (u < 32768)%N -> phone_type_label tr t = phone_type_label tr u -> t = u.
Proof.
  intros Htr Ht Hu H. rewrite !phone_label_pieces, !pieces_codes in H.
  assert (W : forall t, Forall (fun w => In w phone_words) (map code_word (phone_codes t))).
  { intros x. rewrite Forall_map. eapply Forall_impl; [|apply codes_in]. intros c. apply code_word_in. }
  apply (join_words_inj tr phone_words) in H; [|exact Htr|apply W|apply W].
  assert (E : phone_codes t = phone_codes u).
  { pose proof (codes_in t) as C1. pose proof (codes_in u) as C2. revert H C1 C2. generalize (phone_codes t), (phone_codes u).
    induction l as [|a l IH]; intros [|b m] H C1 C2; try discriminate H; [reflexivity|]. cbn [map] in H. injection H as H1 H2.
    f_equal; [apply code_word_inj; [exact (Forall_inv C1)|exact (Forall_inv C2)|exact H1]|apply IH; [exact H2|exact (Forall_inv_tail C1)|exact (Forall_inv_tail C2)]]. }
  assert (D : forall t, (t < 32768)%N -> fold_left N.lor (map code_flags (phone_codes t)) 0%N = t).
  { intros x Hx. apply N.eqb_eq. apply (below_spec pieces_ok 15 0%N x pieces_checked). cbn. lia. }
  rewrite <- (D t Ht), <- (D u Hu), E. reflexivity.
Qed.

Definition address_pieces (t : N) : list ustring := map (address_flag_label (fun s => s)) (filter (flag_set t) address_types).
Lemma skip_join l : l <> [] -> skipn 1 (fold_left (fun s w => s ++ 47%N :: w) l []) = join [47%N] l.
Proof.
  intros Hl. destruct l as [|x l]; [congruence|]. clear Hl. cbn [fold_left app].
  assert (K : forall r y, skipn 1 (fold_left (fun s w => s ++ 47%N :: w) r (47%N :: y)) = match r with [] => y | _ => y ++ 47%N :: join [47%N] r end).
  { induction r as [|z r IH]; intros y; [reflexivity|]. cbn [fold_left app]. rewrite (IH (y ++ 47%N :: z)). destruct r; [reflexivity|].
    rewrite (join_cons _ z) by discriminate. rewrite <- app_assoc. reflexivity. }
  rewrite K. destruct l; [reflexivity|]. rewrite (join_cons _ x) by discriminate. reflexivity.
Qed.
Lemma fold_filter {A B} (g : A -> B -> A) (p : B -> bool) l : forall s, fold_left (fun s f => if p f then g s f else s) l s = fold_left g (filter p l) s.
Proof. induction l as [|x l IH]; intros s; cbn; [reflexivity|]. destruct (p x); apply IH. Qed.
Lemma fold_map {A B C} (g : A -> C -> A) (h : B -> C) l : forall s, fold_left g (map h l) s = fold_left (fun s x => g s (h x)) l s.
Proof. induction l as [|x l IH]; intros s; cbn; auto. Qed.
Lemma address_label_pieces tr t : address_type_label tr t = join [47%N] (map tr (address_pieces t)).
Proof.
  unfold address_type_label, address_pieces. rewrite (fold_filter (fun s f => s ++ 47%N :: address_flag_label tr f) (flag_set t)).
  rewrite map_map. change (fun x => tr (address_flag_label (fun s => s) x)) with (address_flag_label tr).
  destruct (filter (flag_set t) address_types) as [|f fs]; [reflexivity|]. rewrite <- skip_join by discriminate.
  rewrite fold_map. reflexivity.
Qed.
Lemma address_label_inj tr t u : clear_words tr address_words -> (t < 128)%N -> (u < 128)%N -> address_type_label tr t = address_type_label tr u -> t = u.
Proof.
  intros Htr Ht Hu H. rewrite !address_label_pieces in H.
  assert (W : forall t, Forall (fun w => In w address_words) (address_pieces t)).
  { intros x. unfold address_pieces. rewrite Forall_map. eapply Forall_impl; [|apply filter_in]. intros f Hf. unfold address_types in Hf. cbn [In] in Hf.
    repeat (destruct Hf as [<-|Hf]; [cbv; tauto|]). destruct Hf. }
  apply (join_words_inj tr address_words) in H; [|exact Htr|apply W|apply W].
  set (ok := fun t => N.eqb (fold_left N.lor (filter (fun f => existsb (leqb (address_flag_label (fun s => s) f)) (address_pieces t)) address_types) 0%N) t).
  assert (D : forall t, (t < 128)%N -> fold_left N.lor (filter (fun f => existsb (leqb (address_flag_label (fun s => s) f)) (address_pieces t)) address_types) 0%N = t).
  { intros x Hx. apply N.eqb_eq. apply (below_spec ok 7 0%N x); [vm_compute; reflexivity|cbn; lia]. }
  rewrite <- (D t Ht), <- (D u Hu), H. reflexivity.
Qed.
