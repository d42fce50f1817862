(** Proofs for the collections of a contact. *)
From Coq Require Import Permutation SetoidList.
From Verif Require Import Base BaseFacts QtText M_ParamMap M_VCard M_Values M_Date M_Addressee
  S_Card S_Addressee P_Assoc P_Card P_Lists.

(** ** C18 *)
Section Coll.
Context {A : Type} (ident : A -> ustring).
Definition lput (wanted replaces : A -> bool) (x : A) (l : list A) : list A :=
  if find (keyed ident (ident x)) l
  then (if replaces x then replace_or (keyed ident (ident x)) x false l else l)
  else replace_or (keyed ident (ident x)) x (wanted x) l.
Definition lstep (wanted replaces : A -> bool) (l : list A) (o : coll_op A) : list A :=
  match o with OpPut x => lput wanted replaces x l | OpDel x => but ident (ident x) l end.

Lemma lstep_nodup w r l o : NoDup (map ident l) -> NoDup (map ident (lstep w r l o)).
Proof.
  intros H. destruct o as [x|x]; cbn.
  - unfold lput. destruct (find _ l); [destruct (r x)|]; auto; apply replace_or_nodup; auto.
  - apply but_nodup; auto.
Qed.
Lemma lstep_find w r l o (m : coll A) : NoDup (map ident l) -> (forall k, find (keyed ident k) l = m k) ->
  forall k, find (keyed ident k) (lstep w r l o) = coll_step ident w r m o k.
Proof.
  intros Hn Hm k. destruct o as [x|x]; cbn.
  - unfold lput. rewrite <- Hm. destruct (find (keyed ident (ident x)) l) eqn:F.
    + destruct (r x); auto. rewrite replace_or_find by auto. rewrite F, Hm. reflexivity.
    + rewrite replace_or_find by auto. rewrite F. destruct (w x).
      * rewrite Hm. reflexivity.
      * destruct (leqb_spec k (ident x)) as [->|N]; auto. congruence.
  - rewrite but_find, Hm. reflexivity.
Qed.
Lemma lrun w r ops : forall l m, NoDup (map ident l) -> (forall k, find (keyed ident k) l = m k) ->
  NoDup (map ident (fold_left (lstep w r) ops l)) /\
  forall k, find (keyed ident k) (fold_left (lstep w r) ops l) = fold_left (coll_step ident w r) ops m k.
Proof.
  induction ops as [|o ops IH]; cbn; intros l m H1 H2; auto.
  apply IH; [apply lstep_nodup; auto|]. intros k. apply lstep_find; auto.
Qed.
End Coll.

Lemma replace_or_app_irrel {A} (p : A -> bool) x b1 b2 l : find p l <> None -> replace_or p x b1 l = replace_or p x b2 l.
Proof.
  unfold replace_or. destruct (find_split p l) as [[[? ?] ?]|] eqn:F; auto.
  apply find_split_None in F. intros H. exfalso. apply H. clear H.
  induction F as [|y l E _ IH]; cbn; auto. rewrite E. auto.
Qed.

Definition phone_wanted (p : phone) : bool := negb (isnil (simplified (ph_number p))).
Lemma do_phone_list a o : NoDup (map ph_id (a_phones a)) ->
  a_phones (do_phone a o) = lstep ph_id phone_wanted (fun _ => true) (a_phones a) o.
Proof.
  intros H. destruct o as [x|x]; cbn.
  - unfold lput. change (fun q => leqb (ph_id q) (ph_id x)) with (keyed ph_id (ph_id x)).
    destruct (find _ _) eqn:F; [|reflexivity]. apply replace_or_app_irrel. congruence.
  - apply erase_first_but; auto.
Qed.
Lemma do_key_list a o : NoDup (map ke_id (a_keys a)) ->
  a_keys (do_key a o) = lstep ke_id (fun _ => true) (fun _ => true) (a_keys a) o.
Proof.
  intros H. destruct o as [x|x]; cbn.
  - unfold lput. change (fun q => leqb (ke_id q) (ke_id x)) with (keyed ke_id (ke_id x)).
    destruct (find _ _) eqn:F; [|reflexivity]. apply replace_or_app_irrel. congruence.
  - reflexivity.
Qed.
Definition address_wanted (x : address) : bool := negb (ad_empty x).
Lemma do_address_list a o : NoDup (map ad_id (a_addresses a)) ->
  a_addresses (do_address a o) = lstep ad_id address_wanted address_wanted (a_addresses a) o.
Proof.
  intros H. destruct o as [x|x]; cbn.
  - unfold lput, insert_address, address_wanted. change (fun q => leqb (ad_id q) (ad_id x)) with (keyed ad_id (ad_id x)).
    destruct (ad_empty x); cbn.
    + destruct (find _ _) eqn:F; auto. unfold replace_or. apply find_None_iff in F.
      apply find_split_keyed_None in F. rewrite F. reflexivity.
    + destruct (find _ _) eqn:F; [|reflexivity]. apply replace_or_app_irrel. congruence.
  - apply erase_first_but; auto.
Qed.

Lemma coll_sim {A} (ident : A -> ustring) (get : addressee -> list A) do w r :
  (forall a o, NoDup (map ident (get a)) -> get (do a o) = lstep ident w r (get a) o) ->
  forall ops a, NoDup (map ident (get a)) -> get (fold_left do ops a) = fold_left (lstep ident w r) ops (get a).
Proof.
  intros Hd ops. induction ops as [|o ops IH]; cbn; intros a H; auto.
  rewrite IH; [rewrite Hd; auto|]. rewrite Hd by auto. apply lstep_nodup; auto.
Qed.
Lemma coll_spec {A} (ident : A -> ustring) (get : addressee -> list A) do w r uid :
  (forall a o, NoDup (map ident (get a)) -> get (do a o) = lstep ident w r (get a) o) ->
  get (addressee_new uid) = [] ->
  forall ops, NoDup (map ident (get (fold_left do ops (addressee_new uid)))) /\
    forall k, find (fun q => leqb (ident q) k) (get (fold_left do ops (addressee_new uid))) = coll_run ident w r ops k.
Proof.
  intros Hd H0 ops. rewrite (coll_sim ident get do w r Hd) by (rewrite H0; constructor). rewrite H0.
  apply (lrun ident w r ops [] (fun _ => None)); [constructor|reflexivity].
Qed.

(** ** C19 *)
Lemma match_pattern_spec v t : match_pattern v t = true <-> has_type v t.
Proof.
  unfold match_pattern, has_type. destruct (N.eqb_spec t 0) as [->|N].
  - apply N.eqb_eq.
  - rewrite N.eqb_eq. split.
    + intros E i Hi. rewrite E, N.land_spec in Hi. apply andb_true_iff in Hi. tauto.
    + intros H. apply N.bits_inj. intros i. rewrite N.land_spec.
      destruct (N.testbit t i) eqn:E; cbn; auto. symmetry. apply H; auto.
Qed.
Section Pick.
Context {A : Type} (ty : A -> N) (pref : N) (blank : A -> bool) (t : N).
Definition ok (x : A) : bool := match_pattern (ty x) t.
Definition pre (x : A) : bool := negb (N.eqb (N.land (ty x) pref) 0).
Lemma last_cons (x : A) l d : last (x :: l) d = last l x.
Proof. revert x d. induction l as [|y l IH]; intros x d; auto. change (last (y :: l) d = last (y :: l) x). rewrite !IH. auto. Qed.
Lemma pick_pref cur l x : find (fun x => ok x && pre x) l = Some x -> pick ty pref blank t cur l = x.
Proof.
  revert cur. induction l as [|y l IH]; cbn; intros cur H; [discriminate|].
  fold (ok y) (pre y). destruct (ok y); cbn in H; [|auto]. destruct (pre y); cbn in H; [congruence|].
  destruct (blank cur); auto.
Qed.
Lemma pick_nopref cur l : find (fun x => ok x && pre x) l = None ->
  pick ty pref blank t cur l =
  if blank cur then match find (fun x => ok x && negb (blank x)) l with
                    | Some x => x
                    | None => last (filter ok l) cur
                    end
  else cur.
Proof.
  revert cur. induction l as [|y l IH]; intros cur H; cbn [pick find filter].
  - cbn. destruct (blank cur); auto.
  - cbn in H. fold (ok y) (pre y). destruct (ok y) eqn:Eo; cbn [andb] in *.
    + destruct (pre y) eqn:Ep; cbn in H; [discriminate|]. destruct (blank cur) eqn:Eb.
      * rewrite IH by auto. destruct (blank y) eqn:Ey; cbn [negb]; auto.
        destruct (find (fun x => ok x && negb (blank x)) l) eqn:F; auto. symmetry. apply last_cons.
      * rewrite IH by auto. rewrite Eb. auto.
    + rewrite IH by auto. reflexivity.
Qed.
Lemma last_in (l : list A) d : l <> [] -> In (last l d) l.
Proof.
  induction l as [|x l IH]; [congruence|]. intros _. destruct l as [|y l]; cbn; auto. right. apply IH. discriminate.
Qed.
Lemma pick_in cur l : blank cur = true -> (exists x, In x l /\ ok x = true) ->
  In (pick ty pref blank t cur l) l /\ ok (pick ty pref blank t cur l) = true.
Proof.
  intros Hb (x & Hx & Ho). destruct (find (fun x => ok x && pre x) l) as [y|] eqn:F.
  - rewrite (pick_pref cur l y F). apply find_some in F as [H1 H2]. apply andb_true_iff in H2. tauto.
  - rewrite pick_nopref, Hb by auto. destruct (find (fun x => ok x && negb (blank x)) l) as [y|] eqn:G.
    + apply find_some in G as [H1 H2]. apply andb_true_iff in H2. tauto.
    + assert (In (last (filter ok l) cur) (filter ok l)) as H.
      { apply last_in. intros E. assert (In x (filter ok l)) by (apply filter_In; auto). rewrite E in H. destruct H. }
      apply filter_In in H. auto.
Qed.
Lemma pick_none cur l : (forall x, In x l -> ok x = false) -> pick ty pref blank t cur l = cur.
Proof.
  induction l as [|y l IH]; cbn; intros H; auto. fold (ok y). rewrite H by auto. apply IH. auto.
Qed.
End Pick.

(** ** C20 *)
Lemma find_custom_afind q l : find_custom q l = afind q l.
Proof. induction l as [|[p v] l IH]; cbn; auto. unfold find_custom in *. cbn. destruct (leqb p q); auto. Qed.
Lemma update_custom_aupd q v l : update_custom q v l = aupd q (fun _ => v) l.
Proof. induction l as [|[p w] l IH]; cbn; auto. destruct (leqb p q); [reflexivity|f_equal; exact IH]. Qed.
Lemma insert_sorted_ains q v l : insert_sorted q v l = ains q v l.
Proof. induction l as [|[p w] l IH]; cbn; auto. destruct (lltb p q); [f_equal; exact IH|reflexivity]. Qed.

Definition aerase {A} (q : ustring) (l : list (ustring * A)) := filter (fun e => negb (leqb (fst e) q)) l.
Lemma aerase_keys {A} q (l : list (ustring * A)) : map fst (aerase q l) = filter (fun y => negb (leqb y q)) (map fst l).
Proof.
  unfold aerase. induction l as [|[p v] l IH]; cbn; auto. destruct (leqb p q); cbn; [exact IH|f_equal; exact IH].
Qed.
Lemma increasing_filter (f : ustring -> bool) l : increasing l -> increasing (filter f l).
Proof.
  unfold increasing. induction 1 as [|x l H IH Hf]; cbn; [constructor|]. destruct (f x); auto.
  constructor; auto. rewrite Forall_forall in *. intros y Hy. apply filter_In in Hy. apply Hf. tauto.
Qed.
Lemma aerase_sorted {A} q (l : list (ustring * A)) : asorted l -> asorted (aerase q l).
Proof. unfold asorted. rewrite aerase_keys. apply increasing_filter. Qed.
Lemma aerase_find {A} q (l : list (ustring * A)) k : afind k (aerase q l) = if leqb k q then None else afind k l.
Proof.
  unfold aerase. induction l as [|[p v] l IH]; cbn; [destruct (leqb k q); auto|].
  destruct (leqb_spec p q) as [E|N]; cbn; rewrite IH.
  - destruct (leqb_spec k q) as [E'|N']; auto. rewrite (proj2 (leqb_neq p k)); auto. intros H. apply N'. congruence.
  - destruct (leqb_spec p k) as [E'|N']; auto. rewrite (proj2 (leqb_neq k q)); auto. intros H. apply N. congruence.
Qed.
Lemma asorted_nodup {A} (l : list (ustring * A)) : asorted l -> NoDup (map fst l).
Proof. apply increasing_NoDup. Qed.

Definition stored (q : ustring) (a : addressee) : ustring := match afind q (a_customs a) with Some v => v | None => [] end.
Lemma custom_stored p n a : custom p n a = stored (qualified p n) a.
Proof. unfold custom, stored. rewrite find_custom_afind. reflexivity. Qed.

(** sorted and without empty values *)
Definition customs_ok (a : addressee) : Prop := asorted (a_customs a).
Lemma remove_custom_list p n a : customs_ok a -> a_customs (remove_custom p n a) = aerase (qualified p n) (a_customs a).
Proof.
  intros H. change (a_customs (remove_custom p n a)) with (erase_first (keyed fst (qualified p n)) (a_customs a)).
  apply erase_first_but. apply asorted_nodup. exact H.
Qed.
Lemma do_custom_ok o a : customs_ok a -> customs_ok (do_custom a o).
Proof.
  unfold customs_ok. intros H. destruct o as [p n v|p n]; cbn [do_custom].
  - unfold insert_custom. destruct (isnil v || isnil n || isnil p); auto. cbv zeta.
    rewrite find_custom_afind, update_custom_aupd, insert_sorted_ains.
    destruct (afind _ _) eqn:F; cbn; [apply aupd_sorted; auto|apply ains_sorted; auto].
  - rewrite remove_custom_list by exact H. apply aerase_sorted. auto.
Qed.
Lemma do_custom_stored o a q : customs_ok a -> stored q (do_custom a o) = custom_effect q (stored q a) o.
Proof.
  unfold customs_ok, stored. intros H. destruct o as [p n v|p n]; cbn [do_custom custom_effect].
  - unfold insert_custom. change (p ++ B "-" ++ n) with (qualified p n).
    destruct (isnil v) eqn:Ev; cbn [orb negb]; [rewrite !andb_false_r; auto|].
    destruct (isnil n) eqn:En; cbn [orb negb]; [rewrite !andb_false_r; auto|].
    destruct (isnil p) eqn:Ep; cbn [orb negb]; [rewrite !andb_false_r; auto|]. rewrite !andb_true_r.
    cbv zeta. rewrite find_custom_afind, update_custom_aupd, insert_sorted_ains.
    rewrite (leqb_sym (qualified p n) q).
    destruct (afind (qualified p n) (a_customs a)) eqn:F; cbn.
    + rewrite aupd_find, F. destruct (leqb q (qualified p n)); auto.
    + rewrite ains_find by auto. destruct (leqb q (qualified p n)); auto.
  - rewrite remove_custom_list by exact H.
    rewrite aerase_find. change (p ++ B "-" ++ n) with (qualified p n). rewrite (leqb_sym (qualified p n) q).
    destruct (leqb q (qualified p n)); auto.
Qed.
Lemma run_customs ops : forall a, customs_ok a ->
  customs_ok (fold_left do_custom ops a) /\
  forall q, stored q (fold_left do_custom ops a) = fold_left (custom_effect q) ops (stored q a).
Proof.
  induction ops as [|o ops IH]; cbn; intros a H; auto.
  destruct (IH (do_custom a o) (do_custom_ok o a H)) as [H1 H2]. split; auto.
  intros q. rewrite H2, do_custom_stored; auto.
Qed.

Lemma qualified_inj p n p' n' : ~ In 45%N p -> ~ In 45%N p' -> qualified p n = qualified p' n' -> p = p' /\ n = n'.
Proof.
  unfold qualified. revert p'. induction p as [|c p IH]; intros [|c' p'] H1 H2 E; cbn in *.
  - injection E; auto.
  - injection E as E1 E2. exfalso. auto.
  - injection E as E1 E2. exfalso. auto.
  - injection E as E1 E2. subst c'. destruct (IH p') as [-> ->]; auto.
Qed.

(** customs() and setCustoms() *)
Lemma customs_step_entry acc q v : ~ In 58%N q -> ~ In q (map fst acc) ->
  customs_step acc (q ++ 58%N :: v) = acc ++ [(q, v)].
Proof.
  intros H1 H2. unfold customs_step. rewrite index_of_app_notin by auto. cbv zeta. rewrite firstn_app_exact.
  replace (skipn (S (length q)) (q ++ 58%N :: v)) with v.
  - replace (existsb _ acc) with false; auto. symmetry. apply not_true_iff_false. intros E.
    apply existsb_exists in E as ([q' v'] & Hi & E). apply leqb_eq in E. cbn in E. subst q'. apply H2.
    apply in_map_iff. exists (q, v'). auto.
  - change (q ++ 58%N :: v) with (q ++ [58%N] ++ v). rewrite app_assoc.
    replace (S (length q)) with (length (q ++ [58%N])) by (rewrite app_length; cbn; lia). symmetry. apply skipn_app_exact.
Qed.

Lemma customs_steps l : forall acc, Forall (fun e => ~ In 58%N (fst e)) l -> NoDup (map fst (acc ++ l)) ->
  fold_left customs_step (map (fun e => fst e ++ 58%N :: snd e) l) acc = acc ++ l.
Proof.
  induction l as [|[q v] l IH]; cbn; intros acc Hf Hn; [symmetry; apply app_nil_r|].
  inversion Hf; subst. rewrite customs_step_entry; auto.
  - rewrite IH; auto; rewrite <- app_assoc; auto.
  - intros Hi. rewrite map_app in Hn. cbn in Hn. apply NoDup_remove_2 in Hn. apply Hn. apply in_app_iff. auto.
Qed.
Lemma sort_customs_sorted l : asorted l -> sort_customs l = l.
Proof.
  unfold asorted. induction l as [|[q v] l IH]; cbn; intros H; auto. inversion H as [|? ? H1 H2]; subst.
  rewrite IH by auto. destruct l as [|[q' v'] l]; cbn; auto.
  inversion H2; subst. rewrite lltb_asym; auto.
Qed.
Lemma set_customs_customs a b : customs_ok a -> Forall (fun e => ~ In 58%N (fst e)) (a_customs a) ->
  a_customs (set_customs (customs_of a) b) = a_customs a.
Proof.
  intros H1 H2. cbn. unfold customs_of. rewrite customs_steps; auto.
  - apply sort_customs_sorted. auto.
  - apply asorted_nodup. auto.
Qed.
(** after any setCustoms the vector is sorted *)
Lemma sort_customs_keys l q : In q (map fst (sort_customs l)) <-> In q (map fst l).
Proof.
  induction l as [|[p v] l IH]; cbn; [tauto|]. rewrite insert_sorted_ains, ains_keys_in, IH. intuition.
Qed.
Lemma sort_customs_ok l : NoDup (map fst l) -> asorted (sort_customs l).
Proof.
  induction l as [|[p v] l IH]; cbn; intros H; [constructor|]. inversion H; subst.
  rewrite insert_sorted_ains. apply ains_sorted; auto. apply afind_None. rewrite sort_customs_keys. auto.
Qed.
Lemma customs_step_nodup acc c : NoDup (map fst acc) -> NoDup (map fst (customs_step acc c)).
Proof.
  intros H. unfold customs_step. destruct (index_of 58%N c) as [i|]; auto. cbv zeta.
  match goal with |- context [existsb ?f acc] => destruct (existsb f acc) eqn:E; auto end.
  rewrite map_app. cbn. apply NoDup_snoc; auto. intros Hi. apply in_map_iff in Hi as (e & E1 & E2).
  apply not_true_iff_false in E. apply E. apply existsb_exists. exists e. split; auto. apply leqb_eq. exact E1.
Qed.
Lemma set_customs_ok l a : customs_ok (set_customs l a).
Proof.
  unfold customs_ok. cbn. apply sort_customs_ok. rewrite <- fold_left_rev_right.
  induction (rev l) as [|c r IH]; cbn; [constructor|]. apply customs_step_nodup. auto.
Qed.

(** ** C22 *)
Section ListEquals.
Context {A : Type} (eqb : A -> A -> bool).
Hypothesis eqb_refl : forall x, eqb x x = true.
Hypothesis eqb_sym : forall x y, eqb x y = eqb y x.
Definition R (x y : A) : Prop := eqb x y = true.

Lemma list_equals_refl l : list_equals eqb l l = true.
Proof.
  unfold list_equals. rewrite Nat.eqb_refl. cbn. apply forallb_forall. intros x Hx.
  apply existsb_exists. eauto.
Qed.
Lemma list_equals_spec l p : list_equals eqb l p = true <->
  length l = length p /\ forall x, In x l -> exists y, In y p /\ R y x.
Proof.
  unfold list_equals. rewrite andb_true_iff, Nat.eqb_eq, forallb_forall. split; intros [H1 H2]; split; auto; intros x Hx.
  - apply H2 in Hx. apply existsb_exists in Hx. auto.
  - apply existsb_exists. apply H2; auto.
Qed.
Lemma list_equals_perm l p : Permutation l p -> list_equals eqb l p = true.
Proof.
  intros H. apply list_equals_spec. split; [apply Permutation_length; auto|]. intros x Hx.
  exists x. split; [eapply Permutation_in; eauto|apply eqb_refl].
Qed.
(** independence of the order of both lists *)
Lemma list_equals_perm_l l l' p p' : Permutation l l' -> Permutation p p' -> list_equals eqb l p = list_equals eqb l' p'.
Proof.
  intros H1 H2. apply eq_true_iff_eq. rewrite !list_equals_spec.
  rewrite (Permutation_length H1), (Permutation_length H2). split; intros [E H]; split; auto; intros x Hx.
  - destruct (H x) as (y & Hy & Hr); [eapply Permutation_in; [apply Permutation_sym|]; eauto|].
    exists y. split; auto. eapply Permutation_in; eauto.
  - destruct (H x) as (y & Hy & Hr); [eapply Permutation_in; eauto|].
    exists y. split; auto. eapply Permutation_in; [apply Permutation_sym|]; eauto.
Qed.

Hypothesis eqb_trans : forall x y z, eqb x y = true -> eqb y z = true -> eqb x z = true.
Lemma R_equiv : Equivalence R.
Proof.
  split; [intros x; apply eqb_refl|intros x y H; unfold R in *; rewrite eqb_sym; auto|intros x y z; apply eqb_trans].
Qed.
Lemma list_equals_onto : forall l p, NoDupA R l -> list_equals eqb l p = true ->
  forall y, In y p -> exists x, In x l /\ R x y.
Proof.
  induction l as [|x l IH]; intros p Hn H y Hy; apply list_equals_spec in H as [Hl H].
  - destruct p; [destruct Hy|discriminate].
  - inversion Hn as [|? ? Hx Hn']; subst.
    destruct (H x) as (y0 & Hy0 & Hr); [left; auto|].
    apply in_split in Hy0 as (p1 & p2 & ->).
    assert (Hmem : y = y0 \/ In y (p1 ++ p2)).
    { apply in_app_iff in Hy as [Hy|[Hy|Hy]]; auto; right; apply in_app_iff; auto. }
    destruct Hmem as [->|Hy'].
    + exists x. split; [left; auto|]. unfold R in *. rewrite eqb_sym. auto.
    + destruct (IH (p1 ++ p2)) with (y := y) as (z & Hz & Hzr); auto.
      * apply list_equals_spec. rewrite app_length in *. cbn in Hl. split; [lia|].
        intros z Hz. destruct (H z) as (w & Hw & Hwr); [right; auto|].
        apply in_app_iff in Hw as [Hw|[->|Hw]].
        -- exists w. split; auto. apply in_app_iff; auto.
        -- exfalso. apply Hx. apply InA_alt. exists z. split; auto.
           unfold R in *. apply (eqb_trans x w z); auto. rewrite eqb_sym. auto.
        -- exists w. split; auto. apply in_app_iff; auto.
      * exists z. split; [right|]; auto.
Qed.
Lemma list_equals_sym l p : NoDupA R l -> list_equals eqb l p = true -> list_equals eqb p l = true.
Proof.
  intros Hn H. pose proof (list_equals_onto l p Hn H) as Ho. apply list_equals_spec in H as [Hl _].
  apply list_equals_spec. split; [auto|]. intros y Hy. destruct (Ho y Hy) as (x & Hx & Hr). exists x. auto.
Qed.
Lemma list_equals_trans l p q : list_equals eqb l p = true -> list_equals eqb p q = true -> list_equals eqb l q = true.
Proof.
  rewrite !list_equals_spec. intros [E1 H1] [E2 H2]. split; [congruence|]. intros x Hx.
  destruct (H1 x Hx) as (y & Hy & Hr). destruct (H2 y Hy) as (z & Hz & Hr'). exists z. split; auto.
  eapply eqb_trans; eauto.
Qed.
End ListEquals.
Lemma NoDup_NoDupA_leqb (l : list ustring) : NoDup l -> NoDupA (R leqb) l.
Proof.
  induction 1 as [|x l Hx H IH]; constructor; auto. intros Hi. apply InA_alt in Hi as (y & E & Hy).
  apply leqb_eq in E. subst. auto.
Qed.

(** ** C42 *)
Lemma contains_existsb c l : contains c l = existsb (leqb c) l.
Proof. induction l as [|x l IH]; cbn; auto. rewrite IH. rewrite leqb_sym. reflexivity. Qed.
Lemma do_cat_list a o : a_categories (do_cat a o) = cat_list (a_categories a) o.
Proof.
  destruct o as [c|c]; cbn.
  - unfold insert_category. rewrite contains_existsb. destruct (existsb _ _); reflexivity.
  - unfold remove_category. rewrite contains_existsb. destruct (existsb _ _) eqn:E; cbn.
    + unfold remove_all. apply filter_ext. intros x. rewrite leqb_sym. reflexivity.
    + symmetry. induction (a_categories a) as [|x l IH]; cbn in *; auto.
      apply orb_false_iff in E as [E1 E2]. rewrite E1. cbn. rewrite IH; auto.
Qed.
Lemma run_cats ops : forall a, a_categories (fold_left do_cat ops a) = fold_left cat_list ops (a_categories a).
Proof. induction ops as [|o ops IH]; cbn; intros a; auto. rewrite IH, do_cat_list. auto. Qed.
Lemma cat_list_nodup l o : NoDup l -> NoDup (cat_list l o).
Proof.
  intros H. destruct o as [c|c]; cbn.
  - destruct (existsb _ _) eqn:E; auto. apply NoDup_snoc; auto. intros Hi.
    apply existsb_leqb_In in Hi. congruence.
  - apply NoDup_filter. auto.
Qed.
Lemma run_cats_nodup ops : forall l, NoDup l -> NoDup (fold_left cat_list ops l).
Proof. induction ops as [|o ops IH]; cbn; intros l H; auto. apply IH, cat_list_nodup; auto. Qed.
Lemma cat_list_member c l o : existsb (leqb c) (cat_list l o) = cat_member c (existsb (leqb c) l) o.
Proof.
  destruct o as [x|x]; cbn.
  - destruct (existsb (leqb x) l) eqn:E.
    + destruct (leqb_spec x c) as [->|N]; auto.
    + rewrite existsb_app. cbn. rewrite orb_false_r. rewrite leqb_sym. destruct (leqb x c); [apply orb_true_r|apply orb_false_r].
  - induction l as [|y l IH]; cbn; [destruct (leqb x c); auto|].
    destruct (leqb_spec x y) as [E|N]; cbn; rewrite IH.
    + destruct (leqb_spec x c) as [E'|N']; auto. rewrite (proj2 (leqb_neq c y)); auto. congruence.
    + destruct (leqb_spec x c) as [E'|N']; auto. rewrite (proj2 (leqb_neq c y)); auto. congruence.
Qed.
Lemma run_cats_member c ops : forall l, existsb (leqb c) (fold_left cat_list ops l) =
  fold_left (cat_member c) ops (existsb (leqb c) l).
Proof. induction ops as [|o ops IH]; cbn; intros l; auto. rewrite IH, cat_list_member. auto. Qed.
