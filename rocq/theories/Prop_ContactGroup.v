(** C29, C30: contact groups. *)
From Verif Require Import Base BaseFacts M_ContactGroup S_ContactGroup P_ContactGroup.

(** C29.  After any sequence of operations the three lists of members are what the
    operations on that kind of member make of them: appending puts a member at the
    end, removing deletes the first equal member and nothing else, and operations
    on one kind of member do not affect the others. *)
Theorem C29_members :
  forall (ops : list cg_op) (g : cgroup),
    expected cref_eq (cg_refs g) (map ref_effect ops) (cg_refs (run_cg ops g))
    /\ expected gref_eq (cg_grefs g) (map gref_effect ops) (cg_grefs (run_cg ops g))
    /\ expected cdata_eq (cg_data g) (map data_effect ops) (cg_data (run_cg ops g)).
Proof. intros ops g. repeat split; [apply run_refs|apply run_grefs|apply run_data]. Qed.
Print Assumptions C29_members.
(** the expectation determines the list *)
Theorem C29_expectation_is_unique :
  forall (A : Type) (eqb : A -> A -> bool) (l : list A) (es : list (on_list A)) (a b : list A),
    expected eqb l es a -> expected eqb l es b -> a = b.
Proof. intros A eqb l es a b. apply expected_fun. Qed.
Print Assumptions C29_expectation_is_unique.
(** the identifier and the name are those set last; members do not change them *)
Definition set_last (mk : ustring -> cg_op) (ops : list cg_op) (before after : ustring) : Prop :=
  (Forall (fun o => forall s, o <> mk s) ops /\ after = before)
  \/ exists b s t, ops = b ++ mk s :: t /\ Forall (fun o => forall s', o <> mk s') t /\ after = s.
Theorem C29_id_and_name :
  forall (ops : list cg_op) (g : cgroup),
    set_last CId ops (cg_id g) (cg_id (run_cg ops g)) /\ set_last CName ops (cg_name g) (cg_name (run_cg ops g)).
Proof.
  intros ops. induction ops as [|o ops IH] using rev_ind; intros g; [split; left; split; constructor|].
  assert (Hr : run_cg (ops ++ [o]) g = do_cg o (run_cg ops g)) by (unfold run_cg; rewrite fold_left_app; reflexivity). rewrite Hr. destruct (IH g) as [I1 I2].
  assert (Hk : forall mk before after, (forall s, o <> mk s) -> set_last mk ops before after -> set_last mk (ops ++ [o]) before after).
  { intros mk before after Ho [[H1 H2]|(b & s & t & H1 & H2 & H3)].
    - left. split; [apply Forall_app; split; [exact H1|constructor; [exact Ho|constructor]]|exact H2].
    - right. exists b, s, (t ++ [o]). split; [rewrite H1, <- app_assoc; reflexivity|]. split; [apply Forall_app; split; [exact H2|constructor; [exact Ho|constructor]]|exact H3]. }
  assert (Hs : forall mk before s, o = mk s -> set_last mk (ops ++ [o]) before s).
  { intros mk before s ->. right. exists ops, s, []. split; [reflexivity|]. split; [constructor|reflexivity]. }
  destruct o; cbn [do_cg cg_set_name cg_set_id cg_append_ref cg_append_gref cg_append_data cg_remove_ref cg_remove_gref cg_remove_data cg_clear_refs cg_clear_grefs cg_clear_data cg_id cg_name];
    (split; [first [apply Hs; reflexivity|apply Hk; [intros ? Hx; discriminate Hx|exact I1]]|first [apply Hs; reflexivity|apply Hk; [intros ? Hx; discriminate Hx|exact I2]]]).
Qed.
Print Assumptions C29_id_and_name.
(** [count()] is the number of contact references and data objects *)
Theorem C29_count :
  forall g r gr d,
    cg_count (cg_append_ref r g) = S (cg_count g) /\ cg_count (cg_append_data d g) = S (cg_count g)
    /\ cg_count (cg_append_gref gr g) = cg_count g
    /\ cg_count (cg_remove_ref r g) = cg_count g - (if existsb (fun y => cref_eq y r) (cg_refs g) then 1 else 0)
    /\ cg_count (cg_remove_data d g) = cg_count g - (if existsb (fun y => cdata_eq y d) (cg_data g) then 1 else 0).
Proof.
  assert (K : forall A (eqb : A -> A -> bool) x l, length (remove_one eqb x l) = length l - (if existsb (fun y => eqb y x) l then 1 else 0)
              /\ (existsb (fun y => eqb y x) l = true -> 0 < length l)).
  { intros A eqb x l. induction l as [|y l [IH1 IH2]]; cbn; [split; [auto|discriminate]|].
    destruct (eqb y x); cbn; [split; lia|]. rewrite IH1.
    destruct (existsb (fun z => eqb z x) l); [specialize (IH2 eq_refl)|]; split; intros; lia. }
  intros g r gr d. unfold cg_count. cbn. rewrite !app_length. cbn.
  destruct (K _ cref_eq r (cg_refs g)) as [-> H1]. destruct (K _ cdata_eq d (cg_data g)) as [-> H2].
  repeat split; try lia.
  - destruct (existsb _ (cg_refs g)); [specialize (H1 eq_refl)|]; lia.
  - destruct (existsb _ (cg_data g)); [specialize (H2 eq_refl)|]; lia.
Qed.
Print Assumptions C29_count.
(** equality of group references and data objects is identity; equality of contact
    references ignores the GID, so removing a reference can remove another one *)
Theorem C29_equal_members :
  (forall a b, gref_eq a b = true <-> a = b) /\ (forall a b, cdata_eq a b = true <-> a = b)
  /\ (forall a b, cref_eq a b = true <-> cr_set_gid [] a = cr_set_gid [] b).
Proof.
  split; [exact gref_eq_eq|]. split; [exact cdata_eq_eq|]. intros a b. rewrite cref_eq_iff.
  unfold cr_set_gid. destruct a, b; cbn. split; [intros (-> & -> & ->); auto|intros E; injection E; auto].
Qed.
Print Assumptions C29_equal_members.
(** two groups are equal exactly if they agree in identifier, name and all members in
    order, the GIDs of contact references aside *)
Theorem C29_equal_groups :
  forall g h, cgroup_eq g h = true <->
    cg_id g = cg_id h /\ cg_name g = cg_name h /\ map (cr_set_gid []) (cg_refs g) = map (cr_set_gid []) (cg_refs h)
    /\ cg_grefs g = cg_grefs h /\ cg_data g = cg_data h.
Proof.
  intros g h. unfold cgroup_eq. rewrite !andb_true_iff, !leqb_eq.
  assert (R : forall a b, cref_eq a b = true <-> cr_set_gid [] a = cr_set_gid [] b) by apply C29_equal_members.
  assert (K : forall (A C : Type) (eqb : A -> A -> bool) (f : A -> C), (forall a b, eqb a b = true <-> f a = f b) ->
    forall l m, all2 eqb l m = true <-> map f l = map f m).
  { intros A C eqb f E. induction l as [|x l IH]; intros [|y m]; cbn [all2 map]; try (split; discriminate); [split; auto|].
    rewrite andb_true_iff, E, IH. split; [intros [-> ->]; reflexivity|intros Q; injection Q; auto]. }
  rewrite (K _ _ cref_eq (cr_set_gid []) R).
  rewrite (K _ _ gref_eq (fun x => x) gref_eq_eq), (K _ _ cdata_eq (fun x => x) cdata_eq_eq), !map_id. tauto.
Qed.
Print Assumptions C29_equal_groups.
Theorem C29_remove_reference_refuted :
  exists (g : cgroup) (r : cref), In r (cg_refs g) /\ In r (cg_refs (cg_remove_ref r g))
    /\ length (cg_refs (cg_remove_ref r g)) = length (cg_refs g) - 1 /\ count_occ (list_eq_dec N.eq_dec) (map cr_gid (cg_refs g)) (cr_gid r) = 1.
Proof.
  exists (mkCgroup (B "1") (B "n") [cr_set_gid (B "a") cref_new; cr_set_gid (B "b") cref_new] [] []).
  exists (cr_set_gid (B "b") cref_new). vm_compute. auto.
Qed.
Print Assumptions C29_remove_reference_refuted.
Example C29_equal_case :
  let d := mkCdata (B "A") (B "a@x") [] in let g := cgroup_new (B "1") in
  cgroup_eq (cg_append_ref (cr_set_gid (B "x") (cref_of (B "u"))) (cg_append_data d g)) (cg_append_ref (cref_of (B "u")) (cg_append_data d g)) = true
  /\ cgroup_eq (cg_append_data d g) g = false.
Proof. vm_compute. auto. Qed.
Example C29_case :
  let d1 := mkCdata (B "A") (B "a@x") [] in let d2 := mkCdata (B "B") (B "b@x") [] in
  let g := run_cg [CAddData d1; CAddData d2; CAddRef (cref_of (B "u")); CAddData d1; CDelData d1] (cgroup_new (B "1")) in
  cg_data g = [d2; d1] /\ cg_count g = 3.
Proof. vm_compute. auto. Qed.

(** C30.  For every list of groups and every token sequence whose elements are those
    the writer produces (white space, comments and document tokens may occur
    anywhere): the reader appends, in order, the groups before the first unacceptable
    one, without the custom fields of members, and reports success exactly if all
    groups are acceptable. *)
Theorem C30_list_roundtrip :
  forall (newid : ustring) (gs acc : list cgroup) (ts : list xtok),
    elements ts = write_list gs ->
    read_group_list newid ts acc = Some (acc ++ map without_customs (accepted_prefix gs), forallb acceptable gs).
Proof. exact group_list_roundtrip. Qed.
Print Assumptions C30_list_roundtrip.
Theorem C30_acceptable_groups_roundtrip :
  forall (newid : ustring) (gs : list cgroup) (ts : list xtok),
    elements ts = write_list gs -> forallb acceptable gs = true ->
    read_group_list newid ts [] = Some (map without_customs gs, true).
Proof.
  intros id gs ts H A. rewrite (group_list_roundtrip id gs [] ts H), A, (accepted_all _ A). reflexivity.
Qed.
Print Assumptions C30_acceptable_groups_roundtrip.
(** one group; members are appended to those the caller's group already has *)
Theorem C30_group_roundtrip :
  forall (g g0 : cgroup) (ts : list xtok), elements ts = write_single g ->
    if acceptable g then read_single ts g0 = (merged g0 (without_customs g), true)
    else snd (read_single ts g0) = false.
Proof. exact group_roundtrip. Qed.
Print Assumptions C30_group_roundtrip.
(** reading a list never runs forever, whatever the document *)
Theorem C30_reading_ends :
  forall (newid : ustring) (ts : list xtok) (acc : list cgroup), exists r, read_group_list newid ts acc = Some r.
Proof. exact read_list_total. Qed.
Print Assumptions C30_reading_ends.
(** a group without a name is written but cannot be read *)
Theorem C30_every_group_refuted :
  exists (g : cgroup), cg_id g <> [] /\ forall newid, read_group_list newid (write_list [g]) [] = Some ([], false).
Proof. exists (cgroup_new (B "1")). split; [discriminate|]. intros id. vm_compute. auto. Qed.
Print Assumptions C30_every_group_refuted.
Example C30_case :
  let g := mkCgroup (B "1") (B "Friends") [mkCref (B "u1") [] (B "a@x") []; mkCref [] (B "g2") [] [(B "k", B "v")]]
             [mkGref (B "other") []] [mkCdata [] (B "b@x") []] in
  acceptable g = true
  /\ read_group_list (B "9") ([XOther; XOther] ++ write_list [g; g] ++ [XOther]) [] = Some ([without_customs g; without_customs g], true).
Proof. vm_compute. auto. Qed.
