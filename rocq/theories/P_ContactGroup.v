(** Proofs about contact groups (C29, C30). *)
From Verif Require Import Base BaseFacts M_ContactGroup S_ContactGroup.

(** ** C29 *)
Lemma remove_one_spec {A} (eqb : A -> A -> bool) x l : without_first eqb x l (remove_one eqb x l).
Proof.
  induction l as [|y l IH]; cbn.
  - left. auto.
  - destruct (eqb y x) eqn:E.
    + right. exists [], y, l. auto.
    + destruct IH as [[F ->]|(b & z & t & H1 & H2 & H3 & H4)].
      * left. auto.
      * right. exists (y :: b), z, t. rewrite H1 at 1. rewrite H4. auto.
Qed.
Lemma without_first_fun {A} (eqb : A -> A -> bool) x l a b :
  without_first eqb x l a -> without_first eqb x l b -> a = b.
Proof.
  revert a b. induction l as [|y l IH]; intros a b Ha Hb.
  - destruct Ha as [[_ ->]|(c & z & t & H & _)]; [|destruct c; discriminate].
    destruct Hb as [[_ ->]|(c & z & t & H & _)]; [auto|destruct c; discriminate].
  - assert (K : forall c, without_first eqb x (y :: l) c ->
               (eqb y x = true /\ c = l) \/ (eqb y x = false /\ exists c', c = y :: c' /\ without_first eqb x l c')).
    { intros c [[F ->]|(p & z & t & H1 & H2 & H3 & ->)].
      - inversion F; subst. right. split; auto. exists l. split; auto. left. auto.
      - destruct p as [|w p]; injection H1 as -> ->; [left; auto|]. inversion H3; subst.
        right. split; auto. exists (p ++ t). split; auto. right. exists p, z, t. auto. }
    destruct (K _ Ha) as [[E ->]|[E (a' & -> & Wa)]]; destruct (K _ Hb) as [[E' ->]|[E' (b' & -> & Wb)]];
      try congruence. f_equal. auto.
Qed.
Lemma remove_one_iff {A} (eqb : A -> A -> bool) x l l' :
  without_first eqb x l l' <-> l' = remove_one eqb x l.
Proof.
  split; [|intros ->; apply remove_one_spec].
  intros H. exact (without_first_fun _ _ _ _ _ H (remove_one_spec eqb x l)).
Qed.

Lemma run_cg_effect {A} (eqb : A -> A -> bool) (get : cgroup -> list A) (eff : cg_op -> on_list A) :
  (forall o g, get (do_cg o g) = match eff o with
                                 | Add x => get g ++ [x] | Del x => remove_one eqb x (get g)
                                 | Clear => [] | Keep => get g end) ->
  forall ops g, expected eqb (get g) (map eff ops) (get (run_cg ops g)).
Proof.
  intros H. induction ops as [|o ops IH]; intros g; cbn; [constructor|].
  specialize (IH (do_cg o g)). rewrite H in IH. destruct (eff o); econstructor; eauto.
  apply remove_one_spec.
Qed.
Lemma run_refs ops g : expected cref_eq (cg_refs g) (map ref_effect ops) (cg_refs (run_cg ops g)).
Proof. apply run_cg_effect. intros [] ?; reflexivity. Qed.
Lemma run_grefs ops g : expected gref_eq (cg_grefs g) (map gref_effect ops) (cg_grefs (run_cg ops g)).
Proof. apply run_cg_effect. intros [] ?; reflexivity. Qed.
Lemma run_data ops g : expected cdata_eq (cg_data g) (map data_effect ops) (cg_data (run_cg ops g)).
Proof. apply run_cg_effect. intros [] ?; reflexivity. Qed.
Lemma expected_fun {A} (eqb : A -> A -> bool) l es a b :
  expected eqb l es a -> expected eqb l es b -> a = b.
Proof.
  intros H. revert b. induction H; intros b Hb; inversion Hb; subst; auto.
  apply IHexpected. rewrite (without_first_fun _ _ _ _ _ H H4). auto.
Qed.

Lemma cm_eqb_eq a b : cm_eqb a b = true <-> a = b.
Proof.
  revert b. induction a as [|[p v] a IH]; intros [|[q w] b]; cbn; try (split; [discriminate|discriminate]); [tauto|].
  rewrite !andb_true_iff, !leqb_eq, IH. split; [intros [[-> ->] ->]; auto|intros E; injection E; auto].
Qed.
Lemma gref_eq_eq a b : gref_eq a b = true <-> a = b.
Proof.
  destruct a, b. unfold gref_eq; cbn. rewrite !andb_true_iff, !leqb_eq, cm_eqb_eq.
  split; [intros [-> ->]; auto|intros E; injection E; auto].
Qed.
Lemma cdata_eq_eq a b : cdata_eq a b = true <-> a = b.
Proof.
  destruct a, b. unfold cdata_eq; cbn. rewrite !andb_true_iff, !leqb_eq, cm_eqb_eq.
  split; [intros [[-> ->] ->]; auto|intros E; injection E; auto].
Qed.
Lemma cref_eq_iff a b :
  cref_eq a b = true <-> cr_uid a = cr_uid b /\ cr_email a = cr_email b /\ cr_customs a = cr_customs b.
Proof. unfold cref_eq. rewrite !andb_true_iff, !leqb_eq, cm_eqb_eq. tauto. Qed.

(** ** C30 *)
Lemma rm_elements ts : forall g,
  read_members (elements ts) g
  = let '(g', b, r) := read_members ts g in (g', b, elements r).
Proof.
  induction ts as [|t ts IH]; intros g; [reflexivity|]. destruct t as [n a|n| |]; cbn [elements filter read_members].
  - fold (elements ts).
    destruct (leqb n eData). { destruct (read_data a); [apply IH|reflexivity]. }
    destruct (leqb n eRef). { destruct (read_ref a); [apply IH|reflexivity]. }
    destruct (leqb n eGref). { destruct (read_gref a); [apply IH|reflexivity]. }
    reflexivity.
  - fold (elements ts). destruct (leqb n eGroup); [reflexivity|apply IH].
  - fold (elements ts). apply IH.
  - reflexivity.
Qed.
Lemma rm_length ts : forall g g' b r, read_members ts g = (g', b, r) -> length r <= length ts.
Proof.
  induction ts as [|t ts IH]; intros g g' b r; cbn [read_members length].
  - intros H; injection H as <- <- <-. auto.
  - assert (K : forall x, read_members ts x = (g', b, r) -> length r <= S (length ts))
      by (intros x Hx; apply IH in Hx; lia).
    assert (K2 : (g, false, ts) = (g', b, r) -> length r <= S (length ts))
      by (intros Hx; injection Hx as <- <- <-; lia).
    destruct t as [n a|n| |].
    + destruct (leqb n eData). { destruct (read_data a); [apply K|apply K2]. }
      destruct (leqb n eRef). { destruct (read_ref a); [apply K|apply K2]. }
      destruct (leqb n eGref). { destruct (read_gref a); [apply K|apply K2]. }
      apply K2.
    + destruct (leqb n eGroup); [|apply K]. intros Hx; injection Hx as <- <- <-; lia.
    + apply K.
    + apply K2.
Qed.
Lemma rg_elements a ts g :
  read_group a (elements ts) g = let '(g', b, r) := read_group a ts g in (g', b, elements r).
Proof.
  unfold read_group. destruct (isnil (attr kUid a)); [reflexivity|].
  destruct (isnil (attr kName a)); [reflexivity|]. apply rm_elements.
Qed.
Lemma rg_length a ts g g' b r : read_group a ts g = (g', b, r) -> length r <= length ts.
Proof.
  unfold read_group. destruct (isnil (attr kUid a)). { intros H; injection H as <- <- <-; auto. }
  destruct (isnil (attr kName a)). { intros H; injection H as <- <- <-; auto. }
  apply rm_length.
Qed.
Lemma elements_length ts : length (elements ts) <= length ts.
Proof. apply filter_length_le || (unfold elements; induction ts as [|[] ts IH]; cbn; lia). Qed.

Lemma read_list_elements id : forall n ts, length ts <= n -> forall d acc f1 f2,
  length ts < f1 -> length (elements ts) < f2 ->
  read_list f1 id d ts acc = read_list f2 id d (elements ts) acc.
Proof.
  induction n as [|n IH]; intros ts Hn d acc f1 f2 H1 H2.
  - destruct ts; [|cbn in Hn; lia]. destruct f1; [cbn in H1; lia|]. destruct f2; [cbn in H2; lia|]. reflexivity.
  - destruct f1 as [|f1]; [lia|]. destruct ts as [|t ts]; [destruct f2; [cbn in H2; lia|reflexivity]|].
    cbn in Hn, H1. destruct t as [nm a|nm| |].
    + cbn [elements filter] in *. fold (elements ts) in *. cbn [length] in H2. destruct f2 as [|f2]; [lia|].
      cbn [read_list].
      destruct (d + 1 =? 1)%Z. { destruct (leqb nm eList); [apply IH; lia|reflexivity]. }
      destruct (d + 1 =? 2)%Z.
      { destruct (leqb nm eGroup); [|reflexivity].
        rewrite rg_elements. destruct (read_group a ts (cgroup_new id)) as [[g' b] r] eqn:E.
        pose proof (rg_length _ _ _ _ _ _ E). pose proof (elements_length r).
        assert (length (elements r) <= length (elements ts)).
        { pose proof (rg_elements a ts (cgroup_new id)) as R. rewrite E in R. eapply rg_length; eauto. }
        destruct b; [|reflexivity]. apply IH; lia. }
      apply IH; lia.
    + cbn [elements filter] in *. fold (elements ts) in *. cbn [length] in H2. destruct f2 as [|f2]; [lia|].
      cbn [read_list]. apply IH; lia.
    + cbn [elements filter] in *. fold (elements ts) in *. cbn [read_list]. apply IH; lia.
    + cbn [elements filter] in *. fold (elements ts) in *. cbn [length] in H2. destruct f2 as [|f2]; [lia|]. reflexivity.
Qed.
Lemma read_group_list_elements id ts acc :
  read_group_list id ts acc = read_group_list id (elements ts) acc.
Proof. apply (read_list_elements id (length ts)); lia. Qed.
Lemma read_list_total id ts : forall acc, exists r, read_group_list id ts acc = Some r.
Proof.
  unfold read_group_list. generalize 0%Z. intros d.
  assert (K : forall n ts, length ts <= n -> forall d acc f, length ts < f -> exists r, read_list f id d ts acc = Some r).
  { clear. induction n as [|n IH]; intros ts Hn d acc f H.
    - destruct ts; [|cbn in Hn; lia]. destruct f; [lia|]. cbn. eauto.
    - destruct f as [|f]; [lia|]. destruct ts as [|t ts]; [cbn; eauto|]. cbn in Hn, H.
      destruct t as [nm a|nm| |]; cbn [read_list]; try (apply IH; lia); eauto.
      destruct (d + 1 =? 1)%Z. { destruct (leqb nm eList); [apply IH; lia|eauto]. }
      destruct (d + 1 =? 2)%Z; [|apply IH; lia].
      destruct (leqb nm eGroup); [|eauto].
      destruct (read_group a ts (cgroup_new id)) as [[g' b] r] eqn:E.
      pose proof (rg_length _ _ _ _ _ _ E). destruct b; [apply IH; lia|eauto]. }
  intros acc. apply (K (length ts)); lia.
Qed.
Lemma read_single_elements ts : forall g, read_single ts g = read_single (elements ts) g.
Proof.
  induction ts as [|t ts IH]; intros g; [reflexivity|]. destruct t as [n a|n| |]; cbn [read_single elements filter]; auto.
  fold (elements ts). rewrite rg_elements. destruct (leqb n eGroup); auto. destruct (read_group a ts g) as [[? ?] ?]. auto.
Qed.

(** reading what was written *)
Definition clean_ref (r : cref) := mkCref (cr_uid r) (cr_gid r) (cr_email r) [].
Definition clean_gref (r : gref) := mkGref (gr_uid r) [].
Definition clean_data (d : cdata) := mkCdata (cd_name d) (cd_email d) [].
Definition ref_ok (r : cref) := nonempty (cr_uid r) || nonempty (cr_gid r).

Lemma attr_ref r :
  read_ref ((kUid, cr_uid r) :: (kGid, cr_gid r) :: (if isnil (cr_email r) then [] else [(kPreferred, cr_email r)]))
  = if ref_ok r then Some (clean_ref r) else None.
Proof.
  unfold read_ref, ref_ok, nonempty. destruct r as [u g e c]. cbn [cr_uid cr_gid cr_email].
  destruct u, g, e; reflexivity.
Qed.
Lemma attr_gref r : read_gref [(kUid, gr_uid r)] = if nonempty (gr_uid r) then Some (clean_gref r) else None.
Proof. destruct r as [u c]. destruct u; reflexivity. Qed.
Lemma attr_data d :
  read_data [(kName, cd_name d); (kEmail, cd_email d)] = if nonempty (cd_email d) then Some (clean_data d) else None.
Proof. destruct d as [n e c]. destruct n, e; reflexivity. Qed.

Lemma rm_refs l rest : forall g,
  if forallb ref_ok l
  then read_members (flat_map write_ref l ++ rest) g
       = read_members rest (mkCgroup (cg_id g) (cg_name g) (cg_refs g ++ map clean_ref l) (cg_grefs g) (cg_data g))
  else exists g' r, read_members (flat_map write_ref l ++ rest) g = (g', false, r).
Proof.
  induction l as [|x l IH]; intros g.
  - cbn. rewrite app_nil_r. destruct g; reflexivity.
  - cbn [forallb flat_map write_ref app read_members]. change (leqb eRef eData) with false.
    change (leqb eRef eRef) with true. cbv iota. rewrite attr_ref. destruct (ref_ok x); cbn [andb].
    + specialize (IH (cg_append_ref (clean_ref x) g)). change (leqb eRef eGroup) with false. cbv iota.
      destruct (forallb ref_ok l); [|exact IH]. rewrite IH. cbn. rewrite <- app_assoc. reflexivity.
    + eauto.
Qed.
Lemma rm_grefs l rest : forall g,
  if forallb (fun r => nonempty (gr_uid r)) l
  then read_members (flat_map write_gref l ++ rest) g
       = read_members rest (mkCgroup (cg_id g) (cg_name g) (cg_refs g) (cg_grefs g ++ map clean_gref l) (cg_data g))
  else exists g' r, read_members (flat_map write_gref l ++ rest) g = (g', false, r).
Proof.
  induction l as [|x l IH]; intros g.
  - cbn. rewrite app_nil_r. destruct g; reflexivity.
  - cbn [forallb flat_map write_gref app read_members]. change (leqb eGref eData) with false.
    change (leqb eGref eRef) with false. change (leqb eGref eGref) with true. cbv iota. rewrite attr_gref.
    destruct (nonempty (gr_uid x)); cbn [andb].
    + specialize (IH (cg_append_gref (clean_gref x) g)). change (leqb eGref eGroup) with false. cbv iota.
      destruct (forallb _ l); [|exact IH]. rewrite IH. cbn. rewrite <- app_assoc. reflexivity.
    + eauto.
Qed.
Lemma rm_data l rest : forall g,
  if forallb (fun d => nonempty (cd_email d)) l
  then read_members (flat_map write_data l ++ rest) g
       = read_members rest (mkCgroup (cg_id g) (cg_name g) (cg_refs g) (cg_grefs g) (cg_data g ++ map clean_data l))
  else exists g' r, read_members (flat_map write_data l ++ rest) g = (g', false, r).
Proof.
  induction l as [|x l IH]; intros g.
  - cbn. rewrite app_nil_r. destruct g; reflexivity.
  - cbn [forallb flat_map write_data app read_members]. change (leqb eData eData) with true. cbv iota. rewrite attr_data.
    destruct (nonempty (cd_email x)); cbn [andb].
    + specialize (IH (cg_append_data (clean_data x) g)). change (leqb eData eGroup) with false. cbv iota.
      destruct (forallb _ l); [|exact IH]. rewrite IH. cbn. rewrite <- app_assoc. reflexivity.
    + eauto.
Qed.
Lemma rg_written g0 g rest :
  if acceptable g
  then read_group [(kUid, cg_id g); (kName, cg_name g)] (tl (write_group g) ++ rest) g0
       = (merged g0 (without_customs g), true, rest)
  else exists g' r, read_group [(kUid, cg_id g); (kName, cg_name g)] (tl (write_group g) ++ rest) g0 = (g', false, r).
Proof.
  unfold acceptable, read_group, nonempty. change (attr kUid [(kUid, cg_id g); (kName, cg_name g)]) with (cg_id g).
  change (attr kName [(kUid, cg_id g); (kName, cg_name g)]) with (cg_name g).
  destruct (isnil (cg_id g)); [cbn; eauto|]. destruct (isnil (cg_name g)); [cbn; eauto|]. cbn [negb andb].
  cbn [write_group tl]. rewrite <- !app_assoc.
  set (g1 := cg_set_name (cg_name g) (cg_set_id (cg_id g) g0)).
  pose proof (rm_refs (cg_refs g) (flat_map write_gref (cg_grefs g) ++ flat_map write_data (cg_data g) ++ [XEnd eGroup] ++ rest) g1) as R1.
  change (fun r => negb (isnil (cr_uid r)) || negb (isnil (cr_gid r))) with ref_ok.
  destruct (forallb ref_ok (cg_refs g)); [|exact R1]. rewrite R1. clear R1. cbn [andb].
  match goal with |- context [read_members _ ?x] => set (g2 := x) end.
  pose proof (rm_grefs (cg_grefs g) (flat_map write_data (cg_data g) ++ [XEnd eGroup] ++ rest) g2) as R2. unfold nonempty in R2.
  destruct (forallb _ (cg_grefs g)); [|exact R2]. rewrite R2. clear R2. cbn [andb].
  match goal with |- context [read_members _ ?x] => set (g3 := x) end.
  pose proof (rm_data (cg_data g) ([XEnd eGroup] ++ rest) g3) as R3. unfold nonempty in R3.
  destruct (forallb _ (cg_data g)); [|exact R3]. rewrite R3. reflexivity.
Qed.

Lemma read_list_written id gs : forall f acc, length (flat_map write_group gs) + 1 < f ->
  read_list f id 1 (flat_map write_group gs ++ [XEnd eList]) acc
  = Some (acc ++ map without_customs (accepted_prefix gs), forallb acceptable gs).
Proof.
  induction gs as [|g gs IH]; intros f acc Hf.
  - destruct f as [|[|f]]; cbn in Hf; try lia. cbn. rewrite app_nil_r. reflexivity.
  - destruct f as [|f]; [lia|]. cbn [flat_map accepted_prefix forallb]. rewrite <- app_assoc.
    assert (W : write_group g = XStart eGroup [(kUid, cg_id g); (kName, cg_name g)] :: tl (write_group g)) by reflexivity.
    rewrite W. cbn [app read_list]. change (1 + 1 =? 1)%Z with false. change (1 + 1 =? 2)%Z with true.
    change (leqb eGroup eGroup) with true. cbv iota.
    pose proof (rg_written (cgroup_new id) g (flat_map write_group gs ++ [XEnd eList])) as R.
    destruct (acceptable g); cbn [andb].
    + rewrite R. change (1 + 1 - 1)%Z with 1%Z. rewrite IH.
      * cbn [map]. rewrite <- app_assoc. reflexivity.
      * cbn [flat_map] in Hf. rewrite app_length in Hf. rewrite W in Hf. cbn [length] in Hf. lia.
    + destruct R as (g' & r & ->). cbn. rewrite app_nil_r. reflexivity.
Qed.
Lemma group_list_roundtrip id gs acc ts :
  elements ts = write_list gs ->
  read_group_list id ts acc
  = Some (acc ++ map without_customs (accepted_prefix gs), forallb acceptable gs).
Proof.
  intros H. rewrite read_group_list_elements, H. unfold read_group_list, write_list.
  cbn [length]. set (n := S (length (flat_map write_group gs ++ [XEnd eList]))).
  assert (Hn : length (flat_map write_group gs) + 1 < n) by (unfold n; rewrite app_length; cbn [length]; lia).
  clearbody n. cbn [read_list]. change (0 + 1 =? 1)%Z with true. change (leqb eList eList) with true. cbv iota.
  change (0 + 1)%Z with 1%Z. apply read_list_written. exact Hn.
Qed.
Lemma group_roundtrip g g0 ts :
  elements ts = write_single g ->
  if acceptable g then read_single ts g0 = (merged g0 (without_customs g), true)
  else snd (read_single ts g0) = false.
Proof.
  intros H. rewrite read_single_elements, H. unfold write_single.
  assert (W : write_group g = XStart eGroup [(kUid, cg_id g); (kName, cg_name g)] :: tl (write_group g)) by reflexivity.
  rewrite W. cbn [read_single]. change (leqb eGroup eGroup) with true. cbv iota.
  pose proof (rg_written g0 g []) as R. rewrite app_nil_r in R.
  destruct (acceptable g); [rewrite R; reflexivity|]. destruct R as (g' & r & ->). reflexivity.
Qed.
Lemma accepted_all gs : forallb acceptable gs = true -> accepted_prefix gs = gs.
Proof.
  induction gs as [|g gs IH]; cbn; [auto|]. destruct (acceptable g); [|discriminate]. cbn. intros H. f_equal; auto.
Qed.
