(** Documents of contact groups (C79): lemmas. *)
From Verif Require Import Base BaseFacts M_ContactGroup S_ContactGroup P_ContactGroup S_GroupDoc.

Lemma attr_in k v l : NoDup (map fst l) -> In (k, v) l -> attr k l = v.
Proof.
  induction l as [|[q w] l IH]; [intros _ []|]. cbn [map fst attr]. intros Hn [H|H].
  - injection H as -> ->. rewrite leqb_refl. reflexivity.
  - inversion Hn as [|? ? H1 H2]; subst. destruct (leqb q k) eqn:E; [|auto].
    apply leqb_eq in E. subst. destruct H1. apply (in_map fst _ _ H).
Qed.
Lemma attr_none k l : ~ In k (map fst l) -> attr k l = [].
Proof.
  induction l as [|[q w] l IH]; [reflexivity|]. cbn [map fst attr In]. intros H.
  destruct (leqb q k) eqn:E; [apply leqb_eq in E; tauto|]. apply IH. tauto.
Qed.
Lemma gives_attr l k v : NoDup (map fst l) -> gives l k v -> attr (B k) l = v.
Proof. intros Hn [H|[-> H]]; [apply attr_in; auto|apply attr_none; auto]. Qed.
Lemma attr_gives l k : gives l k (attr (B k) l).
Proof.
  unfold gives. generalize (B k). intros q. induction l as [|[p w] l IH]; cbn [map fst attr In]; [right; auto|].
  destruct (leqb p q) eqn:E; [apply leqb_eq in E; subst; auto|].
  destruct IH as [H|[H1 H2]]; [auto|]. right. split; [auto|]. intros [->|H]; [rewrite leqb_refl in E; discriminate|auto].
Qed.

Definition with_member (g : cgroup) (m : member) : cgroup :=
  match m with
  | ARef u i e => cg_append_ref (mkCref u i e []) g
  | AGref u => cg_append_gref (mkGref u []) g
  | AData n e => cg_append_data (mkCdata n e []) g
  end.
Lemma not_nil {A} (l : list A) : l <> [] -> isnil l = false.
Proof. destruct l; [congruence|reflexivity]. Qed.
Lemma read_stated e m rest g : NoDup (map fst (snd e)) -> states e m ->
  read_members (tokens_of e ++ rest) g = read_members rest (with_member g m).
Proof.
  destruct e as [n at_]. cbn [fst snd]. intros Hn H. unfold tokens_of. cbn [fst snd app].
  destruct m as [u i e|u|n' e]; cbn [states fst snd] in H.
  - destruct H as (-> & Hu & Hg & He & Hne). cbn [read_members].
    change (leqb (B "contactReference") eData) with false. change (leqb (B "contactReference") eRef) with true.
    change (leqb (B "contactReference") eGroup) with false. cbv iota.
    unfold read_ref. unfold kUid, kGid, kPreferred.
    rewrite (gives_attr _ _ _ Hn Hu), (gives_attr _ _ _ Hn Hg), (gives_attr _ _ _ Hn He).
    replace (isnil u && isnil i) with false; [reflexivity|]. destruct u, i; try reflexivity. destruct Hne. reflexivity.
  - destruct H as (-> & Hu & Hne). cbn [read_members].
    change (leqb (B "contactGroupReference") eData) with false. change (leqb (B "contactGroupReference") eRef) with false.
    change (leqb (B "contactGroupReference") eGref) with true.
    change (leqb (B "contactGroupReference") eGroup) with false. cbv iota.
    unfold read_gref, kUid. rewrite (gives_attr _ _ _ Hn Hu), (not_nil _ Hne). reflexivity.
  - destruct H as (-> & Hu & He & Hne). cbn [read_members].
    change (leqb (B "contactData") eData) with true.
    change (leqb (B "contactData") eGroup) with false. cbv iota.
    unfold read_data, kEmail, kName. rewrite (gives_attr _ _ _ Hn Hu), (gives_attr _ _ _ Hn He), (not_nil _ Hne). reflexivity.
Qed.
Lemma states_or e : NoDup (map fst (snd e)) -> (exists m, states e m) \/ (forall m, ~ states e m) /\
  forall rest g, snd (fst (read_members (tokens_of e ++ rest) g)) = false.
Proof.
  destruct e as [n at_]. cbn [fst snd]. intros Hn. unfold tokens_of. cbn [fst snd app].
  destruct (leqb n (B "contactReference")) eqn:E1; [apply leqb_eq in E1; subst|].
  { pose proof (attr_gives at_ "uid") as U. pose proof (attr_gives at_ "gid") as G. pose proof (attr_gives at_ "preferredEmail") as P.
    destruct (isnil (attr (B "uid") at_) && isnil (attr (B "gid") at_)) eqn:E.
    - right. split.
      + intros [u i e|u|n e] H; cbn [states fst snd] in H.
        * destruct H as (_ & Hu & Hg & He & Hne). rewrite (gives_attr _ _ _ Hn Hu), (gives_attr _ _ _ Hn Hg) in E.
          destruct u, i; try discriminate. auto.
        * destruct H as (H & _). vm_compute in H. discriminate.
        * destruct H as (H & _). vm_compute in H. discriminate.
      + intros rest g. cbn [read_members].
        change (leqb (B "contactReference") eData) with false. change (leqb (B "contactReference") eRef) with true. cbv iota.
        unfold read_ref, kUid, kGid. rewrite E. reflexivity.
    - left. eexists (ARef _ _ _). cbn [states fst snd]. repeat split; eauto.
      intros K. apply app_eq_nil in K. destruct K as [K1 K2]. rewrite K1, K2 in E. discriminate. }
  destruct (leqb n (B "contactGroupReference")) eqn:E2; [apply leqb_eq in E2; subst|].
  { pose proof (attr_gives at_ "uid") as U.
    destruct (isnil (attr (B "uid") at_)) eqn:E.
    - right. split.
      + intros [u i e|u|n e] H; cbn [states fst snd] in H.
        * destruct H as (H & _). vm_compute in H. discriminate.
        * destruct H as (_ & Hu & Hne). rewrite (gives_attr _ _ _ Hn Hu), (not_nil _ Hne) in E. discriminate.
        * destruct H as (H & _). vm_compute in H. discriminate.
      + intros rest g. cbn [read_members].
        change (leqb (B "contactGroupReference") eData) with false. change (leqb (B "contactGroupReference") eRef) with false.
        change (leqb (B "contactGroupReference") eGref) with true. cbv iota.
        unfold read_gref, kUid. rewrite E. reflexivity.
    - left. eexists (AGref _). cbn [states fst snd]. repeat split; eauto. intros K. rewrite K in E. discriminate. }
  destruct (leqb n (B "contactData")) eqn:E3; [apply leqb_eq in E3; subst|].
  { pose proof (attr_gives at_ "name") as U. pose proof (attr_gives at_ "email") as P.
    destruct (isnil (attr (B "email") at_)) eqn:E.
    - right. split.
      + intros [u i e|u|n e] H; cbn [states fst snd] in H.
        * destruct H as (H & _). vm_compute in H. discriminate.
        * destruct H as (H & _). vm_compute in H. discriminate.
        * destruct H as (_ & _ & Hu & Hne). rewrite (gives_attr _ _ _ Hn Hu), (not_nil _ Hne) in E. discriminate.
      + intros rest g. cbn [read_members]. change (leqb (B "contactData") eData) with true. cbv iota.
        unfold read_data, kEmail. rewrite E. reflexivity.
    - left. eexists (AData _ _). cbn [states fst snd]. repeat split; eauto. intros K. rewrite K in E. discriminate. }
  right. split.
  - intros [u i e|u|n' e] H; cbn [states fst snd] in H; destruct H as (-> & _); rewrite leqb_refl in *; discriminate.
  - intros rest g. cbn [read_members]. unfold eRef, eGref, eData. rewrite E1, E2, E3. reflexivity.
Qed.
Lemma read_members_stated es ms rest : Forall (fun e : element => NoDup (map fst (snd e))) es -> Forall2 states es ms ->
  forall g, read_members (flat_map tokens_of es ++ rest) g = read_members rest (fold_left with_member ms g).
Proof.
  intros Hn H. induction H as [|e m es ms H1 H IH]; intros g; [reflexivity|]. inversion Hn; subst.
  cbn [flat_map fold_left]. rewrite <- app_assoc, (read_stated e m); auto.
Qed.
Lemma read_members_faulty es rest : Forall (fun e : element => NoDup (map fst (snd e))) es ->
  (exists e, In e es /\ forall m, ~ states e m) ->
  forall g, snd (fst (read_members (flat_map tokens_of es ++ rest) g)) = false.
Proof.
  intros Hn (e & Hin & He). induction es as [|x es IH]; [destruct Hin|]. inversion Hn; subst. intros g.
  cbn [flat_map]. rewrite <- app_assoc. destruct (states_or x H1) as [[m Hm]|[_ K]]; [|apply K].
  rewrite (read_stated x m); auto. destruct Hin as [->|Hin]; [destruct (He _ Hm)|auto].
Qed.
Lemma all_states es : Forall (fun e : element => NoDup (map fst (snd e))) es ->
  (exists ms, Forall2 states es ms) \/ exists e, In e es /\ forall m, ~ states e m.
Proof.
  intros H. induction H as [|e es H1 H IH]; [left; exists []; constructor|].
  destruct (states_or e H1) as [[m Hm]|[K _]]; [|right; exists e; cbn; auto].
  destruct IH as [[ms Hms]|(x & Hx & K)]; [left; exists (m :: ms); auto|right; exists x; cbn; auto].
Qed.
Lemma fold_members ms : forall g,
  fold_left with_member ms g =
  mkCgroup (cg_id g) (cg_name g) (cg_refs g ++ cg_refs (group_of [] [] ms)) (cg_grefs g ++ cg_grefs (group_of [] [] ms)) (cg_data g ++ cg_data (group_of [] [] ms)).
Proof.
  induction ms as [|m ms IH]; intros g; cbn [fold_left].
  - cbn. rewrite !app_nil_r. destruct g; reflexivity.
  - rewrite IH. destruct m; cbn; rewrite <- ?app_assoc; reflexivity.
Qed.
Lemma read_group_tells d g rest g0 : well_formed d -> tells d g ->
  read_group (fst d) (flat_map tokens_of (snd d) ++ [XEnd (B "contactGroup")] ++ rest) g0 = (merged g0 g, true, rest).
Proof.
  intros (Hn & Hm) (id & name & ms & (Hid & Hname & H1 & H2) & Hs & ->). unfold read_group, kUid, kName.
  rewrite (gives_attr _ _ _ Hn Hid), (gives_attr _ _ _ Hn Hname), (not_nil _ H1), (not_nil _ H2).
  rewrite (read_members_stated _ ms); auto. rewrite fold_members. reflexivity.
Qed.
Lemma read_group_faulty d rest g0 : well_formed d -> faulty d ->
  snd (fst (read_group (fst d) (flat_map tokens_of (snd d) ++ rest) g0)) = false.
Proof.
  intros (Hn & Hm) H. unfold read_group, kUid, kName.
  destruct (isnil (attr (B "uid") (fst d))) eqn:E1; [reflexivity|].
  destruct (isnil (attr (B "name") (fst d))) eqn:E2; [reflexivity|].
  destruct H as [H|H]; [|apply read_members_faulty; auto]. exfalso.
  apply (H (attr (B "uid") (fst d)) (attr (B "name") (fst d))). repeat split; try apply attr_gives; intros K; rewrite K in *; discriminate.
Qed.
Lemma tells_or d : well_formed d -> (exists g, tells d g) \/ faulty d.
Proof.
  intros (Hn & Hm). destruct (isnil (attr (B "uid") (fst d))) eqn:E1.
  { right. left. intros id name (H1 & H2 & H3 & H4). rewrite (gives_attr _ _ _ Hn H1), (not_nil _ H3) in E1. discriminate. }
  destruct (isnil (attr (B "name") (fst d))) eqn:E2.
  { right. left. intros id name (H1 & H2 & H3 & H4). rewrite (gives_attr _ _ _ Hn H2), (not_nil _ H4) in E2. discriminate. }
  destruct (all_states _ Hm) as [[ms H]|H]; [left|right; right; exact H].
  eexists. eexists _, _, ms. split; [|split; [exact H|reflexivity]].
  repeat split; try apply attr_gives; intros K; rewrite K in *; discriminate.
Qed.
Lemma merged_new id g : merged (cgroup_new id) g = g.
Proof. destruct g; reflexivity. Qed.

Lemma read_list_tells id ds gs rest : Forall well_formed ds -> Forall2 tells ds gs ->
  forall f acc, length (flat_map tokens_of_group ds) < f ->
  exists f', f <= f' + length (flat_map tokens_of_group ds) /\
  read_list f id 1 (flat_map tokens_of_group ds ++ rest) acc = read_list f' id 1 rest (acc ++ gs).
Proof.
  intros Hw H. induction H as [|d g ds gs H1 H IH]; intros f acc Hf.
  - exists f. cbn. rewrite app_nil_r. split; [lia|reflexivity].
  - inversion Hw as [|? ? W1 W2]; subst. destruct f as [|f]; [lia|].
    assert (L : 1 <= length (tokens_of_group d)) by (cbn; lia).
    cbn [flat_map] in *. rewrite app_length in *. destruct (IH W2 f (acc ++ [g])) as (f' & Hb & E); [lia|].
    exists f'. split; [lia|]. unfold tokens_of_group at 1. cbn [app read_list]. change (1 + 1 =? 1)%Z with false. change (1 + 1 =? 2)%Z with true.
    change (leqb (B "contactGroup") eGroup) with true. cbv iota. rewrite <- !app_assoc.
    rewrite (read_group_tells d g _ _ W1 H1), merged_new. change (1 + 1 - 1)%Z with 1%Z. rewrite E, <- app_assoc. reflexivity.
Qed.
Lemma group_list_tells id at_ ds gs acc ts : Forall well_formed ds -> Forall2 tells ds gs ->
  elements ts = tokens_of_list at_ ds -> read_group_list id ts acc = Some (acc ++ gs, true).
Proof.
  intros Hw H E. rewrite read_group_list_elements, E. unfold read_group_list, tokens_of_list. cbn [length].
  rewrite app_length. cbn [length]. set (n := S (length _ + 1)). cbn [read_list]. change (0 + 1 =? 1)%Z with true.
  change (leqb (B "contactGroupList") eList) with true. cbv iota. change (0 + 1)%Z with 1%Z.
  destruct (read_list_tells id ds gs [XEnd (B "contactGroupList")] Hw H n acc) as (f' & Hf & ->); [unfold n; lia|].
  destruct f' as [|[|f']]; [unfold n in Hf; lia|unfold n in Hf; lia|]. reflexivity.
Qed.
Lemma group_list_faulty id at_ ds d ds' gs acc ts : Forall well_formed ds -> Forall2 tells ds gs -> well_formed d -> faulty d ->
  elements ts = tokens_of_list at_ (ds ++ d :: ds') -> read_group_list id ts acc = Some (acc ++ gs, false).
Proof.
  intros Hw H Wd Hd E. rewrite read_group_list_elements, E. unfold read_group_list, tokens_of_list. cbn [length].
  rewrite flat_map_app, <- app_assoc, app_length. cbn [length]. 
  match goal with |- context [read_list (S (S ?x))] => set (n := S x) end. cbn [read_list]. change (0 + 1 =? 1)%Z with true.
  change (leqb (B "contactGroupList") eList) with true. cbv iota. change (0 + 1)%Z with 1%Z.
  match goal with |- context [flat_map tokens_of_group ds ++ ?r] => set (rest := r) in * end.
  destruct (read_list_tells id ds gs rest Hw H n acc) as (f' & Hf & ->); [unfold n; lia|].
  destruct f' as [|f']; [unfold n in Hf; lia|]. unfold rest. cbn [flat_map]. unfold tokens_of_group at 1.
  cbn [app read_list]. change (1 + 1 =? 1)%Z with false. change (1 + 1 =? 2)%Z with true.
  change (leqb (B "contactGroup") eGroup) with true. cbv iota. rewrite <- !app_assoc.
  pose proof (read_group_faulty d ([XEnd (B "contactGroup")] ++ flat_map tokens_of_group ds' ++ [XEnd (B "contactGroupList")]) (cgroup_new id) Wd Hd) as K.
  destruct (read_group _ _ _) as [[g b] r]. cbn [fst snd] in K. subst. reflexivity.
Qed.
Lemma group_tells d g g0 ts : well_formed d -> tells d g -> elements ts = tokens_of_group d ->
  read_single ts g0 = (merged g0 g, true).
Proof.
  intros Hw H E. rewrite read_single_elements, E. unfold tokens_of_group. cbn [read_single].
  change (leqb (B "contactGroup") eGroup) with true. cbv iota.
  pose proof (read_group_tells d g [] g0 Hw H) as K. rewrite app_nil_r in K. rewrite K. reflexivity.
Qed.
Lemma group_faulty d g0 ts : well_formed d -> faulty d -> elements ts = tokens_of_group d ->
  snd (read_single ts g0) = false.
Proof.
  intros Hw H E. rewrite read_single_elements, E. unfold tokens_of_group. cbn [read_single].
  change (leqb (B "contactGroup") eGroup) with true. cbv iota. apply read_group_faulty; auto.
Qed.

(** what is written *)
Definition text_of (g : cgroup) : group_text :=
  ([(B "uid", cg_id g); (B "name", cg_name g)],
   map (fun r => (B "contactReference", [(B "uid", cr_uid r); (B "gid", cr_gid r)] ++ (if isnil (cr_email r) then [] else [(B "preferredEmail", cr_email r)]))) (cg_refs g)
   ++ map (fun r => (B "contactGroupReference", [(B "uid", gr_uid r)])) (cg_grefs g)
   ++ map (fun d => (B "contactData", [(B "name", cd_name d); (B "email", cd_email d)])) (cg_data g)).
Lemma flat_map_map {A B C} (f : B -> list C) (h : A -> B) l : flat_map f (map h l) = flat_map (fun x => f (h x)) l.
Proof. induction l; cbn; congruence. Qed.
Lemma written_text g : write_group g = tokens_of_group (text_of g).
Proof.
  unfold write_group, tokens_of_group, text_of. cbn [fst snd]. rewrite !flat_map_app, !flat_map_map, <- !app_assoc. reflexivity.
Qed.
Lemma text_well_formed g : well_formed (text_of g).
Proof.
  split; cbn [fst snd text_of].
  - repeat constructor; cbv; intuition discriminate.
  - rewrite !Forall_app, !Forall_map. repeat split; apply Forall_forall; intros x _; cbn [snd].
    + destruct (isnil (cr_email x)); repeat constructor; cbv; intuition discriminate.
    + repeat constructor; cbv; intuition discriminate.
    + repeat constructor; cbv; intuition discriminate.
Qed.
Lemma flat_map_none {A C} (l : list A) : flat_map (fun _ => @nil C) l = [].
Proof. induction l; cbn; auto. Qed.
Lemma flat_map_one {A C} (h : A -> C) l : flat_map (fun x => [h x]) l = map h l.
Proof. induction l; cbn; congruence. Qed.
Lemma text_tells g : acceptable g = true -> tells (text_of g) (without_customs g).
Proof.
  unfold acceptable, nonempty. rewrite !andb_true_iff. intros ((((H1 & H2) & H3) & H4) & H5).
  assert (N : forall s : ustring, negb (isnil s) = true -> s <> []) by (intros [|]; discriminate).
  exists (cg_id g), (cg_name g),
    (map (fun r => ARef (cr_uid r) (cr_gid r) (cr_email r)) (cg_refs g) ++ map (fun r => AGref (gr_uid r)) (cg_grefs g)
     ++ map (fun d => AData (cd_name d) (cd_email d)) (cg_data g)).
  split; [|split].
  - repeat split; auto; left; cbn; auto.
  - cbn [snd text_of]. repeat apply Forall2_app.
    + clear - H3 N. induction (cg_refs g) as [|r l IH]; [constructor|]. cbn [forallb map] in *. apply andb_true_iff in H3. destruct H3 as [H3 H].
      constructor; [|auto]. cbn [states fst snd]. repeat split.
      * left. cbn. auto.
      * left. cbn. auto.
      * destruct (cr_email r); [right; split; [reflexivity|cbv; intuition discriminate]|left; cbn; auto].
      * intros K. apply app_eq_nil in K. destruct K as [K1 K2]. rewrite K1, K2 in H3. discriminate.
    + clear - H4 N. induction (cg_grefs g) as [|r l IH]; [constructor|]. cbn [forallb map] in *. apply andb_true_iff in H4. destruct H4 as [H3 H].
      constructor; [|auto]. cbn [states fst snd]. repeat split; auto. left. cbn. auto.
    + clear - H5 N. induction (cg_data g) as [|r l IH]; [constructor|]. cbn [forallb map] in *. apply andb_true_iff in H5. destruct H5 as [H3 H].
      constructor; [|auto]. cbn [states fst snd]. repeat split; auto; left; cbn; auto.
  - unfold without_customs, group_of. rewrite !flat_map_app, !flat_map_map.
    rewrite !flat_map_none, !flat_map_one, !app_nil_r. reflexivity.
Qed.
Lemma group_list_stops id at_ ds gs acc ts t rest : Forall well_formed ds -> Forall2 tells ds gs ->
  t = XInvalid \/ (exists n at', t = XStart n at' /\ n <> B "contactGroup") ->
  elements ts = XStart (B "contactGroupList") at_ :: flat_map tokens_of_group ds ++ t :: rest ->
  read_group_list id ts acc = Some (acc ++ gs, false).
Proof.
  intros Hw H Ht E. rewrite read_group_list_elements, E. unfold read_group_list. cbn [length].
  rewrite app_length. cbn [length]. set (n := S (length _ + S _)). cbn [read_list]. change (0 + 1 =? 1)%Z with true.
  change (leqb (B "contactGroupList") eList) with true. cbv iota. change (0 + 1)%Z with 1%Z.
  destruct (read_list_tells id ds gs (t :: rest) Hw H n acc) as (f' & Hf & ->); [unfold n; lia|].
  destruct f' as [|f']; [unfold n in Hf; lia|]. destruct Ht as [->|(m & at' & -> & Hm)]; [reflexivity|].
  cbn [read_list]. change (1 + 1 =? 1)%Z with false. change (1 + 1 =? 2)%Z with true. cbv iota.
  unfold eGroup. rewrite (proj2 (leqb_neq m (B "contactGroup")) Hm). reflexivity.
Qed.
Lemma text_faulty g : acceptable g = false -> faulty (text_of g).
Proof.
  intros Ha. destruct (tells_or _ (text_well_formed g)) as [[g' H]|H]; [exfalso|exact H].
  pose proof (rg_written (cgroup_new []) g []) as R. rewrite Ha in R. destruct R as (x & r & R).
  pose proof (read_group_tells _ _ [] (cgroup_new []) (text_well_formed g) H) as K.
  assert (E : tl (write_group g) = flat_map tokens_of (snd (text_of g)) ++ [XEnd (B "contactGroup")]) by (rewrite written_text; reflexivity).
  rewrite E, <- app_assoc in R. pose proof (eq_trans (eq_sym R) K) as Q. discriminate Q.
Qed.
