(** Messages about documents of contact groups (C87): lemmas. *)
From Verif Require Import Base BaseFacts M_ContactGroup S_ContactGroup P_ContactGroup S_GroupDoc P_GroupDoc M_GroupError S_GroupError.

Lemma members_error_elements lib ts : members_error lib (elements ts) = members_error lib ts.
Proof.
  induction ts as [|t ts IH]; [reflexivity|]. unfold elements in *. destruct t as [n at_|n| |]; cbn [filter members_error]; rewrite ?IH; reflexivity.
Qed.
Lemma single_error_elements lib ts : single_error lib ts = single_error lib (elements ts).
Proof.
  induction ts as [|t ts IH]; [reflexivity|]. unfold elements in *. destruct t as [n at_|n| |]; cbn [filter single_error]; rewrite ?IH; try reflexivity.
  destruct (leqb n eGroup); [|reflexivity]. unfold group_error. fold (elements ts). rewrite members_error_elements. reflexivity.
Qed.
Lemma group_error_elements lib at_ ts : group_error lib at_ (elements ts) = group_error lib at_ ts.
Proof. unfold group_error. rewrite members_error_elements. reflexivity. Qed.

Lemma stated_error lib e m rest : NoDup (map fst (snd e)) -> states e m ->
  members_error lib (tokens_of e ++ rest) = members_error lib rest.
Proof.
  destruct e as [n at_]. cbn [fst snd]. intros Hn H. unfold tokens_of. cbn [fst snd app].
  destruct m as [u i e|u|n' e]; cbn [states fst snd] in H.
  - destruct H as (-> & Hu & Hg & He & Hne). cbn [members_error].
    change (leqb (B "contactReference") eData) with false. change (leqb (B "contactReference") eRef) with true.
    change (leqb (B "contactReference") eGroup) with false. cbv iota.
    unfold read_ref. unfold kUid, kGid, kPreferred.
    rewrite (gives_attr _ _ _ Hn Hu), (gives_attr _ _ _ Hn Hg).
    replace (isnil u && isnil i) with false; [reflexivity|]. destruct u, i; try reflexivity. destruct Hne. reflexivity.
  - destruct H as (-> & Hu & Hne). cbn [members_error].
    change (leqb (B "contactGroupReference") eData) with false. change (leqb (B "contactGroupReference") eRef) with false.
    change (leqb (B "contactGroupReference") eGref) with true.
    change (leqb (B "contactGroupReference") eGroup) with false. cbv iota.
    unfold read_gref, kUid. rewrite (gives_attr _ _ _ Hn Hu), (not_nil _ Hne). reflexivity.
  - destruct H as (-> & Hu & He & Hne). cbn [members_error].
    change (leqb (B "contactData") eData) with true.
    change (leqb (B "contactData") eGroup) with false. cbv iota.
    unfold read_data, kEmail, kName. rewrite (gives_attr _ _ _ Hn He), (not_nil _ Hne). reflexivity.
Qed.
Lemma stated_errors lib es ms rest : Forall (fun e : element => NoDup (map fst (snd e))) es -> Forall2 states es ms ->
  members_error lib (flat_map tokens_of es ++ rest) = members_error lib rest.
Proof.
  intros Hn H. induction H as [|e m es ms H1 H IH]; [reflexivity|]. inversion Hn; subst.
  cbn [flat_map]. rewrite <- app_assoc, (stated_error lib e m); auto.
Qed.
Lemma complaint_error lib e m rest : NoDup (map fst (snd e)) -> complaint e m ->
  members_error lib (tokens_of e ++ rest) = B m.
Proof.
  destruct e as [n at_]. cbn [fst snd]. intros Hn H. unfold tokens_of. cbn [fst snd app].
  destruct H as [H Hu Hg|H Hu|H He|H]; cbn [fst snd] in *.
  - subst. cbn [members_error].
    change (leqb (B "contactReference") eData) with false. change (leqb (B "contactReference") eRef) with true. cbv iota.
    unfold read_ref, kUid, kGid. rewrite (gives_attr _ _ _ Hn Hu), (gives_attr _ _ _ Hn Hg). reflexivity.
  - subst. cbn [members_error].
    change (leqb (B "contactGroupReference") eData) with false. change (leqb (B "contactGroupReference") eRef) with false.
    change (leqb (B "contactGroupReference") eGref) with true. cbv iota.
    unfold read_gref, kUid. rewrite (gives_attr _ _ _ Hn Hu). reflexivity.
  - subst. cbn [members_error]. change (leqb (B "contactData") eData) with true. cbv iota.
    unfold read_data, kEmail. rewrite (gives_attr _ _ _ Hn He). reflexivity.
  - cbn [members_error]. cbn [map In] in H. unfold eData, eRef, eGref.
    rewrite !(proj2 (leqb_neq n _)); [reflexivity|..]; intros ->; tauto.
Qed.
Lemma complaint_not e m : NoDup (map fst (snd e)) -> complaint e m -> forall x, ~ states e x.
Proof.
  destruct e as [n at_]. cbn [fst snd]. intros Hn H x S. destruct H as [H Hu Hg|H Hu|H He|H]; cbn [fst snd] in *.
  - subst. destruct x as [u i e|u|n e]; cbn [states fst snd] in S; [|destruct S as [S _]; vm_compute in S; discriminate..].
    destruct S as (_ & A & C & _ & D). rewrite <- (gives_attr _ _ _ Hn A), <- (gives_attr _ _ _ Hn C), (gives_attr _ _ _ Hn Hu), (gives_attr _ _ _ Hn Hg) in D. auto.
  - subst. destruct x as [u i e|u|n e]; cbn [states fst snd] in S; [destruct S as [S _]; vm_compute in S; discriminate| |destruct S as [S _]; vm_compute in S; discriminate].
    destruct S as (_ & A & D). rewrite <- (gives_attr _ _ _ Hn A), (gives_attr _ _ _ Hn Hu) in D. auto.
  - subst. destruct x as [u i e|u|n e]; cbn [states fst snd] in S; [destruct S as [S _]; vm_compute in S; discriminate..|].
    destruct S as (_ & _ & A & D). rewrite <- (gives_attr _ _ _ Hn A), (gives_attr _ _ _ Hn He) in D. auto.
  - apply H. destruct x; cbn [states fst snd] in S; destruct S as (-> & _); cbn; auto.
Qed.
Lemma complaint_or e : NoDup (map fst (snd e)) -> (exists x, states e x) \/ exists m, complaint e m.
Proof.
  intros Hn. destruct (states_or e Hn) as [H|[H _]]; [left; exact H|right]. destruct e as [n at_]. cbn [fst snd] in *.
  destruct (leqb n (B "contactReference")) eqn:E1; [apply leqb_eq in E1; subst|].
  { eexists. apply no_reference; [reflexivity|..]; cbn [snd].
    - destruct (attr (B "uid") at_) eqn:E; [rewrite <- E; apply attr_gives|]. exfalso. eapply (H (ARef _ _ _)). cbn [states fst snd].
      repeat split; try apply attr_gives. rewrite E. discriminate.
    - destruct (attr (B "gid") at_) eqn:E; [rewrite <- E; apply attr_gives|]. exfalso. eapply (H (ARef _ _ _)). cbn [states fst snd].
      repeat split; try apply attr_gives. rewrite E. intros K. apply app_eq_nil in K. destruct K. discriminate. }
  destruct (leqb n (B "contactGroupReference")) eqn:E2; [apply leqb_eq in E2; subst|].
  { eexists. apply no_group; [reflexivity|]; cbn [snd].
    destruct (attr (B "uid") at_) eqn:E; [rewrite <- E; apply attr_gives|]. exfalso. eapply (H (AGref _)). cbn [states fst snd].
    repeat split; try apply attr_gives. rewrite E. discriminate. }
  destruct (leqb n (B "contactData")) eqn:E3; [apply leqb_eq in E3; subst|].
  { eexists. apply no_address; [reflexivity|]; cbn [snd].
    destruct (attr (B "email") at_) eqn:E; [rewrite <- E; apply attr_gives|]. exfalso. eapply (H (AData _ _)). cbn [states fst snd].
    repeat split; try apply attr_gives. rewrite E. discriminate. }
  eexists. apply no_member. cbn [fst map In]. intros [K|[K|[K|[]]]]; subst; rewrite leqb_refl in *; discriminate.
Qed.

Lemma fault_error lib d m rest : well_formed d -> fault d m ->
  group_error lib (fst d) (flat_map tokens_of (snd d) ++ rest) = B m.
Proof.
  intros (Hn & Hm) [H|id H1 H2 H3|id name es ms e es' x (H1 & H2 & H3 & H4) H5 H6 H7]; unfold group_error, kUid, kName.
  - rewrite (gives_attr _ _ _ Hn H). reflexivity.
  - rewrite (gives_attr _ _ _ Hn H1), (gives_attr _ _ _ Hn H3), (not_nil _ H2). reflexivity.
  - rewrite (gives_attr _ _ _ Hn H1), (gives_attr _ _ _ Hn H2), (not_nil _ H3), (not_nil _ H4).
    rewrite H5 in *. rewrite Forall_app in Hm. destruct Hm as [M1 M2]. inversion M2 as [|? ? M3 M4]; subst.
    rewrite flat_map_app, <- app_assoc, (stated_errors lib es ms); auto. cbn [flat_map]. rewrite <- app_assoc. apply complaint_error; auto.
Qed.
Lemma first_complaint es : Forall (fun e : element => NoDup (map fst (snd e))) es ->
  (exists ms, Forall2 states es ms) \/
  exists before ms e after m, es = before ++ e :: after /\ Forall2 states before ms /\ complaint e m.
Proof.
  intros H. induction H as [|e es H1 H IH]; [left; exists []; constructor|].
  destruct (complaint_or e H1) as [[x Hx]|[m Hm]].
  - destruct IH as [[ms IH]|(b & ms & e' & a & m & -> & IH & C)]; [left; exists (x :: ms); auto|right].
    exists (e :: b), (x :: ms), e', a, m. repeat split; auto.
  - right. exists [], [], e, es, m. repeat split; auto.
Qed.
Lemma faulty_fault d : well_formed d -> (faulty d <-> exists m, fault d m).
Proof.
  intros Hw. assert (Hw' := Hw). destruct Hw' as (Hn & Hm). split.
  - intros F. destruct (attr (B "uid") (fst d)) eqn:E1; [eexists; apply no_uid; rewrite <- E1; apply attr_gives|].
    destruct (attr (B "name") (fst d)) eqn:E2.
    { eexists. eapply no_name; [apply attr_gives|rewrite E1; discriminate|rewrite <- E2; apply attr_gives]. }
    assert (HH : has_head d (attr (B "uid") (fst d)) (attr (B "name") (fst d))).
    { repeat split; try apply attr_gives; rewrite ?E1, ?E2; discriminate. }
    destruct (first_complaint _ Hm) as [[ms H]|(b & ms & e & a & m & H1 & H2 & H3)]; [exfalso|exists m; eapply bad_member; eauto].
    destruct F as [F|(e & H1 & H2)]; [exact (F _ _ HH)|]. apply In_nth_error in H1. destruct H1 as (k & H1).
    clear - H H1 H2. revert k H1. induction H as [|x y l l' A H IH]; intros [|k] K; cbn in K; try discriminate; [|eauto].
    injection K as ->. exact (H2 _ A).
  - intros [m [H|id H1 H2 H3|id name es ms e es' x HH H5 H6 H7]].
    + left. intros id name (A & _ & C & _). rewrite <- (gives_attr _ _ _ Hn A), (gives_attr _ _ _ Hn H) in C. auto.
    + left. intros i name (_ & A & _ & C). rewrite <- (gives_attr _ _ _ Hn A), (gives_attr _ _ _ Hn H3) in C. auto.
    + right. exists e. rewrite H5 in *. split; [apply in_or_app; cbn; auto|]. apply Forall_app in Hm. destruct Hm as [_ M]. inversion M; subst.
      eapply complaint_not; eauto.
Qed.
Lemma B_inj a b : B a = B b -> a = b.
Proof.
  revert b. induction a as [|c a IH]; intros [|c' b]; cbn; try discriminate; [reflexivity|].
  intros H. injection H as H1 H2. f_equal; [|auto]. rewrite <- (Ascii.ascii_N_embedding c), H1, Ascii.ascii_N_embedding. reflexivity.
Qed.
Lemma fault_one d m m' : well_formed d -> fault d m -> fault d m' -> m = m'.
Proof.
  intros W H H'. pose proof (fault_error [] d m [] W H) as E. rewrite (fault_error [] d m' [] W H') in E. symmetry. apply B_inj. exact E.
Qed.

Lemma list_error_elements lib id : forall n ts, length ts <= n -> forall d f1 f2,
  length ts < f1 -> length (elements ts) < f2 ->
  list_error lib f1 id d ts = list_error lib f2 id d (elements ts).
Proof.
  induction n as [|n IH]; intros ts Hn d f1 f2 H1 H2.
  - destruct ts; [|cbn in Hn; lia]. destruct f1; [cbn in H1; lia|]. destruct f2; [cbn in H2; lia|]. reflexivity.
  - destruct f1 as [|f1]; [lia|]. destruct ts as [|t ts]; [destruct f2; [cbn in H2; lia|reflexivity]|].
    cbn in Hn, H1. destruct t as [nm a|nm| |].
    + cbn [elements filter] in *. fold (elements ts) in *. cbn [length] in H2. destruct f2 as [|f2]; [lia|].
      cbn [list_error].
      destruct (d + 1 =? 1)%Z. { destruct (leqb nm eList); [apply IH; lia|reflexivity]. }
      destruct (d + 1 =? 2)%Z.
      { destruct (leqb nm eGroup); [|reflexivity].
        rewrite rg_elements, group_error_elements. destruct (read_group a ts (cgroup_new id)) as [[g' b] r] eqn:E.
        pose proof (rg_length _ _ _ _ _ _ E). pose proof (elements_length r).
        assert (length (elements r) <= length (elements ts)).
        { pose proof (rg_elements a ts (cgroup_new id)) as R. rewrite E in R. eapply rg_length; eauto. }
        destruct b; [|reflexivity]. apply IH; lia. }
      apply IH; lia.
    + cbn [elements filter] in *. fold (elements ts) in *. cbn [length] in H2. destruct f2 as [|f2]; [lia|].
      cbn [list_error]. apply IH; lia.
    + cbn [elements filter] in *. fold (elements ts) in *. cbn [list_error]. apply IH; lia.
    + cbn [elements filter] in *. fold (elements ts) in *. cbn [length] in H2. destruct f2 as [|f2]; [lia|]. reflexivity.
Qed.
Lemma list_error_all lib id ts : list_error lib (S (length ts)) id 0 ts = list_error lib (S (length (elements ts))) id 0 (elements ts).
Proof. apply (list_error_elements lib id (length ts)); lia. Qed.
Lemma list_error_tells lib id ds gs rest : Forall well_formed ds -> Forall2 tells ds gs ->
  forall f, length (flat_map tokens_of_group ds) < f ->
  exists f', f <= f' + length (flat_map tokens_of_group ds) /\
  list_error lib f id 1 (flat_map tokens_of_group ds ++ rest) = list_error lib f' id 1 rest.
Proof.
  intros Hw H. induction H as [|d g ds gs H1 H IH]; intros f Hf.
  - exists f. cbn. split; [lia|reflexivity].
  - inversion Hw as [|? ? W1 W2]; subst. destruct f as [|f]; [lia|].
    assert (L : 1 <= length (tokens_of_group d)) by (cbn; lia).
    cbn [flat_map] in *. rewrite app_length in *. destruct (IH W2 f) as (f' & Hb & E); [lia|].
    exists f'. split; [lia|]. unfold tokens_of_group at 1. cbn [app list_error]. change (1 + 1 =? 1)%Z with false. change (1 + 1 =? 2)%Z with true.
    change (leqb (B "contactGroup") eGroup) with true. cbv iota. rewrite <- !app_assoc.
    rewrite (read_group_tells d g _ _ W1 H1). change (1 + 1 - 1)%Z with 1%Z. exact E.
Qed.
(** after the groups [ds], the first token of [rest] decides *)
Lemma list_error_after lib id at_ ds gs t rest ts e : Forall well_formed ds -> Forall2 tells ds gs ->
  (forall f, length (t :: rest) < S f -> list_error lib (S f) id 1 (t :: rest) = Some e) ->
  elements ts = XStart (B "contactGroupList") at_ :: flat_map tokens_of_group ds ++ t :: rest ->
  list_error lib (S (length ts)) id 0 ts = Some e.
Proof.
  intros Hw H Hr E. rewrite list_error_all, E. cbn [length].
  rewrite app_length. set (n := S (length _ + _)). cbn [list_error]. change (0 + 1 =? 1)%Z with true.
  change (leqb (B "contactGroupList") eList) with true. cbv iota. change (0 + 1)%Z with 1%Z.
  destruct (list_error_tells lib id ds gs (t :: rest) Hw H n) as (f' & Hf & ->); [unfold n; lia|].
  destruct f' as [|f']; [unfold n in Hf; lia|]. apply Hr. unfold n in Hf. lia.
Qed.

Lemma members_silent lib : forall ts g, snd (fst (read_members ts g)) = false -> members_error lib ts = [] ->
  lib = [] \/ (~ In XInvalid ts /\ ~ In (XEnd eGroup) ts).
Proof.
  induction ts as [|t ts IH]; intros g Hf He; [right; split; intros []|]. destruct t as [n a|n| |]; cbn [read_members members_error] in *.
  - assert (K : forall g', snd (fst (read_members ts g')) = false -> members_error lib ts = [] -> lib = [] \/ (~ In XInvalid (XStart n a :: ts) /\ ~ In (XEnd eGroup) (XStart n a :: ts))).
    { intros g' A C. destruct (IH g' A C) as [->|[D F]]; [auto|right]. split; intros [J|J]; auto; discriminate. }
    destruct (leqb n eData); [destruct (read_data a); [eapply K; eassumption|discriminate]|].
    destruct (leqb n eRef); [destruct (read_ref a); [eapply K; eassumption|discriminate]|].
    destruct (leqb n eGref); [destruct (read_gref a); [eapply K; eassumption|discriminate]|]. discriminate.
  - destruct (leqb n eGroup) eqn:E; [discriminate|]. destruct (IH g Hf He) as [->|[D F]]; [auto|right]. split; intros [J|J]; auto; [discriminate|].
    injection J as ->. rewrite leqb_refl in E. discriminate.
  - destruct (IH g Hf He) as [->|[D F]]; [auto|right]. split; intros [J|J]; auto; discriminate.
  - auto.
Qed.
Lemma group_silent lib a ts g : snd (fst (read_group a ts g)) = false -> group_error lib a ts = [] ->
  lib = [] \/ (~ In XInvalid ts /\ ~ In (XEnd eGroup) ts).
Proof.
  unfold read_group, group_error. destruct (isnil (attr kUid a)); [discriminate|]. destruct (isnil (attr kName a)); [discriminate|]. apply members_silent.
Qed.
Lemma members_passed : forall ts g g' r, read_members ts g = (g', true, r) -> exists u, ts = u ++ r /\ ~ In XInvalid u.
Proof.
  induction ts as [|t ts IH]; intros g g' r H; [discriminate|]. 
  assert (K : t <> XInvalid -> (exists g0, read_members ts g0 = (g', true, r)) -> exists u, t :: ts = u ++ r /\ ~ In XInvalid u).
  { intros Ht [g0 A]. destruct (IH _ _ _ A) as (u & -> & C). exists (t :: u). split; [reflexivity|]. intros [J|J]; auto. }
  destruct t as [n a|n| |]; cbn [read_members] in H.
  - apply K; [discriminate|]. destruct (leqb n eData); [destruct (read_data a); [eauto|discriminate]|].
    destruct (leqb n eRef); [destruct (read_ref a); [eauto|discriminate]|].
    destruct (leqb n eGref); [destruct (read_gref a); [eauto|discriminate]|]. discriminate.
  - destruct (leqb n eGroup); [|apply K; [discriminate|eauto]]. injection H as <- <-. exists [XEnd n]. split; [reflexivity|]. intros [J|[]]. discriminate.
  - apply K; [discriminate|eauto].
  - discriminate.
Qed.
Lemma group_passed a ts g g' r : read_group a ts g = (g', true, r) -> exists u, ts = u ++ r /\ ~ In XInvalid u.
Proof. unfold read_group. destruct (isnil (attr kUid a)); [discriminate|]. destruct (isnil (attr kName a)); [discriminate|]. apply members_passed. Qed.
Lemma cut_off_before u ts : ~ In XInvalid u -> cut_off ts -> cut_off (u ++ ts).
Proof.
  intros H (A & u' & a & v & -> & C). split; [rewrite in_app_iff; tauto|]. exists (u ++ u'), a, v. split; [rewrite <- app_assoc; reflexivity|exact C].
Qed.
Lemma cut_off_cons t ts : t <> XInvalid -> cut_off ts -> cut_off (t :: ts).
Proof. intros H. apply (cut_off_before [t]). intros [J|[]]. auto. Qed.
Lemma cut_off_group a ts : ~ In XInvalid ts /\ ~ In (XEnd eGroup) ts -> cut_off (XStart eGroup a :: ts).
Proof. intros [H K]. split; [intros [J|J]; [discriminate|auto]|]. exists [], a, ts. split; [reflexivity|exact K]. Qed.
Lemma single_silent lib : forall ts g, snd (read_single ts g) = false -> single_error lib ts = [] -> lib = [] \/ cut_off ts.
Proof.
  induction ts as [|t ts IH]; intros g Hf He; [discriminate|]. destruct t as [n a|n| |]; cbn [read_single single_error] in *.
  - destruct (leqb n eGroup) eqn:E; [|discriminate]. apply leqb_eq in E. subst.
    destruct (group_silent lib a ts g Hf He) as [->|K]; [auto|right; apply cut_off_group, K].
  - destruct (IH g Hf He); [auto|right; apply cut_off_cons; [discriminate|auto]].
  - destruct (IH g Hf He); [auto|right; apply cut_off_cons; [discriminate|auto]].
  - auto.
Qed.
Lemma list_silent lib id : forall n ts, length ts <= n -> forall f d acc l, read_list f id d ts acc = Some (l, false) ->
  list_error lib f id d ts = Some [] -> lib = [] \/ cut_off ts.
Proof.
  induction n as [|n IH]; intros ts Hn f d acc l Hf He; (destruct f as [|f]; [discriminate|]); (destruct ts as [|t ts]; [discriminate|]); cbn in Hn; [lia|].
  assert (K : t <> XInvalid -> forall d' acc', read_list f id d' ts acc' = Some (l, false) -> list_error lib f id d' ts = Some [] -> lib = [] \/ cut_off (t :: ts)).
  { intros Ht d' acc' A C. destruct (IH ts ltac:(lia) f d' acc' l A C); [auto|right; apply cut_off_cons; auto]. }
  destruct t as [nm a|nm| |]; cbn [read_list list_error] in *.
  - destruct (d + 1 =? 1)%Z; [destruct (leqb nm eList); [eapply K; eauto; discriminate|discriminate]|].
    destruct (d + 1 =? 2)%Z; [|eapply K; eauto; discriminate].
    destruct (leqb nm eGroup) eqn:E; [|discriminate]. apply leqb_eq in E. subst.
    destruct (read_group a ts (cgroup_new id)) as [[g b] r] eqn:R. destruct b.
    + destruct (group_passed _ _ _ _ _ R) as (u & -> & Hu). rewrite app_length in Hn.
      destruct (IH r ltac:(lia) f _ _ l Hf He) as [->|Q]; [auto|right]. apply cut_off_cons; [discriminate|]. apply cut_off_before; auto.
    + injection He as He. destruct (group_silent lib a ts (cgroup_new id)) as [->|Q]; [rewrite R; reflexivity|exact He|auto|right; apply cut_off_group, Q].
  - eapply K; eauto; discriminate.
  - eapply K; eauto; discriminate.
  - injection He as He. auto.
Qed.
Lemma list_error_total lib id ts : exists e, list_error lib (S (length ts)) id 0 ts = Some e.
Proof.
  generalize 0%Z. intros d.
  assert (K : forall n ts, length ts <= n -> forall d f, length ts < f -> exists r, list_error lib f id d ts = Some r).
  { clear. induction n as [|n IH]; intros ts Hn d f H.
    - destruct ts; [|cbn in Hn; lia]. destruct f; [lia|]. cbn. eauto.
    - destruct f as [|f]; [lia|]. destruct ts as [|t ts]; [cbn; eauto|]. cbn in Hn, H.
      destruct t as [nm a|nm| |]; cbn [list_error]; try (apply IH; lia); eauto.
      destruct (d + 1 =? 1)%Z. { destruct (leqb nm eList); [apply IH; lia|eauto]. }
      destruct (d + 1 =? 2)%Z; [|apply IH; lia].
      destruct (leqb nm eGroup); [|eauto]. destruct (read_group a ts (cgroup_new id)) as [[g b] r] eqn:R.
      pose proof (rg_length _ _ _ _ _ _ R). destruct b; [apply IH; lia|eauto]. }
  eapply K; eauto.
Qed.
