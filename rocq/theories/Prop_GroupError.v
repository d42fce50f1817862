(** Property C87: the message about a rejected document of contact groups says what is wrong. *)
From Verif Require Import Base BaseFacts M_ContactGroup S_ContactGroup P_ContactGroup S_GroupDoc P_GroupDoc M_GroupError S_GroupError P_GroupError Prop_GroupDoc.

(** A text is faulty exactly if there is a first fault, and there is only one. *)
Theorem C87_faults : forall d, well_formed d ->
  (faulty d <-> exists m, fault d m) /\ (forall m m', fault d m -> fault d m' -> m = m').
Proof. intros d W. split; [exact (faulty_fault d W)|]. intros m m' H H'. exact (fault_one d m m' W H H'). Qed.
Print Assumptions C87_faults.

(** A document with a faulty group, good groups before and anything behind it: the good groups before it are added, and the
    message is the first fault of that group. *)
Theorem C87_list_says_why :
  forall lib id at_ ds gs d ds' m acc old ts, Forall well_formed ds -> Forall2 tells ds gs -> well_formed d -> fault d m ->
  elements ts = tokens_of_list at_ (ds ++ d :: ds') ->
  convert_groups lib id ts acc (Some old) = Some (acc ++ gs, false, Some (B m)).
Proof.
  intros lib id at_ ds gs d ds' m acc old ts W T Wd F E. unfold convert_groups.
  rewrite (group_list_faulty id at_ ds d ds' gs acc ts W T Wd (proj2 (faulty_fault d Wd) (ex_intro _ m F)) E).
  rewrite (list_error_after lib id at_ ds gs (XStart (B "contactGroup") (fst d))
    (flat_map tokens_of (snd d) ++ [XEnd (B "contactGroup")] ++ flat_map tokens_of_group ds' ++ [XEnd (B "contactGroupList")]) ts (B m) W T).
  - reflexivity.
  - intros f Hf. cbn [list_error]. change (1 + 1 =? 1)%Z with false. change (1 + 1 =? 2)%Z with true.
    change (leqb (B "contactGroup") eGroup) with true. cbv iota.
    pose proof (read_group_faulty d ([XEnd (B "contactGroup")] ++ flat_map tokens_of_group ds' ++ [XEnd (B "contactGroupList")]) (cgroup_new id) Wd
      (proj2 (faulty_fault d Wd) (ex_intro _ m F))) as K.
    destruct (read_group _ _ _) as [[g b] r]. cbn [fst snd] in K. subst. rewrite (fault_error lib d m _ Wd F). reflexivity.
  - rewrite E. unfold tokens_of_list. rewrite flat_map_app. cbn [flat_map]. unfold tokens_of_group at 2. cbn [app]. rewrite <- !app_assoc. cbn [app]. rewrite <- !app_assoc. reflexivity.
Qed.
Print Assumptions C87_list_says_why.

(** The same for the text of a single group. *)
Theorem C87_group_says_why :
  forall lib d m g0 old ts, well_formed d -> fault d m -> elements ts = tokens_of_group d ->
  exists g, convert_group lib ts g0 (Some old) = (g, false, Some (B m)).
Proof.
  intros lib d m g0 old ts W F E. unfold convert_group.
  pose proof (group_faulty d g0 ts W (proj2 (faulty_fault d W) (ex_intro _ m F)) E) as K. destruct (read_single ts g0) as [g b]. cbn [snd] in K. subst.
  exists g. rewrite single_error_elements, E. unfold tokens_of_group. cbn [single_error option_map].
  change (leqb (B "contactGroup") eGroup) with true. cbv iota. rewrite (fault_error lib d m _ W F). reflexivity.
Qed.
Print Assumptions C87_group_says_why.

(** A document about something else is called so, with nothing added; where it is no XML any more, the message is that of
    the XML reader. *)
Theorem C87_other_documents :
  forall lib id n at_ rest l g old ts, elements ts = XStart n at_ :: rest ->
  (n <> B "contactGroup" -> convert_group lib ts g (Some old) = (g, false, Some (B "The document does not describe a ContactGroup"))) /\
  (n <> B "contactGroupList" ->
   convert_groups lib id ts l (Some old) = Some (l, false, Some (B "The document does not describe a list of ContactGroup"))).
Proof.
  intros lib id n at_ rest l g old ts E. split; intros H.
  - unfold convert_group. rewrite read_single_elements, single_error_elements, E. cbn [read_single single_error]. unfold eGroup.
    rewrite (proj2 (leqb_neq n (B "contactGroup")) H). reflexivity.
  - unfold convert_groups. rewrite read_group_list_elements, list_error_all, E. unfold read_group_list. cbn [length read_list list_error].
    change (0 + 1 =? 1)%Z with true. cbv iota. unfold eList. rewrite (proj2 (leqb_neq n (B "contactGroupList")) H). reflexivity.
Qed.
Print Assumptions C87_other_documents.
Theorem C87_among_groups :
  forall lib id at_ ds gs acc old ts t rest, Forall well_formed ds -> Forall2 tells ds gs ->
  elements ts = XStart (B "contactGroupList") at_ :: flat_map tokens_of_group ds ++ t :: rest ->
  (t = XInvalid -> convert_groups lib id ts acc (Some old) = Some (acc ++ gs, false, Some lib)) /\
  (forall n at', t = XStart n at' -> n <> B "contactGroup" ->
   convert_groups lib id ts acc (Some old) = Some (acc ++ gs, false, Some (B "The document does not describe a list of ContactGroup"))).
Proof.
  intros lib id at_ ds gs acc old ts t rest W T E. split.
  - intros ->. unfold convert_groups. rewrite (group_list_stops id at_ ds gs acc ts XInvalid rest W T (or_introl eq_refl) E).
    rewrite (list_error_after lib id at_ ds gs XInvalid rest ts lib W T); [reflexivity| |exact E]. reflexivity.
  - intros n at' -> H. unfold convert_groups.
    rewrite (group_list_stops id at_ ds gs acc ts (XStart n at') rest W T (or_intror (ex_intro _ n (ex_intro _ at' (conj eq_refl H)))) E).
    rewrite (list_error_after lib id at_ ds gs (XStart n at') rest ts (B "The document does not describe a list of ContactGroup") W T); [reflexivity| |exact E].
    intros f _. cbn [list_error]. change (1 + 1 =? 1)%Z with false. change (1 + 1 =? 2)%Z with true. cbv iota. unfold eGroup.
    rewrite (proj2 (leqb_neq n (B "contactGroup")) H). reflexivity.
Qed.
Print Assumptions C87_among_groups.

(** Accepted documents leave the message alone; so does writing. *)
Theorem C87_accepted :
  (forall lib id at_ ds gs acc message ts, Forall well_formed ds -> Forall2 tells ds gs -> elements ts = tokens_of_list at_ ds ->
     convert_groups lib id ts acc message = Some (acc ++ gs, true, message)) /\
  (forall lib d g id message ts, well_formed d -> tells d g -> elements ts = tokens_of_group d ->
     convert_group lib ts (cgroup_new id) message = (g, true, message)) /\
  (forall g message, convert_to g message = (write_single g, true, message)) /\
  (forall l message, convert_list_to l message = (write_list l, true, message)).
Proof.
  split; [|split; [|split; reflexivity]].
  - intros lib id at_ ds gs acc message ts W T E. unfold convert_groups. rewrite (group_list_tells id at_ ds gs acc ts W T E).
    destruct (list_error_total lib id ts) as [e ->]. reflexivity.
  - intros lib d g id message ts W T E. unfold convert_group. rewrite (group_tells d g (cgroup_new id) ts W T E), merged_new. reflexivity.
Qed.
Print Assumptions C87_accepted.

(** Every document: reading ends; whether there is a place for the message makes no difference to the groups and the result;
    a null pointer stays one; and a failure comes with a message that is not empty, unless the XML reader lets a document end
    within a group without a word. *)
Theorem C87_every_document :
  forall lib id ts l g old, lib <> [] ->
  (exists l' ok e, convert_groups lib id ts l (Some old) = Some (l', ok, Some e) /\ convert_groups lib id ts l None = Some (l', ok, None) /\
     (ok = true -> e = old) /\ (ok = false -> e <> [] \/ cut_off ts)) /\
  (exists g' ok e, convert_group lib ts g (Some old) = (g', ok, Some e) /\ convert_group lib ts g None = (g', ok, None) /\
     (ok = true -> e = old) /\ (ok = false -> e <> [] \/ cut_off ts)).
Proof.
  intros lib id ts l g old HL. split.
  - unfold convert_groups. destruct (read_list_total id ts l) as [[l' ok] R]. destruct (list_error_total lib id ts) as [e K]. rewrite R, K.
    exists l', ok, (if ok then old else e). split; [destruct ok; reflexivity|]. split; [destruct ok; reflexivity|]. split; [intros ->; reflexivity|].
    intros ->. destruct e as [|c e]; [|left; discriminate]. right. unfold read_group_list in R.
    destruct (list_silent lib id (length ts) ts (le_n _) _ _ _ _ R K); [contradiction|assumption].
  - unfold convert_group. destruct (read_single ts g) as [g' ok] eqn:R.
    exists g', ok, (if ok then old else single_error lib ts). split; [destruct ok; reflexivity|]. split; [destruct ok; reflexivity|]. split; [intros ->; reflexivity|].
    intros ->. destruct (single_error lib ts) as [|c e] eqn:K; [|left; discriminate]. right.
    destruct (single_silent lib ts g) as [->|Q]; [rewrite R; reflexivity|exact K|contradiction|exact Q].
Qed.
Print Assumptions C87_every_document.

(** The document of C79: the second group has no name.  A group whose second member has no address, a document of addresses. *)
Definition C87_c : group_text :=
  ([(B "uid", B "g3"); (B "name", B "Work")],
   [(B "contactData", [(B "email", B "a@x.org")]); (B "contactData", [(B "name", B "Bob")]); (B "person", [])]).
Example C87_c_fault : well_formed C87_c /\ fault C87_c "ContactData is missing an email address".
Proof.
  split.
  { split; [|repeat apply Forall_cons; [..|apply Forall_nil]]; repeat (apply NoDup_cons; [cbv; intuition discriminate|]); apply NoDup_nil. }
  apply (bad_member _ (B "g3") (B "Work") [(B "contactData", [(B "email", B "a@x.org")])] [AData [] (B "a@x.org")]
    (B "contactData", [(B "name", B "Bob")]) [(B "person", [])]).
  - repeat split; try discriminate; left; cbn; auto.
  - reflexivity.
  - constructor; [|constructor]. cbn [states fst snd]. repeat split; try discriminate; [right; split; [reflexivity|cbv; intuition discriminate]|left; cbn; auto].
  - apply no_address; [reflexivity|]. right. split; [reflexivity|cbv; intuition discriminate].
Qed.
Example C87_case :
  (exists gs, convert_groups (B "broken") (B "new") (XOther :: tokens_of_list [] [C79_a; C87_c; C79_b]) [] (Some [])
     = Some (gs, false, Some (B "ContactData is missing an email address")) /\ length gs = 1) /\
  snd (convert_group (B "broken") (tokens_of_group C79_b) (cgroup_new []) (Some [])) = Some (B "ContactGroup is missing a name") /\
  convert_groups (B "broken") (B "new") (tokens_of_list [] [C79_b]) [] None = Some ([], false, None) /\
  snd (convert_group (B "broken") [XOther; XStart (B "html") []; XEnd (B "html")] (cgroup_new []) (Some [])) = Some (B "The document does not describe a ContactGroup") /\
  snd (convert_group (B "broken") [XOther; XInvalid] (cgroup_new []) (Some [])) = Some (B "broken").
Proof.
  split.
  { exists [mkCgroup (B "g1") (B "Friends") [mkCref [] (B "r7") (B "b@y.org") []] [mkGref (B "g9") []]
             [mkCdata (B "Ann") (B "a@x.org") []; mkCdata [] (B "c@x.org") []]].
    split; [|reflexivity]. pose proof C79_a_tells as [W T]. pose proof C87_c_fault as [Wc F].
    exact (C87_list_says_why _ _ [] [C79_a] _ C87_c [C79_b] _ [] _ (XOther :: tokens_of_list [] [C79_a; C87_c; C79_b]) (Forall_cons _ W (Forall_nil _)) (Forall2_cons _ _ T (Forall2_nil _)) Wc F eq_refl). }
  vm_compute. auto.
Qed.
