(** Property C79: documents of contact groups mean what they say. *)
From Verif Require Import Base M_ContactGroup S_ContactGroup S_GroupDoc P_GroupDoc.

(** A document with a list of groups, the attributes of its elements in any order and with others among them, the members
    of a group in any order: reading it adds the groups the document tells, in their order. *)
Theorem C79_list :
  forall id at_ ds gs acc ts, Forall well_formed ds -> Forall2 tells ds gs ->
  elements ts = tokens_of_list at_ ds -> read_group_list id ts acc = Some (acc ++ gs, true).
Proof. exact group_list_tells. Qed.
Print Assumptions C79_list.

(** A group without identifier or name, or with an element that is no member: reading fails, and the groups before it have been added. *)
Theorem C79_list_fails :
  forall id at_ ds d ds' gs acc ts, Forall well_formed ds -> Forall2 tells ds gs -> well_formed d -> faulty d ->
  elements ts = tokens_of_list at_ (ds ++ d :: ds') -> read_group_list id ts acc = Some (acc ++ gs, false).
Proof. exact group_list_faulty. Qed.
Print Assumptions C79_list_fails.

(** The same where the document is no XML any more, or has another element among the groups. *)
Theorem C79_list_stops :
  forall id at_ ds gs acc ts t rest, Forall well_formed ds -> Forall2 tells ds gs ->
  t = XInvalid \/ (exists n at', t = XStart n at' /\ n <> B "contactGroup") ->
  elements ts = XStart (B "contactGroupList") at_ :: flat_map tokens_of_group ds ++ t :: rest ->
  read_group_list id ts acc = Some (acc ++ gs, false).
Proof. exact group_list_stops. Qed.
Print Assumptions C79_list_stops.

(** The text of a single group: its identifier and name replace those of the given group, its members are added to it. *)
Theorem C79_group :
  forall d g g0 ts, well_formed d -> tells d g -> elements ts = tokens_of_group d ->
  read_single ts g0 = (mkCgroup (cg_id g) (cg_name g) (cg_refs g0 ++ cg_refs g) (cg_grefs g0 ++ cg_grefs g) (cg_data g0 ++ cg_data g), true).
Proof. exact group_tells. Qed.
Print Assumptions C79_group.
Theorem C79_group_fails :
  forall d g0 ts, well_formed d -> faulty d -> elements ts = tokens_of_group d -> snd (read_single ts g0) = false.
Proof. exact group_faulty. Qed.
Print Assumptions C79_group_fails.

(** Every such text tells a group or is faulty, never both, and tells one group at most. *)
Theorem C79_one_meaning :
  forall d, well_formed d ->
  ((exists g, tells d g) \/ faulty d) /\ (forall g, tells d g -> ~ faulty d) /\ (forall g g', tells d g -> tells d g' -> g = g').
Proof.
  intros d Hw. split; [exact (tells_or d Hw)|split].
  - intros g H F. pose proof (group_faulty d (cgroup_new []) (tokens_of_group d) Hw F) as K.
    assert (E : elements (tokens_of_group d) = tokens_of_group d).
    { unfold tokens_of_group, elements. cbn [filter]. rewrite filter_app. cbn [filter]. f_equal. f_equal.
      induction (snd d); cbn; congruence. }
    specialize (K E). rewrite (group_tells d g _ _ Hw H E) in K. discriminate.
  - intros g g' H H'. assert (E : elements (tokens_of_group d) = tokens_of_group d).
    { unfold tokens_of_group, elements. cbn [filter]. rewrite filter_app. cbn [filter]. f_equal. f_equal.
      induction (snd d); cbn; congruence. }
    pose proof (group_tells d g (cgroup_new []) _ Hw H E) as K. rewrite (group_tells d g' _ _ Hw H' E), !merged_new in K. congruence.
Qed.
Print Assumptions C79_one_meaning.

(** What is written is such a document, and it tells the groups written, apart from their custom fields. *)
Theorem C79_written :
  forall gs, exists ds, Forall well_formed ds /\ write_list gs = tokens_of_list [] ds /\
  length ds = length gs /\
  (forall n g, nth_error gs n = Some g -> exists d, nth_error ds n = Some d /\ write_single g = tokens_of_group d /\
     if acceptable g then tells d (without_customs g) else faulty d).
Proof.
  intros gs. exists (map text_of gs). split; [|split; [|split]].
  - apply Forall_map, Forall_forall. intros g _. apply text_well_formed.
  - unfold write_list, tokens_of_list. rewrite flat_map_map. do 2 f_equal. apply flat_map_ext. exact written_text.
  - apply map_length.
  - intros n g H. exists (text_of g). rewrite nth_error_map, H. split; [reflexivity|split; [apply written_text|]].
    destruct (acceptable g) eqn:E; [apply text_tells, E|]. apply text_faulty, E.
Qed.
Print Assumptions C79_written.

(** A document: a reference between two addresses, attributes in another order, one that is not known. *)
Definition C79_a : group_text :=
  ([(B "name", B "Friends"); (B "since", B "1999"); (B "uid", B "g1")],
   [(B "contactData", [(B "email", B "a@x.org"); (B "name", B "Ann")]);
    (B "contactReference", [(B "preferredEmail", B "b@y.org"); (B "gid", B "r7")]);
    (B "contactGroupReference", [(B "uid", B "g9")]);
    (B "contactData", [(B "email", B "c@x.org")])]).
Definition C79_b : group_text := ([(B "uid", B "g2")], []).
Example C79_a_tells : well_formed C79_a /\
  tells C79_a (mkCgroup (B "g1") (B "Friends") [mkCref [] (B "r7") (B "b@y.org") []] [mkGref (B "g9") []]
    [mkCdata (B "Ann") (B "a@x.org") []; mkCdata [] (B "c@x.org") []]).
Proof.
  split; [split; [|repeat apply Forall_cons; [..|apply Forall_nil]]; repeat (apply NoDup_cons; [cbv; intuition discriminate|]); apply NoDup_nil|].
  exists (B "g1"), (B "Friends"), [AData (B "Ann") (B "a@x.org"); ARef [] (B "r7") (B "b@y.org"); AGref (B "g9"); AData [] (B "c@x.org")].
  split; [repeat split; try discriminate; left; cbn; auto|]. split; [|reflexivity].
  repeat apply Forall2_cons; [..|apply Forall2_nil]; cbn [states fst snd]; repeat split; try discriminate;
    first [left; cbn; tauto|right; split; [reflexivity|cbv; intuition discriminate]].
Qed.
Example C79_b_faulty : well_formed C79_b /\ faulty C79_b.
Proof.
  split; [split; [repeat constructor; cbv; intuition discriminate|constructor]|].
  left. intros id name (_ & H & _ & K). destruct H as [H|[H _]]; [|auto]. cbv in H. intuition discriminate.
Qed.
Example C79_case :
  read_group_list (B "new") (XOther :: tokens_of_list [] [C79_a; C79_b; C79_a]) []
  = Some ([mkCgroup (B "g1") (B "Friends") [mkCref [] (B "r7") (B "b@y.org") []] [mkGref (B "g9") []]
            [mkCdata (B "Ann") (B "a@x.org") []; mkCdata [] (B "c@x.org") []]], false).
Proof.
  apply (C79_list_fails _ [] [C79_a] C79_b [C79_a] [mkCgroup (B "g1") (B "Friends") [mkCref [] (B "r7") (B "b@y.org") []] [mkGref (B "g9") []]
            [mkCdata (B "Ann") (B "a@x.org") []; mkCdata [] (B "c@x.org") []]] []);
    [constructor; [apply C79_a_tells|constructor]|constructor; [apply C79_a_tells|constructor]|apply C79_b_faulty|apply C79_b_faulty|reflexivity].
Qed.
