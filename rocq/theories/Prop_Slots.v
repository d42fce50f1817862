(** C62, continued: members of groups, groups, keys, sounds and telephone numbers. *)
From Verif Require Import Base BaseFacts QtText M_ParamMap M_Values M_Addressee M_ContactGroup M_Access S_Slots.

Lemma slots_variables : forall X F V (read : forall f : F, X -> V f) (write : forall f, V f -> X -> X) kept,
  (forall f v x, read f (write f v x) = kept f v) -> (forall f g v x, g <> f -> read f (write g v x) = read f x) ->
  are_variables read write kept.
Proof.
  intros X F V read write kept H1 H2.
  assert (K : forall cs x f, Forall (fun c => projT1 c <> f) cs -> read f (setters write cs x) = read f x).
  { induction cs as [|c cs IH]; intros x f H; [reflexivity|]. cbn [setters fold_left]. inversion H as [|? ? Hc Hcs]; subst.
    change (read f (setters write cs (write (projT1 c) (projT2 c) x)) = read f x). rewrite IH by exact Hcs. apply H2. exact Hc. }
  split; [|intros x cs f; apply K]. intros x before f v after H. unfold setters. rewrite fold_left_app. cbn [fold_left projT1 projT2].
  change (read f (setters write after (write f v (setters write before x))) = kept f v). rewrite K by exact H. apply H1.
Qed.

(** The getters return what was set last; for telephone numbers, the number with its
    spaces simplified. *)
Theorem C62_variables :
  are_variables rread rwrite (as_given _ _) /\ are_variables dread dwrite (as_given _ _) /\ are_variables gread gwrite (as_given _ _) /\
  are_variables kread kwrite (as_given _ _) /\ are_variables sread swrite (as_given _ _) /\ are_variables pread pwrite tidy.
Proof.
  split; [|split; [|split; [|split; [|split]]]]; apply slots_variables;
    solve [intros [] v x; reflexivity | intros [] [] v x H; solve [reflexivity | contradiction (H eq_refl)]].
Qed.
Print Assumptions C62_variables.

(** A key is binary, and a sound is embedded, if the last data set was; nothing else
    changes that. *)
Theorem C62_kind_of_data :
  (forall k before (c : { f : kfield & kvalue f }) after, (projT1 c = KBin \/ projT1 c = KText) ->
     Forall (fun c => projT1 c <> KBin /\ projT1 c <> KText) after ->
     (ke_isbin (setters kwrite (before ++ c :: after) k) = true <-> projT1 c = KBin)) /\
  (forall s before f d, (so_intern (setters swrite (before ++ [existT _ f d]) s) = true <-> f = SData) /\
     so_type (setters swrite (before ++ [existT _ f d]) s) = so_type s).
Proof.
  split.
  - intros k before c after Hc H. unfold setters. rewrite fold_left_app. cbn [fold_left].
    assert (E : forall k1, ke_isbin (setters kwrite after k1) = ke_isbin k1).
    { clear Hc. induction H as [|c' after [N1 N2] _ IH]; intros k1; [reflexivity|]. unfold setters in *. cbn [fold_left]. rewrite IH.
      destruct c' as [[] v]; cbn in *; congruence. }
    unfold setters in E. rewrite E. destruct c as [[] v]; cbn in *; destruct Hc; try discriminate; split; congruence.
  - intros s before f d. unfold setters. rewrite fold_left_app. cbn [fold_left projT1 projT2].
    split; [destruct f; cbn; split; congruence|].
    assert (E : forall cs s, so_type (fold_left (fun x (c : { f : sfield & list N }) => swrite (projT1 c) (projT2 c) x) cs s) = so_type s).
    { induction cs as [|c cs IH]; intros s'; [reflexivity|]. cbn [fold_left]. rewrite IH. destruct c as [[] v]; reflexivity. }
    transitivity (so_type (fold_left (fun x (c : { f : sfield & list N }) => swrite (projT1 c) (projT2 c) x) before s)); [destruct f; reflexivity|apply E].
Qed.
Print Assumptions C62_kind_of_data.

(** Setting the name or the identifier leaves the members alone, and setting the fields of
    a member its custom entries. *)
Theorem C62_rest :
  (forall cs g, cg_refs (setters (V := fun _ => ustring) gwrite cs g) = cg_refs g /\ cg_grefs (setters (V := fun _ => ustring) gwrite cs g) = cg_grefs g /\
     cg_data (setters (V := fun _ => ustring) gwrite cs g) = cg_data g) /\
  (forall cs r, cr_customs (setters (V := fun _ => ustring) rwrite cs r) = cr_customs r) /\
  (forall cs d, cd_customs (setters (V := fun _ => ustring) dwrite cs d) = cd_customs d) /\
  (forall cs p, ph_params (setters pwrite cs p) = ph_params p).
Proof.
  split; [|split; [|split]].
  - induction cs as [|[[] v] cs IH]; intros g; [auto| |]; cbn [setters fold_left projT1 projT2]; exact (IH _).
  - induction cs as [|[[] v] cs IH]; intros g; [auto| | |]; cbn [setters fold_left projT1 projT2]; exact (IH _).
  - induction cs as [|[[] v] cs IH]; intros g; [auto| |]; cbn [setters fold_left projT1 projT2]; exact (IH _).
  - induction cs as [|[[] v] cs IH]; intros g; [auto| | |]; cbn [setters fold_left projT1 projT2]; exact (IH _).
Qed.
Print Assumptions C62_rest.

Example C62_variables_case :
  let set := existT (fun _ : rfield => ustring) in
  let r := setters rwrite [set RUid (B "1"); set REmail (B "a@b"); set RGid (B "g"); set RUid (B "2")] (cref_of (B "0")) in
  cr_uid r = B "2" /\ cr_gid r = B "g" /\ cr_email r = B "a@b" /\
  let s := setters swrite [existT (fun _ : sfield => list N) SData [7%N]; existT _ SUrl (B "u")] sound_new in
  so_url s = B "u" /\ so_data s = [7%N] /\ so_intern s = false /\
  let p := setters pwrite [existT pvalue PNumber (B " 1  2 "); existT pvalue PType 64%N] (phone_of (B "i") [] 0) in
  ph_number p = B "1 2" /\ ph_type p = 64%N /\ ph_id p = B "i".
Proof. vm_compute. repeat split. Qed.

(** A sound or picture made from a URL is not embedded, one made from data is.  One made from nothing is
    the one made from the empty URL. *)
Theorem C62_made :
  (forall u, so_url (sound_of_url u) = u /\ so_intern (sound_of_url u) = false /\ sound_eq (sound_of_url u) (so_set_url u sound_new) = true) /\
  (forall d, so_data (sound_of_data d) = d /\ so_intern (sound_of_data d) = true /\ sound_eq (sound_of_data d) (so_set_data d sound_new) = true) /\
  sound_eq sound_new (sound_of_url []) = true /\ sound_empty sound_new = true /\ (forall u, sound_empty (sound_of_url u) = true <-> u = []) /\
  (forall I u, pi_url (picture_of_url u) = u /\ pi_intern (picture_of_url u) = false /\ picture_eq I (picture_of_url u) (pi_set_url u picture_new) = true) /\
  (forall im alpha, pi_data (picture_of_image im alpha) = im /\ pi_intern (picture_of_image im alpha) = true) /\
  (forall I, picture_eq I picture_new (picture_of_url []) = true) /\ picture_empty picture_new = true /\ (forall u, picture_empty (picture_of_url u) = true <-> u = []).
Proof.
  repeat match goal with |- _ /\ _ => split | |- forall _, _ => intro end; try reflexivity;
    unfold sound_eq, picture_eq; cbn; rewrite ?leqb_refl; auto.
  - destruct u; cbn; split; auto; discriminate.
  - destruct u; cbn; split; auto; discriminate.
Qed.
Print Assumptions C62_made.
