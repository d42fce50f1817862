(** Proofs about copying (C21). *)
From Verif Require Import Base BaseFacts M_ParamMap M_Values M_Date M_Addressee M_ContactGroup M_Copy S_Copy.
Local Open Scope list_scope.
Local Open Scope nat_scope.

Lemma nth_set_at {A} i (x : A) l j :
  nth_error (set_at i x l) j = if (i =? j) && (i <? length l) then Some x else nth_error l j.
Proof.
  revert i j. induction l as [|y l IH]; intros i j; cbn [set_at length].
  - rewrite andb_comm. destruct i; reflexivity.
  - destruct i as [|i], j as [|j]; cbn [nth_error set_at]; [reflexivity|reflexivity|reflexivity|].
    rewrite IH. reflexivity.
Qed.
Lemma set_at_length {A} i (x : A) l : length (set_at i x l) = length l.
Proof. revert i. induction l as [|y l IH]; intros [|i]; cbn; auto. Qed.
Lemma nth_snoc {A} (l : list A) x j :
  nth_error (l ++ [x]) j = if j <? length l then nth_error l j else if j =? length l then Some x else None.
Proof.
  destruct (Nat.ltb_spec j (length l)) as [H|H].
  - apply nth_error_app1. auto.
  - rewrite nth_error_app2 by auto. destruct (Nat.eqb_spec j (length l)) as [->|N].
    + rewrite Nat.sub_diag. reflexivity.
    + destruct (j - length l) as [|k] eqn:E; [lia|]. cbn. destruct k; reflexivity.
Qed.
Lemma nth_lt {A} (l : list A) i x : nth_error l i = Some x -> i < length l.
Proof. intros H. apply nth_error_Some. congruence. Qed.

Section Machine.
Context {T : Type} (detach : T -> T).
Implicit Types (m : shared T).

Definition wf m : Prop := Forall (fun h => h < length (store m)) (handles m).
Lemma wf_nth m i h : wf m -> nth_error (handles m) i = Some h -> h < length (store m).
Proof. intros W H. apply nth_error_In in H. revert h H. apply Forall_forall. exact W. Qed.
Lemma wf_of_nth m : (forall i h, nth_error (handles m) i = Some h -> h < length (store m)) -> wf m.
Proof. intros H. apply Forall_forall. intros h Hh. apply In_nth_error in Hh as [i Hi]. eauto. Qed.

Lemma unshared m i j h : is_shared h (handles m) = false ->
  nth_error (handles m) i = Some h -> nth_error (handles m) j = Some h -> i = j.
Proof.
  unfold is_shared. generalize (handles m) as l. intros l H. apply Nat.ltb_ge in H. revert i j H.
  induction l as [|y l IH]; intros i j H Hi Hj; [destruct i; discriminate|].
  cbn in H. destruct (Nat.eq_dec y h) as [->|N].
  - assert (Z : ~ In h l). { intros I. apply (count_occ_In Nat.eq_dec) in I. lia. }
    destruct i as [|i], j as [|j]; auto.
    + exfalso. apply Z. exact (nth_error_In l j Hj).
    + exfalso. apply Z. exact (nth_error_In l i Hi).
    + exfalso. apply Z. exact (nth_error_In l i Hi).
  - destruct i as [|i], j as [|j]; cbn in Hi, Hj; try congruence. f_equal. eauto.
Qed.

Lemma exec_wf s m : wf m -> wf (exec detach s m).
Proof.
  intros W. destruct s as [v|j|i j|i f]; cbn [exec].
  - unfold wf. cbn [handles store]. apply Forall_app. split.
    + eapply Forall_impl; [|exact W]. cbn. intros h Hh. rewrite app_length. cbn. lia.
    + constructor; auto. rewrite app_length. cbn. lia.
  - destruct (nth_error (handles m) j) as [h|] eqn:E; auto. unfold wf. cbn [handles store]. apply Forall_app. split; auto.
    constructor; auto. eapply wf_nth; eauto.
  - destruct (nth_error (handles m) j) as [h|] eqn:E; auto. apply wf_of_nth. cbn. intros k x Hx.
    rewrite nth_set_at in Hx. destruct (_ && _); [injection Hx as <-|]; eapply wf_nth; eauto.
  - destruct (nth_error (handles m) i) as [h|] eqn:E; auto.
    destruct (nth_error (store m) h) as [v|] eqn:F; auto.
    destruct (is_shared h (handles m)); apply wf_of_nth; cbn; intros k x Hx.
    + rewrite app_length. cbn. rewrite nth_set_at in Hx. destruct (_ && _); [injection Hx as <-; lia|].
      pose proof (wf_nth _ _ _ W Hx). lia.
    + rewrite set_at_length. eapply wf_nth; eauto.
Qed.
Lemma exec_all_wf p : wf (exec_all detach p).
Proof.
  unfold exec_all. assert (W : wf (mkShared [] [])) by constructor. revert W. generalize (@mkShared T [] []).
  induction p as [|s p IH]; intros m W; cbn; [exact W|]. apply IH. apply exec_wf. exact W.
Qed.

(** contents after each statement *)
Lemma content_new m v k : wf m ->
  content (exec detach (New v) m) k
  = if k <? length (handles m) then content m k else if k =? length (handles m) then Some v else None.
Proof.
  intros W. unfold content. cbn [handles store exec]. rewrite nth_snoc. destruct (k <? length (handles m)) eqn:E.
  - destruct (nth_error (handles m) k) as [h|] eqn:F; auto. rewrite nth_snoc.
    pose proof (wf_nth _ _ _ W F) as L. apply Nat.ltb_lt in L. rewrite L. reflexivity.
  - destruct (k =? length (handles m)); [|reflexivity]. rewrite nth_snoc, Nat.ltb_irrefl, Nat.eqb_refl. reflexivity.
Qed.
Lemma content_call_other m i f k : wf m -> k <> i -> content (exec detach (Call i f) m) k = content m k.
Proof.
  intros W N. cbn [exec]. destruct (nth_error (handles m) i) as [h|] eqn:E; auto.
  destruct (nth_error (store m) h) as [v|] eqn:F; auto.
  destruct (is_shared h (handles m)) eqn:S; unfold content; cbn [handles store exec].
  - rewrite nth_set_at. destruct (Nat.eqb_spec i k) as [->|_]; [contradiction|]. cbn.
    destruct (nth_error (handles m) k) as [h'|] eqn:G; auto. rewrite nth_snoc.
    pose proof (wf_nth _ _ _ W G) as L. apply Nat.ltb_lt in L. rewrite L. reflexivity.
  - destruct (nth_error (handles m) k) as [h'|] eqn:G; auto. rewrite nth_set_at.
    destruct (Nat.eqb_spec h h') as [<-|_]; [|reflexivity].
    exfalso. apply N. eapply unshared; eauto.
Qed.
Lemma content_call_self m i f v : wf m -> content m i = Some v ->
  content (exec detach (Call i f) m) i
  = Some (f (if is_shared (nth i (handles m) 0) (handles m) then detach v else v)).
Proof.
  intros W C. unfold content in C. cbn [exec]. destruct (nth_error (handles m) i) as [h|] eqn:E; [|discriminate].
  rewrite C. rewrite (nth_error_nth _ _ _ E).
  destruct (is_shared h (handles m)) eqn:S; unfold content; cbn [handles store exec].
  - rewrite nth_set_at, Nat.eqb_refl. pose proof (nth_lt _ _ _ E) as L. apply Nat.ltb_lt in L. rewrite L. cbn.
    rewrite nth_snoc, Nat.ltb_irrefl, Nat.eqb_refl. reflexivity.
  - rewrite E. rewrite nth_set_at, Nat.eqb_refl. pose proof (nth_lt _ _ _ C) as L. apply Nat.ltb_lt in L.
    rewrite L. reflexivity.
Qed.

(** ** simulation *)
Context {O : Type} (obs : T -> O).
Hypothesis kept : keeps obs detach.

Definition agree m (vs : list T) : Prop :=
  length (handles m) = length vs
  /\ forall i, option_map obs (content m i) = option_map obs (nth_error vs i).

Lemma content_None m i : wf m -> content m i = None <-> length (handles m) <= i.
Proof.
  intros W. unfold content. split.
  - intros H. destruct (nth_error (handles m) i) as [h|] eqn:E.
    + exfalso. pose proof (wf_nth _ _ _ W E). apply nth_error_None in H. lia.
    + apply nth_error_None. auto.
  - intros H. apply nth_error_None in H. rewrite H. reflexivity.
Qed.

Lemma step_agree s m vs :
  match s with Call _ f => respects obs f | _ => True end ->
  wf m -> agree m vs -> agree (exec detach s m) (vexec s vs).
Proof.
  intros R W [L A]. destruct s as [v|j|i j|i f].
  - split; [cbn; rewrite !app_length; cbn; lia|]. intros k. rewrite (content_new m v k W). cbn [vexec].
    rewrite nth_snoc, L. destruct (k <? length vs); [apply A|reflexivity].
  - cbn [exec vexec]. destruct (nth_error (handles m) j) as [h|] eqn:E.
    + destruct (nth_error vs j) as [w|] eqn:F.
      2:{ apply nth_error_None in F. apply nth_lt in E. lia. }
      split; [cbn; rewrite !app_length; cbn; lia|]. intros k. unfold content; cbn [handles store exec].
      rewrite !nth_snoc, L. specialize (A k) as Ak. unfold content in Ak.
      destruct (k <? length vs); [exact Ak|]. destruct (k =? length vs); [|reflexivity].
      specialize (A j). unfold content in A. rewrite E, F in A. exact A.
    + destruct (nth_error vs j) as [w|] eqn:F; [|split; auto].
      apply nth_error_None in E. apply nth_lt in F. lia.
  - cbn [exec vexec]. destruct (nth_error (handles m) j) as [h|] eqn:E.
    + destruct (nth_error vs j) as [w|] eqn:F.
      2:{ apply nth_error_None in F. apply nth_lt in E. lia. }
      split; [cbn; rewrite !set_at_length; exact L|]. intros k. unfold content; cbn [handles store exec].
      rewrite !nth_set_at, L. destruct ((i =? k) && (i <? length vs)).
      * specialize (A j). unfold content in A. rewrite E, F in A. exact A.
      * exact (A k).
    + destruct (nth_error vs j) as [w|] eqn:F; [|split; auto].
      apply nth_error_None in E. apply nth_lt in F. lia.
  - destruct (content m i) as [v|] eqn:C.
    + specialize (A i) as Ai. rewrite C in Ai. cbn [vexec]. destruct (nth_error vs i) as [w|] eqn:F; [|discriminate].
      cbn in Ai. injection Ai as Ai. split.
      * cbn [exec]. unfold content in C. destruct (nth_error (handles m) i) as [h|]; [|discriminate]. rewrite C.
        destruct (is_shared h (handles m)); cbn [handles]; rewrite ?set_at_length; auto.
      * intros k. rewrite nth_set_at. pose proof (nth_lt _ _ _ F) as Lt. apply Nat.ltb_lt in Lt. rewrite Lt, andb_true_r.
        destruct (Nat.eqb_spec i k) as [<-|N].
        -- rewrite (content_call_self _ _ f _ W C). cbn [option_map nth_error]. f_equal. apply R.
           match goal with |- obs (if ?b then _ else _) = _ => destruct b end; [rewrite kept|]; auto.
        -- rewrite content_call_other; auto.
    + pose proof (proj1 (content_None m i W) C) as G.
      assert (F : nth_error vs i = None) by (apply nth_error_None; lia).
      assert (E : exec detach (Call i f) m = m).
      { cbn [exec]. rewrite (proj2 (nth_error_None _ _) G). reflexivity. }
      rewrite E. cbn [vexec]. rewrite F. split; auto.
Qed.
Lemma simulation_from p : forall m vs, wf m -> agree m vs -> calls (respects obs) p ->
  agree (fold_left (fun m s => exec detach s m) p m) (fold_left (fun vs s => vexec s vs) p vs).
Proof.
  induction p as [|s p IH]; intros m vs W A C; cbn [fold_left]; [exact A|]. inversion C; subst.
  apply IH; auto; [apply exec_wf; auto|apply step_agree; auto].
Qed.
Lemma simulation p : calls (respects obs) p -> agree (exec_all detach p) (vexec_all p).
Proof.
  apply simulation_from; [constructor|]. split; [reflexivity|intros i; destruct i; reflexivity].
Qed.
End Machine.

Lemma sharing_invisible {T O} (detach : T -> T) (obs : T -> O) p i :
  keeps obs detach -> calls (respects obs) p ->
  option_map obs (content (exec_all detach p) i) = option_map obs (nth_error (vexec_all p) i).
Proof. intros K C. apply (simulation detach obs K p C). Qed.
Lemma isolation {T} (detach : T -> T) p i f k : k <> i ->
  content (exec_all detach (p ++ [Call i f])) k = content (exec_all detach p) k.
Proof.
  intros N. unfold exec_all at 1. rewrite fold_left_app. cbn [fold_left].
  apply content_call_other; auto. apply exec_all_wf.
Qed.

(** a fresh copy shares, so that its first modification uses the copy constructor *)
Lemma copy_then_call {T} (detach : T -> T) p j v f :
  let n := length (handles (exec_all detach p)) in
  content (exec_all detach p) j = Some v ->
  let m := exec_all detach (p ++ [Copy j; Call n f]) in
  content m n = Some (f (detach v)) /\ content m j = Some v.
Proof.
  intros n C m. set (m0 := exec_all detach p) in *.
  assert (M : m = exec detach (Call n f) (exec detach (Copy j) m0)).
  { unfold m, exec_all. rewrite fold_left_app. reflexivity. }
  assert (W : wf m0) by apply exec_all_wf.
  assert (W1 : wf (exec detach (Copy j) m0)) by (apply exec_wf; auto).
  unfold content in C. destruct (nth_error (handles m0) j) as [h|] eqn:E; [|discriminate].
  assert (X : exec detach (Copy j) m0 = mkShared (handles m0 ++ [h]) (store m0)) by (cbn [exec]; rewrite E; reflexivity).
  pose proof (nth_lt _ _ _ E) as Lj. fold m0 in n. fold n in Lj.
  assert (Cn : content (exec detach (Copy j) m0) n = Some v).
  { rewrite X. unfold content. cbn [handles store exec]. rewrite nth_snoc. fold n. rewrite Nat.ltb_irrefl, Nat.eqb_refl. exact C. }
  assert (Cj : content (exec detach (Copy j) m0) j = Some v).
  { rewrite X. unfold content. cbn [handles store exec]. rewrite nth_snoc. fold n. apply Nat.ltb_lt in Lj. rewrite Lj, E. exact C. }
  rewrite M. split.
  - rewrite (content_call_self detach _ _ f _ W1 Cn).
    assert (S : is_shared (nth n (handles (exec detach (Copy j) m0)) 0) (handles (exec detach (Copy j) m0)) = true).
    { rewrite X. cbn [handles]. rewrite app_nth2 by (fold n; lia). fold n. rewrite Nat.sub_diag. cbn [nth].
      unfold is_shared. rewrite count_occ_app. cbn [count_occ].
      destruct (Nat.eq_dec h h); [|contradiction].
      assert (I : In h (handles m0)) by (eapply nth_error_In; eauto).
      apply (count_occ_In Nat.eq_dec) in I. apply Nat.ltb_lt. lia. }
    rewrite S. reflexivity.
  - rewrite content_call_other; auto. lia.
Qed.

(** ** the classes *)
Lemma full_copies :
  (forall x, email_detach x = x) /\ (forall x, ptext_detach x = x) /\ (forall x, fgroup_detach x = x)
  /\ (forall x, calurl_detach x = x) /\ (forall x, rurl_detach x = x) /\ (forall x, key_detach x = x)
  /\ (forall x, sound_detach x = x) /\ (forall x, geo_detach x = x) /\ (forall x, tz_detach x = x)
  /\ (forall x, gender_detach x = x) /\ (forall x, gref_detach x = x) /\ (forall x, cdata_detach x = x)
  /\ (forall x, cgroup_detach x = x) /\ (forall x, secrecy_detach x = x).
Proof. repeat split; intros []; reflexivity. Qed.

Lemma contact_do_detach c a : addressee_detach (contact_do c a) = contact_do c (addressee_detach a).
Proof.
  destruct c; cbn [contact_do];
  unfold set_uid, set_name, set_formatted, set_family, set_given, set_additional, set_prefix, set_suffix,
    set_mailer, set_department, set_note, set_prodid, set_sortstring, set_text, set_birthday, set_deathdate,
    set_revision, set_tz, set_geo, set_secrecy, set_logo, set_photo, set_sound, set_gender, guarded,
    add_email, remove_email, set_email_list, insert_lang, remove_lang, insert_phone, remove_phone, insert_address,
    remove_address, insert_key, remove_key, insert_impp, insert_url, set_title, set_role, set_organization,
    set_first_text, insert_category, remove_category, set_categories, insert_custom, remove_custom, set_customs,
    insert_member, insert_related, insert_calurl, insert_source, insert_first_class, set_birthday_date, insert_title, insert_role, insert_org;
  destruct a; cbn; try reflexivity;
  repeat match goal with |- context [if ?b then _ else _] => destruct b end; try reflexivity;
  repeat match goal with |- context [match ?b with _ => _ end] => destruct b end; reflexivity.
Qed.
Lemma contact_do_respects c : respects addressee_detach (contact_do c).
Proof. intros v w H. rewrite !contact_do_detach, H. reflexivity. Qed.
Lemma addressee_detach_twice a : addressee_detach (addressee_detach a) = addressee_detach a.
Proof. reflexivity. Qed.
