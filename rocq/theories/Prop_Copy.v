(** C21: copying objects. *)
From Verif Require Import Base M_ParamMap M_Values M_Date M_Addressee M_ContactGroup M_Copy S_Copy P_Copy.
Local Open Scope list_scope.
Local Open Scope nat_scope.

(** C21.  For every class (whatever its copy constructor), every program and every
    member function: calling it on one variable does not change any other variable. *)
Theorem C21_other_variables_unchanged :
  forall (T : Type) (detach : T -> T) (p : list (stmt T)) (i k : nat) (f : T -> T), k <> i ->
    content (exec_all detach (p ++ [Call i f])) k = content (exec_all detach p) k.
Proof. intros T d p i k f H. exact (isolation d p i f k H). Qed.
Print Assumptions C21_other_variables_unchanged.

(** Whatever part [obs] of an object the copy constructor keeps, and the member
    functions called treat consistently, behaves as if every variable held its own
    value: sharing is invisible. *)
Theorem C21_kept_parts_behave_like_values :
  forall (T O : Type) (detach : T -> T) (obs : T -> O) (p : list (stmt T)) (i : nat),
    keeps obs detach -> calls (respects obs) p ->
    option_map obs (content (exec_all detach p) i) = option_map obs (nth_error (vexec_all p) i).
Proof. intros T O d obs p i K C. exact (sharing_invisible d obs p i K C). Qed.
Print Assumptions C21_kept_parts_behave_like_values.

(** The classes whose copy constructors are complete: value semantics for every
    program, with any member functions. *)
Definition value_semantics {T} (detach : T -> T) : Prop :=
  forall (p : list (stmt T)) (i : nat), content (exec_all detach p) i = nth_error (vexec_all p) i.
Theorem C21_complete_classes :
  value_semantics email_detach /\ value_semantics ptext_detach /\ value_semantics fgroup_detach
  /\ value_semantics calurl_detach /\ value_semantics rurl_detach /\ value_semantics key_detach
  /\ value_semantics sound_detach /\ value_semantics geo_detach /\ value_semantics tz_detach
  /\ value_semantics gender_detach /\ value_semantics gref_detach /\ value_semantics cdata_detach
  /\ value_semantics cgroup_detach /\ value_semantics secrecy_detach.
Proof.
  assert (K : forall T (d : T -> T), (forall x, d x = x) -> value_semantics d).
  { intros T d H p i. pose proof (sharing_invisible d (fun x => x) p i H) as S.
    assert (M : forall o : option T, option_map (fun x => x) o = o) by (intros []; reflexivity).
    rewrite !M in S. apply S. apply Forall_forall. intros [v|j|a b|a f] _; auto. intros v w ->. reflexivity. }
  pose proof full_copies as F. repeat split; apply K; apply F.
Qed.
Print Assumptions C21_complete_classes.

(** A contact: everything but the kind, the field groups, the nick names and the
    client PID maps. *)
Theorem C21_contact :
  forall (p : list (stmt addressee)) (i : nat),
    calls (fun f => exists c, f = contact_do c) p ->
    option_map others (content (exec_all addressee_detach p) i) = option_map others (nth_error (vexec_all p) i).
Proof.
  intros p i H. apply (sharing_invisible addressee_detach addressee_detach p i).
  - intros v. apply addressee_detach_twice.
  - eapply Forall_impl; [|exact H]. intros [v|j|a b|a f]; auto. intros [c ->]. apply contact_do_respects.
Qed.
Print Assumptions C21_contact.
(** These four members are lost by the first modification of a copy, whatever it is. *)
Theorem C21_contact_forgets :
  forall (p : list (stmt addressee)) (j : nat) (v : addressee) (c : contact_call),
    let n := length (handles (exec_all addressee_detach p)) in
    content (exec_all addressee_detach p) j = Some v ->
    exists w, content (exec_all addressee_detach (p ++ [Copy j; Call n (contact_do c)])) n = Some w
      /\ a_kind w = [] /\ a_fgroups w = [] /\ a_nicks w = [] /\ a_pidmaps w = []
      /\ others w = others (contact_do c v).
Proof.
  intros p j v c n H. destruct (copy_then_call addressee_detach p j v (contact_do c) H) as [R _].
  exists (contact_do c (addressee_detach v)). split; [exact R|].
  rewrite <- contact_do_detach. repeat split.
Qed.
Print Assumptions C21_contact_forgets.
(** the individual statement "every other field of the copy still equals the
    original's" is therefore false *)
Theorem C21_contact_refuted :
  exists (p : list (stmt addressee)), calls (fun f => exists c, f = contact_do c) p /\
    exists v w, content (exec_all addressee_detach p) 0 = Some v /\ content (exec_all addressee_detach p) 1 = Some w
      /\ a_kind v = B "org" /\ a_kind w = [] /\ nickname v = B "Nick" /\ nickname w = [].
Proof.
  exists [New (set_nickname (B "Nick") (set_kind (B "org") (addressee_new (B "1")))); Copy 0;
          Call 1 (contact_do (KNote (B "x")))].
  split. { repeat constructor. exists (KNote (B "x")). reflexivity. }
  vm_compute. eexists _, _. repeat split.
Qed.
Print Assumptions C21_contact_refuted.

(** Phone numbers lose their parameters, addresses their position, messaging
    addresses their URL, pictures their raw data, contact references their GID; the
    rest behaves like values. *)
Theorem C21_phone :
  forall (p : list (stmt phone)) (i : nat),
    let obs := fun x => (ph_id x, ph_number x, ph_type x) in calls (respects obs) p ->
    option_map obs (content (exec_all phone_detach p) i) = option_map obs (nth_error (vexec_all p) i).
Proof. intros p i obs. apply sharing_invisible. intros v. reflexivity. Qed.
Print Assumptions C21_phone.
Theorem C21_address :
  forall (p : list (stmt address)) (i : nat),
    let obs := fun x => (ad_empty x, ad_id x, ad_type x, ad_pobox x, ad_extended x, ad_street x,
                         ad_locality x, ad_region x, ad_postal x, ad_country x, ad_label x) in
    calls (respects obs) p ->
    option_map obs (content (exec_all address_detach p) i) = option_map obs (nth_error (vexec_all p) i).
Proof. intros p i obs. apply sharing_invisible. intros v. reflexivity. Qed.
Print Assumptions C21_address.
Theorem C21_impp :
  forall (p : list (stmt impp)) (i : nat), calls (respects im_params) p ->
    option_map im_params (content (exec_all impp_detach p) i) = option_map im_params (nth_error (vexec_all p) i).
Proof. intros p i. apply sharing_invisible. intros v. reflexivity. Qed.
Print Assumptions C21_impp.
Theorem C21_picture :
  forall (p : list (stmt picture)) (i : nat),
    let obs := fun x => (pi_url x, pi_type x, pi_data x, pi_intern x) in calls (respects obs) p ->
    option_map obs (content (exec_all picture_detach p) i) = option_map obs (nth_error (vexec_all p) i).
Proof. intros p i obs. apply sharing_invisible. intros v. reflexivity. Qed.
Print Assumptions C21_picture.
Theorem C21_contact_reference :
  forall (p : list (stmt cref)) (i : nat),
    let obs := fun x => (cr_uid x, cr_email x, cr_customs x) in calls (respects obs) p ->
    option_map obs (content (exec_all cref_detach p) i) = option_map obs (nth_error (vexec_all p) i).
Proof. intros p i obs. apply sharing_invisible. intros v. reflexivity. Qed.
Print Assumptions C21_contact_reference.
(** the original keeps everything, the modified copy has lost the member *)
Theorem C21_forgotten_members :
  (forall p j v f n, n = length (handles (exec_all phone_detach p)) -> content (exec_all phone_detach p) j = Some v ->
     (forall x, ph_params (f x) = ph_params x) ->
     let m := exec_all phone_detach (p ++ [Copy j; Call n f]) in
     content m j = Some v /\ option_map ph_params (content m n) = Some [])
  /\ (forall p j v f n, n = length (handles (exec_all address_detach p)) -> content (exec_all address_detach p) j = Some v ->
     (forall x, ad_geo (f x) = ad_geo x) ->
     let m := exec_all address_detach (p ++ [Copy j; Call n f]) in
     content m j = Some v /\ option_map (fun a => geo_valid (ad_geo a)) (content m n) = Some false)
  /\ (forall p j v f n, n = length (handles (exec_all impp_detach p)) -> content (exec_all impp_detach p) j = Some v ->
     (forall x, im_address (f x) = im_address x) ->
     let m := exec_all impp_detach (p ++ [Copy j; Call n f]) in
     content m j = Some v /\ option_map im_address (content m n) = Some [])
  /\ (forall p j v f n, n = length (handles (exec_all picture_detach p)) -> content (exec_all picture_detach p) j = Some v ->
     (forall x, pi_raw (f x) = pi_raw x) ->
     let m := exec_all picture_detach (p ++ [Copy j; Call n f]) in
     content m j = Some v /\ option_map pi_raw (content m n) = Some [])
  /\ (forall p j v f n, n = length (handles (exec_all cref_detach p)) -> content (exec_all cref_detach p) j = Some v ->
     (forall x, cr_gid (f x) = cr_gid x) ->
     let m := exec_all cref_detach (p ++ [Copy j; Call n f]) in
     content m j = Some v /\ option_map cr_gid (content m n) = Some []).
Proof.
  repeat split; subst n;
    match goal with H : content _ _ = Some _ |- _ => destruct (copy_then_call _ _ _ _ f H) as [R1 R2] end;
    try exact R2; rewrite R1; cbn [option_map]; rewrite H1; reflexivity.
Qed.
Print Assumptions C21_forgotten_members.

(** Setting the number of a copy of a phone number with parameters: the number of
    the copy changes, its parameters are gone, the original is unchanged. *)
Example C21_phone_case :
  let ph := mkPhone (B "id") (B "123") tHome [(B "x", [B "y"])] in
  let m := exec_all phone_detach [New ph; Copy 0; Call 1 (fun p => mkPhone (ph_id p) (B "456") (ph_type p) (ph_params p))] in
  content m 0 = Some ph /\ content m 1 = Some (mkPhone (B "id") (B "456") tHome []).
Proof. vm_compute. auto. Qed.
(** a picture given by its file contents loses them entirely *)
Example C21_picture_case :
  let pic := mkPicture [] (B "png") None [1%N; 2%N] true in
  let m := exec_all picture_detach [New pic; Copy 0; Call 1 (fun p => mkPicture (pi_url p) (B "gif") (pi_data p) (pi_raw p) (pi_intern p))] in
  content m 0 = Some pic /\ content m 1 = Some (mkPicture [] (B "gif") None [] true).
Proof. vm_compute. auto. Qed.
Example C21_contact_case :
  let p := [New (set_family (B "Doe") (addressee_new (B "1"))); Copy 0; Call 1 (contact_do (KGiven (B "Jane")));
            New (addressee_new (B "2")); Assign 2 1; Call 1 (contact_do (KFamily (B "Roe")))] in
  calls (fun f => exists c, f = contact_do c) p
  /\ option_map a_family (content (exec_all addressee_detach p) 0) = Some (B "Doe")
  /\ option_map a_given (content (exec_all addressee_detach p) 0) = Some []
  /\ option_map a_family (content (exec_all addressee_detach p) 1) = Some (B "Roe")
  /\ option_map a_family (content (exec_all addressee_detach p) 2) = Some (B "Doe")
  /\ option_map a_given (content (exec_all addressee_detach p) 2) = Some (B "Jane").
Proof. split; [repeat constructor; eexists; reflexivity|]. vm_compute. auto. Qed.
