(** The birthday parts carried over by the LDIF reading loop: lemmas for C27. *)
From Verif Require Import Base BaseFacts Utf8 Utf8Facts QtText M_ParamMap M_Values M_Date M_Addressee M_ContactGroup M_Ldif S_Ldif P_Ldif P_LdifEntry P_LdifConv.
Local Open Scope list_scope.
Local Open Scope nat_scope.

(** ** What is read does not depend on the birthday parts carried over, except for the birthday *)

Local Notation wb := without_birthday.
Definition rwb (r : rstate) : rstate :=
  mkR (wb (r_a r)) (r_home r) (r_work r) 0 0 0 (r_group r) (r_k r) (map wb (r_contacts r)) (r_groups r).

Lemma wb_text get put v a : (forall x, get (wb x) = get x) -> (forall x y, wb (put x (touch y)) = wb (put x (touch (wb y)))) ->
  wb (wb a) = wb a -> wb (set_text get put v (wb a)) = wb (set_text get put v a).
Proof. intros G P I. unfold set_text, guarded. rewrite G. destruct (leqb v (get a)); [exact I|]. rewrite <- P. reflexivity. Qed.
Lemma wb_idem a : wb (wb a) = wb a.
Proof. reflexivity. Qed.
Lemma wb_first get put v a : (forall x, get (wb x) = get x) -> (forall x y, wb (put x y) = wb (put x (wb y))) ->
  (forall x y, wb (touch (put x y)) = wb (touch (put x (wb y)))) ->
  (forall x y, wb (put x (touch y)) = wb (put x (touch (wb y)))) ->
  wb (set_first_text get put v (wb a)) = wb (set_first_text get put v a).
Proof.
  intros G P Q R. unfold set_first_text, insert_first_class. rewrite G. destruct (get a); split_ifs; rewrite <- ?P, <- ?Q, <- ?R; reflexivity.
Qed.
Ltac wb_solve := first [apply wb_text; reflexivity | apply wb_first; reflexivity].

Lemma wb_bday d a : wb (set_birthday_date d a) = wb a.
Proof. unfold set_birthday_date. split_ifs; reflexivity. Qed.
Lemma wb_addr x a : wb (insert_address x (wb a)) = wb (insert_address x a).
Proof. unfold insert_address. destruct (ad_empty x); reflexivity. Qed.

Lemma rwb_set_a a b r : wb a = wb b -> rwb (r_set_a a (rwb r)) = rwb (r_set_a b r).
Proof. intros H. unfold rwb. cbn. rewrite H, map_map. reflexivity. Qed.
Lemma rwb_idem r : rwb (rwb r) = rwb r.
Proof. unfold rwb. cbn. rewrite map_map. reflexivity. Qed.
Lemma rwb_home h r : rwb (r_set_home h (rwb r)) = rwb (r_set_home h r).
Proof. unfold rwb. cbn. rewrite map_map. reflexivity. Qed.
Lemma rwb_work h r : rwb (r_set_work h (rwb r)) = rwb (r_set_work h r).
Proof. unfold rwb. cbn. rewrite map_map. reflexivity. Qed.
Lemma rwb_group h r : rwb (r_set_group h (rwb r)) = rwb (r_set_group h r).
Proof. unfold rwb. cbn. rewrite map_map. reflexivity. Qed.
Lemma rwb_birth x y z x' y' z' r : rwb (r_set_birth x y z (rwb r)) = rwb (r_set_birth x' y' z' r).
Proof. unfold rwb. cbn. rewrite map_map. reflexivity. Qed.
Lemma rwb_phone E v t r : rwb (r_phone E v t (rwb r)) = rwb (r_phone E v t r).
Proof. unfold rwb. cbn. rewrite map_map. reflexivity. Qed.
Lemma wb_revision V d a : wb (set_revision V d (wb a)) = wb (set_revision V d a).
Proof. unfold set_revision, guarded. change (a_revision (wb a)) with (a_revision a). destruct (dt_eq _ _ _); reflexivity. Qed.
Lemma evaluate_rest_wb E f v r : rwb (evaluate_rest E f v (rwb r)) = rwb (evaluate_rest E f v r).
Proof.
  unfold evaluate_rest. cbv zeta. change (r_home (rwb r)) with (r_home r). change (r_work (rwb r)) with (r_work r). change (r_group (rwb r)) with (r_group r).
  change (r_a (rwb r)) with (wb (r_a r)).
  repeat match goal with |- context [if one_of ?l f then _ else _] => destruct (one_of l f);
    [match goal with
     | |- rwb (r_phone _ _ _ _) = _ => apply rwb_phone
     | |- rwb (r_set_home _ _) = _ => apply rwb_home
     | |- rwb (r_set_work _ _) = _ => apply rwb_work
     | |- rwb (r_set_group _ _) = _ => apply rwb_group
     | |- rwb (r_set_birth _ _ _ _) = _ => apply rwb_birth
     | |- rwb (r_set_a _ _) = _ => apply rwb_set_a; wb_solve
     | _ => idtac end|] end.
  - destruct (leqb v (B "0Z")); [apply rwb_idem|]. destruct (dt_valid (string_to_date v)); [|apply rwb_idem].
    apply rwb_set_a, wb_revision.
  - apply rwb_idem.
  - destruct (mk_date _ _ _); [|apply rwb_idem]. apply rwb_set_a. rewrite !wb_bday. reflexivity.
  - apply rwb_idem.
Qed.
Lemma evaluate_wb E f v r : rwb (evaluate_pair E f v (rwb r)) = rwb (evaluate_pair E f v r).
Proof.
  unfold evaluate_pair. cbv zeta.
  change (a_note (r_a (rwb r))) with (a_note (r_a r)). change (emails_of (r_a (rwb r))) with (emails_of (r_a r)).
  change (a_urls (r_a (rwb r))) with (a_urls (r_a r)).
  destruct (one_of ["dn"]%string f); [apply rwb_idem|]. destruct (first_is 35 f); [apply rwb_idem|].
  destruct (isnil f && negb (isnil (a_note (r_a r)))); [apply rwb_set_a; wb_solve|].
  change (r_a (rwb r)) with (wb (r_a r)).
  repeat match goal with |- context [if one_of ?l f then _ else _] => destruct (one_of l f);
    [match goal with |- rwb (r_set_a (set_note _ _) _) = _ => idtac | |- rwb (r_set_a _ _) = _ => apply rwb_set_a; wb_solve | _ => idtac end|] end.
  - destruct (contains v (emails_of (r_a r))); [apply rwb_idem|]. apply rwb_set_a.
    unfold add_email. change (a_emails (wb (r_a r))) with (a_emails (r_a r)). split_ifs; reflexivity.
  - apply rwb_set_a. destruct (isnil (a_note (r_a r))) eqn:N.
    + change (a_note (wb (r_a r))) with (a_note (r_a r)). wb_solve.
    + match goal with |- wb (set_note (a_note ?x ++ v) ?x) = wb (set_note (a_note ?y ++ v) ?y) =>
        assert (H : wb x = wb y) by wb_solve; 
        assert (HN : a_note x = a_note y) by exact (f_equal a_note H);
        rewrite HN; generalize (a_note y ++ v); generalize dependent x; generalize dependent y end.
      intros y x H _ w. transitivity (wb (set_note w (wb x))); [symmetry; wb_solve|]. rewrite H. wb_solve.
  - destruct (one_of ["homeurl"; "workurl"; "mozillahomeurl"]%string f && _); [|apply evaluate_rest_wb].
    apply rwb_set_a. unfold insert_url. change (a_urls (wb (r_a r))) with (a_urls (r_a r)). split_ifs; reflexivity.
Qed.
Lemma end_entry_wb E rev r : rwb (end_entry E rev (rwb r)) = rwb (end_entry E rev r).
Proof.
  unfold end_entry. cbv zeta. change (r_group (rwb r)) with (r_group r). change (r_home (rwb r)) with (r_home r). change (r_work (rwb r)) with (r_work r).
  destruct (Nat.eqb (cg_count (r_group r)) 0); [|unfold rwb; cbn; rewrite map_map; reflexivity].
  set (a1 := match mk_date (r_byear (rwb r)) _ _ with Some d => _ | None => _ end).
  set (a2 := match mk_date (r_byear r) _ _ with Some d => _ | None => _ end).
  assert (H : wb a1 = wb a2).
  { subst a1 a2. destruct (mk_date (r_byear (rwb r)) _ _), (mk_date (r_byear r) _ _); rewrite ?wb_bday; reflexivity. }
  clearbody a1 a2.
  assert (F : a_formatted a1 = a_formatted a2) by exact (f_equal a_formatted H).
  assert (F2 : a_name a1 = a_name a2) by exact (f_equal a_name H).
  assert (F3 : a_family a1 = a_family a2) by exact (f_equal a_family H).
  rewrite F, F2, F3. destruct (_ || _); [|unfold rwb; cbn; rewrite map_map; reflexivity].
  assert (G : forall x y h, wb x = wb y -> wb (if ad_empty h then x else insert_address h x) = wb (if ad_empty h then y else insert_address h y)).
  { intros x y h K. destruct (ad_empty h); [exact K|]. rewrite <- (wb_addr h x), <- (wb_addr h y), K. reflexivity. }
  pose proof (G _ _ (r_work r) (G _ _ (r_home r) H)) as L.
  unfold rwb. cbn. rewrite !map_app, map_map. cbn [map]. rewrite L. reflexivity.
Qed.
Lemma process_wb E rev es : forall r r', rwb r = rwb r' -> rwb (process_events E rev es r) = rwb (process_events E rev es r').
Proof.
  unfold process_events. induction es as [|e es IH]; intros r r' H; [exact H|]. cbn [fold_left]. apply IH. unfold ev_step.
  destruct (fst (fst e)); try exact H.
  - rewrite <- (end_entry_wb E rev r), <- (end_entry_wb E rev r'), H. reflexivity.
  - rewrite <- (evaluate_wb E _ _ r), <- (evaluate_wb E _ _ r'), H. reflexivity.
Qed.
Theorem import_birth E rev k b b' t : exists i i',
  import_from E rev k b t = Some i /\ import_from E rev k b' t = Some i' /\
  map wb (im_contacts i) = map wb (im_contacts i') /\ im_groups i = im_groups i' /\ im_ids i = im_ids i'.
Proof.
  do 2 eexists. rewrite !import_from_evs. split; [reflexivity|]. split; [reflexivity|].
  pose proof (process_wb E rev (evs t) (r_start E rev k b [] []) (r_start E rev k b' [] []) eq_refl) as H.
  set (x := process_events _ _ _ _) in *. set (y := process_events _ _ _ (r_start E rev k b' _ _)) in *. clearbody x y.
  cbn [result_of im_contacts im_groups im_ids].
  split; [exact (f_equal r_contacts H)|]. split; [exact (f_equal r_groups H)|]. pose proof (f_equal r_k H) as G. cbn in G. lia.
Qed.
