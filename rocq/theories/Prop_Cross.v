(** C92: the LDIF export of contacts that have been saved and loaded as vCards. *)
From Verif Require Import Base BaseFacts Utf8 QtText M_ParamMap M_VCard M_VCardText S_Escape S_Split S_Date M_Split M_Values M_Date M_Addressee M_VCardTool
  M_ContactGroup M_Ldif S_Contact S_Whole S_Versions P_Lists P_Lines P_Contact P_Fields P_Fields2 P_Contact2 P_Whole P_ContactCase P_Cross
  Prop_Contact Prop_Contact2 Prop_Whole Prop_Versions S_Ldif S_LdifContact Prop_Ldif Prop_Ldif2.

(** a contact that is not empty, has a name, and whose addresses have not been left
    empty (addressee.cpp does not let empty ones in) *)
Definition to_export (a : addressee) : Prop := a_empty a = false /\ S_LdifContact.named a = true /\ Forall (fun x => ad_empty x = false) (a_addresses a).

(** Saving contacts as vCards in versions 3.0 and 4.0 and loading them, any number of
    times, does not change a character of what is then exported to LDIF. *)
Theorem C92_export :
  forall (T : Tool) (E : Ext) (X : LdifExt) (steps : list (version * bool)) (l r : list addressee) (str : ustring),
    fresh_ids T -> (forall v export, In (v, export) steps -> v <> V21 /\ Forall (safe_in T v) l) ->
    Forall (fun a => texts_full (a_nicks a)) l -> Forall to_export l ->
    converted T E steps l r -> addressees_to_ldif X r str = addressees_to_ldif X l str.
Proof.
  intros T E X steps l r str HT HS HN HE C.
  assert (G : Forall2 (fun a b => addressee_to_ldif X b = addressee_to_ldif X a) l r).
  { induction C as [l|v export steps l m r F R C IH]; [apply Forall2_same; reflexivity|].
    destruct (HS v export (or_introl eq_refl)) as [V H].
    assert (S : Forall2 (fun a b => (same_in a b /\ a_nicks b = a_nicks a) /\ to_export b /\ addressee_to_ldif X b = addressee_to_ldif X a) l m).
    { pose proof (trip_reads E T v export l m F R) as K. clear R IH C HS. induction K as [|a b l m Hab K IH]; [constructor|].
      inversion F as [|? ? Fa F']; subst. inversion H; subst. inversion HN as [|? ? Q HN']; subst. inversion HE as [|? ? (E1 & E2 & E3) HE']; subst. constructor; [|auto].
      assert (S : same_in a b) by (apply (whole_in E T v export); assumption).
      assert (N : a_nicks b = a_nicks a). { rewrite (field_nicks E T v export a b Fa Hab V (texts_full_safe _ Q)). apply texts_full_valid, Q. }
      assert (M : S_LdifContact.named b = true).
      { destruct S as [k_texts k_n _ _ _ _ _ _ _ _ _ _ _]. injection k_texts as T1 _ _. injection k_n as N1 _ _ _ _. unfold S_LdifContact.named. rewrite T1, N1. exact E2. }
      pose proof (read_named E T v export a b Hab M) as B. pose proof (read_filled E T v export a b Hab) as D.
      split; [split; assumption|]. split; [repeat split; assumption|]. apply ldif_same; try assumption. congruence. }
    assert (W : Forall2 (fun a b => addressee_to_ldif X b = addressee_to_ldif X a) m r).
    { apply IH.
      - intros w e I. destruct (HS w e (or_intror I)) as [W1 W2]. split; [exact W1|].
        refine (forall_moves _ _ _ _ _ S W2). intros a b ((S1 & _) & _). apply safe_moves, S1.
      - refine (forall_moves _ _ _ _ _ S HN). intros a b ((_ & N) & _). rewrite N. auto.
      - refine (forall_moves _ _ _ _ _ S HE). intros a b (_ & B & _) _. exact B. }
    refine (forall2_trans _ _ _ _ _ _ W); [intros x y z P Q; congruence|].
    clear - S. induction S as [|a b l m (_ & _ & Q) S IH]; constructor; auto. }
  unfold addressees_to_ldif. f_equal.
  - destruct G; reflexivity.
  - f_equal. clear - G. induction G as [|a b l' m' Q G IH]; [reflexivity|]. cbn [flat_map]. rewrite Q, IH. reflexivity.
Qed.
Print Assumptions C92_export.
(** So a program that imports the LDIF text gets of each contact what it would have got
    without the vCards in between. *)
Theorem C92_import :
  forall (T : Tool) (E : Ext) (X : LdifExt) (steps : list (version * bool)) (l r : list addressee) (dt : datetime),
    fresh_ids T -> (forall v export, In (v, export) steps -> v <> V21 /\ Forall (safe_in T v) l) ->
    Forall (fun a => texts_full (a_nicks a)) l -> Forall to_export l -> sane X -> Forall (exportable X) l -> dt_valid dt = true ->
    converted T E steps l r ->
    exists bs, ldif_to_addressee X (snd (addressees_to_ldif X r [])) dt [] [] = Some (bs, []) /\ Forall2 (came_back X dt) l bs.
Proof.
  intros T E X steps l r dt HT HS HN HE SX EX V C. rewrite (C92_export T E X steps l r [] HT HS HN HE C).
  destruct (C28_contacts X dt l SX EX (or_introl V)) as (bs & I & F & _). exists bs. split; [exact I|]. rewrite V in F.
  assert (K : filter S_LdifContact.named (filter (fun a => negb (a_empty a)) l) = l).
  { clear - HE. induction HE as [|a l (E1 & E2 & _) HE IH]; [reflexivity|]. cbn [filter]. rewrite E1. cbn [negb filter]. rewrite E2, IH. reflexivity. }
  rewrite K in F. clear - F. induction F as [|a b l bs (Q & _) F IH]; constructor; auto.
Qed.
Print Assumptions C92_import.

Definition ex_cross : addressee := touch ex_old.
Lemma same_touched a : same_in a (touch a).
Proof. destruct (same_in_refl a). destruct a. constructor; assumption. Qed.
Lemma touched_nicks a : a_nicks (touch a) = a_nicks a.
Proof. destruct a. reflexivity. Qed.
Lemma ex_cross_safe v : safe_in exT v ex_cross.
Proof. exact (safe_moves exT v ex_old ex_cross (same_touched ex_old) (ex_old_safe v)). Qed.
Example C92_case : forall E : Ext, Forall (fun a => texts_full (a_nicks a)) [ex_cross] /\ Forall to_export [ex_cross] /\
  (forall v, Forall (safe_in exT v) [ex_cross]) /\ (exists r, converted exT E [(V30, false); (V40, true)] [ex_cross] [r]) /\
  match addressee_to_ldif ex_ldif ex_cross with Some s => Nat.ltb 200 (length s) | None => false end = true.
Proof.
  intros E. split; [constructor; [unfold ex_cross; rewrite touched_nicks; exact (proj1 (proj2 C91_other_case))|constructor]|].
  split; [constructor; [split; [reflexivity|]; split; [vm_compute; reflexivity|]; assert (K : forallb (fun x => negb (ad_empty x)) (a_addresses ex_cross) = true) by (vm_compute; reflexivity);
    rewrite forallb_forall in K; apply Forall_forall; intros x I; apply negb_true_iff, K, I|constructor]|].
  split; [intros v; constructor; [apply ex_cross_safe|constructor]|].
  split; [eexists; do 2 one_step; constructor|]. vm_compute. reflexivity.
Qed.
Example C92_import_case : sane ex_ldif /\ Forall (exportable ex_ldif) [ex_cross].
Proof. split; [exact ex_sane|]. constructor; [|constructor]. split; [vm_compute; reflexivity|]. split; vm_compute; repeat split; auto. Qed.
(** Through version 2.1 the nickname is lost and with it three lines of the export. *)
Theorem C92_nickname_refuted :
  forall E : Ext, exists a b, to_export a /\ texts_full (a_nicks a) /\ (forall v, safe_in exT v a) /\
    converted exT E [(V21, false)] [a] [b] /\ addressee_to_ldif ex_ldif b <> addressee_to_ldif ex_ldif a.
Proof.
  intros E. destruct (C92_case E) as (N & X & _). exists ex_cross. eexists. split; [exact (Forall_inv X)|]. split; [exact (Forall_inv N)|].
  split; [exact ex_cross_safe|]. split; [one_step; constructor|]. vm_compute. intros H. discriminate H.
Qed.
Print Assumptions C92_nickname_refuted.
