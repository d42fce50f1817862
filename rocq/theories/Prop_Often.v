(** C59: saving and loading any number of times. *)
From Verif Require Import Base M_VCard M_VCardText M_Addressee M_VCardTool S_Contact S_Whole S_Stable S_Four P_ContactCase P_Stable2 P_Whole Prop_Contact2 Prop_Whole Prop_Stable Prop_Four.

(** [r] is what is left of the contacts [l] after writing and reading them [n] times. *)
Inductive kept_for (T : Tool) (E : Ext) (v : version) (export : bool) : nat -> list addressee -> list addressee -> Prop :=
| kept_0 : forall l, kept_for T E v export 0 l l
| kept_S : forall n l m r, round_trip T E v export l m -> kept_for T E v export n m r -> kept_for T E v export (S n) l r.

Lemma trip_one T E v export l a b : round_trip T E v export l a -> round_trip T E v export l b -> a = b.
Proof. intros [n Hn] [m Hm]. specialize (Hn (n + m) ltac:(lia)). specialize (Hm (n + m) ltac:(lia)). congruence. Qed.
Lemma kept_same T E v export res : round_trip T E v export res res -> forall n r, kept_for T E v export n res r <-> r = res.
Proof.
  intros H. induction n as [|n IH]; intros r; split.
  - intros K. inversion K. reflexivity.
  - intros ->. constructor.
  - intros K. inversion K as [|? ? m ? R1 R2]; subst. rewrite (trip_one _ _ _ _ _ _ _ R1 H) in R2. apply IH, R2.
  - intros ->. econstructor; [exact H|]. apply IH. reflexivity.
Qed.
Lemma kept_often T E v export l res : round_trip T E v export l res -> round_trip T E v export res res ->
  forall n r, kept_for T E v export (S n) l r <-> r = res.
Proof.
  intros H H2 n r. split.
  - intros K. inversion K as [|? ? m ? R1 R2]; subst. rewrite (trip_one _ _ _ _ _ _ _ R1 H) in R2. exact (proj1 (kept_same _ _ _ _ _ H2 n r) R2).
  - intros ->. econstructor; [exact H|]. apply (kept_same _ _ _ _ _ H2). reflexivity.
Qed.

(** However often contacts are saved and loaded again, they are what they were after the first time, the same as at the
    beginning in all that the version keeps, and the file stays the same to the byte. *)
Theorem C59_often30 :
  forall (T : Tool) (E : Ext) (export : bool) (l : list addressee),
    Forall (fits T V30) l -> Forall (safe30 T) l -> Forall (rest_in T V30) l -> fresh_ids T -> paths_replace T ->
    exists res, Forall2 same30 l res /\ create_text T E V30 export res = create_text T E V30 export l /\
      forall n r, kept_for T E V30 export (S n) l r <-> r = res.
Proof.
  intros T E export l Hf Hs Hr HT HP. destruct (C59_stable30 T E export l Hf Hs Hr HT HP) as (res & H1 & H2 & H3). exists res.
  destruct (C44_whole_contact T E export l Hf Hs HT) as (res' & K1 & K2). rewrite (trip_one _ _ _ _ _ _ _ K1 H1) in K2.
  split; [exact K2|]. split; [exact H2|]. exact (kept_often _ _ _ _ _ _ H1 H3).
Qed.
Print Assumptions C59_often30.
Theorem C59_often40 :
  forall (T : Tool) (E : Ext) (export : bool) (l : list addressee),
    Forall (fits T V40) l -> Forall (safe40 T) l -> Forall (rest_in40 T) l -> fresh_ids T -> paths_replace T ->
    exists res, Forall2 same40 l res /\ create_text T E V40 export res = create_text T E V40 export l /\
      forall n r, kept_for T E V40 export (S n) l r <-> r = res.
Proof.
  intros T E export l Hf Hs Hr HT HP. destruct (C59_stable40 T E export l Hf Hs Hr HT HP) as (res & H1 & H2 & H3). exists res.
  destruct (C44_whole_contact40 T E export l Hf Hs HT) as (res' & K1 & K2). rewrite (trip_one _ _ _ _ _ _ _ K1 H1) in K2.
  split; [exact K2|]. split; [exact H2|]. exact (kept_often _ _ _ _ _ _ H1 H3).
Qed.
Print Assumptions C59_often40.
Theorem C59_often21 :
  forall (T : Tool) (E : Ext) (export : bool) (l : list addressee),
    Forall (fits T V21) l -> Forall (safe21 T) l -> Forall (rest_in T V21) l -> fresh_ids T -> paths_replace T ->
    exists res, Forall2 same21 l res /\ create_text T E V21 export res = create_text T E V21 export l /\
      forall n r, kept_for T E V21 export (S n) l r <-> r = res.
Proof.
  intros T E export l Hf Hs Hr HT HP. destruct (C59_stable21 T E export l Hf Hs Hr HT HP) as (res & H1 & H2 & H3). exists res.
  destruct (C44_whole_contact21 T E export l Hf Hs HT) as (res' & K1 & K2). rewrite (trip_one _ _ _ _ _ _ _ K1 H1) in K2.
  split; [exact K2|]. split; [exact H2|]. exact (kept_often _ _ _ _ _ _ H1 H3).
Qed.
Print Assumptions C59_often21.
(** The contact of [C59_case], saved seven times. *)
Example C59_often_case : forall E, exists res, same30 ex_stable res /\ kept_for exT E V30 false 7 [ex_stable] [res].
Proof.
  intros E. destruct C59_case as (H1 & H2 & H3).
  destruct (C59_often30 exT E false [ex_stable] (Forall_cons _ H1 (Forall_nil _)) (Forall_cons _ H2 (Forall_nil _)) (Forall_cons _ H3 (Forall_nil _)) ex_fresh ex_paths)
    as (res & K1 & _ & K2). inversion K1 as [|? b ? r S N]; subst. inversion N; subst. exists b. split; [exact S|]. apply K2. reflexivity.
Qed.
