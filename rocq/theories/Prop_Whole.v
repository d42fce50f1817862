(** C44, continued: whole contacts in versions 4.0 and 2.1; see [Prop_Contact] for
    [round_trip] and [fits]. *)
From Verif Require Import Base QtText Utf8 M_ParamMap M_VCard M_VCardText S_Escape S_Card S_Parse S_RoundTrip S_Split P_Split P_RoundTrip3
  M_Split M_Values M_Date S_Date M_Addressee M_VCardTool S_Contact S_Whole
  P_Lines P_Contact P_Contact2 P_ContactCase P_Whole Prop_Contact Prop_Contact2.

Theorem C44_whole_contact40 :
  forall (T : Tool) (E : Ext) (export : bool) (l : list addressee), Forall (fits T V40) l -> Forall (safe40 T) l -> fresh_ids T ->
    exists res, round_trip T E V40 export l res /\ Forall2 same40 l res.
Proof.
  intros T E export l Hf Hs HT. destruct (trip_exists E T V40 export l Hf) as (res & Hr & H2). exists res. split; [exact Hr|].
  rewrite Forall_forall in Hs, Hf. eapply Forall2_imp; [|exact H2]. intros a b Hin Hab. apply (whole40 E T export a b); auto.
Qed.
Print Assumptions C44_whole_contact40.
Theorem C44_whole_contact21 :
  forall (T : Tool) (E : Ext) (export : bool) (l : list addressee), Forall (fits T V21) l -> Forall (safe21 T) l -> fresh_ids T ->
    exists res, round_trip T E V21 export l res /\ Forall2 same21 l res.
Proof.
  intros T E export l Hf Hs HT. destruct (trip_exists E T V21 export l Hf) as (res & Hr & H2). exists res. split; [exact Hr|].
  rewrite Forall_forall in Hs, Hf. eapply Forall2_imp; [|exact H2]. intros a b Hin Hab. apply (whole21 E T export a b); auto.
Qed.
Print Assumptions C44_whole_contact21.

(** a group with the fields of version 4.0 *)
Definition ex_whole : addressee :=
  put_members [B "urn:a"; B "urn:b;c"] (put_kind (B "Group") (put_langs [mkPtext [(B "pref", [B "1"])] (B "fr"); mkPtext [] (B "d,e")]
  (put_pidmaps [mkPtext [] (B "1;urn:x")] (put_sources [B "http://s"] (put_gender (mkGender (B "F") (B "a, b"))
  (put_deathdate (mkDt (Some (mkDate 2024 2 29)) (Some (mkTime 23 59 58 0)) TUtc) 
  (put_addresses [ad_set_label (B "a; b") ex_address; ad_set_label (B "c") ex_address] ex_contact2))))))).

Ltac show c := repeat match goal with |- context [?f c] => let x := eval vm_compute in (f c) in let H := fresh in assert (H : f c = x) by (vm_cast_no_check (eq_refl x)); rewrite H; clear H end.
Ltac each t := repeat (apply Forall_cons; [t|]); apply Forall_nil.
Example C44_case40 : fits exT V40 ex_whole /\ safe40 exT ex_whole.
Proof.
  split; [apply fits_spec; vm_compute; reflexivity|].
  constructor; [constructor|..].
  15: { unfold special_free. assert (K : a_customs ex_whole = a_customs ex_contact2) by (vm_compute; reflexivity). rewrite K.
        split; [show ex_contact2; apply increasing_b_spec; reflexivity|]. split; [exact ex_customs|].
        intros _. show ex_contact2. each ltac:(cbv; intuition discriminate). }
  all: show ex_whole.
  - each ltac:(apply text_safe_spec; reflexivity).
  - discriminate.
  - apply parts_b; reflexivity.
  - each ltac:(split; [apply text_safe_spec; reflexivity|discriminate]).
  - each ltac:(split; [apply text_safe_spec; reflexivity|discriminate]).
  - each ltac:(split; [discriminate|apply parts_b; reflexivity]).
  - discriminate.
  - right. exists (mkDate 1970 2 28). split; [reflexivity|]. split; [left; cbn; lia|reflexivity].
  - right. exists (mkDate 2024 2 29), (mkTime 23 59 58 0), TUtc. split; [reflexivity|]. split; [split; [left; cbn; lia|reflexivity]|]. split; [cbv; intuition discriminate|exact I].
  - reflexivity.
  - each ltac:(split; [apply text_safe_spec; reflexivity|split; [discriminate|split; reflexivity]]).
  - split; [each ltac:(split; [apply text_safe_spec; reflexivity|discriminate])|]. split.
    + repeat constructor; cbv; intuition discriminate.
    + repeat constructor.
  - each ltac:(split; [apply text_safe_spec; reflexivity|split; [reflexivity|split; [discriminate|split; [reflexivity|discriminate]]]]).
  - split; [|congruence]. each ltac:(split; [apply parts_b; reflexivity|split; [reflexivity|split; [congruence|reflexivity]]]).
  - apply text_safe_spec; reflexivity.
  - apply text_safe_spec; reflexivity.
  - each ltac:(split; [apply text_safe_spec; reflexivity|discriminate]).
  - each ltac:(split; [apply text_safe_spec; reflexivity|discriminate]).
  - split; [apply parts_b; reflexivity|discriminate].
  - split; [cbn; lia|]. split; [discriminate|]. split; apply text_safe_spec; reflexivity.
  - right. exists (mkDate 2024 2 29), (mkTime 23 59 58 0), TUtc. split; [reflexivity|]. split; [split; [left; cbn; lia|reflexivity]|]. split; [cbv; intuition discriminate|exact I].
  - split; [each ltac:(split; [apply text_safe_spec; reflexivity|discriminate])|]. repeat constructor; cbv; intuition discriminate.
  - each ltac:(split; [apply text_safe_spec; reflexivity|split; [discriminate|reflexivity]]).
  - right. split; [reflexivity|]. split; [each ltac:(split; [apply text_safe_spec; reflexivity|discriminate])|]. repeat constructor; cbv; intuition discriminate.
Qed.

(** a contact for version 2.1: ASCII texts, no type for the e-mail addresses *)
Definition ex_old : addressee :=
  put_formatted (B "Dr. Jorg; x") (put_given (B "J,rg") (put_note (B "see; a, b") (put_photo picture_new
  (put_emails [mkEmail [(B "pref", [B "1"])] (B "a@b"); mkEmail [] (B "c@d")]
  (put_addresses [ad_set_locality (B "Koeln") (ad_set_label (B "a; b") ex_address); ex_address2] ex_contact2))))).
Example C44_case21 : fits exT V21 ex_old /\ safe21 exT ex_old.
Proof.
  split; [apply fits_spec; vm_compute; reflexivity|].
  split; [constructor|split; apply text_safe_spec; vm_compute; reflexivity].
  15: { assert (K : a_customs ex_old = a_customs ex_contact2) by (vm_compute; reflexivity). rewrite K.
        split; [show ex_contact2; apply increasing_b_spec; reflexivity|]. split; [exact ex_customs|discriminate]. }
  all: show ex_old.
  - each ltac:(apply text_safe_spec; reflexivity).
  - discriminate.
  - apply parts_b; reflexivity.
  - each ltac:(split; [apply text_safe_spec; reflexivity|discriminate]).
  - each ltac:(split; [apply text_safe_spec; reflexivity|discriminate]).
  - each ltac:(split; [discriminate|apply parts_b; reflexivity]).
  - discriminate.
  - right. exists (mkDate 1970 2 28). split; [reflexivity|]. split; [left; cbn; lia|reflexivity].
  - right. exists (mkDate 2024 2 29), (mkTime 23 59 58 0), TUtc. split; [reflexivity|]. split; [split; [left; cbn; lia|reflexivity]|]. split; [cbv; intuition discriminate|exact I].
  - reflexivity.
  - each ltac:(split; [apply text_safe_spec; reflexivity|split; [discriminate|split; reflexivity]]).
  - split; [each ltac:(split; [apply text_safe_spec; reflexivity|discriminate])|]. split.
    + repeat constructor; cbv; intuition discriminate.
    + repeat constructor.
  - each ltac:(split; [apply text_safe_spec; reflexivity|split; [reflexivity|split; [discriminate|split; [reflexivity|discriminate]]]]).
  - split; [each ltac:(split; [apply parts_b; reflexivity|split; [reflexivity|split; [intros _; apply text_safe_spec; reflexivity|reflexivity]]])|].
    intros _ l1 x l2 H _. destruct l1 as [|y [|z l1]]; injection H as; subst; [constructor| |destruct l1; discriminate].
    constructor; [cbv; discriminate|constructor].
Qed.
