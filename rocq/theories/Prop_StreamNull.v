(** C36, C53: data streams with null texts.

    [fm_contact] (S_StreamNull): the byte strings that may be written for a contact when each
    empty string, byte array and URL may be null or not. *)
From Verif Require Import Base M_ParamMap M_Values M_Date M_Addressee M_Stream S_Card S_Addressee S_Stream S_StreamNull P_Stream P_StreamBack P_StreamNull P_StreamCase Prop_Stream.
Local Open Scope list_scope.
Local Open Scope N_scope.

(** What the model writes is one of these forms ... *)
Theorem C36_null_covers : forall (V : Env) (E : StreamExt) (a : addressee), fm_contact V E a (wr_addressee V E a).
Proof. exact plain_contact. Qed.
Print Assumptions C36_null_covers.
(** ... and every form is read back as the contact, consuming exactly the bytes written. *)
Theorem C36_null_contact :
  forall (V : Env) (E : StreamExt) (old a : addressee) (written rest : bytes),
    sane_stream (env_url V) E -> streamable V E a -> fm_contact V E a written ->
    exists b, rd_addressee V E old (written ++ rest, true) = (b, (rest, true)) /\ streamed V old a b.
Proof.
  intros V E old a w rest S H F. exists (back V old a). split; [apply (proj1 (formed_contact V E old a S H w F))|exact (back_streamed V E old a H)].
Qed.
Print Assumptions C36_null_contact.
(** Lists of contacts. *)
Theorem C36_null_contacts :
  forall (V : Env) (E : StreamExt) (uid : ustring) (l : list addressee) (written rest : bytes),
    sane_stream (env_url V) E -> list_ok (streamable V E) l -> fm_list (fm_contact V E) l written ->
    exists l', rd_contacts V E uid (written ++ rest, true) = (l', (rest, true)) /\ Forall2 (streamed V (addressee_new uid)) l l'.
Proof.
  intros V E uid l w rest S H F. exists (map (back V (addressee_new uid)) l). split.
  - apply (proj1 (formed_list_map _ _ (back V (addressee_new uid)) (streamable V E) l (fun x Hx => formed_contact V E (addressee_new uid) x S Hx) H w F)).
  - destruct H as [H _]. clear F. induction H as [|x l Hx _ IH]; cbn; constructor; auto. apply (back_streamed V E). exact Hx.
Qed.
Print Assumptions C36_null_contacts.
(** A missing end is noticed in every form. *)
Theorem C53_null_contact :
  forall (V : Env) (E : StreamExt) (old a : addressee) (p q : bytes),
    sane_stream (env_url V) E -> streamable V E a -> fm_contact V E a (p ++ q) -> q <> [] ->
    ok_after (rd_addressee V E old (p, true)) = false.
Proof. intros V E old a p q S H F. apply (proj2 (formed_contact V E old a S H _ F)). reflexivity. Qed.
Print Assumptions C53_null_contact.

(** Two contacts of which one has null texts and the other empty ones are written differently
    and read alike. *)
Example C36_null_case :
  let k := mkKey (B "k") [] [] [] KPGP false in
  let w := wr_string (B "k") ++ wr_u32 1 ++ [0] ++ null_mark ++ null_mark ++ wr_string [] in
  fm_key k w /\ w <> wr_key k /\ rd_key (w ++ [7], true) = (k, ([7], true)) /\ rd_key (wr_key k ++ [7], true) = (k, ([7], true)).
Proof.
  cbv zeta. split.
  - unfold fm_key. exists (wr_string (B "k")). eexists. split; [reflexivity|]. split; [left; reflexivity|].
    exists (wr_u32 1). eexists. split; [reflexivity|]. split; [reflexivity|]. exists [0]. eexists. split; [reflexivity|]. split; [reflexivity|].
    exists null_mark. eexists. split; [reflexivity|]. split; [right; split; reflexivity|].
    exists null_mark. eexists. split; [reflexivity|]. split; [right; split; reflexivity|]. left. reflexivity.
  - split; [discriminate|]. vm_compute. auto.
Qed.
(** a contact whose identifier is null *)
Lemma ex_nulls : streamable ex_senv ex_stream (put_uid [] ex_streamed).
Proof. destruct ex_streamable. constructor; try assumption. apply Forall_cons_iff in st_texts as [_ T]. constructor; [split; [constructor|reflexivity]|exact T]. Qed.
Example C36_null_contact_case :
  exists w, fm_contact ex_senv ex_stream (put_uid [] ex_streamed) w /\ w <> wr_addressee ex_senv ex_stream (put_uid [] ex_streamed)
    /\ streamable ex_senv ex_stream (put_uid [] ex_streamed).
Proof.
  destruct (plain_contact ex_senv ex_stream (put_uid [] ex_streamed)) as (a & b & E & F & C). exists (null_mark ++ b). split.
  - exists null_mark, b. split; [reflexivity|]. split; [right; split; reflexivity|exact C].
  - split; [|exact ex_nulls]. intros K. apply (f_equal (hd 0)) in K. vm_compute in K. discriminate K.
Qed.
