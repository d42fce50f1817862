(** C02, C06, C07: reading and writing vCard texts. *)
From Verif Require Import Base BaseFacts Utf8 M_ParamMap M_VCard M_VCardText S_Escape S_Card S_Parse P_Parse2 P_ParseLoop
  S_RoundTrip P_RoundTrip3.

(** C02.  Without quoted-printable soft line breaks the parser returns after at
    most two rounds more than the text has line feeds. *)
Theorem C02_parse_terminates :
  forall (E : Ext) (text : bytes), no_soft_breaks text ->
    exists cards, forall fuel, 2 + count_occ N.eq_dec text 10%N <= fuel ->
      parse_vcards E fuel text = Some cards.
Proof. exact parse_terminates. Qed.
Print Assumptions C02_parse_terminates.

(** Without the restriction it is false: a three-line text on which no number
    of rounds is enough. *)
Theorem C02_parse_terminates_refuted :
  exists text : bytes, length text = 58 /\
    forall (E : Ext) (fuel : nat), parse_vcards E fuel text = None.
Proof. exists looping_text. split; [reflexivity|exact parse_diverges]. Qed.
Print Assumptions C02_parse_terminates_refuted.

(** C06. *)
Theorem C06_card_roundtrip :
  forall (E : Ext) (cards : list vcard), Forall (wf_card E) cards ->
    parses_to E (create_vcards E cards) cards.
Proof. exact cards_roundtrip. Qed.
Print Assumptions C06_card_roundtrip.

(** A card with a group, parameters, a comma, a line break, a character outside
    ASCII, binary data and a line long enough to be folded. *)
Definition C06_lines : list vline :=
  [ mkVline (B "VERSION") [] [] (QStr (B "3.0")) [];
    mkVline (B "NOTE") (B "g1") [] (QStr (B "one, two" ++ [10%N] ++ [228%N] ++ repeat 120%N 90)) [];
    mkVline (B "TEL") [] [(B "label", [B "x y"]); (B "type", [B "HOME"; B "VOICE"])] (QStr (B "+49 30")) [];
    mkVline (B "PHOTO") [] [(B "encoding", [B "b"])] (QBytes [0; 255; 10; 92]%N) [];
    mkVline (B "TEL") [] [] (QStr (B "12\3")) [] ].
Example C06_case : forall E, wf_card E (card_of C06_lines) /\
  length (create_vcards E [card_of C06_lines]) = 236.
Proof.
  intros E. split.
  - split; [apply increasing_b_spec; reflexivity|].
    apply Forall_forall. intros e He.
    assert (Hl : Forall (wf_line E) C06_lines).
    { unfold C06_lines.
      apply Forall_cons; [|apply Forall_cons; [|apply Forall_cons; [|apply Forall_cons; [|apply Forall_cons; [|apply Forall_nil]]]]];
      (apply header_ok_line; [reflexivity|]).
      1, 2, 3, 5: eapply wf_text; [reflexivity|reflexivity|reflexivity|discriminate|reflexivity|apply unambiguous_spec; reflexivity].
      eapply wf_binary; [reflexivity|reflexivity|reflexivity|reflexivity|discriminate|reflexivity]. }
    rewrite Forall_forall in Hl. cbn in He.
    destruct He as [<-|[<-|[<-|[<-|[]]]]]; (split; [discriminate|]); cbn [fst snd];
      repeat (apply Forall_cons; [split; [reflexivity|apply Hl; cbn; tauto]|]); apply Forall_nil.
  - reflexivity.
Qed.

(** C07. *)
Theorem C07_cards_isolated :
  forall (E : Ext) (t1 t2 : bytes),
    complete t1 -> In 10%N t2 -> no_soft_breaks t1 -> no_soft_breaks t2 ->
    exists c1 c2, parses_to E t1 c1 /\ parses_to E t2 c2 /\ parses_to E (t1 ++ t2) (c1 ++ c2).
Proof. exact cards_isolated. Qed.
Print Assumptions C07_cards_isolated.

(** Two cards, the first with a folded line, and a text with a stray line
    before its card. *)
Definition C07_t1 : bytes :=
  B "BEGIN:VCARD" ++ [13;10]%N ++ B "N:a;b" ++ [13;10]%N ++ B " c" ++ [13;10]%N ++ B "END:VCARD" ++ [13;10]%N ++
  B "begin:vcard" ++ [10]%N ++ B "FN:x" ++ [10]%N ++ B "end:vcard" ++ [10]%N.
Definition C07_t2 : bytes :=
  B "FN:stray" ++ [10]%N ++ B "BEGIN:VCARD" ++ [10]%N ++ B "TEL:1" ++ [10]%N ++ B "END:VCARD".
Example C07_case : complete C07_t1 /\ In 10%N C07_t2 /\ no_soft_breaks C07_t1 /\ no_soft_breaks C07_t2 /\
  forall E, exists c1 c2 c3, parse_vcards E 20 (C07_t1 ++ C07_t2) = Some [c1; c2; c3].
Proof.
  split; [|split; [|split; [|split]]].
  - split; [|apply closed_b_spec; vm_compute; reflexivity].
    right. exists (removelast C07_t1). vm_compute. reflexivity.
  - apply BaseFacts.mem_In. reflexivity.
  - apply no_eq_no_soft_breaks. vm_compute. reflexivity.
  - apply no_eq_no_soft_breaks. vm_compute. reflexivity.
  - intros E. eexists. eexists. eexists. cbv. reflexivity.
Qed.
