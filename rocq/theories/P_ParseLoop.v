(** A text on which [parseVCards] never returns (C02). *)
From Verif Require Import Base Utf8 M_ParamMap M_VCard M_VCardText.

(** BEGIN:VCARD / NOTE;ENCODING=QUOTED-PRINTABLE:abc= / END:VCARD *)
Definition looping_text : bytes :=
  B "BEGIN:VCARD" ++ [10%N] ++ B "NOTE;ENCODING=QUOTED-PRINTABLE:abc=" ++ [10%N] ++ B "END:VCARD" ++ [10%N].

Definition st0 cards := mkL 0 11 [] [] cards false.
Definition st1 cards := mkL 12 47 [] [] cards true.
Definition st2 cards := mkL 48 57 (B "NOTE;ENCODING=QUOTED-PRINTABLE:abc=") [] cards true.

Lemma step0 E n cards : body E n looping_text (st0 cards) = Some (mkL 0 11 [] [] cards true).
Proof. vm_compute. reflexivity. Qed.
Lemma step1 E n cards : body E n looping_text (st1 cards) =
  Some (mkL 12 47 (B "NOTE;ENCODING=QUOTED-PRINTABLE:abc=") [] cards true).
Proof. vm_compute. reflexivity. Qed.
Definition qp_line : bytes := B "NOTE;ENCODING=QUOTED-PRINTABLE:abc=".
Definition qp_ctx : pctx := Eval vm_compute in fst (px_run qp_line px_init).
Lemma qp_run : px_run qp_line px_init = (qp_ctx, Some (B "abc=")).
Proof. vm_compute. reflexivity. Qed.
Definition f0 : fstate := mkF 48 57 (B "END:VCARD").
Definition f1 : fstate := mkF 58 (-1) (B "END:VCARD").
Lemma qp_fetch n : qp_join (S n) looping_text (remove_escapes (B "abc=")) f0 = Some (B "abcEND:VCARD", f1).
Proof. destruct n; vm_compute; reflexivity. Qed.
Lemma qp_fetch0 : qp_join 0 looping_text (remove_escapes (B "abc=")) f0 = None.
Proof. vm_compute. reflexivity. Qed.
Lemma qp_enc : px_enc qp_ctx = B "quoted-printable". Proof. reflexivity. Qed.
Lemma qp_parse E n : exists vl, parse_line E (S n) looping_text qp_line f0 = Some (vl, f1).
Proof.
  unfold parse_line. rewrite qp_run. unfold finish_line. rewrite qp_enc, qp_fetch.
  change (isnil (B "quoted-printable")) with false.
  change (leqb (B "quoted-printable") (B "b") || leqb (B "quoted-printable") (B "base64")) with false.
  change (leqb (B "quoted-printable") (B "quoted-printable")) with true. cbv iota zeta.
  eexists. reflexivity.
Qed.
Lemma qp_parse0 E : parse_line E 0 looping_text qp_line f0 = None.
Proof.
  unfold parse_line. rewrite qp_run. unfold finish_line. rewrite qp_enc, qp_fetch0. reflexivity.
Qed.
Lemma cur2 : strip_cr (qmid 48 (57 - 48) looping_text) = B "END:VCARD".
Proof. vm_compute. reflexivity. Qed.
Lemma body2 E n cards : body E n looping_text (st2 cards) =
  match parse_line E n looping_text qp_line f0 with
  | None => None
  | Some (vl, f') => Some (dispatch f' (mkL 48 57 qp_line (add_line vl []) cards true))
  end.
Proof.
  unfold body, st2. cbn [l_start l_end l_line l_in l_card l_cards]. rewrite cur2.
  change (is_folded (B "END:VCARD")) with false.
  replace (isnil (trimmed (B "END:VCARD"))) with false by (vm_compute; reflexivity). reflexivity.
Qed.
Lemma step2_0 E cards : body E 0 looping_text (st2 cards) = None.
Proof. rewrite body2, qp_parse0. reflexivity. Qed.
Lemma step2 E n cards : exists cards', body E (S n) looping_text (st2 cards) = Some (mkL 58 (-1) [] [] cards' false).
Proof.
  rewrite body2. destruct (qp_parse E n) as [vl ->]. unfold dispatch. cbn [f_cur f1 f_start f_end].
  change (is_begin (B "END:VCARD")) with false. change (is_end (B "END:VCARD")) with true. eauto.
Qed.

Lemma loop_step E n s s' : l_start s <> 59%Z -> body E n looping_text s = Some s' ->
  parse_loop E (S n) looping_text s = parse_loop E n looping_text (advance looping_text s').
Proof.
  intros H Hb. cbn [parse_loop]. replace (Z.of_nat (length looping_text) + 1)%Z with 59%Z by reflexivity.
  rewrite (proj2 (Z.eqb_neq _ _) H), Hb. reflexivity.
Qed.
Lemma loop_none E n s : l_start s <> 59%Z -> body E n looping_text s = None ->
  parse_loop E (S n) looping_text s = None.
Proof.
  intros H Hb. cbn [parse_loop]. replace (Z.of_nat (length looping_text) + 1)%Z with 59%Z by reflexivity.
  rewrite (proj2 (Z.eqb_neq _ _) H), Hb. reflexivity.
Qed.
Lemma loop_0 E s : l_start s <> 59%Z -> parse_loop E 0 looping_text s = None.
Proof.
  intros H. cbn [parse_loop]. replace (Z.of_nat (length looping_text) + 1)%Z with 59%Z by reflexivity.
  rewrite (proj2 (Z.eqb_neq _ _) H). reflexivity.
Qed.

Lemma loops E fuel : forall cards, parse_loop E fuel looping_text (st0 cards) = None.
Proof.
  induction fuel as [fuel IH] using lt_wf_ind. intros cards.
  destruct fuel as [|n]; [apply loop_0; discriminate|].
  erewrite loop_step by (try apply step0; discriminate).
  change (advance looping_text (mkL 0 11 [] [] cards true)) with (st1 cards).
  destruct n as [|n]; [apply loop_0; discriminate|].
  erewrite loop_step by (try apply step1; discriminate).
  change (advance looping_text (mkL 12 47 ?l ?c ?x true)) with (st2 x).
  destruct n as [|n]; [apply loop_0; discriminate|].
  destruct n as [|n]; [apply loop_none; [discriminate|apply step2_0]|].
  destruct (step2 E n cards) as [cards' Hs].
  erewrite loop_step by (try apply Hs; discriminate).
  change (advance looping_text (mkL 58 (-1) [] [] cards' false)) with (st0 cards').
  apply IH. lia.
Qed.
Lemma parse_diverges E fuel : parse_vcards E fuel looping_text = None.
Proof. apply (loops E fuel []). Qed.
