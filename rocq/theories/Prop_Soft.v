(** C02, C07, C65: texts with quoted-printable soft line breaks. *)
From Verif Require Import Base BaseFacts Utf8 M_ParamMap M_VCard M_VCardText S_Parse P_Parse2 S_Soft P_Soft P_SoftLoop.

(** C02.  A text that ends in a line feed, and whose last line but one is not
    blank and does not end in '=', is read to the end, soft line breaks or not;
    one round per line is enough. *)
Theorem C02_settled :
  forall (E : Ext) (text : bytes), settled text ->
    exists cards, forall fuel, 1 + count_occ N.eq_dec text 10%N <= fuel -> parse_vcards E fuel text = Some cards.
Proof. exact settled_terminates. Qed.
Print Assumptions C02_settled.

(** C02.  Every text whose last card ends in a quoted-printable property with a
    soft line break, directly before END:VCARD, is never read to the end.  (The
    other lines do not end in '='.) *)
Theorem C02_never_returns :
  forall (E : Ext) (nl : bytes) (before : list bytes) (b : bytes) (inside : list bytes) (h v d : bytes),
    newline nl ->
    Forall (fun l => ~ In 10%N l /\ ~ In 13%N l) (before ++ b :: inside ++ [h; v; d]) ->
    Forall (fun l => ~ (exists q, l = q ++ [61%N])) (before ++ b :: inside) ->
    begin_line b -> Forall (fun l => ~ end_line l) inside ->
    qp_head h -> ~ (exists q, v = q ++ [92%N]) ->
    end_line d -> ~ (exists q, d = q ++ [61%N]) ->
    forall fuel, parse_vcards E fuel (text_of nl (before ++ b :: inside ++ [h ++ v ++ [61%N]; d])) = None.
Proof. exact diverges. Qed.
Print Assumptions C02_never_returns.

(** C65.  A value broken into pieces by soft line breaks is read like the value
    on one line. *)
Theorem C65_joined :
  forall (E : Ext) (nl : bytes) (before : list bytes) (h v : bytes) (pieces : list bytes) (d : bytes) (after : list bytes),
    newline nl -> Forall one_line (before ++ h :: v :: d :: after) ->
    qp_head h -> ~ (exists q, v = q ++ [92%N]) -> Forall more pieces ->
    (exists c r, d = c :: r /\ is_space c = false) ->
    settled (text_of nl (before ++ broken (h ++ v) pieces ++ d :: after)) ->
    exists cards,
      parses_to E (text_of nl (before ++ broken (h ++ v) pieces ++ d :: after)) cards /\
      parses_to E (text_of nl (before ++ (h ++ v ++ concat pieces) :: d :: after)) cards.
Proof. exact soft_breaks_joined. Qed.
Print Assumptions C65_joined.

(** A card with a note in three pieces, after a folded line and before another
    property. *)
Definition crlf : bytes := [13; 10]%N.
Definition C65_before : list bytes := [B "BEGIN:VCARD"; B "VERSION:2.1"; B "N:a;"; B " b"].
Definition C65_head : bytes := B "NOTE;CHARSET=UTF-8;Encoding=Quoted-Printable:".
Definition C65_text : bytes :=
  text_of crlf (C65_before ++ broken (C65_head ++ B "one=20") [B "two=3D"; B "three"] ++ B "FN:c" :: [B "END:VCARD"]).

Lemma lower_other p : starts_with (B "encoding=") (to_lower p) = false -> to_lower p <> B "base64" -> other_param p.
Proof.
  intros H1 H2. split; [|exact H2]. intros r Hr. rewrite Hr in H1. cbv in H1. discriminate.
Qed.
Ltac absent := let H := fresh in intros H; apply BaseFacts.mem_In in H; discriminate H.
Lemma C65_head_ok : qp_head C65_head.
Proof.
  exists (B "NOTE"), [B "CHARSET=UTF-8"; B "Encoding=Quoted-Printable"].
  split; [reflexivity|]. split; [exists 78%N, (B "OTE"); split; reflexivity|]. split; [absent|]. split; [absent|].
  split; [|split].
  - apply Forall_cons; [split; [absent|split; absent]|]. apply Forall_cons; [split; [absent|split; absent]|apply Forall_nil].
  - apply Exists_cons_tl, Exists_cons_hd. left. reflexivity.
  - apply Forall_cons; [right; apply lower_other; [reflexivity|discriminate]|].
    apply Forall_cons; [left; left; reflexivity|apply Forall_nil].
Qed.
Lemma not_begin l : is_begin l = false -> ~ begin_line l.
Proof. intros H Hb. apply is_begin_spec in Hb. congruence. Qed.
Lemma not_end l : is_end l = false -> ~ end_line l.
Proof. intros H Hb. apply is_end_spec in Hb. congruence. Qed.
Lemma not_last c l : ends_with [c] l = false -> ~ (exists q, l = q ++ [c]).
Proof. intros H Hq. apply ends_with_1 in Hq. congruence. Qed.
Lemma more_ok x r : is_space x = false -> mem 92 (x :: r) = false -> mem 13 (x :: r) = false -> mem 10 (x :: r) = false ->
  is_begin (x :: r) = false -> is_end (x :: r) = false -> more (x :: r).
Proof.
  intros. split; [exists x, r; auto|]. split; [apply mem_false; auto|]. split; [apply mem_false; auto|]. split; [apply mem_false; auto|].
  split; [apply not_begin; auto|apply not_end; auto].
Qed.
Lemma not_blank x r : is_space x = false -> ~ blank_line (x :: r).
Proof. intros H Hb. inversion Hb; subst. congruence. Qed.

Example C65_case :
  newline crlf /\ Forall one_line (C65_before ++ C65_head :: B "one=20" :: B "FN:c" :: [B "END:VCARD"]) /\
  Forall more [B "two=3D"; B "three"] /\ settled C65_text /\
  forall E, exists c, parse_vcards E 20 C65_text = Some [c] /\
    exists l, In l (card_lines (B "NOTE") c) /\
      vl_value l = match charset_decode E (B "utf-8") with
                   | Some dec => QStr (dec (qp_decode E (B "one=20two=3Dthree")))
                   | None => QStr (from_utf8 (qp_decode E (B "one=20two=3Dthree")))
                   end.
Proof.
  split; [right; reflexivity|]. split; [|split; [|split]].
  - unfold C65_before. cbn [app]. repeat (apply Forall_cons; [absent|]). apply Forall_nil.
  - apply Forall_cons; [apply more_ok; reflexivity|]. apply Forall_cons; [apply more_ok; reflexivity|apply Forall_nil].
  - exists (C65_before ++ [C65_head ++ B "one=20="; B "two=3D="; B "three"]), (B "FN:c"), (B "END:VCARD").
    split; [vm_compute; reflexivity|]. split; [apply not_blank; reflexivity|apply not_last; reflexivity].
  - intros E. eexists. split; [cbv - [from_utf8 qp_decode charset_decode]; reflexivity|].
    eexists. split; [left; reflexivity|]. reflexivity.
Qed.

(** C65 without the condition on the first character of a piece is false: a piece
    that starts with a space is taken for a folded line.  The decoder is given
    [abc=def], on one line it is given [abc def]. *)
Definition space_head : bytes := B "NOTE;ENCODING=QUOTED-PRINTABLE:".
Definition space_lines (l : list bytes) : bytes := text_of crlf (B "BEGIN:VCARD" :: l ++ [B "END:VCARD"]).
Theorem C65_space_refuted :
  qp_head space_head /\
  settled (space_lines (broken (space_head ++ B "abc") [B " def"] ++ [B "FN:x"])) /\
  forall E, exists c1 c2 l1 l2,
    parses_to E (space_lines (broken (space_head ++ B "abc") [B " def"] ++ [B "FN:x"])) [c1] /\
    parses_to E (space_lines [space_head ++ B "abc" ++ B " def"; B "FN:x"]) [c2] /\
    card_lines (B "NOTE") c1 = [l1] /\ vl_value l1 = QStr (from_utf8 (qp_decode E (B "abc=def"))) /\
    card_lines (B "NOTE") c2 = [l2] /\ vl_value l2 = QStr (from_utf8 (qp_decode E (B "abc def"))).
Proof.
  assert (S1 : settled (space_lines (broken (space_head ++ B "abc") [B " def"] ++ [B "FN:x"]))).
  { exists [B "BEGIN:VCARD"; space_head ++ B "abc="; B " def"], (B "FN:x"), (B "END:VCARD").
    split; [vm_compute; reflexivity|]. split; [apply not_blank; reflexivity|apply not_last; reflexivity]. }
  assert (S2 : settled (space_lines [space_head ++ B "abc" ++ B " def"; B "FN:x"])).
  { exists [B "BEGIN:VCARD"; space_head ++ B "abc def"], (B "FN:x"), (B "END:VCARD").
    split; [vm_compute; reflexivity|]. split; [apply not_blank; reflexivity|apply not_last; reflexivity]. }
  split; [|split; [exact S1|]].
  - exists (B "NOTE"), [B "ENCODING=QUOTED-PRINTABLE"]. split; [reflexivity|].
    split; [exists 78%N, (B "OTE"); split; reflexivity|]. split; [absent|]. split; [absent|].
    split; [apply Forall_cons; [split; [absent|split; absent]|apply Forall_nil]|].
    split; [apply Exists_cons_hd; left; reflexivity|]. apply Forall_cons; [left; left; reflexivity|apply Forall_nil].
  - intros E.
    assert (Hat : forall t cards, settled t -> parse_vcards E (1 + count_occ N.eq_dec t 10%N) t = Some cards -> parses_to E t cards).
    { intros t cards Ht Hr. destruct (settled_terminates E t Ht) as [cs Hc]. exists (1 + count_occ N.eq_dec t 10%N).
      rewrite (Hc _ (le_n _)) in Hr. injection Hr as <-. exact Hc. }
    do 4 eexists. split; [apply Hat; [exact S1|cbv - [from_utf8 qp_decode charset_decode]; reflexivity]|].
    split; [apply Hat; [exact S2|cbv - [from_utf8 qp_decode charset_decode]; reflexivity]|].
    split; [reflexivity|]. split; [reflexivity|]. split; reflexivity.
Qed.
Print Assumptions C65_space_refuted.

(** C07 with soft line breaks is false: two complete cards, the first with a soft
    line break on its last line; only the second is read. *)
Definition cut_card : bytes :=
  text_of crlf [B "BEGIN:VCARD"; B "FN:first"; space_head ++ B "abc="; B "END:VCARD"].
Definition next_card : bytes := text_of crlf [B "BEGIN:VCARD"; B "FN:second"; B "END:VCARD"].
Theorem C07_soft_refuted :
  complete cut_card /\ complete next_card /\
  forall E, exists c l, parses_to E (cut_card ++ next_card) [c] /\
    card_lines (B "FN") c = [l] /\ vl_value l = QStr (B "second") /\
    forall fuel, parse_vcards E fuel cut_card = None.
Proof.
  assert (S1 : settled (cut_card ++ next_card)).
  { exists [B "BEGIN:VCARD"; B "FN:first"; space_head ++ B "abc="; B "END:VCARD"; B "BEGIN:VCARD"], (B "FN:second"), (B "END:VCARD").
    split; [vm_compute; reflexivity|]. split; [apply not_blank; reflexivity|apply not_last; reflexivity]. }
  split; [|split].
  - split; [right; exists (removelast cut_card); vm_compute; reflexivity|]. apply closed_b_spec. vm_compute. reflexivity.
  - split; [right; exists (removelast next_card); vm_compute; reflexivity|]. apply closed_b_spec. vm_compute. reflexivity.
  - intros E.
    assert (Hat : forall t cards, settled t -> parse_vcards E (1 + count_occ N.eq_dec t 10%N) t = Some cards -> parses_to E t cards).
    { intros t cards Ht Hr. destruct (settled_terminates E t Ht) as [cs Hc]. exists (1 + count_occ N.eq_dec t 10%N).
      rewrite (Hc _ (le_n _)) in Hr. injection Hr as <-. exact Hc. }
    do 2 eexists. split; [apply Hat; [exact S1|cbv - [qp_decode charset_decode]; reflexivity]|].
    split; [reflexivity|]. split; [reflexivity|].
    change cut_card with (text_of crlf ([] ++ B "BEGIN:VCARD" :: [B "FN:first"] ++ [space_head ++ B "abc" ++ [61%N]; B "END:VCARD"])).
    apply C02_never_returns; [right; reflexivity| | | | | | | |].
    + cbn [app]. repeat (apply Forall_cons; [split; absent|]). apply Forall_nil.
    + cbn [app]. repeat (apply Forall_cons; [apply not_last; reflexivity|]). apply Forall_nil.
    + apply is_begin_spec. reflexivity.
    + apply Forall_cons; [apply not_end; reflexivity|apply Forall_nil].
    + apply C65_space_refuted.
    + apply not_last. reflexivity.
    + apply is_end_spec. reflexivity.
    + apply not_last. reflexivity.
Qed.
Print Assumptions C07_soft_refuted.
