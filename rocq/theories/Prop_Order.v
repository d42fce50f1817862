(** C66: which texts have no defined reading.  C67: the order of properties with
    different names.  C68: properties that are not known. *)
From Verif Require Import Base BaseFacts Utf8 M_ParamMap M_VCard M_VCardText M_Values M_Addressee M_VCardTool S_Parse P_Parse2 S_Soft P_Soft P_SoftLoop
  Prop_Soft P_ContactCase S_Order P_CardOrder P_Unknown.

(** ** C66 *)
(** A text that is read to the end is read into contacts, one for each card, unless
    a card has an embedded picture of fewer than 22 bytes.  In that case, and only in
    that case, the code calls QByteArray::last with a negative number. *)
Theorem C66_undefined :
  forall (T : Tool) (E : Ext) (text : bytes) (cards : list vcard), parses_to E text cards ->
    ((exists n, forall fuel, n <= fuel -> parse_text T E fuel text = Undefined) <->
     exists c id l, In c cards /\ In l (card_lines id c) /\ short_data l).
Proof.
  intros T E text cards [n Hn]. rewrite <- (read_cards_none T cards 0). split.
  - intros [k Hk]. specialize (Hn (n + k) ltac:(lia)). specialize (Hk (n + k) ltac:(lia)). unfold parse_text in Hk. rewrite Hn in Hk.
    destruct (read_cards T 0 cards); [discriminate|reflexivity].
  - intros H. exists n. intros fuel Hf. unfold parse_text. rewrite (Hn fuel Hf), H. reflexivity.
Qed.
Print Assumptions C66_undefined.
Lemma read_cards_length T : forall cards n res, read_cards T n cards = Some res -> length res = length cards.
Proof.
  induction cards as [|c cards IH]; intros n res H; cbn [read_cards] in H; [injection H as <-; reflexivity|].
  destruct (read_card T n c); [|discriminate]. destruct (read_cards T (S n) cards) as [s|] eqn:Es; [|discriminate].
  injection H as <-. cbn [length]. f_equal. eapply IH; eauto.
Qed.
Theorem C66_defined :
  forall (T : Tool) (E : Ext) (text : bytes) (cards : list vcard), parses_to E text cards ->
    (forall c id l, In c cards -> In l (card_lines id c) -> ~ short_data l) ->
    exists contacts, length contacts = length cards /\ exists n, forall fuel, n <= fuel -> parse_text T E fuel text = Done contacts.
Proof.
  intros T E text cards [n Hn] H. destruct (read_cards T 0 cards) as [res|] eqn:Er.
  - exists res. split; [eapply read_cards_length; eauto|]. exists n. intros fuel Hf. unfold parse_text. rewrite (Hn fuel Hf), Er. reflexivity.
  - exfalso. apply read_cards_none in Er as (c & id & l & H1 & H2 & H3). apply (H c id l); auto.
Qed.
Print Assumptions C66_defined.
(** The same picture, with and without a parameter: only the first reading is undefined. *)
Definition picture_card (l : bytes) : bytes := text_of crlf [B "BEGIN:VCARD"; B "FN:a"; l; B "END:VCARD"].
Example C66_case : forall E, exists c d,
  parses_to E (picture_card (B "Photo:data:,;base64,AA")) [c] /\ (exists l, In l (card_lines (B "Photo") c) /\ short_data l) /\
  parses_to E (picture_card (B "Photo;ENCODING=8bit:data:,;base64,AA")) [d] /\ (forall id l, In l (card_lines id d) -> ~ short_data l).
Proof.
  intros E.
  assert (S1 : settled (picture_card (B "Photo:data:,;base64,AA"))).
  { exists [B "BEGIN:VCARD"; B "FN:a"], (B "Photo:data:,;base64,AA"), (B "END:VCARD").
    split; [vm_compute; reflexivity|]. split; [apply not_blank; reflexivity|apply not_last; reflexivity]. }
  assert (S2 : settled (picture_card (B "Photo;ENCODING=8bit:data:,;base64,AA"))).
  { exists [B "BEGIN:VCARD"; B "FN:a"], (B "Photo;ENCODING=8bit:data:,;base64,AA"), (B "END:VCARD").
    split; [vm_compute; reflexivity|]. split; [apply not_blank; reflexivity|apply not_last; reflexivity]. }
  destruct (settled_terminates E _ S1) as [c1 H1]. destruct (settled_terminates E _ S2) as [c2 H2].
  pose proof (H1 20 ltac:(vm_compute; lia)) as K1. pose proof (H2 20 ltac:(vm_compute; lia)) as K2.
  cbv - [qp_decode charset_decode] in K1, K2.
  injection K1 as <-. injection K2 as <-. eexists. eexists.
  split; [eexists; exact H1|]. split; [|split; [eexists; exact H2|]].
  - eexists. split; [left; reflexivity|]. split; [reflexivity|]. split; [left; reflexivity|]. split; [reflexivity|].
    exists (B "data:,;base64,AA"). split; [right; eexists; split; [reflexivity|reflexivity]|].
    split; [exists [], (B ",;base64,AA"); reflexivity|]. split; [exists (B "data:,"), (B "AA"); reflexivity|vm_compute; lia].
  - intros id l Hl (_ & Hn & Hp & _). unfold card_lines in Hl. cbn [find_lines] in Hl.
    repeat match type of Hl with context [if ?b then _ else _] => destruct b eqn:? end.
    + destruct Hl as [<-|[]]. destruct Hn as [Hn|Hn]; cbv in Hn; discriminate Hn.
    + destruct Hl as [<-|[]]. discriminate Hp.
    + destruct Hl.
Qed.

(** ** C67 *)
(** Properties with different names can be put in any order: the text gives the same
    cards and so the same contacts. *)
Theorem C67_order :
  forall (E : Ext) (nl : bytes) (before : list bytes) (b : bytes) (ps qs : list (bytes * block)) (e : bytes) (after : list bytes),
    newline nl -> Forall plain_bytes (before ++ b :: e :: after) -> Forall (fun l => ~ (exists q, l = q ++ [61%N])) before ->
    begin_line b -> end_line e -> Forall block_ok (map snd (ps ++ qs)) ->
    Forall (fun p => named (fst p) (snd p)) (ps ++ qs) -> same_order ps qs ->
    settled (card_in nl before b (map snd ps) e after) ->
    exists cards,
      parses_to E (card_in nl before b (map snd ps) e after) cards /\
      parses_to E (card_in nl before b (map snd qs) e after) cards.
Proof.
  intros E nl before b ps qs e after H1 H2 H3 H4 H5 H6 H7 H8 H9. rewrite map_app in H6. apply Forall_app in H6 as [H6 H6'].
  apply order_free; auto. unfold one_card_text. auto 10.
Qed.
Print Assumptions C67_order.
Theorem C67_contacts :
  forall (T : Tool) (E : Ext) (nl : bytes) (before : list bytes) (b : bytes) (ps qs : list (bytes * block)) (e : bytes) (after : list bytes),
    newline nl -> Forall plain_bytes (before ++ b :: e :: after) -> Forall (fun l => ~ (exists q, l = q ++ [61%N])) before ->
    begin_line b -> end_line e -> Forall block_ok (map snd (ps ++ qs)) ->
    Forall (fun p => named (fst p) (snd p)) (ps ++ qs) -> same_order ps qs ->
    settled (card_in nl before b (map snd ps) e after) ->
    exists result n, result <> Running /\ forall fuel, n <= fuel ->
      parse_text T E fuel (card_in nl before b (map snd ps) e after) = result /\
      parse_text T E fuel (card_in nl before b (map snd qs) e after) = result.
Proof.
  intros T E nl before b ps qs e after H1 H2 H3 H4 H5 H6 H7 H8 H9.
  destruct (C67_order E nl before b ps qs e after H1 H2 H3 H4 H5 H6 H7 H8 H9) as (cards & [n1 P1] & [n2 P2]).
  exists (match read_cards T 0 cards with None => Undefined | Some l => Done l end), (n1 + n2).
  split; [destruct (read_cards T 0 cards); discriminate|]. intros fuel Hf. unfold parse_text. rewrite P1, P2 by lia. split; reflexivity.
Qed.
Print Assumptions C67_contacts.
(** Four properties, one of them folded, in another order; the two telephone numbers
    keep their order. *)
Definition C67_fn : bytes * block := (B "FN", (B "FN:Ann", [B " B"; B "ee"])).
Definition C67_tel1 : bytes * block := (B "TEL", (B "TEL;TYPE=home:1", [])).
Definition C67_tel2 : bytes * block := (B "TEL", (B "item1.TEL:2", [])).
Definition C67_note : bytes * block := (B "note", (B "note:x", [])).
Definition C67_ps := [C67_fn; C67_tel1; C67_tel2; C67_note].
Definition C67_qs := [C67_note; C67_tel1; C67_fn; C67_tel2].
Lemma block_good x r fs : is_space x = false -> forallb (fun l => negb (mem 10 l) && negb (mem 13 l)) (block_lines (x :: r, fs)) = true ->
  is_begin (x :: r) = false -> is_end (x :: r) = false -> ends_with [61%N] (content (x :: r, fs)) = false -> block_ok (x :: r, fs).
Proof.
  intros H1 H2 H3 H4 H5. split; [exists x, r; auto|]. split.
  { apply Forall_forall. intros l Hl. rewrite forallb_forall in H2. specialize (H2 l Hl). apply andb_true_iff in H2 as [K1 K2].
    split; intros K; apply mem_In in K; [rewrite K in K1|rewrite K in K2]; discriminate. }
  split; [apply not_begin; auto|]. split; [apply not_end; auto|apply not_last; auto].
Qed.
Ltac good := apply Forall_cons; [apply block_good; reflexivity|].
Ltac plain_name := let c := fresh in let H := fresh in intros c H; cbv in H;
  repeat (destruct H as [<-|H]; [repeat split; discriminate|]); destruct H.
Lemma C67_named : Forall (fun p => named (fst p) (snd p)) (C67_ps ++ C67_qs).
Proof.
  assert (N1 : named (B "FN") (snd C67_fn)).
  { exists [], 58%N, (B "Ann"). split; [reflexivity|]. split; [auto|]. split; [auto|]. split; [intros c []|plain_name]. }
  assert (N2 : named (B "TEL") (snd C67_tel1)).
  { exists [], 59%N, (B "TYPE=home:1"). split; [reflexivity|]. split; [auto|]. split; [auto|]. split; [intros c []|plain_name]. }
  assert (N3 : named (B "TEL") (snd C67_tel2)).
  { exists (B "item1."), 58%N, (B "2"). split; [reflexivity|]. split; [auto|]. split; [right; exists (B "item1"); reflexivity|].
    split; [plain_name|plain_name]. }
  assert (N4 : named (B "note") (snd C67_note)).
  { exists [], 58%N, (B "x"). split; [reflexivity|]. split; [auto|]. split; [auto|]. split; [intros c []|plain_name]. }
  repeat (apply Forall_cons; [assumption|]). apply Forall_nil.
Qed.
Example C67_case :
  newline crlf /\ Forall plain_bytes ([B "x"] ++ B "begin:vcard" :: B "END:VCARD" :: []) /\
  Forall (fun l => ~ (exists q, l = q ++ [61%N])) [B "x"] /\ begin_line (B "begin:vcard") /\ end_line (B "END:VCARD") /\
  Forall block_ok (map snd (C67_ps ++ C67_qs)) /\ Forall (fun p => named (fst p) (snd p)) (C67_ps ++ C67_qs) /\ same_order C67_ps C67_qs /\
  settled (card_in crlf [B "x"] (B "begin:vcard") (map snd C67_ps) (B "END:VCARD") []) /\
  forall E, exists contact,
    parse_text exT E 20 (card_in crlf [B "x"] (B "begin:vcard") (map snd C67_qs) (B "END:VCARD") []) = Done [contact] /\
    a_formatted contact = B "Ann Bee" /\ a_note contact = B "x" /\ map ph_number (a_phones contact) = [B "1"] /\ length (a_fgroups contact) = 1.
Proof.
  split; [right; reflexivity|]. split; [repeat (apply Forall_cons; [split; absent|]); apply Forall_nil|].
  split; [apply Forall_cons; [apply not_last; reflexivity|apply Forall_nil]|].
  split; [apply is_begin_spec; reflexivity|]. split; [apply is_end_spec; reflexivity|].
  split; [repeat good; apply Forall_nil|]. split; [exact C67_named|]. split.
  { intros n. unfold C67_ps, C67_qs, C67_fn, C67_tel1, C67_tel2, C67_note. cbn [filter fst].
    destruct (leqb_spec (B "FN") n) as [<-|?]; [reflexivity|]. destruct (leqb_spec (B "TEL") n) as [<-|?]; [reflexivity|].
    destruct (leqb (B "note") n); reflexivity. }
  split.
  { exists [B "x"; B "begin:vcard"; B "FN:Ann"; B "  B"; B " ee"; B "TEL;TYPE=home:1"; B "item1.TEL:2"], (B "note:x"), (B "END:VCARD").
    split; [vm_compute; reflexivity|]. split; [apply not_blank; reflexivity|apply not_last; reflexivity]. }
  intros E. eexists. split; [cbv - [qp_decode charset_decode]; reflexivity|]. split; [reflexivity|]. split; [reflexivity|]. split; reflexivity.
Qed.

(** ** C68 *)
(** Properties whose name is not in the list [known_names] and does not start with
    [X-] leave the result as it is.  Only the random identifiers drawn while the card
    is read move, as every line draws one; [f] says where to. *)
Theorem C68_ignored :
  forall (T : Tool) (E : Ext) (nl : bytes) (before : list bytes) (b : bytes) (bs cs : list block) (e : bytes) (after : list bytes),
    newline nl -> Forall plain_bytes (before ++ b :: e :: after) -> Forall (fun l => ~ (exists q, l = q ++ [61%N])) before ->
    begin_line b -> end_line e -> Forall block_ok (bs ++ cs) -> thinned bs cs ->
    settled (card_in nl before b bs e after) ->
    exists f n, (forall card, increasing_fun (f card) /\ f card 0 = 0) /\
      forall fuel, n <= fuel ->
        parse_text T E fuel (card_in nl before b bs e after) = parse_text (other_ids f T) E fuel (card_in nl before b cs e after) /\
        parse_text T E fuel (card_in nl before b bs e after) <> Running.
Proof.
  intros T E nl before b bs cs e after H1 H2 H3 H4 H5 H6 H7 H8. apply Forall_app in H6 as [H6 H6'].
  apply unknown_free; auto. unfold one_card_text. auto 10.
Qed.
Print Assumptions C68_ignored.
Definition C68_bs : list block := [(B "Colour;TYPE=hair:red", [B "dish"]); snd C67_fn; (B "XML:y", []); snd C67_tel1].
Definition C68_cs : list block := [snd C67_fn; snd C67_tel1].
Ltac not_known := split; [let H := fresh in intros H; cbv in H; repeat (destruct H as [H|H]; [discriminate H|]); destruct H
                         |let r := fresh in let H := fresh in intros [r H]; cbv in H; discriminate H].
Example C68_case :
  thinned C68_bs C68_cs /\ Forall block_ok (C68_bs ++ C68_cs) /\
  settled (card_in crlf [] (B "BEGIN:VCARD") C68_bs (B "END:VCARD") []) /\
  forall E, exists contact,
    parse_text exT E 20 (card_in crlf [] (B "BEGIN:VCARD") C68_bs (B "END:VCARD") []) = Done [contact] /\
    a_formatted contact = B "Ann Bee" /\ map ph_number (a_phones contact) = [B "1"] /\ a_customs contact = [].
Proof.
  split.
  { apply (thin_drop (B "Colour")); [exists 59%N, (B "TYPE=hair:red"); split; [reflexivity|]; split; [auto|plain_name]|not_known|].
    apply thin_keep. apply (thin_drop (B "XML")); [exists 58%N, (B "y"); split; [reflexivity|]; split; [auto|plain_name]|not_known|].
    apply thin_keep, thin_nil. }
  split; [repeat good; apply Forall_nil|]. split.
  { exists [B "BEGIN:VCARD"; B "Colour;TYPE=hair:red"; B " dish"; B "FN:Ann"; B "  B"; B " ee"; B "XML:y"], (B "TEL;TYPE=home:1"), (B "END:VCARD").
    split; [vm_compute; reflexivity|]. split; [apply not_blank; reflexivity|apply not_last; reflexivity]. }
  intros E. eexists. split; [cbv - [qp_decode charset_decode]; reflexivity|]. split; [reflexivity|]. split; reflexivity.
Qed.
