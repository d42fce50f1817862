(** C69: the case of names.  C70: line ends, empty lines and lines outside of cards. *)
From Verif Require Import Base BaseFacts Utf8 M_ParamMap M_VCard M_VCardText M_Values M_Addressee M_VCardTool S_Parse P_Parse P_Parse2 S_Soft P_Soft P_SoftLoop
  Prop_Soft P_ContactCase S_Order P_CardOrder P_Unknown Prop_Order S_Case P_Case.

(** ** C69 *)
(** The names of properties (other than extensions) can be written in another case, as
    long as the names keep their alphabetical order: the text is read into the same
    contacts. *)
Theorem C69_names :
  forall (T : Tool) (E : Ext) (nl : bytes) (before : list bytes) (b : bytes) (ts : list spellings) (e : bytes) (after : list bytes),
    newline nl -> Forall plain_bytes (before ++ b :: e :: after) -> Forall no_soft before ->
    begin_line b -> end_line e -> Forall block_ok (map spelt1 ts ++ map spelt2 ts) ->
    Forall same_letters ts -> same_rank ts ->
    settled (card_in nl before b (map spelt1 ts) e after) ->
    exists result n, result <> Running /\ forall fuel, n <= fuel ->
      parse_text T E fuel (card_in nl before b (map spelt1 ts) e after) = result /\
      parse_text T E fuel (card_in nl before b (map spelt2 ts) e after) = result.
Proof.
  intros T E nl before b ts e after H1 H2 H3 H4 H5 H6 H7 H8 H9. apply Forall_app in H6 as [H6 H6'].
  apply respelt_text; auto; [unfold one_card_text; auto 10|]. eapply Forall_impl; [|exact H7]. exact same_letters_swappable.
Qed.
Print Assumptions C69_names.
(** In particular names in lower case can be written in upper case. *)
Theorem C69_upper :
  forall (T : Tool) (E : Ext) (nl : bytes) (before : list bytes) (b : bytes) (ps : list (bytes * block)) (e : bytes) (after : list bytes),
    newline nl -> Forall plain_bytes (before ++ b :: e :: after) -> Forall no_soft before ->
    begin_line b -> end_line e ->
    Forall block_ok (map (fun p => titled (fst p) (snd p)) ps ++ map (fun p => titled (to_upper (fst p)) (snd p)) ps) ->
    Forall (fun p => lower_name (fst p) /\ ~ (exists r, fst p = B "x-" ++ r) /\ exists d r, fst (snd p) = d :: r /\ (d = 58 \/ d = 59)%N) ps ->
    settled (card_in nl before b (map (fun p => titled (fst p) (snd p)) ps) e after) ->
    exists result n, result <> Running /\ forall fuel, n <= fuel ->
      parse_text T E fuel (card_in nl before b (map (fun p => titled (fst p) (snd p)) ps) e after) = result /\
      parse_text T E fuel (card_in nl before b (map (fun p => titled (to_upper (fst p)) (snd p)) ps) e after) = result.
Proof.
  intros T E nl before b ps e after H1 H2 H3 H4 H5 H6 H7 H8.
  set (ts := map (fun p : bytes * block => (fst p, to_upper (fst p), snd p)) ps).
  assert (E1 : map (fun p => titled (fst p) (snd p)) ps = map spelt1 ts) by (unfold ts; rewrite map_map; reflexivity).
  assert (E2 : map (fun p => titled (to_upper (fst p)) (snd p)) ps = map spelt2 ts) by (unfold ts; rewrite map_map; reflexivity).
  rewrite E1 in *. rewrite E2 in *. apply C69_names; auto.
  - apply Forall_forall. intros t Ht. unfold ts in Ht. apply in_map_iff in Ht as (p & <- & Hp). rewrite Forall_forall in H7.
    destruct (H7 p Hp) as (L & X & D). unfold same_letters. cbn [fst snd].
    assert (Hlow : to_lower (fst p) = fst p).
    { unfold to_lower. rewrite <- (map_id (fst p)) at 2. apply map_ext_in. intros c Hc. specialize (L c Hc). unfold lower1, is_upper.
      destruct (N.leb_spec 65 c), (N.leb_spec c 90); cbn [andb]; auto; lia. }
    split; [|split; [|split; [symmetry; apply upper_lower|exact D]]].
    + split; [intros c Hc; specialize (L c Hc); lia|]. rewrite Hlow. exact X.
    + split; [|rewrite upper_lower, Hlow; exact X]. intros c Hc. unfold to_upper in Hc. apply in_map_iff in Hc as (d & <- & Hd). specialize (L d Hd).
      unfold upper1, is_lower. destruct (N.leb_spec 97 d), (N.leb_spec d 122); cbn [andb]; lia.
  - intros s t Hs Ht. unfold ts in *. apply in_map_iff in Hs as (p & <- & Hp). apply in_map_iff in Ht as (q & <- & Hq). cbn [fst snd].
    rewrite Forall_forall in H7. symmetry. apply upper_rank; [apply (H7 p Hp)|apply (H7 q Hq)].
Qed.
Print Assumptions C69_upper.
Definition C69_ps : list (bytes * block) :=
  [(B "tel", (B ";TYPE=home:1", [])); (B "fn", (B ":Ann", [B " B"; B "ee"])); (B "sort-string", (B ":Bee", []))].
Example C69_case :
  Forall block_ok (map (fun p => titled (fst p) (snd p)) C69_ps ++ map (fun p => titled (to_upper (fst p)) (snd p)) C69_ps) /\
  Forall (fun p => lower_name (fst p) /\ ~ (exists r, fst p = B "x-" ++ r) /\ exists d r, fst (snd p) = d :: r /\ (d = 58 \/ d = 59)%N) C69_ps /\
  settled (card_in crlf [] (B "BEGIN:VCARD") (map (fun p => titled (fst p) (snd p)) C69_ps) (B "END:VCARD") []) /\
  forall E, exists contact,
    parse_text exT E 20 (card_in crlf [] (B "BEGIN:VCARD") (map (fun p => titled (to_upper (fst p)) (snd p)) C69_ps) (B "END:VCARD") []) = Done [contact] /\
    a_formatted contact = B "Ann Bee" /\ map ph_number (a_phones contact) = [B "1"] /\ a_sortstring contact = B "Bee".
Proof.
  split; [cbn [map app C69_ps titled fst snd]; repeat good; apply Forall_nil|]. split.
  { assert (Hl : forall n, forallb (fun c => ((97 <=? c) && (c <=? 122)) || (c =? 45))%N n = true -> lower_name n).
    { intros n H c Hc. rewrite forallb_forall in H. specialize (H c Hc). lia. }
    repeat (apply Forall_cons; [cbn [fst snd]; split; [apply Hl; reflexivity|]; split;
      [intros [r H]; cbv in H; discriminate H|eexists; eexists; split; [reflexivity|auto]]|]). apply Forall_nil. }
  split.
  { exists [B "BEGIN:VCARD"; B "tel;TYPE=home:1"; B "fn:Ann"; B "  B"; B " ee"], (B "sort-string:Bee"), (B "END:VCARD").
    split; [vm_compute; reflexivity|]. split; [apply not_blank; reflexivity|apply not_last; reflexivity]. }
  intros E. eexists. split; [cbv - [qp_decode charset_decode]; reflexivity|]. split; [reflexivity|]. split; reflexivity.
Qed.

(** Without the condition on the alphabetical order the statement is false: LABEL is
    read before adr, finds no address, and makes one of its own. *)
Definition C69_mixed : list spellings :=
  [(B "ADR", B "adr", (B ";TYPE=home:;;Street 1;Town;;;", [])); (B "LABEL", B "LABEL", (B ";TYPE=home:Street 1", []))].
Theorem C69_mixed_refuted :
  exists ts : list spellings, Forall same_letters ts /\ Forall block_ok (map spelt1 ts ++ map spelt2 ts) /\
    settled (card_in crlf [] (B "BEGIN:VCARD") (map spelt1 ts) (B "END:VCARD") []) /\
    forall E, exists a b,
      parse_text exT E 20 (card_in crlf [] (B "BEGIN:VCARD") (map spelt1 ts) (B "END:VCARD") []) = Done [a] /\
      parse_text exT E 20 (card_in crlf [] (B "BEGIN:VCARD") (map spelt2 ts) (B "END:VCARD") []) = Done [b] /\
      length (a_addresses a) = 1 /\ length (a_addresses b) = 2.
Proof.
  exists C69_mixed. split.
  { repeat (apply Forall_cons; [split; [split; [plain_name|intros [r H]; cbv in H; discriminate H]|]; split;
      [split; [plain_name|intros [r H]; cbv in H; discriminate H]|]; split; [reflexivity|eexists; eexists; split; [reflexivity|auto]]|]). apply Forall_nil. }
  split; [cbn [map app C69_mixed spelt1 spelt2 titled fst snd]; repeat good; apply Forall_nil|]. split.
  { exists [B "BEGIN:VCARD"; B "ADR;TYPE=home:;;Street 1;Town;;;"], (B "LABEL;TYPE=home:Street 1"), (B "END:VCARD").
    split; [vm_compute; reflexivity|]. split; [apply not_blank; reflexivity|apply not_last; reflexivity]. }
  intros E. eexists. eexists. split; [cbv - [qp_decode charset_decode]; reflexivity|]. split; [cbv - [qp_decode charset_decode]; reflexivity|]. split; reflexivity.
Qed.
Print Assumptions C69_mixed_refuted.

(** The name of a parameter can be written in any case: the text gives the same cards. *)
Theorem C69_parameters :
  forall (E : Ext) (nl : bytes) (before : list bytes) (b : bytes) (bs bs' : list block) (h k k' r : bytes) (fs : list bytes) (e : bytes) (after : list bytes),
    newline nl -> Forall plain_bytes (before ++ b :: e :: after) -> Forall no_soft before ->
    begin_line b -> end_line e ->
    ~ In 58%N h -> ~ In 34%N h -> param_key k -> param_key k' -> to_lower k = to_lower k' ->
    let p := (h ++ 59%N :: k ++ 61%N :: r, fs) in let p' := (h ++ 59%N :: k' ++ 61%N :: r, fs) in
    Forall block_ok (p :: p' :: bs ++ bs') ->
    settled (card_in nl before b (bs ++ p :: bs') e after) ->
    exists cards,
      parses_to E (card_in nl before b (bs ++ p :: bs') e after) cards /\
      parses_to E (card_in nl before b (bs ++ p' :: bs') e after) cards.
Proof.
  intros E nl before b bs bs' h k k' r fs e after H1 H2 H3 H4 H5 N1 N2 K1 K2 K3 p p' Hf Hset.
  pose proof (Forall_inv Hf) as P1. apply Forall_inv_tail in Hf. pose proof (Forall_inv Hf) as P2. apply Forall_inv_tail in Hf.
  apply Forall_app in Hf as [F1 F2].
  assert (O1 : one_card_text E nl before b (bs ++ p :: bs') e after).
  { unfold one_card_text. repeat (split; [assumption|]). apply Forall_app. split; [auto|constructor; auto]. }
  assert (O2 : one_card_text E nl before b (bs ++ p' :: bs') e after).
  { unfold one_card_text. repeat (split; [assumption|]). apply Forall_app. split; [auto|constructor; auto]. }
  destruct (card_cut E nl before b _ e after O1 Hset) as (q & rest & Hq).
  pose proof (Hq _ O1) as Q1. pose proof (Hq _ O2) as Q2.
  assert (Hp : parse_pure E (content p') = parse_pure E (content p)).
  { unfold p, p', content. cbn [fst snd].
    assert (Ha : forall kk, (h ++ 59%N :: kk ++ 61%N :: r) ++ concat fs = h ++ 59%N :: kk ++ 61%N :: (r ++ concat fs))
      by (intros kk; rewrite <- app_assoc; cbn [app]; rewrite <- app_assoc; reflexivity).
    rewrite !Ha. symmetry. apply param_case; auto. }
  rewrite map_app in Q1, Q2. cbn [map] in Q1, Q2. rewrite Hp in Q2. eexists. split; [exact Q1|exact Q2].
Qed.
Print Assumptions C69_parameters.
Example C69_parameters_case :
  let p := (B "TEL;X-A=1;" ++ B "TYPE" ++ B "=home:1", []) in let p' := (B "TEL;X-A=1;" ++ B "Type" ++ B "=home:1", []) in
  param_key (B "TYPE") /\ param_key (B "Type") /\ Forall block_ok (p :: p' :: [] ++ []) /\
  settled (card_in crlf [] (B "BEGIN:VCARD") ([] ++ p :: []) (B "END:VCARD") []) /\
  forall E, exists contact, parse_text exT E 20 (card_in crlf [] (B "BEGIN:VCARD") ([] ++ p' :: []) (B "END:VCARD") []) = Done [contact] /\
    map ph_number (a_phones contact) = [B "1"].
Proof.
  intros p p'. split; [split; [absent|split; absent]|]. split; [split; [absent|split; absent]|]. split; [cbn [app]; repeat good; apply Forall_nil|]. split.
  { exists [B "BEGIN:VCARD"], (B "TEL;X-A=1;TYPE=home:1"), (B "END:VCARD").
    split; [vm_compute; reflexivity|]. split; [apply not_blank; reflexivity|apply not_last; reflexivity]. }
  intros E. eexists. split; [cbv - [qp_decode charset_decode]; reflexivity|]. reflexivity.
Qed.

(** ** C70 *)
(** Each line can end in LF or in CR LF. *)
Theorem C70_line_ends :
  forall (E : Ext) (ls ms : list (bytes * bytes)),
    Forall (fun l => plain_bytes (fst l) /\ newline (snd l)) (ls ++ ms) -> map fst ls = map fst ms -> settled (mixed_text ls) ->
    exists cards, parses_to E (mixed_text ls) cards /\ parses_to E (mixed_text ms) cards.
Proof.
  intros E ls ms Hf He Hset. apply Forall_app in Hf as [F1 F2]. destruct (settled_srun E _ Hset) as [cards Hr]. exists cards.
  assert (Hlf : forall xs, Forall (fun l => plain_bytes (fst l) /\ newline (snd l)) xs -> xs <> [] -> In 10%N (mixed_text xs)).
  { intros [|[l nl] xs] Hx Hne; [congruence|]. apply Forall_inv in Hx as [_ Hn]. cbn [snd] in Hn. unfold mixed_text. cbn [flat_map fst snd].
    apply in_app_iff. left. apply in_app_iff. right. destruct Hn as [->| ->]; cbn; auto. }
  assert (Hne : ls <> []).
  { intros ->. destruct Hset as (a & p & e & H & _). apply (f_equal (@length bytes)) in H. rewrite app_length in H. cbn in H. lia. }
  split; apply srun_to; auto.
  - apply Hlf; auto. intros ->. destruct ls; [auto|discriminate].
  - rewrite physical_mixed in Hr |- * by auto. rewrite <- He. exact Hr.
Qed.
Print Assumptions C70_line_ends.

(** Empty lines do not matter in a text without '=' at the end of a line. *)
Theorem C70_empty_lines :
  forall (E : Ext) (nl : bytes) (ls ms : list bytes),
    newline nl -> Forall plain_bytes (ls ++ ms) -> Forall no_soft ls ->
    filter (fun l => negb (isnil l)) ls = filter (fun l => negb (isnil l)) ms ->
    exists cards, parses_to E (text_of nl ls) cards /\ parses_to E (text_of nl ms) cards.
Proof.
  intros E nl ls ms Hn Hp Hs He. apply Forall_app in Hp as [P1 P2].
  assert (Hs' : Forall no_soft ms).
  { apply Forall_forall. intros m Hm. destruct m as [|c m]; [intros [[|? ?] H]; discriminate|].
    assert (Hin : In (c :: m) (filter (fun l => negb (isnil l)) ls)) by (rewrite He; apply filter_In; auto).
    apply filter_In in Hin as [Hin _]. rewrite Forall_forall in Hs. auto. }
  assert (H0 : no_soft (m_line lm_init)) by (intros [[|? ?] H]; discriminate).
  destruct (spaced_run E ls lm_init Hs H0) as [A1 A2]. destruct (spaced_run E ms lm_init Hs' H0) as [B1 _].
  destruct (srun E (Normal lm_init) (ls ++ [[]])) as [cards|] eqn:Er; [|congruence]. exists cards.
  split; apply text_cards; auto. rewrite <- B1, <- He. exact A1.
Qed.
Print Assumptions C70_empty_lines.

(** Lines between cards, before the first and after the last card do not matter. *)
Theorem C70_outside :
  forall (E : Ext) (nl : bytes) (before junk after : list bytes),
    newline nl -> Forall plain_bytes (before ++ junk ++ after) -> Forall no_soft before -> closed before -> Forall no_tag junk ->
    settled (text_of nl (before ++ after)) ->
    exists cards, parses_to E (text_of nl (before ++ after)) cards /\ parses_to E (text_of nl (before ++ junk ++ after)) cards.
Proof.
  intros E nl before junk after Hn Hp Hs Hc Hj Hset. destruct (settled_srun E _ Hset) as [cards Hr]. exists cards.
  apply Forall_app in Hp as [P1 P]. apply Forall_app in P as [P2 P3].
  assert (Q1 : Forall plain_bytes (before ++ after)) by (apply Forall_app; auto).
  assert (Q2 : Forall plain_bytes (before ++ junk ++ after)) by (apply Forall_app; split; [auto|apply Forall_app; auto]).
  rewrite text_run in Hr by auto. split; apply text_cards; auto.
  destruct (closed_run E before lm_init Hs) as (m & R1 & _ & R3); [intros [[|? ?] H]; discriminate|exact Hc|discriminate|].
  rewrite <- Hr. rewrite <- !app_assoc. rewrite !(srun_app E before) by (destruct junk, after; discriminate). rewrite R1.
  destruct m as [l c cs i]. cbn [m_in] in R3. subst i. destruct (junk_idle E junk l c cs Hj) as [l' J].
  rewrite srun_app by (destruct after; discriminate). rewrite J. apply idle_run. right. eauto 10.
Qed.
Print Assumptions C70_outside.

(** A card without END line is left out when the next card begins. *)
Theorem C70_unfinished :
  forall (E : Ext) (nl : bytes) (before : list bytes) (b : bytes) (junk : list bytes) (b' : bytes) (after : list bytes),
    newline nl -> Forall plain_bytes (before ++ (b :: junk) ++ b' :: after) -> Forall no_soft (before ++ junk) -> Forall no_tag junk ->
    begin_line b -> begin_line b' -> settled (text_of nl (before ++ b' :: after)) ->
    exists cards,
      parses_to E (text_of nl (before ++ b' :: after)) cards /\
      parses_to E (text_of nl (before ++ (b :: junk) ++ b' :: after)) cards.
Proof.
  intros E nl before b junk b' after Hn Hp Hs Ht Hb Hb' Hset. destruct (settled_srun E _ Hset) as [cards Hr]. exists cards.
  pose proof Hp as Q2. apply Forall_app in Hp as [P1 P]. apply Forall_app in P as [P2 P3].
  assert (Q1 : Forall plain_bytes (before ++ b' :: after)) by (apply Forall_app; auto).
  rewrite text_run in Hr by auto. split; apply text_cards; auto.
  apply Forall_app in Hs as [S1 S2].
  assert (H0 : no_soft (m_line lm_init)) by (intros [[|? ?] H]; discriminate).
  destruct (srun_before E before lm_init S1 H0) as (m & R1 & R2).
  rewrite <- Hr. rewrite <- !app_assoc. rewrite !(srun_app E before) by discriminate. rewrite R1.
  cbn [app]. rewrite !srun_cons by (destruct junk, after; discriminate). rewrite (begin_step E m b Hb R2), (begin_step E m b' Hb' R2).
  rewrite srun_app by discriminate.
  destruct (unfinished_run E junk (mkLM [] [] (m_cards m) true) Ht S2) as (m' & U1 & U2 & U3 & _); [intros [[|? ?] H]; discriminate|].
  rewrite U1. rewrite srun_cons by (destruct after; discriminate). rewrite (begin_step E m' b' Hb' U2), U3. reflexivity.
Qed.
Print Assumptions C70_unfinished.

Definition C70_card : list bytes := [B "BEGIN:VCARD"; B "FN:a"; B "END:VCARD"].
Lemma C70_plain ls : forallb (fun l => negb (mem 10 l) && negb (mem 13 l)) ls = true -> Forall plain_bytes ls.
Proof.
  intros H. apply Forall_forall. intros l Hl. rewrite forallb_forall in H. specialize (H l Hl). apply andb_true_iff in H as [K1 K2].
  split; intros K; apply mem_In in K; [rewrite K in K1|rewrite K in K2]; discriminate.
Qed.
Lemma C70_no_soft ls : forallb (fun l => negb (ends_with [61%N] l)) ls = true -> Forall no_soft ls.
Proof. intros H. apply Forall_forall. intros l Hl. rewrite forallb_forall in H. specialize (H l Hl). apply not_last. apply negb_true_iff. exact H. Qed.
Lemma C70_no_tag ls : forallb (fun l => negb (is_begin l) && negb (is_end l)) ls = true -> Forall no_tag ls.
Proof.
  intros H. apply Forall_forall. intros l Hl. rewrite forallb_forall in H. specialize (H l Hl). apply andb_true_iff in H as [K1 K2].
  split; [apply not_begin|apply not_end]; apply negb_true_iff; assumption.
Qed.
Lemma C70_closed : closed C70_card.
Proof.
  intros a p b H Hb. unfold C70_card in H. destruct a as [|x1 [|x2 [|x3 a]]]; cbn [app] in H.
  - injection H as <- <-. right. left. apply is_end_spec. reflexivity.
  - injection H as _ <- <-. apply is_begin_spec in Hb. discriminate.
  - injection H as _ _ <- <-. apply is_begin_spec in Hb. discriminate.
  - injection H as _ _ _ H. destruct a; discriminate.
Qed.
(** Two cards with text before, between and after them, an empty line, and a third card
    that is not finished. *)
Example C70_case :
  let junk := [B "some text"; B " and more="; B "FN:not a card"] in
  Forall plain_bytes (C70_card ++ junk ++ C70_card) /\ Forall no_soft C70_card /\ closed C70_card /\ Forall no_tag junk /\
  settled (text_of crlf (C70_card ++ C70_card)) /\
  (forall E, parse_vcards E 30 (text_of crlf (junk ++ C70_card ++ [[]] ++ junk ++ [B "BEGIN:VCARD"; B "FN:b"] ++ C70_card ++ junk)) =
    parse_vcards E 30 (text_of [10%N] (C70_card ++ C70_card))) /\
  (forall E, option_map (@length vcard) (parse_vcards E 30 (text_of [10%N] (C70_card ++ C70_card))) = Some 2).
Proof.
  intros junk. split; [apply C70_plain; reflexivity|]. split; [apply C70_no_soft; reflexivity|]. split; [exact C70_closed|].
  split; [apply C70_no_tag; reflexivity|]. split.
  { exists (C70_card ++ [B "BEGIN:VCARD"]), (B "FN:a"), (B "END:VCARD").
    split; [vm_compute; reflexivity|]. split; [apply not_blank; reflexivity|apply not_last; reflexivity]. }
  split; intros E; cbv - [from_utf8 qp_decode charset_decode]; reflexivity.
Qed.
(** An END line on its own makes an empty card, although the text has no BEGIN line. *)
Theorem C70_stray_end_refuted :
  exists ls : list bytes, Forall (fun l => ~ begin_line l) ls /\
    forall E, exists contact, parse_text exT E 20 (text_of crlf ls) = Done [contact] /\ parses_to E (text_of crlf ls) [[]].
Proof.
  exists [B "hello"; B "END:VCARD"]. split.
  - apply Forall_cons; [apply not_begin; reflexivity|]. apply Forall_cons; [apply not_begin; reflexivity|apply Forall_nil].
  - intros E. eexists. split; [cbv - [from_utf8 qp_decode charset_decode]; reflexivity|].
    apply text_cards; [right; reflexivity|apply C70_plain; reflexivity|]. reflexivity.
Qed.
Print Assumptions C70_stray_end_refuted.
