(** C76: the coding of a value. *)
From Verif Require Import Base BaseFacts Utf8 M_ParamMap M_VCard M_VCardText M_Values M_Addressee M_VCardTool S_Contact S_Escape S_Parse P_Parse P_Parse2 S_Soft P_Soft P_SoftLoop
  Prop_Soft P_ContactCase S_Order P_CardOrder P_Unknown Prop_Order S_Case P_Case S_Coding P_Unescape P_Coding.

(** The text values of a card can be written in another coding (as they are, escaped,
    announced as eight bits, in base64 or quoted-printable) and in another character set:
    the text is read into the same contacts. *)
Theorem C76_coding :
  forall (T : Tool) (E : Ext) (nl : bytes) (before : list bytes) (b : bytes) (bs bs' : list block) (e : bytes) (after : list bytes),
    newline nl -> Forall plain_bytes (before ++ b :: e :: after) -> Forall no_soft (before ++ after) ->
    begin_line b -> end_line e -> Forall2 (same_property E) bs bs' ->
    exists result n, result <> Running /\ forall fuel, n <= fuel ->
      parse_text T E fuel (card_in nl before b bs e after) = result /\
      parse_text T E fuel (card_in nl before b bs' e after) = result.
Proof. exact coding_text. Qed.
Print Assumptions C76_coding.

(** The value of a property of any name is the text it stands for. *)
Theorem C76_values :
  forall (E : Ext) (nl : bytes) (before : list bytes) (b : bytes) (bs : list block) (e : bytes) (after : list bytes),
    newline nl -> Forall plain_bytes (before ++ b :: e :: after) -> Forall no_soft (before ++ after) ->
    begin_line b -> end_line e ->
    Forall (fun c => block_ok c \/ exists n ps s, (forall x, In x n -> x <> 58%N /\ x <> 59%N /\ x <> 46%N) /\ says E n ps s c) bs ->
    exists p c r, parses_to E (card_in nl before b bs e after) (p ++ c :: r) /\
      forall d n ps s, In d bs -> (forall x, In x n -> x <> 58%N /\ x <> 59%N /\ x <> 46%N) -> says E n ps s d ->
        exists l, In l (card_lines n c) /\ vl_id l = n /\ lvalue l = s.
Proof. exact values_text. Qed.
Print Assumptions C76_values.

(** Quoted-printable text without soft line breaks, and ISO 8859-1. *)
Definition hex1 (c : N) : N := if (c <? 58)%N then (c - 48)%N else (c - 55)%N.
Fixpoint unquoted (s : bytes) : bytes :=
  match s with
  | 61%N :: a :: b :: r => (16 * hex1 a + hex1 b)%N :: unquoted r
  | c :: r => c :: unquoted r
  | [] => []
  end.
Definition exQ : Ext := {| qp_decode := unquoted; qp_encode := fun s => s;
  charset_decode := fun n => if leqb n (B "iso-8859-1") then Some (fun s => s) else None; charset_encode := fun _ => None |}.
(** NOTE and FN with an e with an acute accent, in UTF-8 and in other codings *)
Definition C76_bs : list block :=
  [(B "FN;x=y:caf" ++ [195; 169]%N, []); (B "TEL:1", []); (B "note:a\\b\, caf" ++ [195; 169]%N, []); (B "Uid:u=", [])].
Definition C76_bs' : list block :=
  [(B "FN;Charset=ISO-8859-1;QUOTED-PRINTABLE;x=y:caf", [B "=E9"]); (B "TEL:1", []);
   (B "note;encoding=b:" ++ firstn 6 (to_base64 (B "a\b, caf" ++ [195; 169]%N)), [skipn 6 (to_base64 (B "a\b, caf" ++ [195; 169]%N))]);
   (B "Uid;Encoding=8bit:u=", [])].
Lemma says_case E n ps s x r fs c k w v : is_space x = false ->
  forallb (fun l => negb (mem 10 l) && negb (mem 13 l)) (block_lines (x :: r, fs)) = true ->
  is_begin (x :: r) = false -> is_end (x :: r) = false ->
  content (x :: r, fs) = n ++ flat_map (fun p => 59%N :: p) ps ++ 58%N :: w ->
  announced ps c k -> stands_for E c w v -> s = in_charset E k v -> (c = Quoted -> ~ (exists q, w = q ++ [61%N])) ->
  says E n ps s (x :: r, fs).
Proof.
  intros H1 H2 H3 H4 H5 H6 H7 H8 H9. split; [exists x, r; auto|]. split.
  { apply Forall_forall. intros l Hl. rewrite forallb_forall in H2. specialize (H2 l Hl). apply andb_true_iff in H2 as [K1 K2].
    split; intros K; apply mem_In in K; [rewrite K in K1|rewrite K in K2]; discriminate. }
  split; [apply not_begin; auto|]. split; [apply not_end; auto|]. exists c, k, w, v. auto 10.
Qed.
Ltac not_in := let K := fresh in intros K; cbv in K; repeat (destruct K as [K|K]; [discriminate K|]); destruct K.
Ltac param := left; split; [not_in|split; not_in].
Ltac params := repeat (apply Forall_cons; [param|]); apply Forall_nil.
Lemma C76_same : Forall2 (same_property exQ) C76_bs C76_bs'.
Proof.
  apply Forall2_cons; [right|apply Forall2_cons; [left|apply Forall2_cons; [right|apply Forall2_cons; [right|apply Forall2_nil]]]].
  - exists (B "FN"), [B "x=y"], [B "Charset=ISO-8859-1"; B "QUOTED-PRINTABLE"; B "x=y"], (B "caf" ++ [233%N]).
    split; [split; [plain_name|left; cbv; auto 30]|]. split; [reflexivity|]. split.
    + apply (says_case _ _ _ _ _ _ _ Plain None (B "caf" ++ [195; 169]%N) (B "caf" ++ [195; 169]%N)); try reflexivity; [|apply plain_unescapes; not_in|discriminate].
      split; [params|]. split; [apply Forall_cons; [left; reflexivity|apply Forall_nil]|]. split; [congruence|discriminate].
    + apply (says_case _ _ _ _ _ _ _ Quoted (Some (B "iso-8859-1")) (B "caf=E9") (B "caf" ++ [233%N])); try reflexivity; [|split; [not_in|reflexivity]|intros _; apply not_last; reflexivity].
      split; [params|]. assert (Hc : charset_param (B "iso-8859-1") (B "Charset=ISO-8859-1")) by (split; [reflexivity|split; [discriminate|split; not_in]]).
      split; [apply Forall_cons; [right; right; eauto|apply Forall_cons; [right; left; right; reflexivity|apply Forall_cons; [left; reflexivity|apply Forall_nil]]]|].
      split; [intros _; right; left; right; reflexivity|]. intros n Hn. injection Hn as <-. left. exact Hc.
  - split; [reflexivity|]. apply block_good; reflexivity.
  - exists (B "note"), [], [B "encoding=b"], (B "a\b, caf" ++ [233%N]).
    split; [split; [plain_name|left; cbv; auto 30]|]. split; [reflexivity|]. split.
    + apply (says_case _ _ _ _ _ _ _ Plain None (B "a\\b\, caf" ++ [195; 169]%N) (B "a\b, caf" ++ [195; 169]%N)); try reflexivity; [| |discriminate].
      * split; [apply Forall_nil|]. split; [apply Forall_nil|]. split; [congruence|discriminate].
      * apply (escaped_unescapes (B "a\b, caf" ++ [195; 169]%N)). intros K. apply P_Escape.ambiguous_adj in K as [K|[K|K]]; vm_compute in K; discriminate K.
    + apply (says_case _ _ _ _ _ _ _ Base64 None (to_base64 (B "a\b, caf" ++ [195; 169]%N)) (B "a\b, caf" ++ [195; 169]%N)); try reflexivity; [|split; reflexivity|discriminate].
      split; [params|]. split; [apply Forall_cons; [right; left; left; reflexivity|apply Forall_nil]|]. split; [intros _; left; left; reflexivity|discriminate].
  - exists (B "Uid"), [], [B "Encoding=8bit"], (B "u=").
    split; [split; [plain_name|left; cbv; auto 30]|]. split; [reflexivity|]. split.
    + apply (says_case _ _ _ _ _ _ _ Plain None (B "u=") (B "u=")); try reflexivity; [|apply plain_unescapes; not_in|discriminate].
      split; [apply Forall_nil|]. split; [apply Forall_nil|]. split; [congruence|discriminate].
    + apply (says_case _ _ _ _ _ _ _ Eight None (B "u=") (B "u=")); try reflexivity; [|apply plain_unescapes; not_in|discriminate].
      split; [params|]. split; [apply Forall_cons; [right; left; reflexivity|apply Forall_nil]|]. split; [intros _; left; reflexivity|discriminate].
Qed.
Example C76_case : exists a,
  parse_text exT exQ 20 (card_in crlf [] (B "BEGIN:VCARD") C76_bs (B "END:VCARD") []) = Done [a] /\
  parse_text exT exQ 20 (card_in crlf [] (B "BEGIN:VCARD") C76_bs' (B "END:VCARD") []) = Done [a] /\
  a_formatted a = B "caf" ++ [233%N] /\ a_note a = B "a\b, caf" ++ [233%N] /\ a_uid a = B "u=".
Proof. eexists. split; [vm_compute; reflexivity|]. split; [vm_compute; reflexivity|]. split; [reflexivity|]. split; reflexivity. Qed.

(** But the coding of a title stays with the title, and a contact with such a title is
    written without it: only the codings "b" and "quoted-printable" are written. *)
Definition C76_title (p v : bytes) : bytes :=
  card_in crlf [] (B "BEGIN:VCARD") [(B "FN:Ann", []); (B "TITLE;" ++ p ++ 58%N :: v, []); (B "UID:u", [])] (B "END:VCARD") [].
Theorem C76_export_refuted :
  ~ (forall (T : Tool) (E : Ext) (v : version) (export : bool) (n m : nat) (text : bytes) (a : addressee) (res : list addressee),
       parse_text T E n text = Done [a] -> parse_text T E m (create_text T E v export [a]) = Done res ->
       map (fun b => map pt_text (a_titles b)) res = [map pt_text (a_titles a)]).
Proof.
  intros H.
  pose (f := fun r : outcome (list addressee) => match r with Done [a] => a | _ => addressee_new [] end).
  pose (a := f (parse_text exT exQ 20 (C76_title (B "ENCODING=BASE64") (B "Q2hpZWY=")))).
  pose (b := f (parse_text exT exQ 20 (create_text exT exQ V30 true [a]))).
  specialize (H exT exQ V30 true 20 20 (C76_title (B "ENCODING=BASE64") (B "Q2hpZWY=")) a [b]).
  vm_compute in H. specialize (H eq_refl eq_refl). discriminate H.
Qed.
Print Assumptions C76_export_refuted.
(** with either spelling of a coding that is not written, in each version *)
Example C76_lost : forall v, exists a b c d,
  parse_text exT exQ 20 (C76_title (B "ENCODING=BASE64") (B "Q2hpZWY=")) = Done [a] /\ map pt_text (a_titles a) = [B "Chief"] /\
  parse_text exT exQ 20 (create_text exT exQ v true [a]) = Done [b] /\ a_titles b = [] /\
  parse_text exT exQ 20 (C76_title (B "ENCODING=8BIT") (B "Chief")) = Done [c] /\ map pt_text (a_titles c) = [B "Chief"] /\
  parse_text exT exQ 20 (create_text exT exQ v true [c]) = Done [d] /\ a_titles d = [].
Proof.
  intros v. destruct v; eexists; eexists; eexists; eexists; (split; [vm_compute; reflexivity|]); (split; [reflexivity|]);
  (split; [vm_compute; reflexivity|]); (split; [reflexivity|]); (split; [vm_compute; reflexivity|]); (split; [reflexivity|]);
  (split; [vm_compute; reflexivity|reflexivity]).
Qed.

(** C01.  The reader decodes the escapes of the standards from left to right; only an
    escaped backslash before n, N or r is not covered (C01_escape_roundtrip_refuted). *)
Theorem C01_decoder : forall (w v : bytes), unescapes w v -> remove_escapes w = v.
Proof. exact unescapes_read. Qed.
Print Assumptions C01_decoder.
(** escapes of all kinds, among them one unknown to the standards and one at the end *)
Example C01_decoder_case : unescapes (B "a\\b\,\;\N\\\n\x,\") (B "a\b,\;" ++ [10; 92; 10]%N ++ B "\x,\").
Proof.
  apply un_char; [discriminate|]. apply un_backslash; [intros (c & r & E & K); injection E as <- <-; intuition discriminate|].
  apply un_char; [discriminate|]. apply un_comma. apply un_other; [not_in|]. apply un_newline; [auto|].
  apply un_backslash; [intros (c & r & E & K); injection E as <- <-; intuition discriminate|]. apply un_newline; [auto|].
  apply un_other; [not_in|]. apply un_char; [discriminate|]. apply un_last.
Qed.
