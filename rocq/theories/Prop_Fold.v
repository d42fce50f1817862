(** C03, C04, C05: folding of written lines. *)
From Verif Require Import Base BaseFacts Utf8 M_ParamMap M_VCard M_VCardText S_Fold P_Fold S_CardText P_CardText.

(** C03.  Every physical line of a written file has at most 76 octets ... *)
Theorem C03_file_lines_at_most_76 :
  forall (E : Ext) (cards : list vcard) (x : bytes),
    Forall (card_all (fun l => has_value l /\ header_free 13 l)) cards ->
    In x (crlf_lines (create_vcards E cards)) -> length x <= 76.
Proof. exact file_width. Qed.
Print Assumptions C03_file_lines_at_most_76.

(** ... and at most 75 octets if it belongs to a property with a plain text value. *)
Theorem C03_text_lines_at_most_75 :
  forall (E : Ext) (u : ustring) (l : vline) (x : bytes),
    plain_text_line u l -> header_free 13 l ->
    In x (crlf_lines (line_text E l)) -> length x <= 75.
Proof. exact text_line_width. Qed.
Print Assumptions C03_text_lines_at_most_75.

(** The folding function itself, both modes. *)
Theorem C03_fold_width :
  forall (s : bytes) (multibyte : bool) (x : bytes),
    ~ In 13%N s -> In x (crlf_lines (fix_line_size s multibyte)) ->
    length x <= if multibyte then 75 else 76.
Proof. exact fold_width. Qed.
Print Assumptions C03_fold_width.

(** The bound 75 is not met when binary data is folded. *)
Theorem C03_binary_75_refuted :
  exists s x, ~ In 13%N s /\ In x (crlf_lines (fix_line_size s false)) /\ length x = 76.
Proof.
  exists (repeat 65%N 150), (32%N :: repeat 65%N 75).
  split; [rewrite <- mem_false; vm_compute; reflexivity|].
  split; vm_compute; auto.
Qed.
Print Assumptions C03_binary_75_refuted.

(** C04.  Folding followed by unfolding gives the line back. *)
Theorem C04_fold_transparent :
  forall (s : bytes) (multibyte : bool),
    ~ In 13%N s -> unfold_text (fix_line_size s multibyte) = s ++ [13; 10]%N.
Proof. exact fold_unfold. Qed.
Print Assumptions C04_fold_transparent.

(** C05.  No fold falls inside a character of at most three bytes: every
    physical line by itself is valid UTF-8. *)
Theorem C05_fold_keeps_characters :
  forall (u : ustring) (x : bytes),
    bmp_text u = true -> ~ In 13%N u ->
    In x (crlf_lines (fix_line_size (to_utf8 u) true)) -> valid_utf8 x.
Proof. exact fold_no_split. Qed.
Print Assumptions C05_fold_keeps_characters.

(** The same for a complete property line as written. *)
Theorem C05_line_keeps_characters :
  forall (E : Ext) (u : ustring) (l : vline) (x : bytes),
    plain_text_line u l -> bmp_text u = true -> header_ascii l -> header_free 13 l ->
    In x (crlf_lines (line_text E l)) -> valid_utf8 x.
Proof. exact text_line_no_split. Qed.
Print Assumptions C05_line_keeps_characters.

(** For characters of four bytes it fails. *)
Theorem C05_four_byte_characters_refuted :
  exists (u : ustring) (x : bytes), valid_utf16 u = true /\ ~ In 13%N u /\
    In x (crlf_lines (fix_line_size (to_utf8 u) true)) /\ ~ valid_utf8 x.
Proof. exact fold_splits_4byte. Qed.
Print Assumptions C05_four_byte_characters_refuted.

(** Concrete cases that meet the hypotheses: a note of 200 umlauts with a
    parameter and a group. *)
Definition long_note : vline :=
  mkVline (B "NOTE") (B "item1") [(B "language", [B "de"])] (QStr (repeat 228%N 200)) [].
Definition idE : Ext := Build_Ext (fun x => x) (fun x => x) (fun _ => None) (fun _ => None).

Example C03_hyps : plain_text_line (repeat 228%N 200) long_note /\ header_free 13 long_note /\
  header_ascii long_note /\ bmp_text (repeat 228%N 200) = true /\
  Forall (card_all (fun l => has_value l /\ header_free 13 l)) [[(B "NOTE", [long_note])]].
Proof.
  assert (H : header_free 13 long_note).
  { split; [|split]; [apply mem_false; reflexivity|apply mem_false; reflexivity|].
    constructor; [|constructor]. split; [apply mem_false; reflexivity|].
    constructor; [apply mem_false; reflexivity|constructor]. }
  split; [repeat split|]. split; [exact H|]. split; [repeat split; repeat constructor|].
  split; [reflexivity|].
  constructor; [|constructor]. constructor; [|constructor]. constructor; [|constructor].
  split; [discriminate|exact H].
Qed.
Example C03_witness : map (@length N) (crlf_lines (line_text idE long_note)) = [75;75;75;75;75;53;0]%nat.
Proof. vm_compute. reflexivity. Qed.
