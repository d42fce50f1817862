(** C72: the parts of a written e-mail address. *)
From Verif Require Import Base BaseFacts Utf8 M_Addressee M_Name S_Name S_Mailbox P_Mailbox.
Open Scope list_scope.

(** An address with something in angle brackets: the e-mail address is what is in the
    brackets, the name what is outside of them, without the comments. *)
Theorem C72_brackets :
  forall (lower : ustring -> ustring) (ps : list piece) (t n : ustring), Forall piece_ok ps -> ending t ->
    trimmed (bracketed ps) <> [] -> name_of (outside ps) n ->
    no_bom (trimmed (outside ps)) = true -> no_bom (trimmed (remarks ps)) = true -> no_bom (trimmed (bracketed ps)) = true ->
    parse_email lower (address_text ps ++ t) = (n, lower (trimmed (bracketed ps))).
Proof.
  intros lower ps t n F E A N B1 B2 B3. rewrite parse_parts by assumption.
  apply isnil_false in A. rewrite A. f_equal. exact (name_of_unique _ _ _ (strip_name _) N).
Qed.
Print Assumptions C72_brackets.

(** Without brackets the e-mail address is what is outside of comments, and the name is
    the text of the comments. *)
Theorem C72_comment :
  forall (lower : ustring -> ustring) (ps : list piece) (t n : ustring), Forall piece_ok ps -> ending t ->
    trimmed (bracketed ps) = [] -> trimmed (outside ps) <> [] -> name_of (remarks ps) n ->
    no_bom (trimmed (outside ps)) = true -> no_bom (trimmed (remarks ps)) = true ->
    parse_email lower (address_text ps ++ t) = (n, lower (trimmed (outside ps))).
Proof.
  intros lower ps t n F E A D N B1 B2. rewrite parse_parts; auto; [|rewrite A; reflexivity].
  apply isnil_false in D. rewrite A, D. cbn [isnil]. f_equal. exact (name_of_unique _ _ _ (strip_name _) N).
Qed.
Print Assumptions C72_comment.

(** With nothing but comments there is neither a name nor an address. *)
Theorem C72_nothing :
  forall (lower : ustring -> ustring) (ps : list piece) (t : ustring), Forall piece_ok ps -> ending t ->
    trimmed (bracketed ps) = [] -> trimmed (outside ps) = [] -> no_bom (trimmed (remarks ps)) = true ->
    parse_email lower (address_text ps ++ t) = ([], []).
Proof.
  intros lower ps t F E A D B. rewrite parse_parts; auto; [|rewrite D; reflexivity|rewrite A; reflexivity]. rewrite A, D. reflexivity.
Qed.
Print Assumptions C72_nothing.

(** If the last part is not ended, what was read so far is the name and the address,
    with the quotes and in the case they were written. *)
Theorem C72_unfinished :
  forall (lower : ustring -> ustring) (ps : list piece) (p : piece), Forall piece_ok ps -> unclosed p ->
    let d := outside ps ++ match p with Quoted s => 34%N :: s | _ => [] end in
    let a := bracketed ps ++ match p with Angle s => s | _ => [] end in
    no_bom (trimmed d) = true -> no_bom (trimmed a) = true ->
    parse_email lower (address_text ps ++ begun p) = (trimmed d, trimmed a).
Proof. exact parse_unclosed. Qed.
Print Assumptions C72_unfinished.

(** These are all texts, but for those with an open backslash at their end. *)
Theorem C72_every_text :
  forall s, valid_utf16 s = true -> ~ In 0%N s -> bs_closed s = true ->
    (exists ps t, s = address_text ps ++ t /\ Forall piece_ok ps /\ ending t) \/
    (exists ps p, s = address_text ps ++ begun p /\ Forall piece_ok ps /\ unclosed p).
Proof.
  intros s V Z Q. destruct (every_text (length s) s (le_n _) V Z Q) as (ps & r & E & F & [H|(p & H & ->)]).
  - left. exists ps, r. auto.
  - right. exists ps, p. auto.
Qed.
Print Assumptions C72_every_text.

Definition C72_ps : list piece :=
  [Comment (B "the (real) one"); Quoted (B "Doe, J."); Text (B " "); Angle (B "J@KDE.org"); Comment (B "at work")].
Definition C72_old : list piece := [Text (B " J@KDE.org "); Comment (B "Jane (J.) Doe"); Comment (B "2nd")].
Ltac piece := split; [reflexivity|split; [apply mem_false; reflexivity|reflexivity]].
Example C72_case :
  Forall piece_ok C72_ps /\ name_of (outside C72_ps) (B "Doe, J.") /\ trimmed (bracketed C72_ps) = B "J@KDE.org" /\
  parse_email to_lower (address_text C72_ps ++ B ", other@kde.org") = (B "Doe, J.", B "j@kde.org") /\
  Forall piece_ok C72_old /\ name_of (remarks C72_old) (B "Jane (J.) Doe 2nd") /\ trimmed (outside C72_old) = B "J@KDE.org" /\
  parse_email to_lower (address_text C72_old) = (B "Jane (J.) Doe 2nd", B "j@kde.org") /\
  unclosed (Angle (B "J@KDE")) /\ parse_email to_lower (address_text [Quoted (B "Jane")] ++ begun (Angle (B "J@KDE"))) = ([34%N] ++ B "Jane" ++ [34%N], B "J@KDE").
Proof.
  split; [repeat (apply Forall_cons; [piece|]); apply Forall_nil|]. split; [left; split; [reflexivity|discriminate]|]. split; [reflexivity|]. split; [reflexivity|].
  split; [repeat (apply Forall_cons; [piece|]); apply Forall_nil|].
  split; [right; split; [reflexivity|intros (m & _ & H); discriminate H]|]. split; [reflexivity|]. split; [reflexivity|].
  split; [|reflexivity]. split; [reflexivity|]. split; [apply mem_false; reflexivity|exists false; reflexivity].
Qed.
