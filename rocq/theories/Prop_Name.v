(** Names read from text (C23) and composed e-mail addresses (C24). *)
From Verif Require Import Base BaseFacts Utf8 M_Addressee M_Name S_Name P_Name P_Email.
Open Scope list_scope.

(** ** C23 *)

(** Every text without a comma is accepted.  Name and formatted name are the text,
    nothing but the name fields changes.  The words of the text are distributed over
    prefix, given name, additional names, family name and suffix, in order and without
    loss; only if the last word is not to be taken as family name one of them may get
    lost. *)
Theorem C23_without_comma : forall H s str a, name_text s str -> ~ In cCOMMA str ->
  exists a', set_name_from_string H s a = Some a'
    /\ nameless a' = nameless a /\ a_name a' = str /\ a_formatted a' = str
    /\ (nx_family H = true -> name_words a' = spaced str)
    /\ (name_words a' = spaced str \/ loses_one (spaced str) (name_words a')).
Proof.
  intros H s str a T N. pose proof (unquote_text s str T) as U.
  destruct (cleared_ok str a) as [C1 [C2 [C3 C4]]].
  destruct (nv_proj _ _ _ _ _ _ C1) as [P1 [P2 [P3 [P4 P5]]]].
  rewrite set_name_cases, U. destruct str as [|c r] eqn:E.
  - cbn [isnil]. eexists. split; [reflexivity|]. repeat split; auto.
    + intros _. unfold name_words. rewrite P1, P2, P3, P4, P5. reflexivity.
    + left. unfold name_words. rewrite P1, P2, P3, P4, P5. reflexivity.
  - cbn [isnil]. rewrite <- E in *. clear E.
    replace (index_of cCOMMA str) with (@None nat).
    + destruct (no_comma_ok H (split cSP str) (cleared str a) (parts_nospace str) P1 P2 P3 P4) as [a' [A1 [[A2 [A3 A4]] [A5 A6]]]].
      exists a'. split; [exact A1|]. rewrite A2, A3, A4. repeat split; auto.
    + clear -N. induction str as [|x str IH]; [reflexivity|]. cbn [index_of].
      destruct (N.eqb_spec x cCOMMA) as [Q|Q]; [exfalso; apply N; left; exact Q|].
      rewrite <- IH; [reflexivity|]. intros I; apply N; right; exact I.
Qed.
Print Assumptions C23_without_comma.

(** With a comma the word list is read outside its bounds if and only if all words
    before the comma are suffixes. *)
Theorem C23_comma_safe : forall H s a p1 p2, name_text s (p1 ++ cCOMMA :: p2) -> ~ In cCOMMA p1 ->
  (set_name_from_string H s a = None <-> forall w, In w (split cSP p1) -> nx_suffix H w = true).
Proof.
  intros H s a p1 p2 T N. pose proof (unquote_text _ _ T) as U.
  rewrite (set_name_comma H s a p1 p2 U N). split.
  - intros K. destruct (existsb (fun w => negb (nx_suffix H w)) (split cSP p1)) eqn:E.
    + destruct (cleared_ok (unquote s) a) as [C1 _]. destruct (nv_proj _ _ _ _ _ _ C1) as [_ [P2 _]].
      destruct (with_comma_ok H _ (split cSP p2) (cleared (unquote s) a) (parts_nospace p1) (parts_nospace p2) E P2) as [a' [Q _]].
      rewrite Q in K. discriminate.
    + intros w I. destruct (nx_suffix H w) eqn:W; [reflexivity|]. rewrite <- E. apply existsb_exists.
      exists w. rewrite W. auto.
  - intros K. apply with_comma_ub. apply forallb_forall. exact K.
Qed.
Print Assumptions C23_comma_safe.

(** Otherwise the words after the comma are distributed over prefix, given name and
    additional names without loss, and family name and suffix are the end of the words
    before the comma. *)
Theorem C23_comma_words : forall H s a a' p1 p2, name_text s (p1 ++ cCOMMA :: p2) -> ~ In cCOMMA p1 ->
  set_name_from_string H s a = Some a' ->
  nameless a' = nameless a /\ a_name a' = p1 ++ cCOMMA :: p2 /\ a_formatted a' = p1 ++ cCOMMA :: p2
  /\ spaced (a_prefix a') ++ spaced (a_given a') ++ spaced (a_additional a') = spaced p2
  /\ exists lost, spaced p1 = lost ++ spaced (a_family a') ++ spaced (a_suffix a').
Proof.
  intros H s a a' p1 p2 T N R. pose proof (unquote_text _ _ T) as U.
  rewrite (set_name_comma H s a p1 p2 U N) in R.
  destruct (cleared_ok (unquote s) a) as [C1 [C2 [C3 C4]]]. destruct (nv_proj _ _ _ _ _ _ C1) as [_ [P2 _]].
  destruct (existsb (fun w => negb (nx_suffix H w)) (split cSP p1)) eqn:E.
  - destruct (with_comma_ok H _ (split cSP p2) (cleared (unquote s) a) (parts_nospace p1) (parts_nospace p2) E P2)
      as [b [Q [[A1 [A2 A3]] [A4 A5]]]].
    rewrite Q in R. injection R as <-. rewrite A1, A2, A3, C2, C3, C4, U. repeat split; auto.
  - rewrite with_comma_ub in R; [discriminate|]. apply forallb_forall. intros w I.
    destruct (nx_suffix H w) eqn:W; [reflexivity|]. rewrite <- E. apply existsb_exists.
    exists w. rewrite W. auto.
Qed.
Print Assumptions C23_comma_words.

(** every text has exactly one reading as [name_text], so the theorems above cover
    every argument *)
Theorem C23_every_text : forall s, exists str, name_text s str /\ forall str', name_text s str' -> str' = str.
Proof.
  intros s. destruct (name_text_exists s) as [str T]. exists str. split; [exact T|].
  intros str' T'. rewrite <- (unquote_text _ _ T), <- (unquote_text _ _ T'). reflexivity.
Qed.
Print Assumptions C23_every_text.

(** word sets for the examples *)
Definition ex_words (family : bool) : NameExt := {|
  nx_title := fun w => leqb w (B "Dr.");
  nx_prefix := fun w => leqb w (B "van");
  nx_suffix := fun w => leqb w (B "Jr.");
  nx_family := family;
  nx_lower := to_lower |}.
Definition ex_none : addressee := addressee_new (B "u").
Definition name_fields (a : addressee) : list ustring :=
  [a_prefix a; a_given a; a_additional a; a_family a; a_suffix a].

Example C23_ex_plain :
  option_map name_fields (set_name_from_string (ex_words true) (B "Dr. Jan P. van Dam Jr.") ex_none)
  = Some [B "Dr."; B "Jan"; B "P."; B "van Dam"; B "Jr."].
Proof. vm_compute. reflexivity. Qed.
Example C23_ex_quoted : name_text ([cDQ] ++ B "A B" ++ [cDQ]) (B "A B").
Proof. left. reflexivity. Qed.
Example C23_ex_comma :
  option_map name_fields (set_name_from_string (ex_words true) (B "van Dam Jr.,Dr. Jan P.") ex_none)
  = Some [B "Dr."; B "Jan"; B "P."; B "van Dam"; B "Jr."].
Proof. vm_compute. reflexivity. Qed.

(** The claim without the exceptions is false: a comma after a suffix alone reads
    outside the list, *)
Theorem C23_safe_refuted : exists H s a, set_name_from_string H s a = None.
Proof. exists (ex_words true), (B "Jr., John"), ex_none. vm_compute. reflexivity. Qed.
Print Assumptions C23_safe_refuted.

(** words before the comma get lost, *)
Theorem C23_comma_words_refuted : exists H s a a' p1 p2, s = p1 ++ cCOMMA :: p2
  /\ set_name_from_string H s a = Some a' /\ spaced p1 <> spaced (a_family a') ++ spaced (a_suffix a').
Proof.
  exists (ex_words true), (B "Smith Jones, Ann"), ex_none.
  eexists. exists (B "Smith Jones"), (B " Ann"). split; [reflexivity|]. split; [vm_compute; reflexivity|].
  vm_compute. discriminate.
Qed.
Print Assumptions C23_comma_words_refuted.

(** and without the family name switch the last word gets lost. *)
Theorem C23_last_word_refuted : exists H s a a', ~ In cCOMMA s /\ nx_family H = false
  /\ set_name_from_string H s a = Some a' /\ name_words a' <> spaced s.
Proof.
  exists (ex_words false), (B "John Smith"), ex_none. eexists. split; [|split; [reflexivity|split; [vm_compute; reflexivity|]]].
  - vm_compute. intuition discriminate.
  - vm_compute. discriminate.
Qed.
Print Assumptions C23_last_word_refuted.

(** For all family names [f] and given names [g] (single words, no suffix, no title):
    "f, g" stores [g] as additional name and leaves the given name empty, "f,g" stores it
    as given name. *)
Theorem C23_space_after_comma : forall H f g a a',
  ~ In cSP f -> ~ In cCOMMA f -> ~ In cDQ f -> ~ In cSP g ->
  nx_suffix H f = false -> nx_title H [] = false -> nx_title H g = false ->
  (set_name_from_string H (f ++ cCOMMA :: cSP :: g) a = Some a' ->
   a_family a' = f /\ a_given a' = [] /\ a_additional a' = g)
  /\ (set_name_from_string H (f ++ cCOMMA :: g) a = Some a' ->
   a_family a' = f /\ a_given a' = g /\ a_additional a' = []).
Proof.
  intros H f g a a' F1 F2 F3 G1 SF T0 TG.
  assert (NT : forall r, name_text (f ++ cCOMMA :: r) (f ++ cCOMMA :: r)).
  { intros r. right. split; [reflexivity|]. intros [m E]. destruct f as [|c f]; [discriminate|].
    inversion E; subst. apply F3. left. reflexivity. }
  assert (SPF : split cSP f = [f]) by (apply split_notin; exact F1).
  assert (SPG : split cSP g = [g]) by (apply split_notin; exact G1).
  assert (SPG2 : split cSP (cSP :: g) = [[]; g]).
  { change (cSP :: g) with ([] ++ cSP :: g). rewrite split_app by (intros []). rewrite SPG. reflexivity. }
  split; intros R.
  - rewrite (set_name_comma H _ a f (cSP :: g) (unquote_text _ _ (NT _)) F2), SPF, SPG2 in R.
    destruct (cleared_ok (unquote (f ++ cCOMMA :: cSP :: g)) a) as [C1 _].
    set (b := cleared _ a) in *. clearbody b.
    assert (Q : name_with_comma H [f] [[]; g] b
      = Some (set_additional g (set_given [] (set_prefix [] (set_family f (set_suffix [] b)))))).
    { unfold name_with_comma. cbn [length suffix_loop nth_error]. rewrite SF.
      change (name_prefix H [f] (Z.of_nat 0)) with (@Some (option ustring) None).
      change (at_index [f] (Z.of_nat 0)) with (Some f). cbv iota beta.
      unfold given_part. cbn [length Z.to_nat Z.of_nat left_loop nth_error]. rewrite T0.
      reflexivity. }
    rewrite Q in R. injection R as <-.
    destruct (nv_proj _ _ _ _ _ _ C1) as [P1 [P2 [P3 [P4 P5]]]].
    destruct (nv_proj _ _ _ _ _ _ (nv_additional g (set_given [] (set_prefix [] (set_family f (set_suffix [] b)))))) as [_ [-> [-> [-> _]]]].
    destruct (nv_proj _ _ _ _ _ _ (nv_given [] (set_prefix [] (set_family f (set_suffix [] b))))) as [_ [-> [_ [-> _]]]].
    destruct (nv_proj _ _ _ _ _ _ (nv_prefix [] (set_family f (set_suffix [] b)))) as [_ [_ [_ [-> _]]]].
    destruct (nv_proj _ _ _ _ _ _ (nv_family f (set_suffix [] b))) as [_ [_ [_ [-> _]]]]. auto.
  - rewrite (set_name_comma H _ a f g (unquote_text _ _ (NT _)) F2), SPF, SPG in R.
    destruct (cleared_ok (unquote (f ++ cCOMMA :: g)) a) as [C1 _].
    set (b := cleared _ a) in *. clearbody b.
    assert (Q : name_with_comma H [f] [g] b
      = Some (set_additional [] (set_given g (set_prefix [] (set_family f (set_suffix [] b)))))).
    { unfold name_with_comma. cbn [length suffix_loop nth_error]. rewrite SF.
      change (name_prefix H [f] (Z.of_nat 0)) with (@Some (option ustring) None).
      change (at_index [f] (Z.of_nat 0)) with (Some f). cbv iota beta.
      unfold given_part. cbn [length Z.to_nat Z.of_nat left_loop nth_error]. rewrite TG.
      reflexivity. }
    rewrite Q in R. injection R as <-.
    destruct (nv_proj _ _ _ _ _ _ (nv_additional [] (set_given g (set_prefix [] (set_family f (set_suffix [] b)))))) as [_ [-> [-> [-> _]]]].
    destruct (nv_proj _ _ _ _ _ _ (nv_given g (set_prefix [] (set_family f (set_suffix [] b))))) as [_ [-> [_ [-> _]]]].
    destruct (nv_proj _ _ _ _ _ _ (nv_prefix [] (set_family f (set_suffix [] b)))) as [_ [_ [_ [-> _]]]].
    destruct (nv_proj _ _ _ _ _ _ (nv_family f (set_suffix [] b))) as [_ [_ [_ [-> _]]]]. auto.
Qed.
Print Assumptions C23_space_after_comma.

Example C23_ex_space :
  option_map name_fields (set_name_from_string (ex_words true) (B "Smith, John") ex_none)
  = Some [[]; []; B "John"; B "Smith"; []].
Proof. vm_compute. reflexivity. Qed.

(** ** C24 *)

(** The composed address of a contact whose name needs no quotes comes back, without the
    spaces around the name and with the address in lower case. *)
Theorem C24_unquoted : forall lower a e, plain_address e -> real_name a <> [] ->
  need_quotes (real_name a) = false -> valid_utf16 (real_name a) = true -> no_bom (trimmed (real_name a)) = true ->
  parse_email lower (full_email (Some e) a) = (trimmed (real_name a), lower e).
Proof.
  intros lower a e PA N Q V NB. unfold full_email.
  replace (isnil e) with false by (destruct PA as [K _]; destruct e; [congruence|reflexivity]).
  replace (isnil (real_name a)) with false by (destruct (real_name a); [congruence|reflexivity]).
  rewrite Q. apply parse_unquoted; auto. apply unquoted_plain; assumption.
Qed.
Print Assumptions C24_unquoted.

(** The name of a contact that needs quotes comes back exactly (spaces included) if it has
    no quote itself and does not end in an open backslash. *)
Theorem C24_quoted : forall lower a e, plain_address e ->
  need_quotes (real_name a) = true -> ~ In 0%N (real_name a) ->
  ~ In cDQ (real_name a) -> bs_closed (real_name a) = true ->
  parse_email lower (full_email (Some e) a) = (real_name a, lower e).
Proof.
  intros lower a e PA Q Z D C. unfold full_email. set (n := real_name a) in *.
  assert (V : valid_utf16 n = true) by (unfold need_quotes in Q; apply andb_true_iff in Q; tauto).
  assert (N : n <> []) by (intros K; rewrite K in Q; discriminate).
  replace (isnil e) with false by (destruct PA as [K _]; destruct e; [congruence|reflexivity]).
  replace (isnil n) with false by (destruct n; [congruence|reflexivity]).
  rewrite Q, (replace_none cDQ) by exact D. apply parse_quoted; auto.
  rewrite (qs_closed (length n)) by (auto; lia). exact C.
Qed.
Print Assumptions C24_quoted.

(** Without a name the address alone comes back. *)
Theorem C24_no_name : forall lower a e, plain_address e -> real_name a = [] ->
  parse_email lower (full_email (Some e) a) = ([], lower e).
Proof.
  intros lower a e PA N. unfold full_email. rewrite N. cbn [isnil].
  replace (isnil e) with false by (destruct PA as [K _]; destruct e; [congruence|reflexivity]).
  apply parse_alone. exact PA.
Qed.
Print Assumptions C24_no_name.

(** A quote in the name comes back with a backslash before it; so the name comes back
    unchanged if and only if it has none. *)
Theorem C24_quotes_escaped : forall lower a e, plain_address e ->
  need_quotes (real_name a) = true -> ~ In 0%N (real_name a) -> ~ In cBS (real_name a) ->
  parse_email lower (full_email (Some e) a) = (replace_ch cDQ [cBS; cDQ] (real_name a), lower e)
  /\ (fst (parse_email lower (full_email (Some e) a)) = real_name a <-> ~ In cDQ (real_name a)).
Proof.
  intros lower a e PA Q Z D. set (n := real_name a) in *.
  assert (V : valid_utf16 n = true) by (unfold need_quotes in Q; apply andb_true_iff in Q; tauto).
  assert (N : n <> []) by (intros K; rewrite K in Q; discriminate).
  assert (E : parse_email lower (full_email (Some e) a) = (replace_ch cDQ [cBS; cDQ] n, lower e)).
  { unfold full_email. fold n.
    replace (isnil e) with false by (destruct PA as [K _]; destruct e; [congruence|reflexivity]).
    replace (isnil n) with false by (destruct n; [congruence|reflexivity]).
    rewrite Q. apply parse_quoted; auto.
    - destruct n as [|c n]; [congruence|]. unfold replace_ch. cbn [flat_map]. destruct (N.eqb c cDQ); discriminate.
    - apply (valid_replace (length n)); auto.
    - apply qs_replace. exact D.
    - intros I. apply in_replace in I as [I|[I|I]]; [auto|discriminate|discriminate]. }
  rewrite E. split; [reflexivity|]. cbn [fst]. split.
  - intros K I. assert (L : In cBS (replace_ch cDQ [cBS; cDQ] n)).
    { unfold replace_ch. apply in_flat_map. exists cDQ. split; [exact I|]. rewrite N.eqb_refl. left. reflexivity. }
    rewrite K in L. auto.
  - intros I. apply replace_none. exact I.
Qed.
Print Assumptions C24_quotes_escaped.

(** Without an argument the preferred address is used. *)
Theorem C24_preferred : forall lower a, plain_address (preferred_email a) ->
  need_quotes (real_name a) = true -> ~ In 0%N (real_name a) ->
  ~ In cDQ (real_name a) -> bs_closed (real_name a) = true ->
  parse_email lower (full_email None a) = (real_name a, lower (preferred_email a)).
Proof. intros lower a PA Q Z D C. exact (C24_quoted lower a (preferred_email a) PA Q Z D C). Qed.
Print Assumptions C24_preferred.

Definition ex_named (s : ustring) : addressee := set_formatted s ex_none.
Example C24_ex_plain_address : plain_address (B "Jan@kde.org").
Proof. repeat split; try discriminate; vm_compute; intuition discriminate. Qed.
Example C24_ex_unquoted : parse_email to_lower (full_email (Some (B "Jan@kde.org")) (ex_named (B "Jan Dam")))
  = (B "Jan Dam", B "jan@kde.org").
Proof. vm_compute. reflexivity. Qed.
Example C24_ex_quoted : parse_email to_lower (full_email (Some (B "Jan@kde.org")) (ex_named (B " Dam, Jan (x) <y>")))
  = (B " Dam, Jan (x) <y>", B "jan@kde.org").
Proof. vm_compute. reflexivity. Qed.
Example C24_ex_need : need_quotes (B "Dam, Jan") = true /\ need_quotes (B "Jan Dam") = false.
Proof. vm_compute. auto. Qed.

(** The claim for all names is false: quotes change, *)
Theorem C24_quotes_refuted : exists a e, plain_address e /\ text_ok (real_name a) = true
  /\ fst (parse_email to_lower (full_email (Some e) a)) <> real_name a.
Proof.
  exists (ex_named (B "J" ++ [cDQ] ++ B "D")), (B "j@kde.org"). split; [|split; vm_compute; [reflexivity|discriminate]].
  repeat split; try discriminate; vm_compute; intuition discriminate.
Qed.
Print Assumptions C24_quotes_refuted.

(** and after a backslash at the end of the name neither the name nor the address comes back. *)
Theorem C24_backslash_refuted : exists a e, plain_address e /\ text_ok (real_name a) = true
  /\ fst (parse_email to_lower (full_email (Some e) a)) <> real_name a
  /\ snd (parse_email to_lower (full_email (Some e) a)) = [].
Proof.
  exists (ex_named (B "J" ++ [cBS])), (B "j@kde.org"). split; [|split; [vm_compute; reflexivity|split; [vm_compute; discriminate|vm_compute; reflexivity]]].
  repeat split; try discriminate; vm_compute; intuition discriminate.
Qed.
Print Assumptions C24_backslash_refuted.
