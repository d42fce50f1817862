(** C85: which word of a name read from text belongs to which part of the name. *)
From Verif Require Import Base BaseFacts Utf8 M_Addressee M_Name M_NameWords S_Name S_NameWords P_Lists P_Name P_NameWords.
Open Scope list_scope.

(** ** Texts without a comma *)

(** The words of the text (what is between spaces) are, in this order: titles, the given name,
    additional names, the family name (two words if the first of them is nobiliary) and
    suffixes; see [first_parts] and [last_parts].  The parts of the name are these words,
    separated by spaces.  If the settings say that a lone last word is no family name, it is the
    given name, unless there is another one; then it is in no part. *)
Theorem C85_parts : forall H s str a, name_text s str -> ~ In cCOMMA str -> str <> [] ->
  exists a' titles given others family suffixes,
    set_name_from_string H s a = Some a'
    /\ split cSP str = titles ++ given ++ others ++ family ++ suffixes
    /\ first_parts H titles given others
    /\ last_parts H (titles ++ given ++ others) family suffixes
    /\ a_prefix a' = in_line titles /\ a_additional a' = in_line others /\ a_suffix a' = in_line_end suffixes
    /\ (if nx_family H || negb (Nat.eqb (length family) 1)
        then a_given a' = join [cSP] given /\ a_family a' = join [cSP] family
        else a_given a' = (match given with w :: _ => w | [] => join [cSP] family end) /\ a_family a' = []).
Proof.
  intros H s str a T N NE. pose proof (unquote_text s str T) as U.
  destruct (cleared_ok str a) as [C1 _].
  destruct (nv_proj _ _ _ _ _ _ C1) as [P1 [P2 [P3 [P4 P5]]]].
  rewrite set_name_cases, U. destruct (isnil str) eqn:I; [destruct str; [congruence|discriminate]|].
  replace (index_of cCOMMA str) with (@None nat).
  - destruct (no_comma_parts H (split cSP str) (cleared str a) P1 P2 P3 P4) as (a' & t & g & r & f & u & K).
    exists a', t, g, r, f, u. exact K.
  - clear -N. induction str as [|x str IH]; [reflexivity|]. cbn [index_of].
    destruct (N.eqb_spec x cCOMMA) as [Q|Q]; [exfalso; apply N; left; exact Q|].
    rewrite <- IH; [reflexivity|]. intros I; apply N; right; exact I.
Qed.
Print Assumptions C85_parts.

(** ** Texts with a comma *)

(** Before the first comma: words that get lost, the family name, suffixes.  After it: titles,
    the given name, additional names. *)
Theorem C85_comma : forall H s a a' p1 p2, name_text s (p1 ++ cCOMMA :: p2) -> ~ In cCOMMA p1 ->
  set_name_from_string H s a = Some a' ->
  exists titles given others lost family suffixes,
    split cSP p1 = lost ++ family ++ suffixes /\ family <> [] /\ last_parts H lost family suffixes
    /\ split cSP p2 = titles ++ given ++ others /\ first_parts H titles given others
    /\ a_prefix a' = in_line titles /\ a_given a' = join [cSP] given /\ a_additional a' = in_line others
    /\ a_family a' = join [cSP] family /\ a_suffix a' = in_line_end suffixes.
Proof.
  intros H s a a' p1 p2 T N E. pose proof (unquote_text _ _ T) as U.
  rewrite (set_name_comma H s a p1 p2 U N) in E.
  destruct (cleared_ok (unquote s) a) as [C1 _]. destruct (nv_proj _ _ _ _ _ _ C1) as [_ [P2 _]].
  destruct (comma_parts H _ _ _ _ P2 E) as (t & g & r & l & f & u & K). exists t, g, r, l, f, u. exact K.
Qed.
Print Assumptions C85_comma.

(** ** The rules leave no choice *)
Theorem C85_one_way : forall H,
  (forall t g r f s t' g' r' f' s',
     first_parts H t g r -> last_parts H (t ++ g ++ r) f s ->
     first_parts H t' g' r' -> last_parts H (t' ++ g' ++ r') f' s' ->
     t ++ g ++ r ++ f ++ s = t' ++ g' ++ r' ++ f' ++ s' -> t = t' /\ g = g' /\ r = r' /\ f = f' /\ s = s')
  /\ (forall l f s l' f' s', last_parts H l f s -> last_parts H l' f' s' -> l ++ f ++ s = l' ++ f' ++ s' -> l = l' /\ f = f' /\ s = s')
  /\ (forall t g r t' g' r', first_parts H t g r -> first_parts H t' g' r' -> t ++ g ++ r = t' ++ g' ++ r' -> t = t' /\ g = g' /\ r = r').
Proof.
  intros H. split; [|split; [apply last_unique|apply first_unique]].
  intros t g r f s t' g' r' f' s' F L F' L' E.
  destruct (last_unique H (t ++ g ++ r) f s (t' ++ g' ++ r') f' s' L L') as [Q [-> ->]]; [rewrite <- !app_assoc; exact E|].
  destruct (first_unique H t g r t' g' r' F F' Q) as [-> [-> ->]]. auto.
Qed.
Print Assumptions C85_one_way.
(** Lines of words none of which is empty: the words with one space between two. *)
Theorem C85_lines : forall ws, Forall (fun w => w <> []) ws -> in_line ws = join [cSP] ws /\ in_line_end ws = join [cSP] ws.
Proof.
  intros ws F. assert (S : forall l : list ustring, Forall (fun w => w <> []) l -> skip_empty l = l).
  { intros [|[|c w] l] K; [reflexivity| |reflexivity]. inversion K; congruence. }
  pose proof (S ws F) as A. pose proof (S (rev ws) (Forall_rev F)) as R.
  split; [exact (f_equal (join [cSP]) A)|].
  exact (f_equal (join [cSP]) (eq_trans (f_equal (@rev ustring) R) (rev_involutive ws))).
Qed.
Print Assumptions C85_lines.

(** ** The words known to the helper *)

(** Titles: the translations of six words and what is configured as Prefixes. *)
Theorem C85_titles : forall W w, nx_title (helper W) w = true <->
  In w (map (nw_tr W) [B "Dr."; B "Miss"; B "Mr."; B "Mrs."; B "Ms."; B "Prof."]) \/ (w <> [] /\ In w (nw_prefixes W)).
Proof.
  intros W w. cbn [helper nx_title]. unfold helper_titles. rewrite add_contains, !insert_contains. cbn [map In].
  change (set_contains w []) with false. intuition congruence.
Qed.
Print Assumptions C85_titles.
(** Suffixes: the translations of five words and what is configured as Suffixes. *)
Theorem C85_suffixes : forall W w, nx_suffix (helper W) w = true <->
  In w (map (nw_tr W) [B "I"; B "II"; B "III"; B "Jr."; B "Sr."]) \/ (w <> [] /\ In w (nw_suffixes W)).
Proof.
  intros W w. cbn [helper nx_suffix]. unfold helper_suffixes. rewrite add_contains, !insert_contains. cbn [map In].
  change (set_contains w []) with false. intuition congruence.
Qed.
Print Assumptions C85_suffixes.
(** Nobiliary words: those whose lower case form is van, von or de or is configured among
    Inclusions. *)
Theorem C85_nobiliary : forall W w, nobiliary (helper W) w = true <->
  In (nw_lower W w) [B "van"; B "von"; B "de"] \/ (nw_lower W w <> [] /\ In (nw_lower W w) (nw_inclusions W)).
Proof.
  intros W w. unfold nobiliary. cbn [helper nx_prefix nx_lower]. unfold helper_prefixes. rewrite add_contains, !insert_contains. cbn [In].
  change (set_contains (nw_lower W w) []) with false. intuition congruence.
Qed.
Print Assumptions C85_nobiliary.
(** The last word is a family name unless configured otherwise. *)
Theorem C85_switch : forall W, nx_family (helper W) = false <-> nw_family W = Some false.
Proof. intros W. cbn. destruct (nw_family W) as [[|]|]; split; congruence. Qed.
Print Assumptions C85_switch.

(** ** Cases *)
Definition ex_world : NameWorld := {| nw_tr := fun w => w; nw_prefixes := [B "Sir"; []]; nw_inclusions := [B "della"; B "Del"];
  nw_suffixes := [B "MBE"]; nw_family := None; nw_lower := to_lower |}.
Definition name_parts (o : option addressee) : option (list ustring) :=
  option_map (fun a => [a_prefix a; a_given a; a_additional a; a_family a; a_suffix a]) o.
Example C85_ex_parts : forall a, a = addressee_new (B "u") ->
  name_parts (set_name_from_string (helper ex_world) (B "Prof. Sir Anna Maria B. Della Casa Jr. MBE") a)
  = Some [B "Prof. Sir"; B "Anna"; B "Maria B."; B "Della Casa"; B "Jr. MBE"].
Proof. intros a ->. vm_compute. reflexivity. Qed.
Example C85_ex_comma : forall a, a = addressee_new (B "u") ->
  name_parts (set_name_from_string (helper ex_world) (B "von Berg Sr.,Dr. Jan A. B.") a)
  = Some [B "Dr."; B "Jan"; B "A. B."; B "von Berg"; B "Sr."].
Proof. intros a ->. vm_compute. reflexivity. Qed.

(** A nobiliary word configured with a capital is not recognised, however it is written in the
    name: the word looked up is in lower case, the configured one is not. *)
Theorem C85_inclusions_refuted : exists W w a a', In w (nw_inclusions W) /\ w <> []
  /\ set_name_from_string (helper W) (B "Anna Maria " ++ w ++ B " Toro") a = Some a'
  /\ a_family a' = B "Toro" /\ a_additional a' = B "Maria " ++ w.
Proof.
  exists ex_world, (B "Del"), (addressee_new (B "u")). eexists. split; [right; left; reflexivity|]. split; [discriminate|].
  split; [vm_compute; reflexivity|]. vm_compute. auto.
Qed.
Print Assumptions C85_inclusions_refuted.
