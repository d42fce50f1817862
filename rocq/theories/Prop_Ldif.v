(** C25, C26, C27, C50, C51: the LDIF line writer, the LDIF reader and the reading loop
    of the LDIF converter. *)
From Verif Require Import Base Utf8 QtText M_ParamMap M_Values M_Date M_Addressee M_ContactGroup M_Ldif S_Ldif P_Ldif P_LdifEntry P_LdifConv P_LdifBirth P_LdifCrlf.
Local Open Scope list_scope.
Local Open Scope nat_scope.

(** an environment for the examples *)
Definition ex_url : UrlExt := {| url_parse := fun s => s; url_valid := fun s => negb (isnil s); url_scheme := fun s => s |}.
Definition ex_img : ImgExt := {| img_load := fun _ => None; img_save := fun _ _ => [] |}.
Definition ex_env : Env := {| env_url := ex_url; env_img := ex_img; env_instant := fun _ => 0%Z |}.
Definition ex_now : datetime := mkDt (Some (mkDate 2024 1 1)) (Some midnight) TLocal.
Definition ex_ldif : LdifExt :=
  {| le_env := ex_env; le_display := fun u => u; le_country := fun c => c; le_signed := true; le_now := ex_now;
     le_newid := fun k => decimal (N.of_nat k) |}.
Definition nl : bytes := [cLF].

(** ** C25: lines *)

(** Whether [char] is signed or not, for every attribute name, byte string and line
    length: joining the continuation lines and splitting gives name and value back. *)
Theorem C25_line :
  forall (sc : bool) (f : ustring) (v : bytes) (len : nat), attr_ok f = true -> is_bytes v = true ->
    split_line (unfolded (assemble_line sc f v len false)) = (false, f, v).
Proof.
  intros sc f v len F V. exact (line_ok_logical _ _ _ (assemble_line_ok sc f v len F V)).
Qed.
Print Assumptions C25_line.
(** Whole texts, through the reader itself: the entries written one after the other
    are reported one after the other, every attribute with its value, nothing else. *)
Theorem C25_entries :
  forall (sc : bool) (len : nat) (es : list entry), forallb entry_ok es = true ->
    reports (flat_map (entry_text sc len) es ++ [cLF]) = Some (flat_map entry_events es).
Proof. exact reports_entries. Qed.
Print Assumptions C25_entries.
(** URL values are written as they are, but decoded as base64. *)
Theorem C25_url_refuted :
  exists (f : ustring) (v : bytes), attr_ok f = true /\ is_bytes v = true /\
    split_line (assemble_line true f v 0 true) <> (true, f, v) /\ split_line (assemble_line false f v 0 true) <> (true, f, v).
Proof. exists (B "url"), (B "http://kde.org"). repeat split; vm_compute; congruence. Qed.
Print Assumptions C25_url_refuted.
(** a value that needs base64 and is folded several times, one with leading blanks *)
Example C25_case :
  attr_ok (B "description") = true /\ is_bytes (195 :: 188 :: cLF :: repeat 65 100)%N = true
  /\ entry_ok (B "cn=x", [(B "cn", B "  x"); (B "description", (195 :: 188 :: cLF :: repeat 65 100)%N)]) = true
  /\ length (split cLF (entry_text true 20 (B "cn=x", [(B "cn", B "  x"); (B "description", (195 :: 188 :: cLF :: repeat 65 100)%N)]))) = 12.
Proof. repeat split. Qed.

(** ** C26: the reader comes to an end *)

(** From every state: the end of the input is reported after at most one call per
    remaining character and one more ... *)
Theorem C26_calls :
  forall (s : lstate), exists es, calls (S (length (l_rest s))) s = Some es.
Proof. intros s. eexists. apply calls_run. lia. Qed.
Print Assumptions C26_calls.
(** ... indeed after at most one call per line end *)
Theorem C26_count :
  forall (text : bytes) (es : list event), reports text = Some es -> length es <= eols text.
Proof. intros text es H. rewrite reports_run in H. injection H as <-. exact (run_count text (ldif_start text)). Qed.
Print Assumptions C26_count.
(** and further calls report it again. *)
Theorem C26_more :
  forall (s s1 : lstate), next_item s = (PMore, s1) -> l_rest s1 = [] /\ fst (next_item s1) = PMore.
Proof.
  intros s s1 H. unfold next_item in H. destruct (next_loop_run (l_rest s) s) as [(s' & A & R)|(w & s' & p & q & X & NP & A & M & NN & R)].
  - rewrite A in H. injection H as <-. split; reflexivity.
  - rewrite A in H. injection H as -> _. congruence.
Qed.
Print Assumptions C26_more.
(** The import terminates: the number of rounds allowed to the loop of
    [LDIFToAddressee] in the model is never used up. *)
Theorem C26_import :
  forall (E : LdifExt) (str : ustring) (dt : datetime) (cs : list addressee) (gs : list cgroup),
    exists cs' gs', ldif_to_addressee E str dt cs gs = Some (cs', gs').
Proof.
  intros E str dt cs gs. destruct str as [|c t].
  - do 2 eexists. reflexivity.
  - rewrite ldif_to_addressee_evs by discriminate. do 2 eexists. reflexivity.
Qed.
Print Assumptions C26_import.
Example C26_case : reports (B "dn: a" ++ nl ++ B "x: 1" ++ nl ++ B "# c" ++ nl ++ B " d" ++ nl ++ nl ++ B "rest") =
  Some [(PNewEntry, B "dn", B "a"); (PItem, B "x", B "1"); (PEndEntry, [], [])].
Proof. reflexivity. Qed.

(** ** C27: entries do not influence one another, but for the birthday *)

(** A text that ends with an empty line, and a text that begins with a distinguished
    name: reading them together is reading one after the other; the second one starts
    with nothing of the first but the birthday parts and the number of identifiers
    drawn so far. *)
Theorem C27_concat :
  forall (E : LdifExt) (rev : datetime) (k : nat) (b : Z * Z * Z) (p q : bytes),
    import_from E rev k b ((p ++ [cLF; cLF]) ++ B "dn:" ++ q) =
    match import_from E rev k b (p ++ [cLF; cLF]) with
    | Some i => match import_from E rev (im_ids i) (im_birth i) (B "dn:" ++ q) with
        | Some j => Some (mkImported (im_contacts i ++ im_contacts j) (im_groups i ++ im_groups j) (im_ids j) (im_birth j))
        | None => None end
    | None => None
    end.
Proof. exact import_concat. Qed.
Print Assumptions C27_concat.
(** The birthday parts influence nothing but birthdays. *)
Theorem C27_birthday_only :
  forall (E : LdifExt) (rev : datetime) (k : nat) (b b' : Z * Z * Z) (t : bytes), exists i i',
    import_from E rev k b t = Some i /\ import_from E rev k b' t = Some i' /\
    map without_birthday (im_contacts i) = map without_birthday (im_contacts i') /\
    im_groups i = im_groups i' /\ im_ids i = im_ids i'.
Proof. exact import_birth. Qed.
Print Assumptions C27_birthday_only.
(** If the first text mentions no birthday parts, nothing is carried over. *)
Theorem C27_no_birthday :
  forall (E : LdifExt) (rev : datetime) (k : nat) (b : Z * Z * Z) (p q : bytes) (es : list event),
    all_reports (p ++ [cLF; cLF]) = Some es -> Forall (fun e => birth_name (snd (fst e)) = false) es ->
    exists i j, import_from E rev k b (p ++ [cLF; cLF]) = Some i /\ import_from E rev (im_ids i) b (B "dn:" ++ q) = Some j /\
      option_map im_contacts (import_from E rev k b ((p ++ [cLF; cLF]) ++ B "dn:" ++ q)) = Some (im_contacts i ++ im_contacts j).
Proof.
  intros E rev k b p q es H N. destruct (import_no_birth E rev k b _ es H N) as (i & I & Hb).
  destruct (import_birth E rev (im_ids i) b b (B "dn:" ++ q)) as (j & _ & J & _).
  exists i, j. split; [exact I|]. split; [exact J|]. rewrite import_concat, I, Hb, J. reflexivity.
Qed.
Print Assumptions C27_no_birthday.
(** [import_from] is what [LDIFToAddressee] computes. *)
Theorem C27_import :
  forall (E : LdifExt) (str : ustring) (dt : datetime), str <> [] ->
    exists i, import_from E (if dt_valid dt then dt else le_now E) 0 no_birth (to_latin1 str) = Some i /\
      ldif_to_addressee E str dt [] [] = Some (im_contacts i, im_groups i).
Proof.
  intros E str dt H. rewrite import_from_evs, ldif_to_addressee_evs by exact H. eexists. split; reflexivity.
Qed.
Print Assumptions C27_import.

Definition with_bday : bytes :=
  B "dn: cn=a" ++ nl ++ B "sn: a" ++ nl ++ B "birthyear: 2015" ++ nl ++ B "birthmonth: 3" ++ nl ++ B "birthday: 19" ++ nl ++ nl.
Definition without_bday : bytes := B "dn: cn=b" ++ nl ++ B "sn: b" ++ nl ++ nl.
Definition names_and_days (o : option (list addressee * list cgroup)) :=
  option_map (fun p => map (fun a => (a_family a, dt_date (a_birthday a))) (fst p)) o.
(** The birthday of one contact is given to the following one, which has none. *)
Theorem C27_birthday_refuted :
  names_and_days (ldif_to_addressee ex_ldif without_bday dt_null [] []) = Some [(B "b", None)] /\
  names_and_days (ldif_to_addressee ex_ldif (with_bday ++ without_bday) dt_null [] []) =
    Some [(B "a", Some (mkDate 2015 3 19)); (B "b", Some (mkDate 2015 3 19))].
Proof. split; vm_compute; reflexivity. Qed.
Print Assumptions C27_birthday_refuted.
(** An entry that does not begin with its name does depend on what was read before: with an
    earlier entry the record is a deletion and its contact is lost, alone it is read. *)
Definition changetype_first : bytes := B "changetype: delete" ++ nl ++ B "dn: cn=b" ++ nl ++ B "sn: b" ++ nl ++ nl.
Theorem C27_name_first_refuted :
  names_and_days (ldif_to_addressee ex_ldif changetype_first dt_null [] []) = Some [(B "b", None)] /\
  names_and_days (ldif_to_addressee ex_ldif ((B "dn: cn=a" ++ nl ++ B "sn: a" ++ nl ++ nl) ++ changetype_first) dt_null [] []) = Some [(B "a", None)].
Proof. split; vm_compute; reflexivity. Qed.
Print Assumptions C27_name_first_refuted.
Example C27_case :
  exists p q, with_bday ++ without_bday = (p ++ [cLF; cLF]) ++ B "dn:" ++ q /\
    all_reports (p ++ [cLF; cLF]) <> None /\ exists es, all_reports (without_bday) = Some es /\ Forall (fun e => birth_name (snd (fst e)) = false) es.
Proof.
  exists (firstn (length with_bday - 2) with_bday), (skipn 3 without_bday). split; [reflexivity|]. split; [vm_compute; discriminate|].
  eexists. split; [vm_compute; reflexivity|]. repeat constructor.
Qed.

(** ** C50: line ends *)

(** LF CR is as good as LF. *)
Theorem C50_lfcr : forall t : bytes, reports (lfcr t) = reports t.
Proof. exact reports_lfcr. Qed.
Print Assumptions C50_lfcr.
(** With CR LF every attribute is reported as an entry of its own. *)
Theorem C50_crlf_splits :
  forall (sc : bool) (es : list entry),
    Forall (fun e => is_bytes (fst e) = true /\ forallb plain_pair (snd e) = true) es ->
    reports (crlf (flat_map (entry_text sc 0) es)) =
    Some (flat_map (fun e => (PNewEntry, B "dn", fst e) :: flat_map alone (snd e)) es).
Proof. exact reports_crlf. Qed.
Print Assumptions C50_crlf_splits.
(** so a file with CR LF does not give the contacts it describes *)
Theorem C50_crlf_refuted :
  exists text : ustring,
    option_map (fun p => map (fun a => (a_family a, a_given a)) (fst p)) (ldif_to_addressee ex_ldif text dt_null [] []) = Some [(B "b", B "a")] /\
    option_map (fun p => map (fun a => (a_family a, a_given a)) (fst p)) (ldif_to_addressee ex_ldif (crlf text) dt_null [] []) = Some [(B "b", [])].
Proof. exists (B "dn: cn=b" ++ nl ++ B "givenname: a" ++ nl ++ B "sn: b" ++ nl ++ nl). split; vm_compute; reflexivity. Qed.
Print Assumptions C50_crlf_refuted.
(** and continuation lines are not joined *)
Theorem C50_crlf_fold_refuted :
  exists text : bytes, reports text = Some [(PItem, B "sn", B "ab"); (PEndEntry, [], [])] /\
    reports (crlf text) = Some [(PItem, B "sn", B "a"); (PItem, [], B "b"); (PEndEntry, [], [])].
Proof. exists (B "sn: a" ++ nl ++ B " b" ++ nl ++ nl ++ nl). split; vm_compute; reflexivity. Qed.
Print Assumptions C50_crlf_fold_refuted.
Example C50_case : Forall (fun e => is_bytes (fst e) = true /\ forallb plain_pair (snd e) = true)
  [(B "cn=x", [(B "cn", B "x"); (B "sn", [195; 188]%N)]); (B "cn=y", [(B "cn", B "y")])].
Proof. repeat constructor. Qed.

(** ** C51: line lengths *)

(** The first line has at most [len] characters, unless the name alone is longer; every
    continuation line, with its leading blank, at most one more. *)
Theorem C51_lengths :
  forall (sc : bool) (f : ustring) (v : bytes) (len : nat), attr_ok f = true -> is_bytes v = true -> 0 < len ->
    exists h tl, split cLF (assemble_line sc f v len false) = h :: tl /\
      length h <= Nat.max (length f + 2) len /\ Forall (fun l => length l <= len + 1) tl.
Proof. exact assemble_lengths. Qed.
Print Assumptions C51_lengths.
(** The limit itself is exceeded. *)
Theorem C51_limit_refuted :
  exists (f : ustring) (v : bytes) (len : nat), attr_ok f = true /\ is_bytes v = true /\ length f + 2 < len /\
    exists l, In l (split cLF (assemble_line true f v len false)) /\ length l = len + 1.
Proof.
  exists (B "cn"), (repeat 65%N 40), 10. repeat split; [cbn; lia|].
  exists (cSP :: repeat 65%N 10). split; [|reflexivity]. vm_compute. right. left. reflexivity.
Qed.
Print Assumptions C51_limit_refuted.
Example C51_case : map (length (A := N)) (split cLF (assemble_line true (B "cn") (repeat 65%N 40) 10 false)) = [10; 11; 11; 11; 5].
Proof. reflexivity. Qed.
