(** C74: LDIF records that change a directory. *)
From Verif Require Import Base BaseFacts Utf8 Utf8Facts QtText M_Ldif S_Ldif P_Ldif P_LdifEntry S_LdifChange P_LdifChange.
Local Open Scope list_scope.
Local Open Scope nat_scope.

(** A text of records, with or without a version line: the reader reports every record
    by its name, its controls, its attributes or modifications in order with the kind of
    change, and its end.  Keywords may be in any case, lines folded anywhere and values
    encoded or not. *)
Theorem C74_records :
  forall (sc : bool) (len : nat) (rs : list ldif_record) (lss : list (list line)) (f : ustring) (v : bytes) (vs : list line),
    Forall2 (record_lines sc) rs lss -> Forall record_ok rs ->
    vs = [] \/ (keyword "version" f /\ is_bytes v = true /\ vs = [Pair f v]) ->
    observed (flat_map (line_text sc len) (vs ++ concat lss) ++ [cLF]) = Some (flat_map record_reports rs).
Proof. exact observed_records. Qed.
Print Assumptions C74_records.

Definition C74_rs : list ldif_record :=
  [mkRecord (B "cn=a") [mkControl (B "1.2.840") (Some true) None; mkControl (B "1.3") (Some false) (Some (B "x")); mkControl (B "2.5") None (Some [0; 255]%N)]
     (Modifies [mkMod MAdd (B "mail") [B "a@b"; []]; mkMod MDel (B "fax") []; mkMod MReplace (B "sn") [B "A"]]);
   mkRecord (B "cn=b") [] (Renames (B "cn=c") (Some false) (Some (B "ou=d")));
   mkRecord (B "cn=e") [] (Renames (B "cn=f") None None);
   mkRecord (B "cn=g") [mkControl (B "7") None None] Deletes;
   mkRecord (B "cn=h") [] (Adds [(B "cn", B "h"); (B "dn", B "not the name")]);
   mkRecord (B "cn=i") [] (Content [(B "cn", B "i")])].
Definition C74_text : bytes := B "version: 1
dn: cn=a
Control: 1.2.840 true
control: 1.3 false: x
control: 2.5:: AP8=
changeType: modify
add: mail
mail: a@b
mail: 
-
DELETE: fax
-
replace: sn
sn: A
-

dn: cn=b
changetype: modrdn
newrdn: cn=c
deleteoldrdn: 0
newsuperior: ou=d

dn: cn=e
changetype: moddn
newrdn: cn=f

dn: cn=g
control: 7
changetype: delete

dn: cn=h
changetype: add
cn: h
dn: not the name

dn: cn=i
cn: i


".
Example C74_case :
  Forall record_ok C74_rs /\
  (exists lss, Forall2 (record_lines true) C74_rs lss /\
     flat_map (line_text true 0) ([Pair (B "version") (B "1")] ++ concat lss) ++ [cLF] = C74_text) /\
  observed C74_text = Some
    [Begin (B "cn=a"); AControl (B "1.2.840") true []; AControl (B "1.3") false (B "x"); AControl (B "2.5") false [0; 255]%N;
     AnItem EMod MAdd (B "mail") (B "a@b"); AnItem EMod MAdd (B "mail") []; AnItem EMod MDel (B "fax") [];
     AnItem EMod MReplace (B "sn") []; AnItem EMod MReplace (B "sn") (B "A"); End EMod;
     Begin (B "cn=b"); EndRename (B "cn=c") false (B "ou=d");
     Begin (B "cn=e"); EndRename (B "cn=f") true [];
     Begin (B "cn=g"); AControl (B "7") false []; End EDel;
     Begin (B "cn=h"); AnItem EAdd MNone (B "cn") (B "h"); AnItem EAdd MNone (B "dn") (B "not the name"); End EAdd;
     Begin (B "cn=i"); AnItem EAdd MNone (B "cn") (B "i"); End EAdd].
Proof.
  split; [|split; [|vm_compute; reflexivity]].
  - unfold C74_rs.
    repeat (apply Forall_cons; [split; [reflexivity|]; split; [discriminate|]; split;
      [repeat (apply Forall_cons; [split; [discriminate|]; split; reflexivity || (split; [reflexivity|exact I]) || auto|]); try apply Forall_nil|]|]); [..|apply Forall_nil].
    all: cbn [rc_change change_ok]; auto.
    + repeat (apply Forall_cons; [split; [discriminate|]; split; [reflexivity|repeat constructor]|]); apply Forall_nil.
    + split; [reflexivity|]. split; [reflexivity|discriminate].
  - eexists. split.
    + unfold C74_rs.
      apply Forall2_cons.
      { exists (B "dn"). eexists _, _. split; [reflexivity|]. split.
        { apply Forall2_cons; [exists (B "Control"); split; reflexivity|].
          apply Forall2_cons; [exists (B "control"); split; reflexivity|].
          apply Forall2_cons; [exists (B "control"); split; reflexivity|]. apply Forall2_nil. }
        split; [|reflexivity]. exists (B "changeType"). eexists. split; [reflexivity|]. split; [|reflexivity].
        apply Forall2_cons; [exists (B "add"); split; reflexivity|].
        apply Forall2_cons; [exists (B "DELETE"); split; reflexivity|].
        apply Forall2_cons; [exists (B "replace"); split; reflexivity|]. apply Forall2_nil. }
      apply Forall2_cons.
      { exists (B "dn"). eexists _, _. split; [reflexivity|]. split; [apply Forall2_nil|]. split; [|reflexivity].
        exists (B "changetype"), (B "newrdn"), (B "modrdn"). eexists _, _. split; [reflexivity|]. split; [left; reflexivity|]. split; [reflexivity|].
        split; [eexists; split; [reflexivity|]; exists (B "deleteoldrdn"); split; reflexivity|].
        split; [eexists; split; [reflexivity|]; exists (B "newsuperior"); split; reflexivity|]. reflexivity. }
      apply Forall2_cons.
      { exists (B "dn"). eexists _, _. split; [reflexivity|]. split; [apply Forall2_nil|]. split; [|reflexivity].
        exists (B "changetype"), (B "newrdn"), (B "moddn"). eexists _, _. split; [reflexivity|]. split; [right; reflexivity|]. split; [reflexivity|].
        split; [reflexivity|]. split; reflexivity. }
      apply Forall2_cons.
      { exists (B "dn"). eexists _, _. split; [reflexivity|].
        split; [apply Forall2_cons; [exists (B "control"); split; reflexivity|apply Forall2_nil]|]. split; [|reflexivity]. exists (B "changetype"). split; reflexivity. }
      apply Forall2_cons.
      { exists (B "dn"). eexists _, _. split; [reflexivity|]. split; [apply Forall2_nil|]. split; [|reflexivity]. exists (B "changetype"). split; reflexivity. }
      apply Forall2_cons.
      { exists (B "dn"). eexists _, _. split; [reflexivity|]. split; [apply Forall2_nil|]. split; reflexivity. }
      apply Forall2_nil.
    + vm_compute. reflexivity.
Qed.

(** A record for the root of the directory, whose name is empty, is refused if it changes
    something, *)
Theorem C74_root_refuted :
  observed (B "dn: 
changetype: delete


") = Some [Begin []; Wrong].
Proof. vm_compute. reflexivity. Qed.
Print Assumptions C74_root_refuted.
(** the kind of change must be in small letters, and after an unknown one the attributes
    of the record are taken as an entry to add, *)
Theorem C74_kind_case_refuted :
  observed (B "dn: cn=a
changetype: Modify
replace: sn
sn: A
-


") = Some [Begin (B "cn=a"); Wrong; AnItem EAdd MNone (B "replace") (B "sn"); AnItem EAdd MNone (B "sn") (B "A"); AnItem EAdd MNone [] (B "-"); End EAdd].
Proof. vm_compute. reflexivity. Qed.
Print Assumptions C74_kind_case_refuted.
(** and without the (optional) blank after the colon the first character of a value is
    lost. *)
Theorem C74_fill_refuted :
  forall (f : ustring) (c : N) (v : bytes), attr_ok f = true -> c <> 58%N -> c <> 60%N ->
    split_line (f ++ 58%N :: c :: v) = (false, f, v).
Proof.
  intros f c v A N1 N2. apply attr_ok_chars in A. unfold split_line.
  rewrite (index_of_app_notin cCOLON f) by (apply attr_nocolon, A).
  rewrite firstn_app_exact, trimmed_attr, from_utf8_attr by exact A.
  rewrite nth_error_app2 by lia. replace (length f + 1 - length f) with 1 by lia. cbn [nth_error].
  apply N.eqb_neq in N1, N2. change cCOLON with 58%N. rewrite N1, N2. f_equal. rewrite app_length. cbn [length].
  destruct (Nat.leb_spec (length f + S (S (length v))) (length f + 2)) as [G|G].
  - destruct v; [reflexivity|cbn [length] in G; lia].
  - unfold mid. replace (f ++ 58%N :: c :: v) with ((f ++ [58%N; c]) ++ v) by (rewrite <- app_assoc; reflexivity).
    replace (length f + 2) with (length (f ++ [58%N; c])) by (rewrite app_length; reflexivity). apply skipn_app_exact.
Qed.
Print Assumptions C74_fill_refuted.
