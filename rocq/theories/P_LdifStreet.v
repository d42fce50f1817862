(** Streets and e-mail lists that come back unchanged: lemmas for C28. *)
From Verif Require Import Base BaseFacts M_Ldif S_Ldif S_LdifContact.
Local Open Scope list_scope.
Local Open Scope nat_scope.

Lemma street_kept x y : x <> [] -> y <> [] -> ~ In cLF x -> ~ In cLF y ->
  carried_street x = x /\ carried_street (x ++ cLF :: y) = x ++ cLF :: y /\ carried_street [] = [].
Proof.
  intros NX NY X Y. unfold carried_street, first_line, second_line.
  rewrite (split_app cLF x y X), (split_notin cLF x X), (split_notin cLF y Y).
  destruct x; [congruence|]. destruct y; [congruence|]. cbn [isnil]. rewrite app_nil_r. auto.
Qed.
Lemma filter_keep x l : ~ In x l -> filter (fun y => negb (leqb y x)) l = l.
Proof.
  induction l as [|y l IH]; intros N; [reflexivity|]. cbn [filter]. destruct (leqb y x) eqn:L.
  - apply leqb_eq in L. subst. exfalso. apply N. left. reflexivity.
  - cbn [negb]. f_equal. apply IH. intros I. apply N. right. exact I.
Qed.
Lemma distinct_kept l : NoDup l -> ~ In [] l -> distinct l = l.
Proof.
  induction 1 as [|x l N D IH]; intros E; [reflexivity|]. cbn [distinct]. destruct x as [|c x]; [exfalso; apply E; left; reflexivity|].
  cbn [isnil]. rewrite IH by (intros I; apply E; right; exact I). f_equal. apply filter_keep, N.
Qed.
