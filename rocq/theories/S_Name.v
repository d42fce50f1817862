(** What reading names and e-mail addresses from text is expected to do. *)
From Verif Require Import Base Utf8 M_Addressee M_Name.
Open Scope list_scope.

(** the words of a text: what is between spaces, without empty pieces *)
Definition filled (ws : list ustring) : list ustring := filter (fun w => negb (isnil w)) ws.
Definition spaced (s : ustring) : list ustring := filled (split cSP s).

(** all words of the structured name of a contact, in the order of speaking *)
Definition name_words (a : addressee) : list ustring :=
  spaced (a_prefix a) ++ spaced (a_given a) ++ spaced (a_additional a)
  ++ spaced (a_family a) ++ spaced (a_suffix a).

(** the text of a name: enclosing quotes do not count *)
Definition name_text (s str : ustring) : Prop :=
  s = [cDQ] ++ str ++ [cDQ] \/ (s = str /\ ~ exists m, s = [cDQ] ++ m ++ [cDQ]).

(** one word less *)
Definition loses_one (l l' : list ustring) : Prop := exists l1 w l2, l = l1 ++ w :: l2 /\ l' = l1 ++ l2.

(** the contact with all name fields blanked *)
Definition nameless (a : addressee) : addressee :=
  touch (put_name [] (put_formatted [] (put_prefix [] (put_given [] (put_additional [] (put_family [] (put_suffix [] a))))))).

(** a text that survives being put between double quotes: no quote in it and no
    open escape at its end *)
Fixpoint bs_closed (s : list N) : bool :=
  match s with
  | [] => true
  | c :: r => if N.eqb c cBS then match r with [] => false | _ :: r' => bs_closed r' end else bs_closed r
  end.

(** an e-mail address without characters that mean something to the parser *)
Definition plain_address (e : ustring) : Prop :=
  e <> [] /\ text_ok e = true /\ trimmed e = e
  /\ ~ In 0%N e /\ ~ In cDQ e /\ ~ In cBS e /\ ~ In cCOMMA e
  /\ ~ In 40%N e /\ ~ In 60%N e /\ ~ In 62%N e.
