(** Specification vocabulary for the messages about documents of contact groups (C87). *)
From Verif Require Import Base M_ContactGroup S_ContactGroup S_GroupDoc.

(** What is wrong with an element in a group. *)
Inductive complaint (e : element) : string -> Prop :=
| no_reference : fst e = B "contactReference" -> gives (snd e) "uid" [] -> gives (snd e) "gid" [] ->
    complaint e "ContactReference is missing both uid and gid"
| no_group : fst e = B "contactGroupReference" -> gives (snd e) "uid" [] -> complaint e "ContactGroupReference is missing a uid"
| no_address : fst e = B "contactData" -> gives (snd e) "email" [] -> complaint e "ContactData is missing an email address"
| no_member : ~ In (fst e) (map B ["contactReference"; "contactGroupReference"; "contactData"]%string) ->
    complaint e "The document does not describe a ContactGroup".
(** What is wrong with the text of a group: the first fault. *)
Inductive fault (d : group_text) : string -> Prop :=
| no_uid : gives (fst d) "uid" [] -> fault d "ContactGroup is missing a uid"
| no_name : forall id, gives (fst d) "uid" id -> id <> [] -> gives (fst d) "name" [] -> fault d "ContactGroup is missing a name"
| bad_member : forall id name before ms e after m, has_head d id name -> snd d = before ++ e :: after ->
    Forall2 states before ms -> complaint e m -> fault d m.
(** The document ends within a group, and the XML reader has not reported that. *)
Definition cut_off (ts : list xtok) : Prop :=
  ~ In XInvalid ts /\ exists u at_ v, ts = u ++ XStart (B "contactGroup") at_ :: v /\ ~ In (XEnd (B "contactGroup")) v.
