(** C82: what the LDIF text of a contact or a group says, without the reader of this library. *)
From Verif Require Import Base BaseFacts Utf8 Utf8Facts QtText M_ParamMap M_Values M_Date M_Addressee M_ContactGroup M_Ldif S_Ldif S_DateText S_LdifMeaning S_LdifWritten P_LdifWritten Prop_Ldif Prop_Ldif2 Prop_Api.
Local Open Scope list_scope.
Local Open Scope nat_scope.

(** A contact: the name of the entry, the object classes, one line for each attribute, an
    empty line.  Values that RFC 2849 does not allow as they are come in base64. *)
Theorem C82_contact :
  forall (E : LdifExt) (a : addressee), le_signed E = true -> a_empty a = false -> forallb fine (texts E a) = true ->
    exists text dn ps, addressee_to_ldif E a = Some text
      /\ logical_lines text = dn :: B "objectclass: top" :: B "objectclass: person" :: B "objectclass: organizationalPerson" :: map rfc_line ps ++ [[]; []]
      /\ (ascii_text (dn_text a) = true -> dn = rfc_line (B "dn", dn_text a))
      /\ tells_contact E a ps.
Proof. exact contact_tells. Qed.
Print Assumptions C82_contact.

(** A group: one line for each member with data of its own. *)
Theorem C82_group :
  forall (E : LdifExt) (g : cgroup), le_signed E = true -> cg_data g <> [] ->
    forallb (fun d => valid_utf16 (cd_name d) && valid_utf16 (cd_email d)) (cg_data g) = true ->
    exists text, group_to_ldif E g = Some text
      /\ logical_lines text = B "objectclass: top" :: B "objectclass: groupOfNames" :: map rfc_line (member_rows g) ++ [[]; []].
Proof. exact group_tells. Qed.
Print Assumptions C82_group.

(** A value beginning with a blank is written as it is; the blanks after the colon are not
    part of the value. *)
Theorem C82_blank_refuted :
  exists a text, a_note a = B " x" /\ addressee_to_ldif ex_ldif a = Some text
    /\ In (B "description:  x") (logical_lines text) /\ ~ In (rfc_line (B "description", B " x")) (logical_lines text).
Proof.
  exists (set_note (B " x") (addressee_new [])). eexists. split; [reflexivity|]. split; [vm_compute; reflexivity|]. split; [vm_compute; tauto|].
  vm_compute. intuition discriminate.
Qed.
Print Assumptions C82_blank_refuted.
(** Letters that are not ASCII in the name of the entry are not encoded. *)
Theorem C82_dn_refuted :
  exists a text, fine (dn_text a) = true /\ addressee_to_ldif ex_ldif a = Some text
    /\ hd [] (logical_lines text) = B "dn: cn=M" ++ [252%N] ++ B "l,mail=" /\ hd [] (logical_lines text) <> rfc_line (B "dn", dn_text a).
Proof.
  exists (set_formatted [77; 252; 108]%N (addressee_new [])). eexists. split; [reflexivity|]. split; [vm_compute; reflexivity|]. split; [vm_compute; reflexivity|].
  vm_compute. discriminate.
Qed.
Print Assumptions C82_dn_refuted.
(** The entry of a group has no name: no line begins with [dn]. *)
Theorem C82_group_dn_refuted :
  forall (E : LdifExt) (g : cgroup), le_signed E = true -> cg_data g <> [] ->
    forallb (fun d => valid_utf16 (cd_name d) && valid_utf16 (cd_email d)) (cg_data g) = true ->
    exists text, group_to_ldif E g = Some text /\ forall l, In l (logical_lines text) -> starts_with (B "dn:") l = false.
Proof.
  intros E g SG NN V. destruct (group_tells E g SG NN V) as (text & T & L). exists text. split; [exact T|]. rewrite L. intros l I.
  destruct I as [<-|[<-|I]]; [reflexivity|reflexivity|]. apply in_app_or in I. destruct I as [I|[<-|[<-|[]]]]; [|reflexivity|reflexivity].
  apply in_map_iff in I. destruct I as (p & <- & I). unfold member_rows in I. apply in_map_iff in I. destruct I as (d & <- & _).
  unfold rfc_line. cbn [fst]. destruct (rfc_safe _); reflexivity.
Qed.
Print Assumptions C82_group_dn_refuted.
(** The time of the last change is written as it is shown, with the letter Z of UTC
    whatever its zone. *)
Theorem C82_zone_refuted :
  exists a text, a_revision a = mkDt (Some (mkDate 2020 2 28)) (Some (mkTime 12 0 0 0)) TLocal
    /\ dt_eq noV (a_revision a) (mkDt (Some (mkDate 2020 2 28)) (Some (mkTime 10 0 0 0)) TUtc) = true
    /\ addressee_to_ldif ex_ldif a = Some text /\ In (B "modifytimestamp: 20200228T120000Z") (logical_lines text).
Proof.
  exists (set_revision noV (mkDt (Some (mkDate 2020 2 28)) (Some (mkTime 12 0 0 0)) TLocal) (addressee_new [])). eexists. split; [reflexivity|]. split; [reflexivity|].
  split; [vm_compute; reflexivity|]. vm_compute. tauto.
Qed.
Print Assumptions C82_zone_refuted.

Example C82_case :
  le_signed ex_ldif = true /\ a_empty ex_contact = false /\ forallb fine (texts ex_ldif ex_contact) = true
  /\ ascii_text (dn_text ex_contact) = true
  /\ exists text, addressee_to_ldif ex_ldif ex_contact = Some text
     /\ Forall (fun l => In (B l) (logical_lines text))
          ["dn: cn=Ann M.,mail=a@kde.org"; "givenname: Ann"; "sn:: TcO8bA=="; "mail: a@kde.org"; "mozillasecondemail: b@kde.org"; "telephonenumber: +49 30 1";
           "postofficebox: 77"; "street: Main street 1"; "mozillaworkstreet2: Back"; "c: Germany"; "countryname: Germany"; "department: R&D";
           "modifytimestamp: 20200229T235958Z"; "birthyear: 1999"; "birthmonth: 12"; "birthday: 31"]%string.
Proof.
  do 3 (split; [vm_compute; reflexivity|]). split; [reflexivity|]. eexists. split; [vm_compute; reflexivity|].
  apply Forall_forall. intros l I. cbn [In] in I. repeat (destruct I as [<-|I]; [vm_compute; tauto|]). destruct I.
Qed.
Example C82_group_case :
  let g := mkCgroup (B "id") (B "Team") [] [] [mkCdata (B "Ann") (B "a@kde.org") []; mkCdata [77; 252; 108]%N [] []] in
  cg_data g <> [] /\ option_map logical_lines (group_to_ldif ex_ldif g) =
    Some [B "objectclass: top"; B "objectclass: groupOfNames"; B "member: cn=Ann,mail=a@kde.org"; B "member:: Y249TcO8bCxtYWlsPQ=="; []; []].
Proof. split; [discriminate|]. vm_compute. reflexivity. Qed.

(** Lists: the text of each entry is put behind the text given, in order, contacts before
    groups; contacts and groups without content add nothing. *)
Theorem C82_lists :
  forall (E : LdifExt) (l : list addressee) (gs : list cgroup) (str : ustring),
    snd (addressees_to_ldif E l str) = str ++ concat (map (fun a => match addressee_to_ldif E a with Some t => t | None => [] end) l) /\
    snd (groups_to_ldif E gs str) = str ++ concat (map (fun g => match group_to_ldif E g with Some t => t | None => [] end) gs) /\
    snd (all_to_ldif E l gs str) = snd (groups_to_ldif E gs (snd (addressees_to_ldif E l str))) /\
    (fst (addressees_to_ldif E l str) = true <-> l <> []) /\
    (fst (groups_to_ldif E gs str) = true <-> gs <> []) /\
    (fst (all_to_ldif E l gs str) = true <-> l <> [] \/ gs <> []).
Proof.
  intros E l gs str. unfold all_to_ldif, addressees_to_ldif, groups_to_ldif, or_nothing. cbn [fst snd]. rewrite !flat_map_concat_map.
  destruct l as [|a l], gs as [|g gs]; cbn [isnil negb orb fst snd map concat app]; rewrite ?app_nil_r;
    repeat split; auto; try discriminate; try (intros K; exfalso; apply K; reflexivity); try (intros [K|K]; exfalso; apply K; reflexivity);
    try (left; discriminate); try (right; discriminate).
Qed.
Print Assumptions C82_lists.
(** So success does not mean that anything was written. *)
Theorem C82_success_refuted :
  exists a : addressee, forall (E : LdifExt) str, addressee_to_ldif E a = None /\ addressees_to_ldif E [a] str = (true, str).
Proof. exists (addressee_new (B "u")). intros E str. split; [reflexivity|]. unfold addressees_to_ldif. cbn. rewrite app_nil_r. reflexivity. Qed.
Print Assumptions C82_success_refuted.
Example C82_lists_case : exists t, snd (addressees_to_ldif ex_ldif [set_note (B "x") (addressee_new []); addressee_new []] (B "before")) = B "before" ++ t /\ t <> [].
Proof. eexists. split; [vm_compute; reflexivity|discriminate]. Qed.
