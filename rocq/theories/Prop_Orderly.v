(** C58: contacts are in order. *)
From Verif Require Import Base BaseFacts QtText Utf8 M_ParamMap M_VCard M_VCardText S_Card M_Split M_Values M_Date M_Addressee M_VCardTool
  S_Contact P_ContactCase M_ContactGroup M_Ldif S_Orderly P_Orderly P_Orderly2 P_Orderly3 Prop_Ldif.

(** Whatever bytes the parser is given, if it comes to an end without undefined
    behaviour, the contacts it returns are in order.  (That it comes to an end is
    C05, when it is undefined C13.) *)
Theorem C58_read :
  forall (T : Tool) (E : Ext) (fuel : nat) (text : bytes) (l : list addressee), fresh_ids T ->
    parse_text T E fuel text = Done l -> Forall (orderly (t_env T)) l.
Proof. intros T E fuel text l Hf H. exact (parse_text_orderly T E fuel text l Hf H). Qed.
Print Assumptions C58_read.

(** A sequence of calls that insert, remove or set a single value, of any length, keeps
    a contact in order; in particular one that begins with a new contact or with one
    that was read. *)
Theorem C58_edits :
  forall (V : Env) (es : list edit) (a : addressee), Forall edit_ok es -> orderly V a ->
    orderly V (fold_left (fun a e => do_edit V e a) es a).
Proof. intros V es a He Ha. exact (edits_keep filled V filled_ok es a He Ha). Qed.
Print Assumptions C58_edits.
Theorem C58_new :
  forall (V : Env) (es : list edit) (id : ustring), Forall edit_ok es ->
    orderly V (fold_left (fun a e => do_edit V e a) es (addressee_new id)).
Proof. intros V es id He. exact (edits_keep filled V filled_ok es _ He (new_orderly filled V id)). Qed.
Print Assumptions C58_new.

(** The same for any LDIF text, except that a title, role, organisation or nick name may
    be empty. *)
Theorem C58_ldif :
  forall (E : LdifExt) (str : ustring) (dt : datetime) (cs : list addressee) (gs : list cgroup) (cs' : list addressee) (gs' : list cgroup),
    (forall i j, le_newid E i = le_newid E j -> i = j) -> Forall (orderly_with (fun _ => True) (le_env E)) cs ->
    ldif_to_addressee E str dt cs gs = Some (cs', gs') -> Forall (orderly_with (fun _ => True) (le_env E)) cs'.
Proof. intros E str dt cs gs cs' gs' Hf Hc H. exact (ldif_orderly E str dt cs gs cs' gs' Hf Hc H). Qed.
Print Assumptions C58_ldif.

(** The calls that [edit] leaves out: replacing the text of the first title (role,
    organisation, nick name) by an empty one, replacing all e-mail addresses or all
    custom entries, and inserting a blank phone number under a known identifier. *)
Theorem C58_setters_refuted :
  forall V : Env, exists a : addressee, orderly V a /\
    ~ orderly V (set_title [] a) /\ ~ orderly V (set_role [] a) /\ ~ orderly V (set_organization [] a) /\ ~ orderly V (set_nickname [] a) /\
    ~ orderly V (set_emails [B "a@b"; B "a@b"] a) /\ ~ orderly V (set_customs [B "App-Name:"] a) /\ ~ orderly V (insert_phone (phone_of (B "1") [] 0) a).
Proof.
  intros V. exists (fold_left (fun a e => do_edit V e a)
    [ETitle (ptext_of (B "t")); ERole (ptext_of (B "r")); EOrg (ptext_of (B "o")); ENick (ptext_of (B "n")); EPhone (phone_of (B "1") (B "112") 0)]
    (addressee_new (B "u"))).
  assert (H : orderly V (fold_left (fun a e => do_edit V e a)
    [ETitle (ptext_of (B "t")); ERole (ptext_of (B "r")); EOrg (ptext_of (B "o")); ENick (ptext_of (B "n")); EPhone (phone_of (B "1") (B "112") 0)]
    (addressee_new (B "u")))).
  { apply C58_new. repeat constructor; discriminate. }
  split; [exact H|]. clear H.
  split; [intros [_ _ _ _ _ _ _ _ H]; vm_compute in H; exact (Forall_inv H eq_refl)|].
  split; [intros [_ _ _ _ _ _ _ _ H]; vm_compute in H; exact (Forall_inv (Forall_inv_tail H) eq_refl)|].
  split; [intros [_ _ _ _ _ _ _ _ H]; vm_compute in H; exact (Forall_inv (Forall_inv_tail (Forall_inv_tail H)) eq_refl)|].
  split; [intros [_ _ _ _ _ _ _ _ H]; vm_compute in H; exact (Forall_inv (Forall_inv_tail (Forall_inv_tail (Forall_inv_tail H))) eq_refl)|].
  split; [intros [H]; vm_compute in H; inversion H as [|? ? Hx _]; apply Hx; left; reflexivity|].
  split; [intros [_ _ _ _ _ _ _ [_ H]]; vm_compute in H; inversion H as [|? ? [Hx _] _]; apply Hx; reflexivity|].
  intros [_ _ [_ H]]. vm_compute in H. inversion H as [|? ? [Hx _] _]. apply Hx; reflexivity.
Qed.
Print Assumptions C58_setters_refuted.

(** LDIF: a second, empty title replaces the first. *)
Theorem C58_ldif_refuted :
  exists (E : LdifExt) (str : ustring) (a : addressee), ldif_to_addressee E str ex_now [] [] = Some ([a], []) /\
    map pt_text (a_titles a) = [[]].
Proof.
  exists ex_ldif, (B "cn: Joe" ++ nl ++ B "title: Boss" ++ nl ++ B "title:" ++ nl ++ nl).
  destruct (ldif_to_addressee ex_ldif (B "cn: Joe" ++ nl ++ B "title: Boss" ++ nl ++ B "title:" ++ nl ++ nl) ex_now [] []) as [[[|a [|b r]] gs]|] eqn:H;
    vm_compute in H; try discriminate.
  exists a. injection H as <- <-. split; reflexivity.
Qed.
Print Assumptions C58_ldif_refuted.

(** What [orderly] does not say: an e-mail address and a member can be empty. *)
Definition noE : Ext := {| qp_decode := fun b => b; qp_encode := fun b => b; charset_decode := fun _ => None; charset_encode := fun _ => None |}.
Definition card_with (lines : list bytes) : bytes :=
  flat_map (fun l => l ++ [cLF]) ([B "BEGIN:VCARD"; B "VERSION:3.0"] ++ lines ++ [B "END:VCARD"]).
Theorem C58_empty_values_refuted :
  exists (text : bytes) (a : addressee), parse_text exT noE 100 text = Done [a] /\ emails_of a = [[]] /\ a_members a = [[]].
Proof.
  exists (card_with [B "EMAIL:"; B "MEMBER:"]).
  destruct (parse_text exT noE 100 (card_with [B "EMAIL:"; B "MEMBER:"])) as [| |[|a [|b r]]] eqn:H; vm_compute in H; try discriminate.
  exists a. injection H as <-. repeat split; reflexivity.
Qed.
Print Assumptions C58_empty_values_refuted.

(** a card full of repetitions and blanks *)
Definition messy : bytes := card_with
  [B "EMAIL;TYPE=home,home;TYPE=work:a@b"; B "EMAIL;PREF=1:c@d"; B "EMAIL:a@b"; B "TEL: "; B "TEL: 1  2 "; B "TEL:1 2"; B "LANG:de"; B "LANG;PREF=2:de"; B "LANG: ";
   B "X-APP-Z:1"; B "X-APP-A:2"; B "X-APP-Z:3"; B "X-APP-B:"; B "MEMBER:m"; B "MEMBER:m"; B "TITLE:"; B "TITLE:t"; B "URL:"; B "RELATED:r"; B "RELATED:r"].
Example C58_read_case :
  fresh_ids exT /\ exists a, parse_text exT noE 200 messy = Done [a] /\
    map (fun e => (em_mail e, em_params e)) (a_emails a) = [(B "c@d", [(B "pref", [B "1"])]); (B "a@b", [])] /\
    map ph_number (a_phones a) = [B "1 2"; B "1 2"] /\ map pt_text (a_langs a) = [B "de"] /\
    a_customs a = [(B "APP-A", B "2"); (B "APP-Z", B "3")] /\ a_members a = [B "m"] /\ map pt_text (a_titles a) = [B "t"] /\ a_urls a = [].
Proof.
  split; [exact ex_fresh|].
  destruct (parse_text exT noE 200 messy) as [| |[|a [|b r]]] eqn:H; vm_compute in H; try discriminate.
  exists a. injection H as <-. repeat split; reflexivity.
Qed.
Example C58_edits_case :
  Forall edit_ok [EText set_note (B "n"); EEmail (mkEmail [(B "type", [B "home"; B "work"])] (B "a@b")); EEmail (email_of (B "a@b")); ENoCustom (B "A") (B "B")].
Proof.
  constructor; [cbn; tauto|]. constructor; [|repeat constructor].
  split; [repeat constructor|]. constructor; [|constructor]. split; [discriminate|].
  constructor; [intros [H|[]]; vm_compute in H; discriminate|]. constructor; [intros []|constructor].
Qed.
