(** C28, C52: contacts and groups through the LDIF export and import. *)
From Verif Require Import Base Utf8 QtText M_ParamMap M_Values M_Date M_Addressee M_ContactGroup M_Ldif S_Ldif S_LdifContact P_Date P_LdifBack P_LdifStreet P_LdifGroup Prop_Ldif.
Local Open Scope list_scope.
Local Open Scope nat_scope.

(** Every list of contacts with writable texts and dates: all contacts that are not
    empty and have a formatted or a family name come back, in order, each with what
    [came_back] says and nothing else; the birthdays are those of [birthdays_after]. *)
Theorem C28_contacts :
  forall (E : LdifExt) (dt : datetime) (l : list addressee),
    sane E -> Forall (exportable E) l -> dt_valid dt = true \/ dt_valid (le_now E) = true ->
    let rev := if dt_valid dt then dt else le_now E in
    let sent := filter (fun a => negb (a_empty a)) l in
    exists bs, ldif_to_addressee E (snd (addressees_to_ldif E l [])) dt [] [] = Some (bs, [])
      /\ Forall2 (fun a b => came_back E rev a b /\ nothing_else b) (filter named sent) bs
      /\ map (fun b => dt_date (a_birthday b)) bs = birthdays_after no_birth sent
      /\ Forall (fun b => a_bdaytime b = false) bs.
Proof. exact list_back. Qed.
Print Assumptions C28_contacts.

(** One contact: the birthday comes back too, without its time; a birthday of a year
    before 1 comes back with the year -1. *)
Theorem C28_contact :
  forall (E : LdifExt) (dt : datetime) (a : addressee),
    sane E -> exportable E a -> dt_valid dt = true -> a_empty a = false -> named a = true ->
    exists text b, addressee_to_ldif E a = Some text /\ ldif_to_addressee E text dt [] [] = Some ([b], [])
      /\ came_back E dt a b /\ nothing_else b
      /\ (forall d, dt_date (a_birthday a) = Some d -> (0 < d_year d)%Z \/ d_year d = (-1)%Z -> dt_date (a_birthday b) = Some d)
      /\ (dt_date (a_birthday a) = None -> dt_date (a_birthday b) = None).
Proof.
  intros E dt a S X V NE N. destruct (C28_contacts E dt [a] S) as (bs & I & F & M & _); [constructor; [exact X|constructor]|left; exact V|].
  unfold addressees_to_ldif in I. cbn [filter flat_map snd app] in I, F, M. rewrite NE in F, M. cbn [negb] in F, M. cbn [filter] in F, M. rewrite N in F.
  cbn [birthdays_after] in M. rewrite N in M. rewrite V in F. inversion F as [|? b ? bs' (C & O) F']; subst. inversion F'; subst.
  rewrite app_nil_r in I. unfold addressee_to_ldif in *. rewrite NE in *. cbn [or_nothing] in I. eexists _, b.
  split; [reflexivity|]. split; [exact I|]. split; [exact C|]. split; [exact O|]. cbn [map app] in M. injection M as M.
  unfold birth_after, birth_date in M. destruct X as (_ & _ & BD). unfold birthday_ok in BD. split.
  - intros d D Y. rewrite D in *. cbn [fst snd] in M. rewrite M. unfold mk_date.
    assert (R : (if (0 <? d_year d)%Z then d_year d else snd no_birth) = d_year d) by (destruct (Z.ltb_spec 0 (d_year d)); [reflexivity|destruct Y as [Y| ->]; [lia|reflexivity]]).
    rewrite R, (proj1 BD). destruct d; reflexivity.
  - intros D. rewrite D in *. rewrite M. reflexivity.
Qed.
Print Assumptions C28_contact.

(** Lists whose contacts all have a birthday with a positive year: every birthday comes
    back. *)
Theorem C28_birthdays :
  forall (E : LdifExt) (dt : datetime) (l : list addressee),
    sane E -> Forall (exportable E) l -> dt_valid dt = true -> Forall (fun a => a_empty a = false /\ named a = true) l ->
    Forall (fun a => exists d, dt_date (a_birthday a) = Some d /\ (0 < d_year d)%Z) l ->
    exists bs, ldif_to_addressee E (snd (addressees_to_ldif E l [])) dt [] [] = Some (bs, [])
      /\ map (fun b => dt_date (a_birthday b)) bs = map (fun a => dt_date (a_birthday a)) l.
Proof.
  intros E dt l S X V NN D. destruct (C28_contacts E dt l S X (or_introl V)) as (bs & I & _ & M & _). exists bs. split; [exact I|]. rewrite M.
  clear - X NN D. generalize no_birth. induction l as [|a l IH]; intros b; [reflexivity|].
  inversion X as [|? ? (_ & _ & BD) Xl]; subst. inversion NN as [|? ? (NE & N) NNl]; subst. inversion D as [|? ? (d & Dd & Y) Dl]; subst.
  cbn [filter]. rewrite NE. cbn [negb birthdays_after map]. rewrite N. cbn [app]. f_equal; [|apply IH; assumption].
  unfold birth_date, birth_after, birthday_ok in *. rewrite Dd in *. cbn [fst snd]. destruct (Z.ltb_spec 0 (d_year d)); [|lia].
  unfold mk_date. rewrite (proj1 BD). destruct d; reflexivity.
Qed.
Print Assumptions C28_birthdays.

(** Streets of at most two lines, none of them empty, come back as they are. *)
Theorem C28_street :
  forall (x y : ustring), x <> [] -> y <> [] -> ~ In cLF x -> ~ In cLF y ->
    carried_street x = x /\ carried_street (x ++ cLF :: y) = x ++ cLF :: y /\ carried_street [] = [].
Proof. exact street_kept. Qed.
Print Assumptions C28_street.
(** E-mail lists without empty and repeated addresses come back as they are. *)
Theorem C28_emails :
  forall (l : list ustring), NoDup l -> ~ In [] l -> distinct l = l.
Proof. exact distinct_kept. Qed.
Print Assumptions C28_emails.

(** ** What does not come back *)

Definition plain_contact (g f n : ustring) : addressee := set_formatted n (set_family f (set_given g (addressee_new (B "u")))).
Definition through_ldif (E : LdifExt) (l : list addressee) : option (list addressee) :=
  option_map fst (ldif_to_addressee E (snd (addressees_to_ldif E l [])) ex_now [] []).
(** A contact with only a given name is written but not read. *)
Theorem C28_given_only_refuted :
  exists (a : addressee), a_empty a = false /\ a_given a <> [] /\ addressee_to_ldif ex_ldif a <> None /\ through_ldif ex_ldif [a] = Some [].
Proof. exists (plain_contact (B "Ann") [] []). repeat split; vm_compute; congruence. Qed.
Print Assumptions C28_given_only_refuted.
(** Repeated blanks in the formatted name become one. *)
Theorem C28_blanks_refuted :
  exists (a : addressee), option_map (map a_formatted) (through_ldif ex_ldif [a]) <> Some [a_formatted a].
Proof. exists (plain_contact [] [] (B "Ann  B")). vm_compute. congruence. Qed.
Print Assumptions C28_blanks_refuted.
(** A cell phone number becomes two. *)
Theorem C28_cell_refuted :
  exists (a : addressee), length (a_phones a) = 1 /\ option_map (map (fun b => length (a_phones b))) (through_ldif ex_ldif [a]) = Some [2].
Proof. exists (insert_phone (phone_of (B "i") (B "123") tCell) (plain_contact [] (B "B") [])). split; vm_compute; reflexivity. Qed.
Print Assumptions C28_cell_refuted.
(** The third line of a street is lost. *)
Theorem C28_street_refuted :
  exists (s : ustring), option_map (map (fun b => map ad_street (a_addresses b)))
    (through_ldif ex_ldif [insert_address (ad_set_street s (address_new (B "i") aHome)) (plain_contact [] (B "B") [])]) <> Some [[s]].
Proof. exists (B "a" ++ nl ++ B "b" ++ nl ++ B "c"). vm_compute. congruence. Qed.
Print Assumptions C28_street_refuted.
(** The birthday of one contact is given to the next one without birthday. *)
Theorem C28_birthday_refuted :
  exists (a b : addressee), dt_date (a_birthday b) = None /\
    option_map (map (fun b => dt_date (a_birthday b))) (through_ldif ex_ldif [b]) = Some [None] /\
    option_map (map (fun b => dt_date (a_birthday b))) (through_ldif ex_ldif [a; b]) = Some [dt_date (a_birthday a); dt_date (a_birthday a)].
Proof.
  exists (set_birthday_date (Some (mkDate 2015 3 19)) (plain_contact [] (B "A") [])), (plain_contact [] (B "B") []).
  split; [reflexivity|split; vm_compute; reflexivity].
Qed.
Print Assumptions C28_birthday_refuted.
(** On machines where [char] is unsigned, a name with a non-ASCII letter is damaged. *)
Definition ex_unsigned : LdifExt :=
  {| le_env := ex_env; le_display := fun u => u; le_country := fun c => c; le_signed := false; le_now := ex_now;
     le_newid := fun k => decimal (N.of_nat k) |}.
Theorem C28_unsigned_refuted :
  exists (a : addressee), writable ex_unsigned a /\ option_map (map a_family) (through_ldif ex_ldif [a]) = Some [a_family a]
    /\ option_map (map a_family) (through_ldif ex_unsigned [a]) <> Some [a_family a].
Proof. exists (plain_contact [] [77; 252; 108]%N []). repeat split; vm_compute; congruence. Qed.
Print Assumptions C28_unsigned_refuted.

(** ** A contact that meets the hypotheses *)

Lemma ex_sane : sane ex_ldif.
Proof.
  split; try reflexivity. intros i j H. cbn [ex_ldif le_newid] in H.
  destruct (decimal_spec (N.of_nat i)) as (_ & A & _). destruct (decimal_spec (N.of_nat j)) as (_ & C & _). rewrite H in A. lia.
Qed.
Definition ex_contact : addressee :=
  set_birthday_date (Some (mkDate 1999 12 31))
   (set_revision ex_env (mkDt (Some (mkDate 2020 2 29)) (Some (mkTime 23 59 58 999)) TUtc)
    (insert_address (ad_set_pobox (B "77") (ad_set_country (B "Germany") (ad_set_street (B "Main street 1" ++ nl ++ B "Back") (address_new (B "w") aWork))))
     (insert_phone (phone_of (B "p") (B "+49 30 1") tWork)
      (insert_url ex_env (mkRurl [] (B "https://kde.org"))
       (set_note (B "first" ++ nl ++ [8364%N]) (set_title (B "Dr.") (set_nickname (B "nick") (set_department (B "R&D")
        (add_email (email_of (B "b@kde.org")) (add_email (email_of (B "a@kde.org"))
          (plain_contact (B "Ann") [77; 252; 108]%N (B "Ann M.")))))))))))).
Example C28_case :
  sane ex_ldif /\ exportable ex_ldif ex_contact /\ a_empty ex_contact = false /\ named ex_contact = true
  /\ exists b, through_ldif ex_ldif [ex_contact] = Some [b] /\ emails_of b = [B "a@kde.org"; B "b@kde.org"]
     /\ map parts_of (a_addresses b) = [[B "77"; []; B "Main street 1" ++ nl ++ B "Back"; []; []; []; B "Germany"; []]]
     /\ a_note b = B "first" ++ nl ++ [8364%N] /\ dt_date (a_birthday b) = Some (mkDate 1999 12 31).
Proof.
  split; [exact ex_sane|]. split; [split; [vm_compute; reflexivity|split; vm_compute; auto]|]. split; [reflexivity|]. split; [reflexivity|].
  eexists. split; [vm_compute; reflexivity|]. repeat split.
Qed.
Example C28_street_case : B "a" <> [] /\ ~ In cLF (B "a") /\ NoDup [B "a"; B "b"] /\ ~ In [] [B "a"; B "b"].
Proof. repeat split; try discriminate; vm_compute; try (intuition discriminate). repeat constructor; cbn; intuition discriminate. Qed.

(** ** C52: groups *)

(** Contacts and groups exported together: the contacts come back as in C28, every
    group with members comes back with its members in order. *)
Theorem C52_all :
  forall (E : LdifExt) (dt : datetime) (l : list addressee) (gs : list cgroup),
    sane E -> Forall (exportable E) l -> Forall group_exportable gs -> dt_valid dt = true \/ dt_valid (le_now E) = true ->
    let rev := if dt_valid dt then dt else le_now E in
    let sent := filter (fun a => negb (a_empty a)) l in
    exists bs hs, ldif_to_addressee E (snd (all_to_ldif E l gs [])) dt [] [] = Some (bs, hs)
      /\ Forall2 (fun a b => came_back E rev a b /\ nothing_else b) (filter named sent) bs
      /\ map (fun b => dt_date (a_birthday b)) bs = birthdays_after no_birth sent
      /\ Forall2 group_back (filter (fun g => negb (isnil (cg_data g))) gs) hs.
Proof. exact all_back. Qed.
Print Assumptions C52_all.

Definition groups_through (gs : list cgroup) : option (list cgroup) := option_map snd (ldif_to_addressee ex_ldif (snd (all_to_ldif ex_ldif [] gs [])) ex_now [] []).
Definition one_member (n m : ustring) : cgroup := cg_append_data (mkCdata n m []) (cg_set_name (B "Friends") (cgroup_new (B "g"))).
(** The name of the group is lost. *)
Theorem C52_name_refuted :
  exists (g : cgroup), group_exportable g /\ cg_name g <> [] /\ option_map (map cg_name) (groups_through [g]) = Some [[]].
Proof.
  exists (one_member (B "Ann") (B "a@kde.org")). split; [|split; [discriminate|vm_compute; reflexivity]].
  constructor; [|constructor]. split; [vm_compute; reflexivity|split; vm_compute; intuition discriminate].
Qed.
Print Assumptions C52_name_refuted.
(** The e-mail address changes, and changes again every time. *)
Theorem C52_email_refuted :
  exists (n m : ustring), let trip := fun m => option_map (map (fun g => map cd_email (cg_data g))) (groups_through [one_member n m]) in
    trip m = Some [[B " <" ++ m ++ B ">"]] /\ trip (B " <" ++ m ++ B ">") = Some [[B " <<" ++ m ++ B ">>"]].
Proof. exists (B "Ann"), (B "a@kde.org"). split; vm_compute; reflexivity. Qed.
Print Assumptions C52_email_refuted.
(** A name with a comma is cut off. *)
Theorem C52_comma_refuted :
  exists (n n' m : ustring), n <> n' /\ option_map (map (fun g => map cd_name (cg_data g))) (groups_through [one_member n m]) = Some [[n']].
Proof. exists (B "Mueller, Ann"), (B "Mueller"), (B "a@kde.org"). split; [vm_compute; congruence|vm_compute; reflexivity]. Qed.
Print Assumptions C52_comma_refuted.
(** A group with references only is lost. *)
Theorem C52_references_refuted :
  exists (g : cgroup), cg_count g = 1 /\ groups_through [g] = Some [].
Proof. exists (mkCgroup (B "g") (B "Friends") [cref_of (B "u")] [] []). split; vm_compute; reflexivity. Qed.
Print Assumptions C52_references_refuted.
Example C52_case :
  sane ex_ldif /\ Forall (exportable ex_ldif) [ex_contact] /\ Forall group_exportable [one_member (B "Ann") []; one_member (B "Ann") (B "a@kde.org")]
  /\ option_map (fun r => (length (fst r), length (snd r)))
       (ldif_to_addressee ex_ldif (snd (all_to_ldif ex_ldif [ex_contact] [one_member (B "Ann") []; one_member (B "Ann") (B "a@kde.org")] [])) ex_now [] [])
     = Some (1, 2).
Proof.
  split; [exact ex_sane|]. split; [constructor; [exact (proj1 (proj2 C28_case))|constructor]|].
  split; [|vm_compute; reflexivity].
  constructor; [|constructor; [|constructor]]; (constructor; [|constructor]); (split; [vm_compute; reflexivity|split; vm_compute; intuition discriminate]).
Qed.
