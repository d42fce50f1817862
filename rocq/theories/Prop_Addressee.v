(** C16-C20, C22, C41, C42: the lists and the equality of a contact. *)
From Coq Require Import QArith Permutation.
From Verif Require Import Base BaseFacts QtText M_ParamMap M_Values M_Date M_Addressee
  S_Values S_Addressee P_Lists P_Values P_Addressee P_AddrEq.
Local Open Scope list_scope.
Local Open Scope nat_scope.

(** ** C16: adding e-mail addresses *)
Theorem C16_no_duplicates :
  forall (uid : ustring) (ops : list email_op), NoDup (emails_of (run_emails ops (addressee_new uid))).
Proof. intros uid ops. apply run_emails_nodup. constructor. Qed.
Print Assumptions C16_no_duplicates.
(** the entry added is in the list and replaces any other entry for its address *)
Theorem C16_added :
  forall (e : email) (a : addressee), NoDup (emails_of a) ->
    In e (a_emails (add_email e a)) /\
    forall x, In x (a_emails (add_email e a)) -> em_mail x = em_mail e -> x = e.
Proof.
  intros e a H. rewrite add_email_emails. split; [apply add_email_list_in|].
  intros x Hx E. pose proof (add_email_list_nodup e (a_emails a) H) as Hn. pose proof (add_email_list_in e (a_emails a)) as He.
  revert Hx He Hn. generalize (add_email_list e (a_emails a)). clear - E. induction l as [|y l IH]; cbn; [tauto|].
  intros [H1|H1] [H2|H2] Hn; inversion Hn as [|? ? N1 N2]; subst; auto.
  - exfalso. apply N1. rewrite E. apply in_map. auto.
  - exfalso. apply N1. rewrite <- E. apply in_map. auto.
Qed.
Print Assumptions C16_added.
Theorem C16_preferred_first :
  forall (e : email) (a : addressee), email_preferred e = true ->
    preferred_email (add_email e a) = em_mail e /\ hd_error (a_emails (add_email e a)) = Some e.
Proof.
  intros e a H. unfold preferred_email. rewrite add_email_emails. unfold add_email_list. rewrite H.
  destruct (find_split _ _) as [[[b y] t]|]; auto.
Qed.
Print Assumptions C16_preferred_first.
(** an entry that is not preferred takes the place of the entry with the same address,
    or goes to the end *)
Theorem C16_order_kept :
  forall (e : email) (a : addressee), email_preferred e = false ->
    emails_of (add_email e a) =
    if existsb (leqb (em_mail e)) (emails_of a) then emails_of a else emails_of a ++ [em_mail e].
Proof.
  intros e a H. unfold emails_of. rewrite add_email_emails. unfold add_email_list. rewrite H.
  change (fun x => leqb (em_mail x) (em_mail e)) with (keyed em_mail (em_mail e)).
  pose proof (replace_or_keys em_mail e true (a_emails a)) as K. unfold replace_or in K.
  destruct (find_split (keyed em_mail (em_mail e)) (a_emails a)) as [[[b y] t]|]; exact K.
Qed.
Print Assumptions C16_order_kept.
(** the entries for other addresses stay, in the same order *)
Theorem C16_others_unchanged :
  forall (e : email) (a : addressee),
    others (em_mail e) (a_emails (add_email e a)) = others (em_mail e) (a_emails a).
Proof. intros e a. rewrite add_email_emails. apply add_email_list_others. Qed.
Print Assumptions C16_others_unchanged.
(** nothing else in the contact changes except the flag isEmpty *)
Theorem C16_only_emails :
  forall (e : email) (a : addressee),
    put_emails [] (put_empty false (put_changed false (add_email e a))) = put_emails [] (put_empty false (put_changed false a)).
Proof. intros e a. rewrite add_email_fields. destruct (has_email _ _); reflexivity. Qed.
Print Assumptions C16_only_emails.
(** [setEmails] and [setEmailList] replace all entries: exactly the given addresses in the
    given order, those of [setEmails] without parameters; the first is the preferred one;
    the contact is not empty any more, nothing else changes. *)
Theorem C16_replaced : forall (a : addressee) (ms : list ustring) (es : list email),
    emails_of (set_emails ms a) = ms /\ (forall e, In e (a_emails (set_emails ms a)) -> em_params e = [])
    /\ preferred_email (set_emails ms a) = hd [] ms
    /\ a_emails (set_email_list es a) = es /\ preferred_email (set_email_list es a) = hd [] (map em_mail es)
    /\ put_emails [] (set_emails ms a) = put_emails [] (put_empty false a)
    /\ put_emails [] (set_email_list es a) = put_emails [] (put_empty false a).
Proof.
  intros a ms es. unfold emails_of, preferred_email, set_emails, set_email_list, touch. cbn.
  repeat split; try reflexivity.
  - rewrite map_map. cbn. apply map_id.
  - intros e H. apply in_map_iff in H. destruct H as (x & <- & _). reflexivity.
  - destruct ms; reflexivity.
  - destruct es; reflexivity.
Qed.
Print Assumptions C16_replaced.
Example C16_case :
  let p := mkEmail [(B "pref", [B "1"])] (B "c@d") in
  let a := run_emails [OpAdd (email_of (B "a@b")); OpAdd (email_of (B "c@d")); OpAdd (email_of (B "a@b")); OpAdd p]
             (addressee_new (B "u")) in
  emails_of a = [B "c@d"; B "a@b"] /\ preferred_email a = B "c@d" /\ email_preferred p = true
  /\ emails_of (set_emails [B "e@f"; B "a@b"] a) = [B "e@f"; B "a@b"].
Proof. vm_compute. auto. Qed.

(** ** C17: removing an e-mail address or a language *)
Theorem C17_removes_exactly :
  forall (m : ustring) (a : addressee), NoDup (emails_of a) ->
    a_emails (remove_email m a) = others m (a_emails a).
Proof. exact remove_email_nodup. Qed.
Print Assumptions C17_removes_exactly.
(** For every list: the address is gone exactly if it did not occur twice in a row,
    and in that case exactly the other entries remain. *)
Theorem C17_gone_iff :
  forall (m : ustring) (a : addressee),
    (~ In m (emails_of (remove_email m a)) <-> ~ twice_in_a_row m (emails_of a)) /\
    (~ twice_in_a_row m (emails_of a) -> a_emails (remove_email m a) = others m (a_emails a)).
Proof.
  intros m a. unfold emails_of, remove_email. cbn [a_emails put_emails]. rewrite remove_email_skip. split.
  - apply (skip_remove_gone em_mail).
  - intros H. apply (skip_remove_but em_mail). exact H.
Qed.
Print Assumptions C17_gone_iff.
Theorem C17_language_gone_iff :
  forall (m : ustring) (a : addressee),
    (~ In m (map pt_text (a_langs (remove_lang m a))) <-> ~ twice_in_a_row m (map pt_text (a_langs a))) /\
    (~ twice_in_a_row m (map pt_text (a_langs a)) ->
     a_langs (remove_lang m a) = filter (fun e => negb (leqb (pt_text e) m)) (a_langs a)).
Proof.
  intros m a. unfold remove_lang. cbn [a_langs put_langs]. rewrite remove_lang_skip. split.
  - apply (skip_remove_gone pt_text).
  - intros H. apply (skip_remove_but pt_text). exact H.
Qed.
Print Assumptions C17_language_gone_iff.
Theorem C17_unconditional_refuted :
  exists (m : ustring) (a : addressee), In m (emails_of (remove_email m a)).
Proof.
  exists (B "a"), (set_email_list [email_of (B "a"); email_of (B "a")] (addressee_new [])). vm_compute. auto.
Qed.
Print Assumptions C17_unconditional_refuted.
Example C17_case :
  let a := set_emails [B "a"; B "b"; B "a"] (addressee_new []) in
  ~ twice_in_a_row (B "a") (emails_of a) /\ emails_of (remove_email (B "a") a) = [B "b"].
Proof.
  split; [|reflexivity]. intros (p & t & H). cbn in H. destruct p as [|x [|y [|z p]]]; cbn in H; try discriminate.
  destruct p; discriminate.
Qed.

(** ** C18: phone numbers, addresses and keys as maps.
    After any sequence of insertions and removals on a new contact, identifiers are
    pairwise distinct and looking up an identifier gives what the abstract map holds.
    A phone number whose number is blank is not added (but may replace one); an
    address that has never been written to is not inserted. *)
Theorem C18_phones :
  forall (uid : ustring) (ops : list (coll_op phone)), let a := fold_left do_phone ops (addressee_new uid) in
    NoDup (map ph_id (a_phones a)) /\
    forall id, find_phone id a =
      coll_run ph_id (fun p => negb (isnil (simplified (ph_number p)))) (fun _ => true) ops id.
Proof. intros uid ops. apply (coll_spec ph_id a_phones do_phone). exact do_phone_list. reflexivity. Qed.
Print Assumptions C18_phones.
Theorem C18_addresses :
  forall (uid : ustring) (ops : list (coll_op address)), let a := fold_left do_address ops (addressee_new uid) in
    NoDup (map ad_id (a_addresses a)) /\
    forall id, find_address id a =
      coll_run ad_id (fun x => negb (ad_empty x)) (fun x => negb (ad_empty x)) ops id.
Proof. intros uid ops. apply (coll_spec ad_id a_addresses do_address). exact do_address_list. reflexivity. Qed.
Print Assumptions C18_addresses.
Theorem C18_keys :
  forall (uid : ustring) (ops : list (coll_op key)), let a := fold_left do_key ops (addressee_new uid) in
    NoDup (map ke_id (a_keys a)) /\
    forall id, find_key id a = coll_run ke_id (fun _ => true) (fun _ => true) ops id.
Proof. intros uid ops. apply (coll_spec ke_id a_keys do_key). exact do_key_list. reflexivity. Qed.
Print Assumptions C18_keys.
(** The place: an existing identifier keeps its position, a new one goes to the end;
    removal keeps the order of the rest. *)
Theorem C18_positions :
  forall (a : addressee) (p : phone) (x : address) (k : key),
    map ph_id (a_phones (insert_phone p a)) =
      (if existsb (leqb (ph_id p)) (map ph_id (a_phones a)) then map ph_id (a_phones a)
       else if isnil (simplified (ph_number p)) then map ph_id (a_phones a) else map ph_id (a_phones a) ++ [ph_id p]) /\
    map ad_id (a_addresses (insert_address x a)) =
      (if ad_empty x || existsb (leqb (ad_id x)) (map ad_id (a_addresses a)) then map ad_id (a_addresses a)
       else map ad_id (a_addresses a) ++ [ad_id x]) /\
    map ke_id (a_keys (insert_key k a)) =
      (if existsb (leqb (ke_id k)) (map ke_id (a_keys a)) then map ke_id (a_keys a)
       else map ke_id (a_keys a) ++ [ke_id k]).
Proof.
  intros a p x k. repeat split.
  - pose proof (replace_or_keys ph_id p (negb (isnil (simplified (ph_number p)))) (a_phones a)) as H.
    etransitivity; [exact H|]. destruct (existsb _ _); auto. destruct (isnil _); auto.
  - unfold insert_address. destruct (ad_empty x); cbn [orb]; auto. exact (replace_or_keys ad_id x true (a_addresses a)).
  - exact (replace_or_keys ke_id k true (a_keys a)).
Qed.
Print Assumptions C18_positions.
Theorem C18_removal :
  forall (a : addressee) (p : phone) (x : address) (k : key),
    (NoDup (map ph_id (a_phones a)) ->
      a_phones (remove_phone p a) = filter (fun q => negb (leqb (ph_id q) (ph_id p))) (a_phones a)) /\
    (NoDup (map ad_id (a_addresses a)) ->
      a_addresses (remove_address x a) = filter (fun q => negb (leqb (ad_id q) (ad_id x))) (a_addresses a)) /\
    a_keys (remove_key k a) = filter (fun q => negb (leqb (ke_id q) (ke_id k))) (a_keys a).
Proof.
  intros a p x k. repeat split.
  - intros H. exact (erase_first_but ph_id (ph_id p) (a_phones a) H).
  - intros H. exact (erase_first_but ad_id (ad_id x) (a_addresses a) H).
Qed.
Print Assumptions C18_removal.
Example C18_case :
  let p1 := mkPhone (B "1") (B "11") 1 [] in let p2 := mkPhone (B "2") (B "22") 1 [] in
  let p1' := mkPhone (B "1") (B "33") 2 [] in
  let a := fold_left do_phone [OpPut p1; OpPut p2; OpPut p1'; OpDel p2; OpPut p2] (addressee_new []) in
  a_phones a = [p1'; p2] /\ find_phone (B "1") a = Some p1'.
Proof. vm_compute. auto. Qed.
Example C18_address_case :
  let x := ad_set_street (B "s") (address_new (B "1") 0) in
  let a := fold_left do_address [OpPut x; OpPut (address_new (B "2") 0); OpPut (ad_set_region (B "r") x)] (addressee_new []) in
  map ad_id (a_addresses a) = [B "1"] /\ find_address (B "1") a = Some (ad_set_region (B "r") x).
Proof. vm_compute. auto. Qed.

(** ** C19: selection by type *)
Theorem C19_phone :
  forall (defid : ustring) (t : N) (a : addressee),
    let r := phone_number defid t a in
    ((exists p, In p (a_phones a) /\ has_type (ph_type p) t) -> In r (a_phones a) /\ has_type (ph_type r) t) /\
    ((exists p, In p (a_phones a) /\ has_type (ph_type p) t /\ N.testbit (ph_type p) 3 = true) ->
       N.testbit (ph_type r) 3 = true) /\
    ((forall p, In p (a_phones a) -> ~ has_type (ph_type p) t) -> r = mkPhone defid [] t []).
Proof.
  intros defid t a r. repeat split.
  - destruct H as (p & Hp & Ht). apply match_pattern_spec in Ht. apply (pick_in ph_type tPref _ t (phone_of defid [] t) (a_phones a)); eauto.
  - apply match_pattern_spec. destruct H as (p & Hp & Ht). apply match_pattern_spec in Ht.
    apply (pick_in ph_type tPref _ t (phone_of defid [] t) (a_phones a)); eauto.
  - intros (p & Hp & Ht & Hb). apply match_pattern_spec in Ht.
    assert (Hpre : forall q, N.testbit (ph_type q) 3 = pre ph_type tPref q).
    { intros q. unfold pre. change tPref with (2 ^ 3)%N. rewrite land_pow2, negb_involutive. auto. }
    destruct (find (fun x => ok ph_type t x && pre ph_type tPref x) (a_phones a)) as [q|] eqn:F.
    + unfold r, phone_number. rewrite (pick_pref ph_type tPref _ t _ _ q F). apply find_some in F as [_ F].
      apply andb_true_iff in F as [_ F]. rewrite Hpre. exact F.
    + exfalso. apply (find_none _ _ F p) in Hp. rewrite Hpre in Hb. unfold ok in Hp. rewrite Ht, Hb in Hp. discriminate.
  - intros H. apply pick_none. intros x Hx. unfold ok. apply not_true_iff_false. rewrite match_pattern_spec. auto.
Qed.
Print Assumptions C19_phone.
(** which one: the first preferred match; without one, the first match with a number *)
Theorem C19_phone_which :
  forall (defid : ustring) (t : N) (a : addressee) (x : phone),
    let matches p := match_pattern (ph_type p) t in
    let preferred p := negb (N.eqb (N.land (ph_type p) tPref) 0) in
    (find (fun p => matches p && preferred p) (a_phones a) = Some x -> phone_number defid t a = x) /\
    (find (fun p => matches p && preferred p) (a_phones a) = None ->
     find (fun p => matches p && negb (isnil (ph_number p))) (a_phones a) = Some x -> phone_number defid t a = x).
Proof.
  intros defid t a x matches preferred. split; intros H.
  - exact (pick_pref ph_type tPref _ t _ _ x H).
  - intros H2. unfold phone_number. rewrite (pick_nopref ph_type tPref _ t _ _ H). cbn [phone_of ph_number].
    change (isnil (simplified [])) with true. cbv iota.
    match goal with |- match ?f with _ => _ end = _ => replace f with (Some x) by (symmetry; exact H2) end. reflexivity.
Qed.
Print Assumptions C19_phone_which.
Theorem C19_address :
  forall (defid : ustring) (t : N) (a : addressee),
    let r := address_of defid t a in
    ((exists p, In p (a_addresses a) /\ has_type (ad_type p) t) -> In r (a_addresses a) /\ has_type (ad_type r) t) /\
    ((exists p, In p (a_addresses a) /\ has_type (ad_type p) t /\ N.testbit (ad_type p) 6 = true) ->
       N.testbit (ad_type r) 6 = true) /\
    ((forall p, In p (a_addresses a) -> ~ has_type (ad_type p) t) -> r = address_new defid t).
Proof.
  intros defid t a r. repeat split.
  - destruct H as (p & Hp & Ht). apply match_pattern_spec in Ht. apply (pick_in ad_type aPref _ t (address_new defid t) (a_addresses a)); eauto.
  - apply match_pattern_spec. destruct H as (p & Hp & Ht). apply match_pattern_spec in Ht.
    apply (pick_in ad_type aPref _ t (address_new defid t) (a_addresses a)); eauto.
  - intros (p & Hp & Ht & Hb). apply match_pattern_spec in Ht.
    assert (Hpre : forall q, N.testbit (ad_type q) 6 = pre ad_type aPref q).
    { intros q. unfold pre. change aPref with (2 ^ 6)%N. rewrite land_pow2, negb_involutive. auto. }
    destruct (find (fun x => ok ad_type t x && pre ad_type aPref x) (a_addresses a)) as [q|] eqn:F.
    + unfold r, address_of. rewrite (pick_pref ad_type aPref _ t _ _ q F). apply find_some in F as [_ F].
      apply andb_true_iff in F as [_ F]. rewrite Hpre. exact F.
    + exfalso. apply (find_none _ _ F p) in Hp. rewrite Hpre in Hb. unfold ok in Hp. rewrite Ht, Hb in Hp. discriminate.
  - intros H. apply pick_none. intros x Hx. unfold ok. apply not_true_iff_false. rewrite match_pattern_spec. auto.
Qed.
Print Assumptions C19_address.
Theorem C19_address_which :
  forall (defid : ustring) (t : N) (a : addressee) (x : address),
    let matches p := match_pattern (ad_type p) t in
    let preferred p := negb (N.eqb (N.land (ad_type p) aPref) 0) in
    (find (fun p => matches p && preferred p) (a_addresses a) = Some x -> address_of defid t a = x) /\
    (find (fun p => matches p && preferred p) (a_addresses a) = None ->
     find (fun p => matches p && negb (ad_empty p)) (a_addresses a) = Some x -> address_of defid t a = x).
Proof.
  intros defid t a x matches preferred. split; intros H.
  - exact (pick_pref ad_type aPref _ t _ _ x H).
  - intros H2. unfold address_of. rewrite (pick_nopref ad_type aPref _ t _ _ H). cbn [address_new ad_empty].
    match goal with |- match ?f with _ => _ end = _ => replace f with (Some x) by (symmetry; exact H2) end. reflexivity.
Qed.
Print Assumptions C19_address_which.
(** [phoneNumbers(type)], [addresses(type)]: exactly the matching entries, in order *)
Theorem C19_lists :
  forall (t : N) (a : addressee) (test : N -> bool), (forall v, test v = true <-> has_type v t) ->
    phone_numbers t a = filter (fun p => test (ph_type p)) (a_phones a) /\
    addresses_of t a = filter (fun p => test (ad_type p)) (a_addresses a).
Proof.
  intros t a test H. assert (E : forall v, match_pattern v t = test v).
  { intros v. apply eq_true_iff_eq. rewrite match_pattern_spec, H. tauto. }
  unfold phone_numbers, addresses_of. split; apply filter_ext; intros x; apply E.
Qed.
Print Assumptions C19_lists.
Example C19_case :
  let p1 := mkPhone (B "1") (B "11") 3 [] in let p2 := mkPhone (B "2") (B "22") 9 [] in
  let p3 := mkPhone (B "3") (B "33") 1 [] in
  let a := fold_left do_phone [OpPut p1; OpPut p2; OpPut p3] (addressee_new []) in
  phone_number (B "d") 1 a = p2 /\ phone_number (B "d") 2 a = p1 /\
  phone_number (B "d") 64 a = mkPhone (B "d") [] 64 [] /\ phone_numbers 1 a = [p1; p2; p3] /\ phone_numbers 0 a = [].
Proof. vm_compute. auto. Qed.

(** ** C20: custom fields *)
Theorem C20_map :
  forall (uid : ustring) (ops : list custom_op) (app name : ustring),
    custom app name (fold_left do_custom ops (addressee_new uid)) = last_value (app ++ B "-" ++ name) ops.
Proof.
  intros uid ops app name. rewrite custom_stored.
  destruct (run_customs ops (addressee_new uid)) as [_ H]; [constructor|]. apply H.
Qed.
Print Assumptions C20_map.
Theorem C20_sorted :
  forall (uid : ustring) (ops : list custom_op),
    S_Card.increasing (map fst (a_customs (fold_left do_custom ops (addressee_new uid)))).
Proof. intros uid ops. destruct (run_customs ops (addressee_new uid)) as [H _]; [constructor|]. exact H. Qed.
Print Assumptions C20_sorted.
(** two different keys are the same entry exactly if the joined texts agree; for
    application names without a hyphen they never do *)
Theorem C20_keys :
  forall (app name app' name' value : ustring) (a : addressee),
    value <> [] -> app <> [] -> name <> [] ->
    S_Card.increasing (map fst (a_customs a)) ->
    (app ++ B "-" ++ name = app' ++ B "-" ++ name' -> custom app' name' (insert_custom app name value a) = value) /\
    (app ++ B "-" ++ name <> app' ++ B "-" ++ name' ->
       custom app' name' (insert_custom app name value a) = custom app' name' a /\
       custom app' name' (remove_custom app name a) = custom app' name' a).
Proof.
  intros app name app' name' value a Hv Ha Hn Hs. rewrite !custom_stored.
  change (insert_custom app name value a) with (do_custom a (OpInsert app name value)).
  change (remove_custom app name a) with (do_custom a (OpErase app name)).
  rewrite !do_custom_stored by exact Hs. cbn [custom_effect].
  assert (isnil app = false) as -> by (destruct app; [destruct (Ha eq_refl)|reflexivity]).
  assert (isnil name = false) as -> by (destruct name; [destruct (Hn eq_refl)|reflexivity]).
  assert (isnil value = false) as -> by (destruct value; [destruct (Hv eq_refl)|reflexivity]).
  change (qualified app' name') with (app' ++ B "-" ++ name'). split.
  - intros ->. rewrite leqb_refl. reflexivity.
  - intros H. apply leqb_neq in H. rewrite H. auto.
Qed.
Print Assumptions C20_keys.
Theorem C20_no_collision :
  forall app name app' name' : ustring, ~ In 45%N app -> ~ In 45%N app' ->
    app ++ B "-" ++ name = app' ++ B "-" ++ name' -> app = app' /\ name = name'.
Proof. exact qualified_inj. Qed.
Print Assumptions C20_no_collision.
Theorem C20_distinct_keys_refuted :
  exists a, custom (B "a") (B "b-c") (insert_custom (B "a-b") (B "c") (B "v") a) = B "v" /\ custom (B "a") (B "b-c") a = [].
Proof. exists (addressee_new []). vm_compute. auto. Qed.
Print Assumptions C20_distinct_keys_refuted.
(** [setCustoms(customs())] copies all entries if no qualified name has a colon;
    with a colon an entry changes *)
Theorem C20_copy :
  forall (uid : ustring) (ops : list custom_op) (b : addressee),
    let a := fold_left do_custom ops (addressee_new uid) in
    Forall (fun e => ~ In 58%N (fst e)) (a_customs a) ->
    a_customs (set_customs (customs_of a) b) = a_customs a.
Proof.
  intros uid ops b a H. apply set_customs_customs; auto.
  destruct (run_customs ops (addressee_new uid)) as [K _]; [constructor|]. exact K.
Qed.
Print Assumptions C20_copy.
Theorem C20_copy_refuted :
  exists a, let b := set_customs (customs_of a) (addressee_new []) in
    custom (B "a") (B "x:y") a = B "v" /\ custom (B "a") (B "x:y") b = [] /\ custom (B "a") (B "x") b = B "y:v".
Proof. exists (insert_custom (B "a") (B "x:y") (B "v") (addressee_new [])). vm_compute. auto. Qed.
Print Assumptions C20_copy_refuted.
Example C20_case :
  let a := fold_left do_custom [OpInsert (B "k") (B "x") (B "1"); OpInsert (B "a") (B "y") (B "2"); OpInsert (B "k") (B "x") (B "3");
                                OpInsert (B "k") (B "z") (B "4"); OpErase (B "k") (B "z"); OpInsert (B "k") (B "x") []] (addressee_new []) in
  custom (B "k") (B "x") a = B "3" /\ customs_of a = [B "a-y:2"; B "k-x:3"] /\ custom (B "k") (B "z") a = [] /\
  Forall (fun e => ~ In 58%N (fst e)) (a_customs a).
Proof.
  repeat split. repeat constructor; cbn; intros H; repeat (destruct H as [H|H]; [discriminate|]); exact H.
Qed.

(** ** C22: equality *)
(** The comparison of lists, for any element type whose equality is an equivalence. *)
Theorem C22_lists :
  forall (A : Type) (eqb : A -> A -> bool), equivalence eqb ->
    (forall l, list_equals eqb l l = true) /\
    (forall l p, Permutation l p -> list_equals eqb l p = true) /\
    (forall l l' p p', Permutation l l' -> Permutation p p' -> list_equals eqb l p = list_equals eqb l' p') /\
    (forall l p, distinct_by eqb l -> list_equals eqb l p = true -> list_equals eqb p l = true) /\
    (forall l p q, list_equals eqb l p = true -> list_equals eqb p q = true -> list_equals eqb l q = true).
Proof.
  intros A eqb He. pose proof He as (E1 & E2 & E3).
  refine (conj (list_equals_refl eqb E1) (conj (list_equals_perm eqb E1) (conj (list_equals_perm_l eqb)
    (conj (fun l p => equiv_list_sym eqb l p He) (list_equals_trans eqb E3))))).
Qed.
Print Assumptions C22_lists.
(** Whole contacts. *)
Theorem C22_reflexive :
  forall (V : Env) (a : addressee), well_formed a -> addressee_eq V a a = true.
Proof. exact contact_eq_refl. Qed.
Print Assumptions C22_reflexive.
Theorem C22_symmetric :
  forall (V : Env) (a b : addressee),
    well_formed a -> well_formed b -> plain_pictures a -> plain_pictures b -> no_equal_elements V a ->
    addressee_eq V a b = true -> addressee_eq V b a = true.
Proof. exact contact_eq_sym. Qed.
Print Assumptions C22_symmetric.
Theorem C22_transitive :
  forall (V : Env) (a b c : addressee), plain_pictures a -> plain_pictures b -> plain_pictures c ->
    addressee_eq V a b = true -> addressee_eq V b c = true -> addressee_eq V a c = true.
Proof. exact contact_eq_trans. Qed.
Print Assumptions C22_transitive.
(** under the same conditions [!=] is the negation of [==] *)
Theorem C22_not_equal :
  forall (V : Env) (a b : addressee),
    well_formed a -> well_formed b -> plain_pictures a -> plain_pictures b ->
    no_equal_elements V a -> no_equal_elements V b ->
    addressee_neq V a b = negb (addressee_eq V a b).
Proof.
  intros V a b Wa Wb Pa Pb Da Db. unfold addressee_neq. f_equal. apply eq_true_iff_eq.
  split; apply contact_eq_sym; auto.
Qed.
Print Assumptions C22_not_equal.
(** Without them symmetry fails, and [a == b] and [a != b] can both be true. *)
Theorem C22_symmetry_refuted :
  exists (a b : addressee), forall V : Env,
    well_formed a /\ well_formed b /\
    addressee_eq V a b = true /\ addressee_eq V b a = false /\ addressee_neq V a b = true.
Proof.
  exists (set_categories [B "x"; B "x"] (addressee_new (B "u"))), (set_categories [B "x"; B "y"] (addressee_new (B "u"))).
  intros V.
  repeat (split; [repeat split; (discriminate || constructor)|]). vm_compute. auto.
Qed.
Print Assumptions C22_symmetry_refuted.
(** Equal contacts may differ in their revision date. *)
Theorem C22_revision_ignored :
  forall (V : Env) (a : addressee) (d : datetime), well_formed a -> addressee_eq V (put_revision d a) a = true.
Proof. intros V a d H. exact (contact_eq_refl V a H). Qed.
Print Assumptions C22_revision_ignored.
(** Nothing else is ignored: equal contacts agree in every other field, lists compared
    without regard to order. *)
Theorem C22_nothing_else_ignored :
  forall (V : Env) (a b : addressee), addressee_eq V a b = true <->
    texts a = texts b
    /\ (dt_eq V (a_birthday a) (a_birthday b) = true /\ a_bdaytime a = a_bdaytime b
        /\ dt_eq V (a_deathdate a) (a_deathdate b) = true)
    /\ (tz_eq (a_tz a) (a_tz b) = true /\ geo_eq (a_geo a) (a_geo b) = true
        /\ secrecy_eq (a_secrecy a) (a_secrecy b) = true /\ gender_eq (a_gender a) (a_gender b) = true)
    /\ (picture_eq (env_img V) (a_logo a) (a_logo b) = true /\ picture_eq (env_img V) (a_photo a) (a_photo b) = true
        /\ sound_eq (a_sound a) (a_sound b) = true)
    /\ (a_customs a = a_customs b /\ pairwise ptext_eq (a_langs a) (a_langs b) /\ pairwise impp_eq (a_impps a) (a_impps b))
    /\ (matched phone_eq (a_phones a) (a_phones b) /\ matched address_eq (a_addresses a) (a_addresses b)
        /\ matched key_eq (a_keys a) (a_keys b) /\ matched email_eq (a_emails a) (a_emails b)
        /\ matched leqb (a_categories a) (a_categories b) /\ matched calurl_eq (a_calurls a) (a_calurls b)
        /\ matched sound_eq (a_xsounds a) (a_xsounds b)
        /\ matched (picture_eq (env_img V)) (a_xphotos a) (a_xphotos b)
        /\ matched (picture_eq (env_img V)) (a_xlogos a) (a_xlogos b)
        /\ matched rurl_eq (a_urls a) (a_urls b) /\ matched leqb (a_members a) (a_members b)
        /\ matched ptext_eq (a_related a) (a_related b) /\ matched leqb (a_sources a) (a_sources b)
        /\ matched fgroup_eq (a_fgroups a) (a_fgroups b) /\ matched ptext_eq (a_titles a) (a_titles b)
        /\ matched ptext_eq (a_roles a) (a_roles b) /\ matched ptext_eq (a_orgs a) (a_orgs b)
        /\ matched ptext_eq (a_nicks a) (a_nicks b) /\ matched ptext_eq (a_pidmaps a) (a_pidmaps b)).
Proof.
  intros V a b.
  assert (M : forall (A : Type) (eqb : A -> A -> bool) l m, list_equals eqb l m = true <-> matched eqb l m).
  { intros A eqb l m. unfold list_equals, matched. rewrite andb_true_iff, Nat.eqb_eq, forallb_forall.
    split; intros [H1 H2]; (split; [exact H1|]); intros x I; specialize (H2 x I).
    - apply existsb_exists in H2. exact H2.
    - apply existsb_exists. exact H2. }
  assert (Q : forall (A : Type) (eqb : A -> A -> bool) l m, list_eqb eqb l m = true <-> pairwise eqb l m).
  { intros A eqb. induction l as [|x l IH]; intros [|y m]; cbn [list_eqb].
    - split; [intros _; constructor|reflexivity].
    - split; [discriminate|intros H; inversion H].
    - split; [discriminate|intros H; inversion H].
    - rewrite andb_true_iff, IH. split; [intros [E F]; constructor; auto|intros H; inversion H; auto]. }
  assert (C : pairwise custom_eq (a_customs a) (a_customs b) <-> a_customs a = a_customs b).
  { unfold pairwise. generalize (a_customs a), (a_customs b). induction l as [|x l IH]; intros [|y m].
    - split; [reflexivity|constructor].
    - split; [intros H; inversion H|discriminate].
    - split; [intros H; inversion H|discriminate].
    - split.
      + intros H. inversion H; subst. f_equal; [apply custom_eq_eq; assumption|apply IH; assumption].
      + intros H. inversion H; subst. constructor; [apply custom_eq_eq; reflexivity|apply IH; reflexivity]. }
  assert (T : texts a = texts b <-> a_uid a = a_uid b /\ a_name a = a_name b /\ a_formatted a = a_formatted b
    /\ a_family a = a_family b /\ a_given a = a_given b /\ a_additional a = a_additional b /\ a_prefix a = a_prefix b
    /\ a_suffix a = a_suffix b /\ a_mailer a = a_mailer b /\ a_department a = a_department b /\ a_note a = a_note b
    /\ a_prodid a = a_prodid b /\ a_sortstring a = a_sortstring b /\ a_kind a = a_kind b).
  { unfold texts. split.
    - intros H. injection H. intros. repeat split; assumption.
    - intros (-> & -> & -> & -> & -> & -> & -> & -> & -> & -> & -> & -> & -> & ->). reflexivity. }
  rewrite T, <- C. clear T C. unfold addressee_eq. rewrite !andb_true_iff, !leqb_eq, !M, !Q, Bool.eqb_true_iff. clear M Q.
  tauto.
Qed.
Print Assumptions C22_nothing_else_ignored.
Example C22_case :
  let a := fold_left do_phone [OpPut (mkPhone (B "1") (B "11") 3 []); OpPut (mkPhone (B "2") (B "22") 9 [])]
             (set_categories [B "x"; B "y"] (addressee_new (B "u"))) in
  let b := fold_left do_phone [OpPut (mkPhone (B "2") (B "22") 9 []); OpPut (mkPhone (B "1") (B "11") 3 [])]
             (set_categories [B "y"; B "x"] (addressee_new (B "u"))) in
  forall V, well_formed a /\ plain_pictures a /\ no_equal_elements V a /\ a <> b /\ addressee_eq V a b = true.
Proof.
  intros a b V. split; [|split; [|split; [|split]]].
  - repeat split; (discriminate || constructor).
  - repeat split; (discriminate || constructor).
  - repeat split; cbn; intros y H; repeat (destruct H as [<-|H]; [reflexivity|]); destruct H.
  - intros E. apply (f_equal a_categories) in E. vm_compute in E. discriminate.
  - vm_compute. reflexivity.
Qed.

(** ** C41: single-value setters over list-valued properties *)
Theorem C41_set_then_get :
  forall (s : ustring) (a : addressee),
    title (set_title s a) = s /\ role (set_role s a) = s /\
    organization (set_organization s a) = s /\ nickname (set_nickname s a) = s.
Proof.
  intros s a. unfold title, role, organization, nickname, set_title, set_role, set_organization, set_nickname, set_first_text.
  repeat split; (match goal with |- context [match ?l with _ => _ end] => destruct l eqn:E end); cbn; auto;
  unfold insert_first_class; destruct s; cbn; rewrite E; auto.
Qed.
Print Assumptions C41_set_then_get.
(** the extra entries stay, and the parameters of the first one *)
Theorem C41_extras_kept :
  forall (s : ustring) (a : addressee),
    tl (a_titles (set_title s a)) = tl (a_titles a) /\ tl (a_roles (set_role s a)) = tl (a_roles a) /\
    tl (a_orgs (set_organization s a)) = tl (a_orgs a) /\ tl (a_nicks (set_nickname s a)) = tl (a_nicks a) /\
    (forall t r, a_titles a = t :: r -> a_titles (set_title s a) = mkPtext (pt_params t) s :: r) /\
    (forall t r, a_roles a = t :: r -> a_roles (set_role s a) = mkPtext (pt_params t) s :: r) /\
    (forall t r, a_orgs a = t :: r -> a_orgs (set_organization s a) = mkPtext (pt_params t) s :: r) /\
    (forall t r, a_nicks a = t :: r -> a_nicks (set_nickname s a) = mkPtext (pt_params t) s :: r).
Proof.
  intros s a. unfold set_title, set_role, set_organization, set_nickname, set_first_text.
  repeat split; try (match goal with |- context [match ?l with _ => _ end] => destruct l eqn:E end; cbn; rewrite ?E; auto;
  unfold insert_first_class; destruct s; cbn; rewrite ?E; reflexivity).
  all: intros t r ->; reflexivity.
Qed.
Print Assumptions C41_extras_kept.
(** the other properties do not change *)
Theorem C41_others_unchanged :
  forall (s : ustring) (a : addressee),
    put_titles [] (put_empty false (put_changed false (set_title s a))) = put_titles [] (put_empty false (put_changed false a)) /\
    put_roles [] (put_empty false (put_changed false (set_role s a))) = put_roles [] (put_empty false (put_changed false a)) /\
    put_orgs [] (put_empty false (put_changed false (set_organization s a))) = put_orgs [] (put_empty false (put_changed false a)) /\
    put_nicks [] (put_empty false (put_changed false (set_nickname s a))) = put_nicks [] (put_empty false (put_changed false a)).
Proof.
  intros s a. unfold set_title, set_role, set_organization, set_nickname, set_first_text, insert_first_class.
  repeat split; (match goal with |- context [match ?l with [] => _ | _ => _ end] => destruct l eqn:E end);
  try reflexivity; destruct (ptext_valid _); reflexivity.
Qed.
Print Assumptions C41_others_unchanged.
(** The overloads taking an object append instead: the value read is unchanged
    whenever there already is one. *)
Theorem C41_object_overload_appends :
  forall (t : ptext) (a : addressee), pt_text t <> [] ->
    let appends (list : addressee -> list ptext) (get : addressee -> ustring) (set : ptext -> addressee -> addressee) :=
      list (set t a) = list a ++ [t] /\
      (list a <> [] -> get (set t a) = get a) /\ (list a = [] -> get (set t a) = pt_text t) in
    appends a_titles title set_title_obj /\ appends a_roles role set_role_obj /\
    appends a_orgs organization set_org_obj /\ appends a_nicks nickname set_nick_obj.
Proof.
  intros t a H appends. unfold appends.
  unfold title, role, organization, nickname, set_title_obj, set_role_obj, set_org_obj, set_nick_obj, insert_title, insert_role, insert_org, insert_nick, insert_first_class, ptext_valid.
  assert (isnil (pt_text t) = false) as -> by (destruct (pt_text t); [destruct (H eq_refl)|reflexivity]).
  cbn [negb]. cbn [a_titles put_titles a_roles put_roles a_orgs put_orgs a_nicks put_nicks touch put_empty].
  repeat split; try (intros ->; reflexivity).
  - intros E. destruct (a_titles a); [destruct (E eq_refl)|reflexivity].
  - intros E. destruct (a_roles a); [destruct (E eq_refl)|reflexivity].
  - intros E. destruct (a_orgs a); [destruct (E eq_refl)|reflexivity].
  - intros E. destruct (a_nicks a); [destruct (E eq_refl)|reflexivity].
Qed.
Print Assumptions C41_object_overload_appends.
Example C41_case :
  let a := set_title (B "Dr") (insert_title (ptext_of (B "y")) (insert_title (ptext_of (B "x")) (addressee_new []))) in
  map pt_text (a_titles a) = [B "Dr"; B "y"] /\ title (set_title_obj (ptext_of (B "z")) a) = B "Dr".
Proof. vm_compute. auto. Qed.

(** ** C42: categories *)
Theorem C42_list :
  forall (uid : ustring) (ops : list cat_op),
    let a := fold_left do_cat ops (addressee_new uid) in
    a_categories a = fold_left cat_list ops [] /\ NoDup (a_categories a).
Proof.
  intros uid ops a. unfold a. rewrite run_cats. split; [reflexivity|]. apply run_cats_nodup. constructor.
Qed.
Print Assumptions C42_list.
Theorem C42_membership :
  forall (uid : ustring) (ops : list cat_op) (c : ustring),
    let a := fold_left do_cat ops (addressee_new uid) in
    has_category c a = fold_left (cat_member c) ops false /\
    (has_category c a = true <-> In c (a_categories a)).
Proof.
  intros uid ops c a. unfold has_category. rewrite contains_existsb. split.
  - unfold a. rewrite run_cats, run_cats_member. reflexivity.
  - apply existsb_leqb_In.
Qed.
Print Assumptions C42_membership.
Example C42_case :
  let a := fold_left do_cat [OpCat (B "x"); OpCat (B "y"); OpCat (B "x"); OpUncat (B "z"); OpCat (B "z"); OpUncat (B "y")] (addressee_new []) in
  a_categories a = [B "x"; B "z"] /\ has_category (B "y") a = false.
Proof. vm_compute. auto. Qed.
