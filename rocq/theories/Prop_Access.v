(** C62: addresses, pictures and members of groups as variables.  C63: labels.
    Further theorems of C09, C19, C33, C41, C61.

    [aread], [awrite], [acalls], [aset], [picture_call], [picture_set], [picture_after],
    [picture_shows], [custom_calls], [last_call], [clear_words], [phone_words],
    [address_words] (S_Access). *)
From Verif Require Import Base BaseFacts QtText M_ParamMap M_VCard M_Values M_Addressee M_ContactGroup M_AddressFormat P_AddressFormat
  S_Card P_Assoc P_Card M_Access S_Access P_Access S_ContactGroup P_ContactGroup Prop_AddressFormat Prop_Api.
Import ListNotations.

(** ** C62 *)

(** A getter of an address returns what the last call of its setter was given; the others
    return what they returned; an address is no longer empty after any setter. *)
Theorem C62_address_last_write :
  forall (a : address) (before after : list acall) (f : afield) (v : avalue f),
    Forall (fun c => projT1 c <> f) after -> aread f (acalls (before ++ aset f v :: after) a) = v.
Proof.
  intros a before after f v H. unfold acalls. rewrite fold_left_app. cbn [fold_left]. fold (acalls before a).
  change (aread f (acalls after (awrite f v (acalls before a))) = v). rewrite acalls_untouched by exact H. apply aread_same.
Qed.
Print Assumptions C62_address_last_write.
Theorem C62_address_untouched :
  forall (a : address) (cs : list acall) (f : afield), Forall (fun c => projT1 c <> f) cs -> aread f (acalls cs a) = aread f a.
Proof. intros a cs f. apply acalls_untouched. Qed.
Print Assumptions C62_address_untouched.
Theorem C62_address_empty :
  forall (id : ustring) (t : N) (cs : list acall), ad_empty (acalls cs (address_new id t)) = true <-> cs = [].
Proof.
  intros id t cs. split; [|intros ->; reflexivity]. intros H. destruct cs as [|c cs]; [reflexivity|]. rewrite acalls_empty in H by discriminate. discriminate H.
Qed.
Print Assumptions C62_address_empty.
Example C62_address_case :
  let a := acalls [aset AStreet (B "A 1"); aset ALocality (B "X"); aset AStreet (B "B 2"); aset AType 5%N] (address_new (B "i") 0) in
  ad_street a = B "B 2" /\ ad_locality a = B "X" /\ ad_type a = 5%N /\ ad_id a = B "i" /\ ad_empty a = false.
Proof. vm_compute. auto. Qed.

(** A picture shows what the last setting call gave it, however often data() and rawData()
    are called in between (they fill each other's cache). *)
Theorem C62_picture :
  forall (I : ImgExt) (p : picture) (before : list picture_call) (c : picture_call) (rs : list picture_read),
    picture_shows I c (fold_left (fun p r => picture_after I r p) rs (picture_set c (fold_left (fun p c => picture_set c p) before p))).
Proof.
  intros I p before c rs. generalize (fold_left (fun p c => picture_set c p) before p). intros q.
  assert (K : forall rs x, picture_shows I c x -> picture_shows I c (fold_left (fun p r => picture_after I r p) rs x)).
  { induction rs0 as [|r rs0 IH]; intros x H; [exact H|]. cbn [fold_left]. apply IH. apply shows_after. exact H. }
  apply K. apply shows_set.
Qed.
Print Assumptions C62_picture.
Example C62_picture_case :
  let I := {| img_load := fun d => Some (1%N :: d); img_save := fun i t => i ++ t |} in
  let p := fold_left (fun p r => picture_after I r p) [ReadData; ReadRaw; ReadData] (picture_set (PRaw [7%N] (B "png")) (picture_set (PData (Some [9%N]) false) picture_new)) in
  pi_raw_of I p = [7%N] /\ pi_data_of I p = Some [1%N; 7%N] /\ pi_type p = B "png" /\ pi_intern p = true.
Proof. vm_compute. auto. Qed.

(** custom(key) of a member of a group is the value of the last insertCustom(key, ...)
    after the last removeCustom(key); nothing else of the member changes. *)
Theorem C62_member_customs :
  forall (cs : list (ustring * option ustring)) (uid k : ustring) (name mail : ustring),
    let r := custom_calls cr_insert_custom cr_remove_custom cs (cref_of uid) in
    let g := custom_calls gr_insert_custom gr_remove_custom cs (gref_of uid) in
    let d := custom_calls cd_insert_custom cd_remove_custom cs (cd_set_name name (cd_set_email mail cdata_new)) in
    (cr_custom k r = last_call k cs /\ cr_uid r = uid /\ cr_gid r = [] /\ cr_email r = []) /\
    (gr_custom k g = last_call k cs /\ gr_uid g = uid) /\
    (cd_custom k d = last_call k cs /\ cd_name d = name /\ cd_email d = mail).
Proof.
  intros cs uid k name mail r g d. unfold r, g, d, cr_custom, gr_custom, cd_custom. repeat split.
  - rewrite (custom_calls_value cr_customs) by reflexivity. reflexivity.
  - rewrite (custom_calls_same cr_uid) by reflexivity. reflexivity.
  - rewrite (custom_calls_same cr_gid) by reflexivity. reflexivity.
  - rewrite (custom_calls_same cr_email) by reflexivity. reflexivity.
  - rewrite (custom_calls_value gr_customs) by reflexivity. reflexivity.
  - rewrite (custom_calls_same gr_uid) by reflexivity. reflexivity.
  - rewrite (custom_calls_value cd_customs) by reflexivity. reflexivity.
  - rewrite (custom_calls_same cd_name) by reflexivity. reflexivity.
  - rewrite (custom_calls_same cd_email) by reflexivity. reflexivity.
Qed.
Print Assumptions C62_member_customs.
Example C62_member_case :
  let r := custom_calls cr_insert_custom cr_remove_custom [(B "b", Some (B "1")); (B "a", Some (B "2")); (B "b", None); (B "a", Some (B "3"))] (cref_of (B "u")) in
  cr_custom (B "a") r = B "3" /\ cr_custom (B "b") r = [] /\ cr_customs r = [(B "a", B "3")].
Proof. vm_compute. auto. Qed.

(** ** C63 *)

(** Different sets of telephone types have different labels, if the translation tells the
    words apart. *)
Theorem C63_phone_labels :
  forall (tr : ustring -> ustring) (t u : N), clear_words tr phone_words -> (t < 2 ^ 15)%N -> (u < 2 ^ 15)%N ->
    phone_type_label tr t = phone_type_label tr u -> t = u.
Proof. exact phone_label_inj. Qed.
Print Assumptions C63_phone_labels.
(** Different sets of address types have different labels. *)
Theorem C63_address_labels :
  forall (tr : ustring -> ustring) (t u : N), clear_words tr address_words -> (t < 2 ^ 7)%N -> (u < 2 ^ 7)%N ->
    address_type_label tr t = address_type_label tr u -> t = u.
Proof. exact address_label_inj. Qed.
Print Assumptions C63_address_labels.
(** The words of a label are the labels of the flags set, separated by slashes, in the
    order of typeList(). *)
Theorem C63_address_words :
  forall (tr : ustring -> ustring) (t : N),
    address_type_label tr t = join [47%N] (map (address_flag_label tr) (filter (fun f => negb (N.eqb (N.land t f) 0)) address_types)).
Proof. intros tr t. rewrite address_label_pieces. unfold address_pieces. rewrite map_map. reflexivity. Qed.
Print Assumptions C63_address_words.
Theorem C63_phone_words :
  forall (tr : ustring -> ustring) (t : N), t <> tPref ->
    (N.land t tFax = 0%N \/ (N.land t tHome = 0%N /\ N.land t tWork = 0%N)) ->
    phone_type_label tr t = join [47%N] (map (phone_flag_label tr) (filter (fun f => negb (N.eqb (N.land t f) 0)) phone_types)).
Proof.
  intros tr t Hp H. rewrite phone_label_pieces. unfold phone_pieces. apply N.eqb_neq in Hp. rewrite Hp. unfold flag_set.
  assert (K : forall l, map (phone_flag_label tr) l = map tr (map (phone_flag_label (fun s => s)) l)) by (intros l; rewrite map_map; reflexivity).
  rewrite K. destruct H as [->|[-> ->]]; [reflexivity|]. cbn [N.eqb negb]. destruct (N.land t tFax =? 0)%N; reflexivity.
Qed.
Print Assumptions C63_phone_words.
(** Key types and secrecy types. *)
Theorem C63_other_labels :
  forall (tr : ustring -> ustring), (forall x y, tr x = tr y -> x = y) ->
    (forall t u, key_type_label tr t = key_type_label tr u -> t = u) /\
    (forall s q, secrecy_label tr s = secrecy_label tr q -> s = q).
Proof.
  intros tr H. split; [intros t u K|intros t u K]; unfold key_type_label, secrecy_label in K; apply H in K; destruct t, u; try reflexivity; discriminate K.
Qed.
Print Assumptions C63_other_labels.
(** The lists of types are complete and without repetition: every single flag of telephone and address types, every type of
    key, every secrecy but the invalid one. *)
Theorem C63_type_lists :
  NoDup phone_types /\ (forall f, In f phone_types <-> exists n, (n < 15)%N /\ f = (2 ^ n)%N) /\
  NoDup address_types /\ (forall f, In f address_types <-> exists n, (n < 7)%N /\ f = (2 ^ n)%N) /\
  NoDup key_types /\ (forall t, In t key_types) /\
  NoDup secrecy_types /\ (forall s, In s secrecy_types <-> s <> SInvalid).
Proof.
  assert (K : forall k l, (forall n, (n < k)%N -> In (2 ^ n)%N l) -> Forall (fun f => (f = 2 ^ N.log2 f)%N /\ (N.log2 f < k)%N) l ->
                forall f, In f l <-> exists n, (n < k)%N /\ f = (2 ^ n)%N).
  { intros k l H1 H2 f. rewrite Forall_forall in H2. split; [intros H; exists (N.log2 f); split; apply H2, H|intros (n & H & ->); auto]. }
  assert (C : forall k l, forallb (fun n => mem (2 ^ N.of_nat n)%N l) (seq 0 (N.to_nat k)) = true -> forall n, (n < k)%N -> In (2 ^ n)%N l).
  { intros k l H n Hn. rewrite forallb_forall in H. specialize (H (N.to_nat n)). rewrite N2Nat.id in H. apply BaseFacts.mem_In, H, in_seq. lia. }
  split; [repeat constructor; cbv; intuition discriminate|]. split.
  { apply K; [apply C; reflexivity|]. repeat constructor. }
  split; [repeat constructor; cbv; intuition discriminate|]. split.
  { apply K; [apply C; reflexivity|]. repeat constructor. }
  split; [repeat constructor; cbv; intuition discriminate|]. split; [intros []; cbv; auto|].
  split; [repeat constructor; cbv; intuition discriminate|]. intros []; cbv; intuition discriminate.
Qed.
Print Assumptions C63_type_lists.
(** Refuted for the member function typeLabel() of addresses, which leaves the preference
    out: a preferred address has the label of the same address without preference, and an
    address that is only preferred has no label. *)
Theorem C63_address_member_refuted :
  forall (tr : ustring -> ustring) (a : address),
    address_label tr (ad_set_type (N.lor (ad_type a) aPref) a) = address_label tr a /\
    address_label tr (ad_set_type aPref a) = [].
Proof.
  intros tr a. split; [|reflexivity]. unfold address_label. f_equal.
  assert (K : forall f s, In f address_types ->
    (if flag_set (N.lor (ad_type a) aPref) f && negb (f =? aPref)%N then s ++ 47%N :: address_type_label tr f else s) =
    (if flag_set (ad_type a) f && negb (f =? aPref)%N then s ++ 47%N :: address_type_label tr f else s)).
  { intros f s Hf. unfold address_types in Hf. cbn [In] in Hf. unfold flag_set. rewrite N.land_lor_distr_l.
    repeat (destruct Hf as [<-|Hf]; [cbn [N.eqb negb Pos.eqb andb aPref aDom aIntl aPostal aParcel aHome aWork]; rewrite ?andb_false_r; try reflexivity;
      rewrite ?andb_true_r; cbn; rewrite ?N.lor_0_r; reflexivity|]).
    destruct Hf. }
  cbn [ad_type ad_set_type]. generalize (@nil N). revert K. generalize address_types. intros l K.
  induction l as [|f l IH]; intros s; [reflexivity|]. cbn [fold_left]. rewrite (K f s) by (left; reflexivity). apply IH. intros g s' Hg. apply K. right. exact Hg.
Qed.
Print Assumptions C63_address_member_refuted.
(** Refuted for resource locators: several types have the label of Other. *)
Theorem C63_url_label_refuted :
  exists r q : rurl, rurl_type r <> rurl_type q /\ forall tr, url_label tr r = url_label tr q.
Proof.
  exists (rurl_set_type 8 (mkRurl [] [])), (rurl_set_type 16 (mkRurl [] [])). split; [vm_compute; discriminate|]. intros tr. reflexivity.
Qed.
Print Assumptions C63_url_label_refuted.
Example C63_case :
  let tr := fun s : ustring => s in
  clear_words tr phone_words /\ clear_words tr address_words /\
  phone_type_label tr 43 = B "Home Fax/Work/Preferred" /\ phone_type_label tr 42 = B "Work Fax/Preferred" /\
  phone_type_label tr 8 = B "Preferred Number" /\ address_type_label tr 80 = B "Home/Preferred Address" /\
  address_label tr (address_new (B "i") 80) = B "Home".
Proof.
  intros tr. assert (K : forall ws, forallb (fun w => negb (isnil w) && negb (existsb (N.eqb 47) w)) ws = true -> clear_words tr ws).
  { intros ws H. split; [intros x y _ _ E; exact E|]. rewrite forallb_forall in H. rewrite Forall_forall. intros w Hw. specialize (H w Hw).
    apply andb_true_iff in H as [H1 H2]. unfold tr. split; [intros ->; discriminate H1|]. intros Hi. apply negb_true_iff in H2.
    assert (T : existsb (N.eqb 47) w = true) by (apply existsb_exists; exists 47%N; split; [exact Hi|reflexivity]). congruence. }
  split; [apply K; vm_compute; reflexivity|]. split; [apply K; vm_compute; reflexivity|]. vm_compute. auto.
Qed.

(** Questions about the type of a number. *)
Theorem C63_phone_questions :
  forall (p : phone) (t : N),
    phone_preferred (ph_set_type t p) = N.testbit t 3 /\ phone_sms (ph_set_type t p) = N.testbit t 6.
Proof.
  assert (K : forall t k : N, flag_set t (2 ^ k)%N = N.testbit t k).
  { intros t k. unfold flag_set. destruct (N.eqb_spec (N.land t (2 ^ k)) 0) as [H|H]; cbn [negb]; destruct (N.testbit t k) eqn:E; try reflexivity; exfalso.
    - assert (X : N.testbit (N.land t (2 ^ k)) k = false) by (rewrite H; apply N.bits_0). rewrite N.land_spec, N.pow2_bits_true, E in X. discriminate X.
    - apply H. apply N.bits_inj_0. intros i. rewrite N.land_spec, N.pow2_bits_eqb.
      destruct (N.eqb_spec k i) as [<-|]; [rewrite E; reflexivity|apply andb_false_r]. }
  intros p t. split; [exact (K t 3%N)|exact (K t 6%N)].
Qed.
Print Assumptions C63_phone_questions.
Example C63_questions_case :
  let p := ph_set_type (N.lor tCell tWork) (phone_of (B "i") (B "12") 0) in phone_sms p = true /\ phone_preferred p = false /\ phone_preferred (ph_set_type (N.lor tPref tHome) p) = true.
Proof. vm_compute. auto. Qed.

(** ** C33: the geo URL of an address *)
(** Coordinates win; without them the formatted address is the query; an empty address has
    the empty URL; nothing is read outside the formats. *)
Theorem C33_geo_uri :
  forall (X : FmtExt) (num : flt -> ustring) (a : address), (forall c, (fx_script X c < 4)%nat) ->
    (geo_valid (ad_geo a) = true -> geo_uri X num a = Some (mkUri (B "geo") (num (g_lat (ad_geo a)) ++ B "," ++ num (g_lon (ad_geo a))) [])) /\
    (geo_valid (ad_geo a) = false -> ad_empty a = true -> geo_uri X num a = Some (mkUri [] [] [])) /\
    (geo_valid (ad_geo a) = false -> ad_empty a = false ->
     exists q, formatted X a GeoQuery [] [] = Some q /\ geo_uri X num a = Some (mkUri (B "geo") (B "0,0") [(B "q", q)])).
Proof.
  intros X num a Hs. unfold geo_uri. repeat split; intros H; [rewrite H; reflexivity|intros H2; rewrite H, H2; reflexivity|].
  intros H2. rewrite H, H2. cbn [negb]. unfold formatted at 1 2.
  destruct (C33_total X a [] [] (format_for_address X a Generic) GeoQuery Hs) as (q & Hq). exists q.
  cbv zeta. unfold formatted. cbv beta iota zeta. rewrite Hq. auto.
Qed.
Print Assumptions C33_geo_uri.
(** ** C19: keys *)
(** keys(type, custom): exactly the keys of the type (and of the custom type, if one is
    asked for and the type is Custom), in order; key(type, custom) is the first of them,
    and an empty key of the type if there is none. *)
Theorem C19_keys :
  forall (t : keytype) (custom : ustring) (a : addressee) (defid : ustring) (test : key -> bool),
    (forall k, test k = true <-> ke_type k = t /\ (t = KCustom -> custom <> [] -> ke_custom k = custom)) ->
    keys_of_type t custom a = filter test (a_keys a) /\
    key_of_type defid t custom a = match filter test (a_keys a) with k :: _ => k | [] => key_of defid [] t end.
Proof.
  intros t custom a defid test Ht.
  assert (E : forall k, key_matches t custom k = test k).
  { intros k. apply eq_true_iff_eq. rewrite Ht. unfold key_matches. rewrite andb_true_iff.
    assert (T : keytype_eq (ke_type k) t = true <-> ke_type k = t) by (destruct (ke_type k), t; cbn; split; intros; congruence). rewrite T.
    destruct t; cbn [keytype_eq]; [split; [intros [H _]; split; [exact H|discriminate]|intros [H _]; auto]..|].
    rewrite orb_true_iff, leqb_eq. destruct custom as [|c cs]; cbn [isnil].
    - split; [intros [H _]; split; [exact H|congruence]|intros [H _]; auto].
    - split; [intros [H [K|K]]; [discriminate K|auto]|]. intros [H K]. split; [exact H|]. right. apply K; [reflexivity|discriminate]. }
  unfold keys_of_type, key_of_type. rewrite (filter_ext _ _ E). split; [reflexivity|]. clear Ht. induction (a_keys a) as [|k l IH]; [reflexivity|].
  cbn [find filter]. rewrite E. destruct (test k); [reflexivity|exact IH].
Qed.
Print Assumptions C19_keys.
Example C19_keys_case :
  let k1 := mkKey (B "1") [] (B "x") [] KPGP false in let k2 := mkKey (B "2") (B "y") [] (B "SSH") KCustom true in let k3 := mkKey (B "3") [] (B "z") [] KPGP false in
  let a := insert_key k3 (insert_key k2 (insert_key k1 (addressee_new []))) in
  keys_of_type KPGP [] a = [k1; k3] /\ key_of_type (B "d") KCustom (B "SSH") a = k2 /\ key_of_type (B "d") KCustom [] a = k2 /\
  ke_text (key_of_type (B "d") KX509 [] a) = [] /\ keys_of_type KCustom (B "GPG") a = [].
Proof. vm_compute. auto. Qed.

(** ** C29: members by position *)
(** contactReference(i), contactGroupReference(i) and data(i) are the members at that position
    of the lists that the calls made; a position behind the end is outside the list. *)
Theorem C29_positions :
  forall (ops : list cg_op) (g : cgroup) (rs : list cref) (gs : list gref) (ds : list cdata),
    expected cref_eq (cg_refs g) (map ref_effect ops) rs -> expected gref_eq (cg_grefs g) (map gref_effect ops) gs ->
    expected cdata_eq (cg_data g) (map data_effect ops) ds ->
    forall i, cg_ref_at i (run_cg ops g) = nth_error rs i /\ cg_gref_at i (run_cg ops g) = nth_error gs i /\
              cg_data_at i (run_cg ops g) = nth_error ds i.
Proof.
  intros ops g rs gs ds H1 H2 H3 i. unfold cg_ref_at, cg_gref_at, cg_data_at.
  rewrite (expected_fun _ _ _ _ _ H1 (run_refs ops g)), (expected_fun _ _ _ _ _ H2 (run_grefs ops g)), (expected_fun _ _ _ _ _ H3 (run_data ops g)). auto.
Qed.
Print Assumptions C29_positions.
Example C29_positions_case :
  let g := run_cg [CAddRef (cref_of (B "a")); CAddGref (gref_of (B "g")); CAddRef (cref_of (B "b")); CAddRef (cref_of (B "c")); CDelRef (cref_of (B "a"))] (cgroup_new (B "i")) in
  cg_ref_at 0 g = Some (cref_of (B "b")) /\ cg_ref_at 1 g = Some (cref_of (B "c")) /\ cg_ref_at 2 g = None /\ cg_gref_at 0 g = Some (gref_of (B "g")).
Proof. vm_compute. auto. Qed.

(** ** C61: the home page *)
(** Refuted for setUrl: on a contact with a home page it appends to the list of URLs, and
    url() goes on to return the old one. *)
Theorem C61_url_refuted :
  forall (V : Env) (u : qurl) (a : addressee), url_valid (env_url V) u = true ->
    a_urls (set_url V u a) = a_urls a ++ [mkRurl [] u] /\
    (a_urls a <> [] -> main_url (set_url V u a) = main_url a) /\
    (a_urls a = [] -> ru_url (main_url (set_url V u a)) = u).
Proof.
  intros V u a H. unfold set_url, insert_url, rurl_valid, main_url. cbn [ru_url]. rewrite H.
  assert (E : a_urls (put_urls (a_urls a ++ [mkRurl [] u]) (touch a)) = a_urls a ++ [mkRurl [] u]) by (destruct a; reflexivity). rewrite E.
  split; [reflexivity|]. split; [intros Hn; destruct (a_urls a); [congruence|reflexivity]|intros ->; reflexivity].
Qed.
Print Assumptions C61_url_refuted.
Example C61_url_case :
  let a := set_url noV (B "http://b") (set_url noV (B "http://a") (addressee_new [])) in
  ru_url (main_url a) = B "http://a" /\ map ru_url (a_urls a) = [B "http://a"; B "http://b"].
Proof. vm_compute. auto. Qed.

(** ** C09: the first line; the version *)
Theorem C09_line :
  forall (lines : list vline) (id : ustring),
    card_line id (card_of lines) = match find (fun l => leqb (vl_id l) id) lines with Some l => l | None => vline_empty end.
Proof.
  intros lines id. unfold card_line. rewrite card_lines_spec. induction lines as [|l ls IH]; [reflexivity|]. cbn [filter find].
  destruct (leqb (vl_id l) id); [reflexivity|exact IH].
Qed.
Print Assumptions C09_line.
(** The version of a card is the text of its first VERSION line; other texts than 2.1 and
    3.0 stand for 4.0, a card without such a line is of version 3.0. *)
Theorem C09_version :
  forall (lines : list vline),
    let first := find (fun l => leqb (vl_id l) (B "VERSION")) lines in
    let says s l := vl_value l = QStr (B s) \/ vl_value l = QBytes (B s) in
    (card_version (card_of lines) = Some V21 <-> exists l, first = Some l /\ says "2.1"%string l) /\
    (card_version (card_of lines) = Some V30 <-> first = None \/ exists l, first = Some l /\ says "3.0"%string l) /\
    card_version (card_of lines) <> None.
Proof.
  intros lines first says. assert (Hc : card_version (card_of lines) = match first with None => Some V30 | Some l => match vl_value l with QStr s | QBytes s => if leqb s (B "2.1") then Some V21 else if leqb s (B "3.0") then Some V30 else Some V40 | QInvalid => Some V40 end end).
  { destruct (card_of_ok lines) as [_ Hf]. unfold card_version. rewrite (Hf (B "VERSION")). unfold first. clear. unfold of_id. generalize (B "VERSION"). intros id.
    induction lines as [|l ls IH]; [reflexivity|]. cbn [filter find]. destruct (leqb (vl_id l) id); [reflexivity|exact IH]. }
  rewrite Hc. clear Hc. destruct first as [l|]; [|split; [split; [discriminate|intros (l & H & _); discriminate]|split; [split; auto|discriminate]]].
  assert (H : forall s, (exists l0, Some l = Some l0 /\ says s l0) <-> says s l) by (intros s; split; [intros (l0 & Hl & H); injection Hl as <-; exact H|intros H; exists l; auto]).
  rewrite !H. unfold says. destruct (vl_value l) as [|u|u].
  - split; [|split; [|discriminate]]; (split; [discriminate|intros Hx; exfalso; intuition discriminate]).
  - destruct (leqb_spec u (B "2.1")) as [->|N1]; [|destruct (leqb_spec u (B "3.0")) as [->|N2]].
    + split; [split; auto|split; [split; [discriminate|intros Hx; exfalso; intuition discriminate]|discriminate]].
    + split; [split; [discriminate|intros Hx; exfalso; intuition discriminate]|split; [split; auto|discriminate]].
    + split; [|split; [|discriminate]]; (split; [discriminate|intros Hx; exfalso; intuition congruence]).
  - destruct (leqb_spec u (B "2.1")) as [->|N1]; [|destruct (leqb_spec u (B "3.0")) as [->|N2]].
    + split; [split; auto|split; [split; [discriminate|intros Hx; exfalso; intuition discriminate]|discriminate]].
    + split; [split; [discriminate|intros Hx; exfalso; intuition discriminate]|split; [split; auto|discriminate]].
    + split; [|split; [|discriminate]]; (split; [discriminate|intros Hx; exfalso; intuition congruence]).
Qed.
Print Assumptions C09_version.
Example C09_version_case : card_version (card_of [vline_new (B "VERSION") (QBytes (B "3.0")); vline_new (B "VERSION") (QStr (B "2.1"))]) = Some V30 /\
  card_version (card_of [vline_new (B "VERSION") (QStr (B "5"))]) = Some V40.
Proof. vm_compute. auto. Qed.
(** Refuted for setVersion: the text of the version becomes the identifier of the line added,
    not its value.  Whatever version is set, version() is 4.0 if the card had no version, and
    what it was otherwise. *)
Theorem C09_set_version_refuted :
  forall (v : version) (lines : list vline),
    let c := card_of lines in
    card_version (card_set_version v c) =
    (if existsb (fun l => leqb (vl_id l) (B "VERSION")) lines then card_version c else Some V40).
Proof.
  intros v lines c. destruct (card_of_ok lines) as [Hs Hf]. fold c in Hs, Hf. specialize (Hf (B "VERSION")). unfold card_set_version.
  assert (E : existsb (fun l => leqb (vl_id l) (B "VERSION")) lines = negb (isnil (of_id (B "VERSION") lines))).
  { clear. unfold of_id. generalize (B "VERSION"). intros id. induction lines as [|l ls IH]; [reflexivity|]. cbn [existsb filter]. rewrite IH. destruct (leqb (vl_id l) id); reflexivity. }
  rewrite E. clear E. destruct (of_id (B "VERSION") lines) as [|l ls]; cbn [isnil negb]; rewrite Hf.
  - unfold card_version. rewrite insert_entry_ains, find_lines_afind, ains_find by (rewrite <- find_lines_afind; exact Hf). rewrite leqb_refl. reflexivity.
  - unfold card_version. rewrite append_line_aupd, find_lines_afind, aupd_find, leqb_refl. rewrite <- find_lines_afind, Hf. reflexivity.
Qed.
Print Assumptions C09_set_version_refuted.
Example C09_set_version_case :
  card_version (card_set_version V21 (card_of [])) = Some V40 /\
  card_version (card_set_version V21 (card_of [vline_new (B "VERSION") (QStr (B "3.0"))])) = Some V30.
Proof. vm_compute. auto. Qed.
