(** C11, C12, C13, C38, C39, C40, C44: contacts written as vCards and read again.

    [round_trip T E v export l res] says that writing the list [l] in version [v] and
    parsing the text ends with the list [res]; [fits T v a] is about the names and
    parameters that are written without escaping, not about the texts of [a].  [T] and
    [E] are the library functions that are not modelled. *)
From Coq Require Import Permutation.
From Verif Require Import Base QtText Utf8 M_ParamMap M_VCard M_VCardText S_Escape S_Card S_Parse S_RoundTrip S_Split P_Split
  M_Split M_Values M_Date M_Addressee M_VCardTool S_Contact
  P_Lines P_Contact P_Fields P_Fields2 P_Types P_Addr P_Fields3 P_Fields4 P_Fields5 P_Fields6 P_Fields7 P_Contact2 P_ContactCase.

(** ** C40: number and order *)
Theorem C40_round_trip :
  forall (T : Tool) (E : Ext) (v : version) (export : bool) (l : list addressee), Forall (fits T v) l ->
    exists res, round_trip T E v export l res /\ length res = length l /\
      Forall2 (fun a b => a_uid a <> [] -> text_safe (a_uid a) -> a_uid b = a_uid a) l res.
Proof.
  intros T E v export l Hf. destruct (trip_exists E T v export l Hf) as (res & Hr & H2). exists res. split; [exact Hr|]. split; [eapply Forall2_len; exact H2|].
  apply (trip_each E T v export l res _ Hf Hr). intros a b Ha Hab Hu Hs. exact (field_uid E T v export a b Ha Hab Hu Hs).
Qed.
Print Assumptions C40_round_trip.
(** the parser's result does not depend on the fuel: there is only one result *)
Theorem C40_one_result :
  forall (T : Tool) (E : Ext) (v : version) (export : bool) (l r1 r2 : list addressee),
    round_trip T E v export l r1 -> round_trip T E v export l r2 -> r1 = r2.
Proof.
  intros T E v export l r1 r2 [n Hn] [m Hm]. specialize (Hn (n + m) ltac:(lia)). specialize (Hm (n + m) ltac:(lia)). congruence.
Qed.
Print Assumptions C40_one_result.
(** texts can be put one after the other *)
Theorem C40_concatenated :
  forall (T : Tool) (E : Ext) (v : version) (export : bool) (l1 l2 : list addressee),
    create_text T E v export (l1 ++ l2) = create_text T E v export l1 ++ create_text T E v export l2.
Proof. intros. unfold create_text, create_vcards. rewrite map_app. apply flat_map_app. Qed.
Print Assumptions C40_concatenated.
(** [parseVCard] returns the first contact of [parseVCards] *)
Theorem C40_first :
  forall (T : Tool) (E : Ext) (v : version) (export : bool) (l res : list addressee) (uid : ustring), Forall (fits T v) l -> round_trip T E v export l res ->
    exists n, forall fuel, n <= fuel -> parse_one T E fuel uid (create_text T E v export l) = Done (hd (addressee_new uid) res).
Proof.
  intros T E v export l res uid Hf [n Hn]. exists n. intros fuel Hle. unfold parse_one. rewrite (Hn fuel Hle). destruct res; reflexivity.
Qed.
Print Assumptions C40_first.
Example C40_case : Forall (fits exT V30) [ex_contact; ex_contact2] /\ a_uid ex_contact <> [] /\ text_safe (a_uid ex_contact).
Proof. split; [exact ex_fits30|]. split; [discriminate|]. apply text_safe_spec. reflexivity. Qed.

(** ** C11: the structured values N, ADR and ORG *)
Theorem C11_name :
  forall (T : Tool) (E : Ext) (v : version) (export : bool) (l res : list addressee), Forall (fits T v) l -> round_trip T E v export l res ->
    Forall2 (fun a b => parts_safe [a_family a; a_given a; a_additional a; a_prefix a; a_suffix a] ->
      a_family b = a_family a /\ a_given b = a_given a /\ a_additional b = a_additional a /\ a_prefix b = a_prefix a /\ a_suffix b = a_suffix a) l res.
Proof.
  intros T E v export l res Hf Hr. apply (trip_each E T v export l res _ Hf Hr). intros a b Ha Hab Hs.
  pose proof (field_n E T v export a b Ha Hab Hs) as H. injection H as H1 H2 H3 H4 H5. auto 8.
Qed.
Print Assumptions C11_name.
Theorem C11_addresses :
  forall (T : Tool) (E : Ext) (v : version) (export : bool) (l res : list addressee), Forall (fits T v) l -> round_trip T E v export l res -> fresh_ids T ->
    Forall2 (fun a b =>
      Forall (fun x => address_safe x /\ address_blank x = false /\ (v <> V40 -> text_safe (ad_label x))) (a_addresses a) ->
      (v <> V40 -> labels_told_apart (a_addresses a)) ->
      Forall2 (fun x y => ad_pobox y = ad_pobox x /\ ad_extended y = ad_extended x /\ ad_street y = ad_street x /\ ad_locality y = ad_locality x /\
                          ad_region y = ad_region x /\ ad_postal y = ad_postal x /\ ad_country y = ad_country x /\ ad_label y = ad_label x)
              (a_addresses a) (a_addresses b)) l res.
Proof.
  intros T E v export l res Hf Hr HT. apply (trip_each E T v export l res _ Hf Hr). intros a b Ha Hab Hs Hl.
  eapply Forall2_imp; [|exact (field_addresses E T v export a b Ha Hab HT Hs Hl)]. unfold address_back. tauto.
Qed.
Print Assumptions C11_addresses.
(** every organisation line carries the department; a contact without organisation
    loses it *)
Theorem C11_organisation :
  forall (T : Tool) (E : Ext) (v : version) (export : bool) (l res : list addressee), Forall (fits T v) l -> round_trip T E v export l res ->
    Forall2 (fun a b => Forall (fun o => parts_safe (pt_text o :: if isnil (a_department a) then [] else [a_department a])) (a_orgs a) ->
      a_orgs b = filter (fun o => negb (isnil (pt_text o))) (a_orgs a) /\
      a_department b = if isnil (a_orgs a) then [] else a_department a) l res.
Proof.
  intros T E v export l res Hf Hr. apply (trip_each E T v export l res _ Hf Hr). intros a b Ha Hab Hs. split.
  - exact (field_orgs E T v export a b Ha Hab Hs).
  - exact (field_department E T v export a b Ha Hab Hs).
Qed.
Print Assumptions C11_organisation.
(** a component ending in a backslash swallows the separator *)
Theorem C11_backslash_refuted :
  forall E : Ext, exists a b, fits exT V30 a /\ round_trip exT E V30 false [a] [b] /\
    a_family a = B "x\" /\ a_given a = B "y" /\ a_family b <> a_family a /\ a_given b <> a_given a.
Proof.
  intros E. exists (put_family (B "x\") (put_given (B "y") (addressee_new (B "u")))). eexists.
  assert (Hf : fits exT V30 (put_family (B "x\") (put_given (B "y") (addressee_new (B "u"))))) by (apply fits_spec; vm_compute; reflexivity).
  split; [exact Hf|]. split; [apply trip_at; [constructor; [exact Hf|constructor]|cbv; reflexivity]|].
  split; [reflexivity|]. split; [reflexivity|]. split; cbv; discriminate.
Qed.
Print Assumptions C11_backslash_refuted.
Lemma separable_b l : forallb (fun s => negb (N.eqb (last s 0%N) cBS)) l = true -> separable l.
Proof.
  rewrite forallb_forall. intros H before p q after -> [r ->]. specialize (H (r ++ [cBS]) ltac:(apply in_or_app; right; left; reflexivity)).
  rewrite last_last in H. discriminate.
Qed.
Lemma parts_b l : forallb text_safe_b l = true -> forallb (fun s => negb (N.eqb (last s 0%N) cBS)) l = true -> parts_safe l.
Proof. intros H1 H2. split; [eapply forallb_Forall; [exact text_safe_spec|exact H1]|apply separable_b; exact H2]. Qed.
Lemma ex_labels : labels_told_apart [ex_address; ex_address2].
Proof.
  intros l1 x l2 H Hx. destruct l1 as [|y [|z l1]]; [constructor| |].
  - injection H as <- <- <-. repeat constructor. cbv. discriminate.
  - injection H as _ _ H. destruct l1; discriminate.
Qed.
Example C11_case : let a := ex_contact in
  parts_safe [a_family a; a_given a; a_additional a; a_prefix a; a_suffix a] /\
  Forall (fun o => parts_safe (pt_text o :: if isnil (a_department a) then [] else [a_department a])) (a_orgs a) /\
  Forall (fun x => address_safe x /\ address_blank x = false /\ (V30 <> V40 -> text_safe (ad_label x))) (a_addresses a) /\
  labels_told_apart (a_addresses a) /\ fresh_ids exT.
Proof.
  cbv zeta. split; [apply parts_b; reflexivity|]. split; [repeat constructor; apply text_safe_spec || apply separable_b; reflexivity|].
  split.
  { repeat (apply Forall_cons; [split; [apply parts_b; reflexivity|split; [reflexivity|intros _; apply text_safe_spec; reflexivity]]|]). apply Forall_nil. }
  split; [|exact ex_fresh].
  exact ex_labels.
Qed.

(** ** C12: categories *)
Theorem C12_categories :
  forall (T : Tool) (E : Ext) (v : version) (export : bool) (l res : list addressee), v <> V21 -> Forall (fits T v) l -> round_trip T E v export l res ->
    Forall2 (fun a b => Forall (fun c => c <> [] /\ ~ In 92%N c /\ text_ok c = true) (a_categories a) -> a_categories b = a_categories a) l res.
Proof.
  intros T E v export l res Hv Hf Hr. apply (trip_each E T v export l res _ Hf Hr). intros a b Ha Hab Hs. rewrite Forall_forall in Hs.
  apply (field_categories E T v export a b Ha Hab Hv).
  - split.
    + apply Forall_forall. intros c Hc. destruct (Hs c Hc) as (_ & H1 & H2). split; [exact H2|]. intros (p & t & x & Hx & _). apply H1. rewrite Hx. apply in_or_app. right. left. reflexivity.
    + intros before p q after Hl [r Hp]. destruct (Hs p) as (_ & H1 & _); [rewrite Hl; apply in_or_app; right; left; reflexivity|]. apply H1. rewrite Hp. apply in_or_app. right. left. reflexivity.
  - intros Hx. destruct (Hs []) as (H1 & _); [rewrite Hx; left; reflexivity|]. congruence.
Qed.
Print Assumptions C12_categories.
(** also with backslashes, as long as no category but the last ends in one and none
    contains a backslash before n or r *)
Theorem C12_categories_backslash :
  forall (T : Tool) (E : Ext) (v : version) (export : bool) (l res : list addressee), v <> V21 -> Forall (fits T v) l -> round_trip T E v export l res ->
    Forall2 (fun a b => parts_safe (a_categories a) -> a_categories a <> [[]] -> a_categories b = a_categories a) l res.
Proof.
  intros T E v export l res Hv Hf Hr. apply (trip_each E T v export l res _ Hf Hr). intros a b Ha Hab. exact (field_categories E T v export a b Ha Hab Hv).
Qed.
Print Assumptions C12_categories_backslash.
(** version 2.1 does not write them *)
Theorem C12_version21_refuted :
  forall E : Ext, exists a b, fits exT V21 a /\ round_trip exT E V21 false [a] [b] /\ a_categories a = [B "x"] /\ a_categories b = [].
Proof.
  intros E. exists (put_categories [B "x"] (addressee_new (B "u"))). eexists.
  assert (Hf : fits exT V21 (put_categories [B "x"] (addressee_new (B "u")))) by (apply fits_spec; vm_compute; reflexivity).
  split; [exact Hf|]. split; [apply trip_at; [constructor; [exact Hf|constructor]|cbv; reflexivity]|]. split; reflexivity.
Qed.
Print Assumptions C12_version21_refuted.
Example C12_case : a_categories ex_contact = [B "Friends, old"; B "a;b"; B "c"] /\
  Forall (fun c => c <> [] /\ ~ In 92%N c /\ text_ok c = true) (a_categories ex_contact).
Proof. split; [reflexivity|]. repeat (apply Forall_cons; [split; [discriminate|split; [apply BaseFacts.mem_false; reflexivity|reflexivity]]|]). apply Forall_nil. Qed.
