(** Exporting what was imported: lemmas for C90. *)
From Verif Require Import Base BaseFacts Utf8 QtText M_ParamMap M_Values M_Date M_Addressee M_ContactGroup M_Ldif S_Ldif S_LdifContact S_LdifStable P_Types P_Date P_LdifBack P_LdifStreet P_LdifGroup.
Local Open Scope list_scope.
Local Open Scope nat_scope.

Lemma two_lines_kept s : two_lines s -> carried_street s = s.
Proof.
  intros [->|[(N & F)|(x & y & -> & NX & NY & X & Y)]]; [reflexivity| |].
  - apply (street_kept s s N N F F).
  - apply (street_kept x y NX NY X Y).
Qed.

(** ** Phone numbers *)
Fixpoint pick_number (t : N) (cur : ustring) (l : list (N * ustring)) : ustring :=
  match l with
  | [] => cur
  | (ty, n) :: r => if match_pattern ty t then if negb (N.eqb (N.land ty tPref) 0) then n
                    else if isnil cur then pick_number t n r else pick_number t cur r
                    else pick_number t cur r
  end.
Lemma pick_number_eq t l : forall cur,
  ph_number (pick ph_type tPref (fun p => isnil (ph_number p)) t cur l) = pick_number t (ph_number cur) (map (fun p => (ph_type p, ph_number p)) l).
Proof.
  induction l as [|x l IH]; intros cur; [reflexivity|]. cbn [pick map pick_number]. destruct (match_pattern _ t); [|apply IH].
  destruct (negb _); [reflexivity|]. destruct (isnil (ph_number cur)); apply IH.
Qed.
Lemma phones_again a b : map (fun p => (ph_type p, ph_number p)) (a_phones b) = carried_phones a ->
  forall t, In t [tWork; tFax; tHome; tCell; tPager] -> ph_number (phone_number [] t b) = simplified (ph_number (phone_number [] t a)).
Proof.
  intros M t T. unfold phone_number at 1. rewrite pick_number_eq, M. unfold carried_phones. cbn [flat_map ph_number phone_of].
  change (simplified []) with (@nil N).
  set (f := fun t => simplified (ph_number (phone_number [] t a))).
  change (simplified (ph_number (phone_number [] tWork a))) with (f tWork). change (simplified (ph_number (phone_number [] tFax a))) with (f tFax).
  change (simplified (ph_number (phone_number [] tHome a))) with (f tHome). change (simplified (ph_number (phone_number [] tCell a))) with (f tCell).
  change (simplified (ph_number (phone_number [] tPager a))) with (f tPager). change (simplified (ph_number (phone_number [] t a))) with (f t). clearbody f.
  cbn [In] in T. destruct T as [<-|[<-|[<-|[<-|[<-|[]]]]]];
  destruct (f tWork) eqn:F1, (f tFax) eqn:F2, (f tHome) eqn:F3, (f tCell) eqn:F4, (f tPager) eqn:F5; reflexivity.
Qed.

(** ** Addresses *)
Lemma addresses_again E a b : (forall c, le_country E (le_country E c) = le_country E c) ->
  map (fun x => (ad_type x, parts_of x)) (a_addresses b) = carried_addresses E a ->
  parts_of (address_of [] aHome b) = (if existsb (fun v => negb (isnil v)) (carried_address E [] (address_of [] aHome a)) then carried_address E [] (address_of [] aHome a) else parts_of (address_new [] aHome)) /\
  parts_of (address_of [] aWork b) = (if existsb (fun v => negb (isnil v)) (carried_address E (ad_pobox (address_of [] aWork a)) (address_of [] aWork a)) then carried_address E (ad_pobox (address_of [] aWork a)) (address_of [] aWork a) else parts_of (address_new [] aWork)).
Proof.
  intros C M. unfold carried_addresses in M. cbn [filter snd] in M. unfold address_of at 1 4.
  set (h := carried_address E [] (address_of [] aHome a)) in *. set (w := carried_address E (ad_pobox (address_of [] aWork a)) (address_of [] aWork a)) in *.
  clearbody h w. destruct (existsb (fun v => negb (isnil v)) h), (existsb (fun v => negb (isnil v)) w); destruct (a_addresses b) as [|x [|y [|z r]]]; try discriminate M; cbn [map] in M.
  - injection M as T1 H1 T2 H2. cbn [pick]. rewrite T1, T2. split; assumption.
  - injection M as T1 H1. cbn [pick]. rewrite T1. split; [assumption|reflexivity].
  - injection M as T1 H1. cbn [pick]. rewrite T1. split; [reflexivity|assumption].
  - split; reflexivity.
Qed.

Lemma all_nil l : existsb (fun v : ustring => negb (isnil v)) l = false -> forall v, In v l -> v = [].
Proof.
  intros H v I. destruct v as [|c v]; [reflexivity|]. exfalso. assert (X : existsb (fun v : ustring => negb (isnil v)) l = true); [|congruence].
  apply existsb_exists. exists (c :: v). auto.
Qed.
(** street, locality, region, postal code and country of an address *)
Definition written (E : LdifExt) (x : address) : ustring * ustring * ustring * ustring * ustring :=
  (ad_street x, ad_locality x, ad_region x, ad_postal x, le_country E (ad_country x)).
Lemma written_again E p x y t : (forall c, le_country E (le_country E c) = le_country E c) -> two_lines (ad_street x) ->
  parts_of y = (if existsb (fun v => negb (isnil v)) (carried_address E p x) then carried_address E p x else parts_of (address_new [] t)) ->
  written E y = written E x /\ ad_pobox y = p.
Proof.
  intros C T H. unfold carried_address in H. rewrite (two_lines_kept _ T) in H. unfold written.
  destruct (existsb _ _) eqn:X; unfold parts_of in H; cbn [address_new ad_pobox ad_extended ad_street ad_locality ad_region ad_postal ad_country ad_label] in H.
  - injection H as H1 H2 H3 H4 H5 H6 H7 H8. rewrite H1, H3, H4, H5, H6, H7, C. auto.
  - injection H as H1 H2 H3 H4 H5 H6 H7 H8. pose proof (all_nil _ X) as N. rewrite H1, H3, H4, H5, H6, H7.
    assert (K : le_country E (ad_country x) = []) by (apply N; cbn; auto 10). rewrite K.
    assert (K2 : le_country E [] = []) by (rewrite <- K; apply C). rewrite K2.
    rewrite (N (ad_street x)), (N (ad_locality x)), (N (ad_region x)), (N (ad_postal x)), (N p) by (cbn; auto 10). auto.
Qed.

Lemma pairs_again E dt a b : sane E -> tidy E dt a -> came_back E dt a b -> nothing_else b ->
  dt_date (a_birthday b) = dt_date (a_birthday a) ->
  contact_pairs E b = contact_pairs E a /\ preferred_email b = preferred_email a /\ simplified (a_formatted b) = simplified (a_formatted a)
  /\ emails_of b = emails_of a /\ url_text E b = url_text E a
  /\ (forall t, In t [tWork; tFax; tHome; tCell; tPager] -> ph_number (phone_number [] t b) = ph_number (phone_number [] t a))
  /\ written E (address_of [] aHome b) = written E (address_of [] aHome a)
  /\ written E (address_of [] aWork b) = written E (address_of [] aWork a)
  /\ a_revision b = carried_revision dt a /\ a_uid b = a_uid a.
Proof.
  intros [SC SI SCo SU] TI CB NE BD. destruct CB, NE, TI.
  pose proof (addresses_again E a b SCo cb_addresses) as (AH & AW).
  destruct (written_again E [] _ _ _ SCo (proj1 ti_streets) AH) as (WH & _). destruct (written_again E _ _ _ _ SCo (proj2 ti_streets) AW) as (WW & PB). clear AH AW.
  assert (PH : forall t, In t [tWork; tFax; tHome; tCell; tPager] -> ph_number (phone_number [] t b) = ph_number (phone_number [] t a)).
  { intros t T. rewrite (phones_again a b cb_phones t T). apply ti_phones, T. }
  assert (EM : emails_of b = emails_of a) by (rewrite cb_emails; apply distinct_kept; apply ti_emails).
  assert (PE : preferred_email b = preferred_email a).
  { unfold emails_of in EM. unfold preferred_email. destruct (a_emails b), (a_emails a); try discriminate EM; [reflexivity|]. cbn [map] in EM. congruence. }
  assert (FO : simplified (a_formatted b) = simplified (a_formatted a)) by (rewrite cb_formatted; apply simplified_idem).
  assert (UR : url_text E b = url_text E a).
  { unfold url_text at 1. rewrite cb_url. unfold carried_url. destruct (url_text E a) as [|c u] eqn:U; [reflexivity|]. cbn [isnil negb andb].
    destruct ti_url as (V & D); [congruence|]. rewrite V. exact D. }
  assert (RV := cb_stamp (proj2 ti_revision)).
  assert (RT : (if dt_valid (a_revision b) then date_to_string (a_revision b) else []) = (if dt_valid (a_revision a) then date_to_string (a_revision a) else [])).
  { rewrite RV. unfold carried_revision. destruct ti_revision as (V & _). unfold dt_valid in *. destruct (a_revision a) as [[d|] [t|] z]; try discriminate V. reflexivity. }
  assert (DE : (if negb (isnil (a_department b)) then a_department b else custom vendor_id (B "X-Department") b) = (if negb (isnil (a_department a)) then a_department a else custom vendor_id (B "X-Department") a)).
  { rewrite cb_department. unfold carried_department. assert (CU : custom vendor_id (B "X-Department") b = []).
    { unfold custom. injection ne_lists as _ _ _ _ CU _ _ _ _ _ _. rewrite CU. reflexivity. }
    rewrite CU. destruct (a_department a); cbn [isnil negb]; [|reflexivity]. destruct (custom _ _ a); reflexivity. }
  refine (conj _ (conj PE (conj FO (conj EM (conj UR (conj PH (conj WH (conj WW (conj RV (cb_uid ti_uid)))))))))).
  unfold contact_pairs. rewrite cb_given, cb_family, FO, (cb_uid ti_uid), cb_nickname, PE, EM, cb_title, cb_prefix, cb_role, cb_organization, UR, cb_note, RT, DE, BD, PB.
  rewrite !PH by (cbn; auto 8). unfold written in WH, WW. injection WH as H1 H2 H3 H4 H5. injection WW as W1 W2 W3 W4 W5.
  rewrite H1, H2, H3, H4, H5, W1, W2, W3, W4, W5. reflexivity.
Qed.

(** the contact that comes back can be exported again *)
Lemma tidy_again E dt a b : sane E -> exportable E a -> tidy E dt a -> came_back E dt a b -> nothing_else b ->
  dt_date (a_birthday b) = dt_date (a_birthday a) ->
  addressee_to_ldif E b = addressee_to_ldif E a /\ exportable E b /\ tidy E dt b.
Proof.
  intros S X T C N BD. destruct (pairs_again E dt a b S T C N BD) as (PA & PE & FO & EM & UR & PH & WH & WW & RV & UI).
  split; [unfold addressee_to_ldif; rewrite (cb_filled _ _ _ _ C), (ti_filled _ _ _ T), PA, PE, FO; reflexivity|].
  destruct X as (W & R & BO). destruct T. assert (CR : carried_revision dt b = carried_revision dt a).
  { unfold carried_revision at 1. rewrite RV. unfold carried_revision. destruct ti_revision as (V & _). unfold dt_valid in V.
    destruct (a_revision a) as [[d|] [t|] z]; try discriminate V. reflexivity. }
  split.
  - split; [unfold writable; rewrite PA; exact W|]. split; [|unfold birthday_ok; rewrite BD; exact BO].
    unfold revision_ok in *. rewrite RV. unfold carried_revision. destruct ti_revision as (V & _). unfold dt_valid in V.
    destruct (a_revision a) as [[d|] [t|] z]; try discriminate V. cbn [dt_date dt_time t_hour t_min t_sec t_msec] in *. destruct R as (R1 & R2 & R3).
    split; [exact R1|]. split; [exact R2|]. unfold time_ok in *. rewrite !andb_true_iff in *. rewrite !Z.leb_le, !Z.ltb_lt in *. lia.
  - split.
    + apply C.
    + unfold named in *. rewrite FO. rewrite (cb_family _ _ _ _ C). exact ti_named.
    + rewrite UI. exact ti_uid.
    + rewrite EM. exact ti_emails.
    + intros t I. rewrite (PH t I). apply ti_phones, I.
    + injection WH as H1 _ _ _ _. injection WW as W1 _ _ _ _. rewrite H1, W1. exact ti_streets.
    + rewrite UR. exact ti_url.
    + rewrite CR. split; [|apply ti_revision]. rewrite RV. unfold carried_revision. destruct ti_revision as (V & _). unfold dt_valid in *.
      destruct (a_revision a) as [[d|] [t|] z]; try discriminate V. reflexivity.
    + rewrite BD. exact ti_birthday.
Qed.

(** ** Birthdays of a list *)
Lemma birthdays_kept E dt l : Forall (exportable E) l -> Forall (tidy E dt) l -> birthdays_last l ->
  forall b, birth_date b = None \/ Forall (fun a => dt_date (a_birthday a) <> None) l ->
  birthdays_after b l = map (fun a => dt_date (a_birthday a)) l.
Proof.
  intros X T L. induction L as [|a l A L IH]; intros b O; [reflexivity|].
  inversion X as [|? ? (_ & _ & BO) Xl]; subst. inversion T as [|? ? Ta Tl]; subst. cbn [birthdays_after map]. rewrite (ti_named _ _ _ Ta). cbn [app].
  assert (Q : birth_date (birth_after b a) = dt_date (a_birthday a)).
  { unfold birth_after, birthday_ok in *. destruct (dt_date (a_birthday a)) as [d|] eqn:D.
    - unfold birth_date. cbn [fst snd]. rewrite (proj2 (Z.ltb_lt 0 (d_year d)) (ti_birthday _ _ _ Ta d D)). unfold mk_date. rewrite (proj1 BO). destruct d; reflexivity.
    - destruct O as [O|O]; [exact O|]. inversion O; subst; congruence. }
  f_equal; [exact Q|]. apply IH; try assumption. destruct (dt_date (a_birthday a)) as [d|] eqn:D; [right|left; exact Q].
  rewrite Forall_forall in A |- *. intros x I N. specialize (A x I N). congruence.
Qed.

Lemma filter_id {A} (f : A -> bool) l : Forall (fun x => f x = true) l -> filter f l = l.
Proof. induction 1 as [|x l H F IH]; [reflexivity|]. cbn [filter]. rewrite H, IH. reflexivity. Qed.

Lemma sent_all E dt l : Forall (tidy E dt) l ->
  filter (fun a => negb (a_empty a)) l = l /\ filter named l = l.
Proof.
  intros T. split; apply filter_id; (eapply Forall_impl; [|exact T]); intros a H; [rewrite (ti_filled _ _ _ H); reflexivity|apply H].
Qed.
Lemma back_again E dt l bs : sane E -> steady E dt l ->
  Forall2 (fun a b => came_back E dt a b /\ nothing_else b) l bs ->
  map (fun b => dt_date (a_birthday b)) bs = birthdays_after no_birth l ->
  snd (addressees_to_ldif E bs []) = snd (addressees_to_ldif E l []) /\ steady E dt bs /\ map a_uid bs = map a_uid l.
Proof.
  intros S (X & T & L) F M. rewrite (birthdays_kept E dt l X T L no_birth) in M by (left; reflexivity).
  assert (G : flat_map (fun a => or_nothing (addressee_to_ldif E a)) bs = flat_map (fun a => or_nothing (addressee_to_ldif E a)) l
    /\ Forall (exportable E) bs /\ Forall (tidy E dt) bs /\ map a_uid bs = map a_uid l).
  { clear L. revert M. induction F as [|a b l bs (C & N) F IH]; intros M; [repeat split; constructor|].
    inversion X as [|? ? Xa Xl]; subst. inversion T as [|? ? Ta Tl]; subst. cbn [map] in M. injection M as Mb M.
    destruct (tidy_again E dt a b S Xa Ta C N Mb) as (Q & Xb & Tb). destruct (IH Xl Tl M) as (G & GX & GT & GU).
    cbn [flat_map map]. rewrite Q, G, GU. rewrite (cb_uid _ _ _ _ C (ti_uid _ _ _ Ta)). repeat split; constructor; assumption. }
  destruct G as (G & GX & GT & GU). split; [unfold addressees_to_ldif; cbn [snd]; rewrite G; reflexivity|]. split; [|exact GU]. split; [exact GX|]. split; [exact GT|].
  clear - M L. unfold birthdays_last in *. revert bs M. induction L as [|a l A L IH]; intros [|b bs] M; try discriminate M; [constructor|].
  cbn [map] in M. injection M as Mb M. constructor; [|apply IH, M]. rewrite Mb. clear - M A. revert bs M.
  induction A as [|x l H A IH]; intros [|b bs] M; try discriminate M; [constructor|]. cbn [map] in M. injection M as Mb M.
  constructor; [rewrite Mb; exact H|apply IH, M].
Qed.

(** ** Groups *)
Lemma carried_same d : tidy_member d -> carried_member d = (cd_name d, cd_email d).
Proof.
  intros (N & M & O). unfold carried_member. rewrite N, M. f_equal. destruct O as [-> | ->]; [reflexivity|]. destruct (cd_name d); reflexivity.
Qed.
Lemma group_again E g h : group_exportable g -> tidy_group g -> group_back g h ->
  group_to_ldif E h = group_to_ldif E g /\ group_exportable h /\ tidy_group h.
Proof.
  intros X (NE & T) [M _ _]. rewrite (map_ext_in _ (fun d => (cd_name d, cd_email d)) _ (fun d I => carried_same d (proj1 (Forall_forall _ _) T d I))) in M.
  assert (G : flat_map (fun d => ldif_out E (B "member") (cn_mail (cd_name d) (cd_email d))) (cg_data h)
              = flat_map (fun d => ldif_out E (B "member") (cn_mail (cd_name d) (cd_email d))) (cg_data g)
              /\ group_exportable h /\ Forall tidy_member (cg_data h) /\ isnil (cg_data h) = isnil (cg_data g)).
  { unfold group_exportable in *. clear NE. generalize dependent (cg_data h). induction (cg_data g) as [|d l IH]; intros [|e k] M; try discriminate M; [repeat split; constructor|].
    cbn [map] in M. injection M as M1 M2 M. inversion X as [|? ? Xd Xl]; subst. inversion T as [|? ? Td Tl]; subst.
    destruct (IH Xl Tl k M) as (G & GX & GT & _). cbn [flat_map]. rewrite M1, M2, G. split; [reflexivity|].
    split; [constructor; [rewrite M1, M2; exact Xd|exact GX]|]. split; [constructor; [unfold tidy_member; rewrite M1, M2; exact Td|exact GT]|reflexivity]. }
  destruct G as (G & GX & GT & GN). split; [unfold group_to_ldif; rewrite GN, G; reflexivity|]. split; [exact GX|]. split; [|exact GT].
  intros C. rewrite C in GN. destruct (cg_data g); [congruence|discriminate].
Qed.
Lemma groups_again E gs hs : steady_groups gs -> Forall2 group_back gs hs ->
  snd (groups_to_ldif E hs []) = snd (groups_to_ldif E gs []) /\ steady_groups hs.
Proof.
  intros (X & T) F. unfold groups_to_ldif. cbn [snd app]. induction F as [|g h gs hs H F IH]; [repeat split; constructor|].
  inversion X as [|? ? Xg Xl]; subst. inversion T as [|? ? Tg Tl]; subst. destruct (group_again E g h Xg Tg H) as (Q & Xh & Th).
  destruct (IH Xl Tl) as (G & GX & GT). cbn [flat_map]. rewrite Q, G. repeat split; constructor; assumption.
Qed.

Lemma all_text E l gs : snd (all_to_ldif E l gs []) = snd (addressees_to_ldif E l []) ++ snd (groups_to_ldif E gs []).
Proof. unfold all_to_ldif, addressees_to_ldif, groups_to_ldif. cbn [snd app]. destruct gs as [|g gs]; cbn [isnil snd flat_map]; [rewrite app_nil_r|]; reflexivity. Qed.
Lemma steady_again E dt l gs : sane E -> dt_valid dt = true -> steady E dt l -> steady_groups gs ->
  exists bs hs, ldif_to_addressee E (snd (all_to_ldif E l gs [])) dt [] [] = Some (bs, hs)
    /\ snd (all_to_ldif E bs hs []) = snd (all_to_ldif E l gs []) /\ steady E dt bs /\ steady_groups hs
    /\ map a_uid bs = map a_uid l /\ length hs = length gs.
Proof.
  intros S V H (GX & GT). pose proof H as (X & T & L). destruct (all_back E dt l gs S X GX (or_introl V)) as (bs & hs & I & F & M & G). rewrite V in F. unfold exported, nonempty_groups in *.
  destruct (sent_all E dt l T) as (S1 & S2). rewrite S1 in M. rewrite S1, S2 in F.
  rewrite filter_id in G by (eapply Forall_impl; [|exact GT]; intros g (K & _); destruct (cg_data g); [congruence|reflexivity]).
  exists bs, hs. split; [exact I|]. destruct (back_again E dt l bs S H F M) as (A1 & A2 & A3).
  destruct (groups_again E gs hs (conj GX GT) G) as (B1 & B2). rewrite !all_text, A1, B1. repeat (split; [first [reflexivity|assumption]|]).
  clear - G. induction G; cbn [length]; congruence.
Qed.
