(** Whole contacts after writing and reading, and a decision procedure for [fits]
    that is used in examples. *)
From Coq Require Import Permutation.
From Verif Require Import Base BaseFacts QtText Utf8 Utf8Facts M_ParamMap M_VCard M_VCardText
  S_Escape P_Escape S_Fold P_Fold S_CardText P_CardText S_Card P_Assoc P_Card S_Parse P_Parse P_Parse2
  S_RoundTrip P_RoundTrip P_RoundTrip2 P_RoundTrip3 P_ReadBack P_Items P_Order
  M_Split S_Split P_Split M_Values M_Date M_Addressee M_VCardTool S_Contact P_Seen P_ReadFields P_Lines P_Contact P_Chunks P_Lists P_Values P_Fields P_Fields2 P_Types P_Addr P_Fields3 P_Fields4 P_Fields5 P_Addressee P_Fields6 P_Fields7.

Lemma Forall2_imp {A B} (P Q : A -> B -> Prop) l m : (forall x y, In x l -> P x y -> Q x y) -> Forall2 P l m -> Forall2 Q l m.
Proof. intros H H2. revert H. induction H2 as [|x y l m Hxy _ IH]; intros H; constructor; [apply H; [left|]; auto|apply IH; intros; apply H; [right|]; auto]. Qed.
(** ** a statement about each contact and what is read for it *)
Lemma trip_each E T v export l res (P : addressee -> addressee -> Prop) :
  Forall (fits T v) l -> round_trip T E v export l res ->
  (forall a b, fits T v a -> reads_as E T v export a b -> P a b) -> Forall2 P l res.
Proof.
  intros Hf Hr HP. pose proof (trip_reads E T v export l res Hf Hr) as H. rewrite Forall_forall in Hf. eapply Forall2_imp; [|exact H]. intros a b Ha Hab. apply HP; auto.
Qed.

(** ** the version *)
Lemma written_version T v export a : exists rest, written (create_card T v export a) = text_line (B "VERSION") (version_text v) :: rest.
Proof.
  unfold create_card. fold (card_of (contact_lines T v export a)). unfold written, ordered_idents.
  assert (Hin : In (B "VERSION") (identifiers (card_of (contact_lines T v export a)))).
  { apply identifiers_spec. exists (text_line (B "VERSION") (version_text v)). split; [left; reflexivity|reflexivity]. }
  rewrite (proj2 (contains_In _ _) Hin). cbn [flat_map]. rewrite card_lines_spec.
  change (contact_lines T v export a) with (text_line (B "VERSION") (version_text v) :: tl (contact_lines T v export a)). cbn [filter].
  change (leqb (vl_id (text_line (B "VERSION") (version_text v))) (B "VERSION")) with true. cbn [app]. eexists. reflexivity.
Qed.
Lemma reread_version E T v export a : card_version (reread_card E (create_card T v export a)) = Some v.
Proof.
  destruct (written_version T v export a) as [rest Hw]. unfold reread_card. rewrite Hw. unfold readings. cbn [filter].
  destruct (seen_plain E (B "VERSION") (version_text v) (known_id _ ltac:(left; reflexivity))) as (_ & L & R).
  assert (Hs : text_safe (version_text v)) by (apply printed_safe; destruct v; repeat constructor; cbn; intuition discriminate).
  destruct Hs as [Hs1 Hs2]. rewrite thru_id in R by auto. change (vline_new (B "VERSION") (QStr (version_text v))) with (text_line (B "VERSION") (version_text v)) in L, R.
  rewrite L. assert (Hn : negb (isnil (version_text v)) = true) by (destruct v; reflexivity). rewrite Hn. cbn [map]. rewrite R. unfold card_version.
  match goal with |- context [find_lines _ (card_of ?ls)] => destruct (card_of_ok ls) as [_ Hok] end. rewrite Hok. unfold of_id. cbn [filter vl_id].
  change (leqb (B "VERSION") (B "VERSION")) with true. cbn iota. cbn [vl_value]. destruct v; reflexivity.
Qed.
Lemma trip_version E T v export l : Forall (fits T v) l ->
  exists cards, parses_to E (create_text T E v export l) cards /\ length cards = length l /\ Forall (fun c => card_version c = Some v) cards.
Proof.
  intros H. eexists. split; [apply cards_reread; apply trip_cards; apply fits_all; exact H|]. split; [rewrite !map_length; reflexivity|].
  apply Forall_forall. intros c Hc. rewrite map_map in Hc. apply in_map_iff in Hc as (a & <- & _). apply reread_version.
Qed.

(** ** whole contacts *)
Lemma filter_true {A} (p : A -> bool) l : Forall (fun x => p x = true) l -> filter p l = l.
Proof. intros H. apply filter_all. rewrite Forall_forall in H. exact H. Qed.
Lemma whole30 E T export a b : fits T V30 a -> reads_as E T V30 export a b -> fresh_ids T -> safe30 T a -> same30 a b.
Proof.
  intros Hf Hr HT [Ht Hu Hn Hni Hti Hro [Hca Hca'] Hor Hde Hbd Hre Htz Hur (He1 & He2 & He3) Hph [Had Hlab] [Hcu1 Hcu2]].
  assert (H30 : V30 <> V40) by discriminate. assert (H31 : V30 <> V21) by discriminate.
  repeat match type of Ht with Forall _ (_ :: _) => inversion_clear Ht as [|? ? ?Htx Ht'']; rename Ht'' into Ht end.
  assert (Hor1 : Forall (fun o => parts_safe (org_parts (a_department a) o)) (a_orgs a)) by (eapply Forall_impl; [|exact Hor]; intros o Ho; apply Ho).
  assert (Hpt : forall l, Forall (fun t => text_safe (pt_text t) /\ pt_text t <> []) l -> Forall (fun t => text_safe (pt_text t)) l /\ filter ptext_valid l = l).
  { intros l Hl. split; [eapply Forall_impl; [|exact Hl]; intros t Hx; apply Hx|]. apply filter_true. eapply Forall_impl; [|exact Hl]. intros t [_ Hx]. unfold ptext_valid. apply negb_true_iff, isnil_false. exact Hx. }
  constructor.
  - rewrite (field_formatted E T V30 export a b Hf Hr), (field_name E T V30 export a b Hf Hr H30), (field_mailer E T V30 export a b Hf Hr H30), (field_note E T V30 export a b Hf Hr),
      (field_prodid E T V30 export a b Hf Hr H31), (field_uid E T V30 export a b Hf Hr Hu), (field_sortstring E T export a b Hf Hr); auto.
    eapply Forall_impl; [|exact Hor]. intros o Ho. apply Ho.
  - apply (field_n E T V30 export a b Hf Hr Hn).
  - destruct (Hpt _ Hni) as [H1 H2]. rewrite (field_nicks E T V30 export a b Hf Hr H31 H1). exact H2.
  - destruct (Hpt _ Hti) as [H1 H2]. rewrite (field_titles E T V30 export a b Hf Hr H1). exact H2.
  - destruct (Hpt _ Hro) as [H1 H2]. rewrite (field_roles E T V30 export a b Hf Hr H1). exact H2.
  - apply (field_categories E T V30 export a b Hf Hr H31 Hca Hca').
  - split.
    + rewrite (field_orgs E T V30 export a b Hf Hr Hor1). apply filter_true. eapply Forall_impl; [|exact Hor]. intros o [Ho _]. unfold ptext_valid. apply negb_true_iff, isnil_false. exact Ho.
    + rewrite (field_department E T V30 export a b Hf Hr Hor1). destruct (a_orgs a); [symmetry; apply Hde; reflexivity|reflexivity].
  - apply (field_birthday E T V30 export a b Hf Hr Hbd).
  - apply (field_revision E T V30 export a b Hf Hr Hre).
  - apply (field_tz E T V30 export a b Hf Hr Htz).
  - apply (field_secrecy E T export a b Hf Hr).
  - apply (field_urls E T V30 export a b Hf Hr Hur).
  - rewrite (field_emails E T V30 export a b Hf Hr); [|eapply Forall_impl; [|exact He1]; intros e He; apply He|exact He2].
    rewrite (filter_true (fun e => negb (isnil (em_mail e)))) by (eapply Forall_impl; [|exact He1]; intros e [_ He]; apply negb_true_iff, isnil_false; exact He).
    clear - He3. destruct (a_emails a) as [|e es]; [reflexivity|]. cbn [tl] in He3.
    assert (H1 : filter email_preferred es = []) by (apply filter_none; rewrite Forall_forall in He3; exact He3).
    assert (H2 : filter (fun e => negb (email_preferred e)) es = es) by (apply filter_true; eapply Forall_impl; [|exact He3]; intros x Hx; cbv beta in *; rewrite Hx; reflexivity).
    cbn [filter]. destruct (email_preferred e); cbn [negb]; rewrite H1, H2; reflexivity.
  - pose proof (field_phones E T V30 export a b Hf Hr HT ltac:(eapply Forall_impl; [|exact Hph]; intros p Hp; apply Hp)) as H.
    rewrite Forall_forall in Hph.
    rewrite filter_true in H.
    + eapply Forall2_imp; [|exact H]. intros p q Hin (Q1 & Q2 & Q3). destruct (Hph p Hin) as (_ & S1 & S2 & S3 & S4). split; [congruence|]. split; [|exact Q3].
      cbv zeta in Q2. rewrite S3 in Q2. rewrite (proj2 (N.eqb_neq _ _) S4) in Q2. exact Q2.
    + apply Forall_forall. intros p Hin. destruct (Hph p Hin) as (_ & S1 & S2 & _). rewrite S1. apply negb_true_iff, isnil_false. exact S2.
  - pose proof (field_addresses E T V30 export a b Hf Hr HT) as H. rewrite Forall_forall in Had.
    eapply Forall2_imp; [|apply H].
    + intros x y Hin [(Q1 & Q2 & Q3 & Q4 & Q5 & Q6 & Q7 & Q8) Q9]. destruct (Had x Hin) as (_ & _ & _ & S4). rewrite S4 in Q8. unfold same_address. tauto.
    + apply Forall_forall. intros x Hin. destruct (Had x Hin) as (S1 & S2 & S3 & _). auto.
    + auto.
  - rewrite (field_customs E T V30 export a b Hf Hr).
    + apply filter_true. eapply Forall_impl; [|exact Hcu2]. intros e (_ & S2 & (_ & S3 & _)). unfold kept_custom, full_custom, is_messaging. rewrite S3. rewrite (proj2 (isnil_false _) S2). reflexivity.
    + intros Hx. discriminate.
    + exact Hcu1.
    + eapply Forall_impl; [|exact Hcu2]. intros e (S1 & _ & S3). auto.
Qed.

(** ** deciding [fits] *)
Definition char_in (lo hi : N) (no : list N) (c : N) : bool := (lo <=? c)%N && (c <? hi)%N && negb (mem c no).
Lemma chars_spec lo hi no s : forallb (char_in lo hi no) s = true -> Forall (fun c => (lo <= c < hi)%N /\ ~ In c no) s.
Proof.
  intros H. apply Forall_forall. intros c Hc. rewrite forallb_forall in H. specialize (H c Hc). unfold char_in in H. rewrite !andb_true_iff, negb_true_iff in H.
  destruct H as [[H1 H2] H3]. apply N.leb_le in H1. apply N.ltb_lt in H2. split; [lia|]. apply mem_false. exact H3.
Qed.
Definition nocode_b (m : pmap) : bool := negb (contains (B "encoding") (map fst m)) && negb (contains (B "charset") (map fst m)).
Definition plain_params_b (m : pmap) : bool := params_ok m && nocode_b m.
Lemma plain_params_spec m : plain_params_b m = true -> plain_params m.
Proof.
  unfold plain_params_b, nocode_b. rewrite !andb_true_iff, !negb_true_iff. intros (H1 & H2 & H3). split; [apply params_ok_spec; exact H1|].
  split; intros H; apply contains_In in H; congruence.
Qed.
Definition name_b (s : ustring) : bool := negb (isnil s) && name_ok s.
Lemma name_b_spec s : name_b s = true -> wf_name s.
Proof. unfold name_b. rewrite andb_true_iff, negb_true_iff. intros [H1 H2]. split; [apply isnil_false; auto|apply name_ok_spec; auto]. Qed.
Definition group_name_b (s : ustring) : bool :=
  match index_of cDOT s with
  | Some d => name_b (firstn d s) && name_b (skipn (S d) s) && negb (leqb (to_lower (skipn (S d) s)) (B "adr"))
  | None => false
  end.
Lemma group_name_spec s : group_name_b s = true -> group_name s.
Proof.
  unfold group_name_b. destruct (index_of cDOT s) as [d|] eqn:Ed; [|discriminate]. rewrite !andb_true_iff, negb_true_iff. intros [[H1 H2] H3].
  apply index_of_Some in Ed. destruct Ed as (p & t & Hs & _ & Hl). exists (firstn d s), (skipn (S d) s).
  split; [|split; [apply name_b_spec; auto|split; [apply name_b_spec; auto|apply leqb_neq; auto]]].
  rewrite Hs, <- Hl. rewrite firstn_app, Nat.sub_diag, firstn_all. cbn [firstn]. rewrite app_nil_r. f_equal.
  rewrite skipn_app, skipn_all2 by lia. replace (S (length p) - length p) with 1 by lia. reflexivity.
Qed.
Definition text_safe_b (u : ustring) : bool := text_ok u && unambiguous_b u.
Lemma text_safe_spec u : text_safe_b u = true -> text_safe u.
Proof. unfold text_safe_b. rewrite andb_true_iff. intros [H1 H2]. split; [auto|apply unambiguous_spec; auto]. Qed.
Definition picture_fits_b (T : Tool) (v : version) (p : picture) : bool :=
  if pi_intern p then
    is_bytes (pi_raw_of (env_img (t_env T)) p) &&
    match v with
    | V21 => forallb (char_in 32 127 [58; 59; 61]%N) (pi_type p) && negb (contains (to_lower (pi_type p)) [B "encoding"; B "quoted-printable"; B "base64"])
    | V30 => forallb (char_in 32 256 [34; 58; 59]%N) (pi_type p)
    | V40 => forallb (char_in 33 127 [92]%N) (pi_type p)
    end
  else match v with V40 => text_safe_b (pi_url p) && match find_sub (B "data:") (to_utf8 (pi_url p)) with None => true | _ => false end | _ => true end.
Lemma picture_fits_spec T v p : picture_fits_b T v p = true -> picture_fits T v p.
Proof.
  unfold picture_fits_b, picture_fits. destruct (pi_intern p); intros H; (split; [intros Hp|intros Hp Hv]); try discriminate.
  - apply andb_true_iff in H as [H1 H2]. split; [exact H1|]. destruct v.
    + apply andb_true_iff in H2 as [H2 H3]. apply negb_true_iff in H3. split; [apply chars_spec; exact H2|]. intros Hx. apply contains_In in Hx. congruence.
    + apply chars_spec. exact H2.
    + apply chars_spec in H2. eapply Forall_impl; [|exact H2]. intros c [Hc1 Hc2]. split; [lia|]. intros ->. apply Hc2. left. reflexivity.
  - subst v. apply andb_true_iff in H as [H1 H2]. destruct (text_safe_spec _ H1) as [S1 S2]. destruct (find_sub (B "data:") (to_utf8 (pi_url p))); [discriminate|]. auto.
Qed.
Definition sound_fits_b (s : sound) : bool := negb (so_intern s) || is_bytes (so_data s).
Definition key_fits_b (k : key) : bool :=
  (negb (ke_isbin k) || is_bytes (ke_bin k)) && (match ke_type k with KCustom => forallb (char_in 32 256 [34; 58; 59]%N) (ke_custom k) | _ => true end).
Definition quoted_b (s : ustring) : bool := forallb (char_in 32 256 [34]%N) s.
Lemma quoted_spec s : quoted_b s = true -> quoted_chars s.
Proof. intros H. apply chars_spec in H. eapply Forall_impl; [|exact H]. intros c [H1 H2]. split; [exact H1|]. intros ->. apply H2. left. reflexivity. Qed.
Definition fits_b (T : Tool) (v : version) (a : addressee) : bool :=
  forallb plain_params_b (all_params a) && forallb (fun f => group_name_b (fg_name f)) (a_fgroups a) &&
  forallb (fun e => name_b (fst e)) (a_customs a) && forallb (picture_fits_b T v) (a_logo a :: a_photo a :: a_xlogos a ++ a_xphotos a) &&
  forallb sound_fits_b (a_sound a :: a_xsounds a) && forallb key_fits_b (a_keys a) &&
  match v with
  | V40 =>
      forallb (fun x => quoted_b (ad_label x) && (negb (geo_valid (ad_geo x)) || (quoted_b (t_fmt6 T (g_lat (ad_geo x))) && quoted_b (t_fmt6 T (g_lon (ad_geo x)))))) (a_addresses a) &&
      forallb (char_in 32 256 [34; 58; 59]%N) (a_sortstring a) &&
      forallb (fun e => negb (leqb (to_lower (fst e)) (B "kaddressbook-x-spousesname")) || forallb (char_in 32 256 [34; 58; 59]%N) (snd e)) (a_customs a)
  | V21 =>
      forallb (fun s => negb (needs_encoding s))
      ([a_formatted a; a_mailer a; a_family a; a_given a; a_additional a; a_prefix a; a_suffix a; a_name a; a_note a; a_department a]
       ++ flat_map (fun x => [ad_pobox x; ad_extended x; ad_street x; ad_locality x; ad_region x; ad_postal x; ad_country x; ad_label x]) (a_addresses a)
       ++ map pt_text (a_orgs a ++ a_roles a ++ a_titles a) ++ map snd (a_customs a)) &&
      forallb (fun e => negb (contains (B "type") (map fst (em_params e)))) (a_emails a)
  | V30 => true
  end.
Lemma forallb_Forall {A} (p : A -> bool) (P : A -> Prop) l : (forall x, p x = true -> P x) -> forallb p l = true -> Forall P l.
Proof. intros H Hl. rewrite forallb_forall in Hl. apply Forall_forall. auto. Qed.
Lemma fits_spec T v a : fits_b T v a = true -> fits T v a.
Proof.
  unfold fits_b. rewrite !andb_true_iff. intros [[[[[[H1 H2] H3] H4] H5] H6] H7]. constructor.
  - eapply forallb_Forall; [|exact H1]. apply plain_params_spec.
  - eapply forallb_Forall; [|exact H2]. intros f. apply group_name_spec.
  - eapply forallb_Forall; [|exact H3]. intros f. apply name_b_spec.
  - eapply forallb_Forall; [|exact H4]. intros f. apply picture_fits_spec.
  - eapply forallb_Forall; [|exact H5]. intros s Hs Hi. unfold sound_fits_b in Hs. rewrite Hi in Hs. exact Hs.
  - eapply forallb_Forall; [|exact H6]. intros k Hk. unfold key_fits_b in Hk. apply andb_true_iff in Hk as [K1 K2]. split.
    + intros Hi. rewrite Hi in K1. exact K1.
    + intros Hi. rewrite Hi in K2. apply chars_spec in K2. exact K2.
  - intros ->. rewrite !andb_true_iff in H7. destruct H7 as [[H7 H8] H9]. split; [|split].
    + eapply forallb_Forall; [|exact H7]. intros x Hx. apply andb_true_iff in Hx as [X1 X2]. split; [apply quoted_spec; exact X1|]. intros Hg. rewrite Hg in X2. cbn [negb orb] in X2.
      apply andb_true_iff in X2 as [X2 X3]. split; apply quoted_spec; auto.
    + apply chars_spec in H8. exact H8.
    + eapply forallb_Forall; [|exact H9]. intros e He Hn. apply orb_true_iff in He as [He|He]; [apply negb_true_iff, (proj1 (leqb_neq _ _)) in He; destruct (He Hn)|]. apply chars_spec in He. exact He.
  - intros ->. apply andb_true_iff in H7 as [H7 H8]. split.
    + eapply forallb_Forall; [|exact H7]. intros s Hs. apply negb_true_iff. exact Hs.
    + eapply forallb_Forall; [|exact H8]. intros e He Hx. apply negb_true_iff in He. apply contains_In in Hx. unfold ustring in *. congruence.
Qed.
Lemma Forall2_len {A B} (P : A -> B -> Prop) l m : Forall2 P l m -> length m = length l.
Proof. induction 1; cbn; auto. Qed.
