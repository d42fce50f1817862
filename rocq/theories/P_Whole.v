(** Whole contacts in versions 2.1 and 4.0. *)
From Verif Require Import Base BaseFacts QtText Utf8 M_ParamMap M_VCard M_VCardText
  S_Escape S_Split S_Date M_Split M_Values M_Date M_Addressee M_VCardTool S_Contact S_Whole P_Seen P_ReadFields P_Lines P_Contact P_Chunks P_Lists P_Values
  P_Fields P_Fields2 P_Types P_Addr P_Fields3 P_Fields4 P_Fields5 P_Fields6 P_Fields7 P_Contact2.

Lemma texts_full_safe l : texts_full l -> Forall (fun t => text_safe (pt_text t)) l.
Proof. intros H. eapply Forall_impl; [|exact H]. intros t Hx; apply Hx. Qed.
Lemma texts_full_valid l : texts_full l -> filter ptext_valid l = l.
Proof. intros H. apply filter_true. eapply Forall_impl; [|exact H]. intros t [_ Hx]. unfold ptext_valid. apply negb_true_iff, isnil_false. exact Hx. Qed.

Lemma whole_in E T v export a b : fits T v a -> reads_as E T v export a b -> fresh_ids T -> safe_in T v a -> same_in a b.
Proof.
  intros Hf Hr HT [Ht Hu Hn Hti Hro Hor Hde Hbd Hre Htz Hur (He1 & He2 & He3) Hph [Had Hlab] (Hcu1 & Hcu2 & Hsp)].
  repeat match type of Ht with Forall _ (_ :: _) => inversion_clear Ht as [|? ? ?Htx Ht'']; rename Ht'' into Ht end.
  assert (Hor1 : Forall (fun o => parts_safe (org_parts (a_department a) o)) (a_orgs a)) by (eapply Forall_impl; [|exact Hor]; intros o Ho; apply Ho).
  constructor.
  - rewrite (field_formatted E T v export a b Hf Hr), (field_note E T v export a b Hf Hr), (field_uid E T v export a b Hf Hr Hu); auto.
  - apply (field_n E T v export a b Hf Hr Hn).
  - rewrite (field_titles E T v export a b Hf Hr (texts_full_safe _ Hti)). apply texts_full_valid, Hti.
  - rewrite (field_roles E T v export a b Hf Hr (texts_full_safe _ Hro)). apply texts_full_valid, Hro.
  - split.
    + rewrite (field_orgs E T v export a b Hf Hr Hor1). apply filter_true. eapply Forall_impl; [|exact Hor]. intros o [Ho _]. unfold ptext_valid. apply negb_true_iff, isnil_false. exact Ho.
    + rewrite (field_department E T v export a b Hf Hr Hor1). destruct (a_orgs a); [symmetry; apply Hde; reflexivity|reflexivity].
  - apply (field_birthday E T v export a b Hf Hr Hbd).
  - apply (field_revision E T v export a b Hf Hr Hre).
  - apply (field_tz E T v export a b Hf Hr Htz).
  - apply (field_urls E T v export a b Hf Hr Hur).
  - rewrite (field_emails E T v export a b Hf Hr); [|eapply Forall_impl; [|exact He1]; intros e He; apply He|exact He2].
    rewrite (filter_true (fun e => negb (isnil (em_mail e)))) by (eapply Forall_impl; [|exact He1]; intros e [_ He]; apply negb_true_iff, isnil_false; exact He).
    clear - He3. destruct (a_emails a) as [|e es]; [reflexivity|]. cbn [tl] in He3.
    assert (H1 : filter email_preferred es = []) by (apply filter_none; rewrite Forall_forall in He3; exact He3).
    assert (H2 : filter (fun e => negb (email_preferred e)) es = es) by (apply filter_true; eapply Forall_impl; [|exact He3]; intros x Hx; cbv beta in *; rewrite Hx; reflexivity).
    cbn [filter]. destruct (email_preferred e); cbn [negb]; rewrite H1, H2; reflexivity.
  - pose proof (field_phones E T v export a b Hf Hr HT ltac:(eapply Forall_impl; [|exact Hph]; intros p Hp; apply Hp)) as H.
    rewrite Forall_forall in Hph.
    rewrite filter_true in H.
    + eapply Forall2_imp; [|exact H]. intros p q Hin (Q1 & Q2 & Q3). destruct (Hph p Hin) as (_ & S1 & S2 & S3 & S4). split; [congruence|]. split; [|exact Q3].
      cbv zeta in Q2. rewrite S3 in Q2. rewrite (proj2 (N.eqb_neq _ _) S4) in Q2. exact Q2.
    + apply Forall_forall. intros p Hin. destruct (Hph p Hin) as (_ & S1 & S2 & _). rewrite S1. apply negb_true_iff, isnil_false. exact S2.
  - pose proof (field_addresses E T v export a b Hf Hr HT) as H. rewrite Forall_forall in Had.
    eapply Forall2_imp; [|apply H].
    + intros x y Hin [(Q1 & Q2 & Q3 & Q4 & Q5 & Q6 & Q7 & Q8) Q9]. destruct (Had x Hin) as (_ & _ & _ & S4). rewrite S4 in Q8. unfold same_address. tauto.
    + apply Forall_forall. intros x Hin. destruct (Had x Hin) as (S1 & S2 & S3 & _). auto.
    + auto.
  - rewrite (field_customs E T v export a b Hf Hr Hsp Hcu1).
    + apply filter_true. eapply Forall_impl; [|exact Hcu2]. intros e (_ & S2 & (_ & S3 & _)). unfold kept_custom, full_custom, is_messaging. rewrite S3. rewrite (proj2 (isnil_false _) S2). reflexivity.
    + eapply Forall_impl; [|exact Hcu2]. intros e (S1 & _ & S3). auto.
Qed.

Lemma whole21 E T export a b : fits T V21 a -> reads_as E T V21 export a b -> fresh_ids T -> safe21 T a -> same21 a b.
Proof.
  intros Hf Hr HT (Hs & Hn & Hm). split; [apply (whole_in E T V21 export); auto|].
  split; [apply (field_name E T V21 export)|apply (field_mailer E T V21 export)]; auto; discriminate.
Qed.

(** without members there is nothing to read *)
Lemma no_members E T export a b : fits T V40 a -> reads_as E T V40 export a b -> a_members a = [] -> a_members b = [].
Proof.
  intros Hf Hr Hn.
  destruct (fold_field E T V40 export a b a_members (fun k => match k with LMember => true | _ => false end) (B "MEMBER")
    (fun l x => if contains (lvalue l) x then x else x ++ [lvalue l]) Hf Hr) as [card ->]; text_side; try discriminate.
  change (flat_map (pick (B "MEMBER")) (chunks T V40 export a)) with (when (is40 V40 && leqb (to_lower (a_kind a)) (B "group")) (map (text_line (B "MEMBER")) (a_members a)) ++ []).
  rewrite Hn. destruct (is40 V40 && _); reflexivity.
Qed.

Lemma whole40 E T export a b : fits T V40 a -> reads_as E T V40 export a b -> fresh_ids T -> safe40 T a -> same40 a b.
Proof.
  intros Hf Hr HT [Hs Hp Hk Hni Hpi [Hca Hca'] (Hg1 & Hg2 & Hg3 & Hg4) Hd [Hl1 Hl2] Hso Hme].
  assert (H41 : V40 <> V21) by discriminate.
  constructor.
  - apply (whole_in E T V40 export); auto.
  - rewrite (field_prodid E T V40 export a b Hf Hr H41 Hp), (field_kind E T export a b Hf Hr Hk). reflexivity.
  - rewrite (field_nicks E T V40 export a b Hf Hr H41 (texts_full_safe _ Hni)). apply texts_full_valid, Hni.
  - rewrite (field_pidmaps E T export a b Hf Hr (texts_full_safe _ Hpi)). apply texts_full_valid, Hpi.
  - apply (field_categories E T V40 export a b Hf Hr H41 Hca Hca').
  - apply (field_gender E T export a b Hf Hr); auto.
  - apply (field_deathdate E T export a b Hf Hr Hd).
  - apply (field_langs E T export a b Hf Hr); auto.
  - rewrite (field_sources E T V40 export a b Hf Hr) by (eapply Forall_impl; [|exact Hso]; intros u Hx; apply Hx).
    rewrite filter_true by (eapply Forall_impl; [|exact Hso]; intros u (_ & Hx & _); apply negb_true_iff, isnil_false; exact Hx).
    clear - Hso. induction Hso as [|u l (_ & _ & Hx) _ IH]; [reflexivity|]. cbn [map]. rewrite Hx, IH. reflexivity.
  - destruct Hme as [Hm|(Hm1 & Hm2 & Hm3)]; [rewrite Hm; apply (no_members E T export a b Hf Hr Hm)|].
    rewrite (field_members E T export a b Hf Hr); auto.
    + apply filter_true. eapply Forall_impl; [|exact Hm2]. intros u [_ Hx]. apply negb_true_iff, isnil_false. exact Hx.
    + eapply Forall_impl; [|exact Hm2]. intros u Hx; apply Hx.
Qed.
