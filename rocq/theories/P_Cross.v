(** Proofs for C92: contacts read from a vCard and exported to LDIF. *)
From Verif Require Import Base BaseFacts Utf8 QtText M_ParamMap M_VCard M_VCardText S_Escape S_Split S_Date M_Split M_Values M_Date M_Addressee M_VCardTool
  M_ContactGroup M_Ldif S_Ldif S_LdifContact S_Contact S_Whole P_ReadFields P_Lists P_Lines P_Contact P_Fields P_Fields2 P_Contact2 P_Whole.

(** ** A contact that reads as empty has no name *)
Definition nameless_step (a b : addressee) : Prop :=
  a_empty b = true -> a_empty a = true /\ a_formatted b = a_formatted a /\ a_family b = a_family a.
Lemma ns_refl a : nameless_step a a.
Proof. intros H. auto. Qed.
Lemma ns_trans a b c : nameless_step a b -> nameless_step b c -> nameless_step a c.
Proof. intros H K E. destruct (K E) as (E1 & F1 & G1). destruct (H E1) as (E2 & F2 & G2). repeat split; congruence. Qed.
Lemma ns_text get put v a : (forall v a, a_empty (put v a) = a_empty a) -> nameless_step a (set_text get put v a).
Proof. intros H. unfold set_text, guarded. destruct (leqb v (get a)); [apply ns_refl|]. intros E. rewrite H in E. discriminate E. Qed.
Lemma ns_part i get put parts a b : (forall v a, a_empty (put v a) = a_empty a) -> nameless_step a b -> nameless_step a (set_part_of i (set_text get put) parts b).
Proof. intros H K. unfold set_part_of. destruct (nth_error parts i); [|exact K]. apply (ns_trans _ _ _ K), ns_text, H. Qed.
Lemma ns_sort l a b : nameless_step a b -> nameless_step a (read_sort_as l b).
Proof. intros K. unfold read_sort_as. destruct (isnil _); [exact K|]. apply (ns_trans _ _ _ K), ns_text. reflexivity. Qed.
Lemma ns_custom app name v a : nameless_step a (insert_custom app name v a).
Proof. unfold insert_custom. destruct (_ || _); [apply ns_refl|]. destruct (find_custom _ _); intros E; discriminate E. Qed.
Lemma ns_impp V i a : nameless_step a (insert_impp V i a).
Proof. unfold insert_impp. destruct (impp_valid _ _); [intros E; discriminate E|apply ns_refl]. Qed.
Lemma ns_impps T m vs : forall a url, nameless_step a (fst (fold_left (fun (acc : addressee * qurl) value =>
                      let url := t_set_path T value (snd acc) in
                      (insert_impp (t_env T) (mkImpp m url) (fst acc), url)) vs (a, url))).
Proof.
  induction vs as [|v vs IH]; intros a url; [apply ns_refl|]. cbn [fold_left fst snd]. eapply ns_trans; [|apply IH]. apply ns_impp.
Qed.
Ltac ns_cases := repeat match goal with |- context [if ?c then _ else _] => destruct c end;
  first [apply ns_refl | intros E; discriminate E | intros E; repeat split; exact E].
Lemma ns_address x a : nameless_step a (insert_address x a).
Proof. unfold insert_address. ns_cases. Qed.
Lemma ns_line T id l a b : read_line T id l a = Some b -> nameless_step a b.
Proof.
  unfold read_line. cbv zeta. intros H. destruct (line_kind l);
    try (injection H as <-; first
      [ apply ns_text; reflexivity | apply ns_custom | apply ns_impp
      | unfold insert_fgroup, set_deathdate, read_calurl, insert_calurl, set_secrecy, insert_lang, add_email, insert_key, insert_nick,
          set_revision, insert_role, set_sound, insert_xsound, insert_phone, insert_title, insert_url, insert_source, insert_member, insert_related,
          insert_pidmap, insert_first_class, guarded; ns_cases ]).
  - destruct (parse_address T id l); [|discriminate H]. injection H as <-. apply ns_address.
  - destruct (parse_datetime (lvalue l)). injection H as <-. unfold set_birthday. ns_cases.
  - destruct (split_string cCOMMA (lvalue l)); [|discriminate H]. injection H as <-. intros E. discriminate E.
  - injection H as <-. destruct (parse_gender (lvalue l)); [|apply ns_refl]. unfold set_gender, guarded. ns_cases.
  - injection H as <-. unfold read_geo. cbv zeta. destruct (if starts_with _ _ then _ else _) as [|u [|w r]]; try apply ns_refl. unfold set_geo, guarded. ns_cases.
  - injection H as <-. unfold read_label. cbv zeta. destruct (find _ _); apply ns_address.
  - destruct (parse_picture l); [|discriminate H]. injection H as <-. unfold set_logo, insert_xlogo, guarded. ns_cases.
  - destruct (split_string cSEMI (lvalue l)); [|discriminate H]. injection H as <-. apply ns_sort.
    repeat (apply ns_part; [reflexivity|]). apply ns_refl.
  - destruct (split_string cSEMI (lvalue l)) as [ps|]; [|discriminate H]. injection H as <-. apply ns_sort. apply ns_part; [reflexivity|].
    unfold set_part_of. destruct (nth_error ps 0); [|apply ns_refl]. unfold insert_org, insert_first_class. ns_cases.
  - destruct (parse_picture l); [|discriminate H]. injection H as <-. unfold set_photo, insert_xphoto, guarded. ns_cases.
  - injection H as <-. destruct (parse_tz (lvalue l)); [|apply ns_refl]. unfold set_tz, guarded. ns_cases.
  - injection H as <-. unfold read_custom. cbv zeta. destruct (starts_with _ _); [apply ns_impps|]. destruct (index_of _ _); apply ns_custom.
Qed.
Lemma ns_lines T card ls : forall k a b, read_lines T card k ls a = Some b -> nameless_step a b.
Proof.
  induction ls as [|l ls IH]; intros k a b H; cbn [read_lines] in H; [injection H as <-; apply ns_refl|].
  destruct (read_line T (t_newid T card k) l a) as [c|] eqn:E; [|discriminate H]. exact (ns_trans _ _ _ (ns_line _ _ _ _ _ E) (IH _ _ _ H)).
Qed.
Lemma read_named E T v export a b : reads_as E T v export a b -> S_LdifContact.named b = true -> a_empty b = false.
Proof.
  intros (card & R) N. destruct (a_empty b) eqn:X; [|reflexivity]. destruct (ns_lines _ _ _ _ _ _ R X) as (_ & F & G).
  unfold S_LdifContact.named in N. rewrite F, G in N. discriminate N.
Qed.

(** ** Addresses that are read are not empty *)
Definition filled (a : addressee) : Prop := Forall (fun x => ad_empty x = false) (a_addresses a).
Lemma find_split_parts {A} (p : A -> bool) l b x t : find_split p l = Some (b, x, t) -> l = b ++ x :: t.
Proof.
  revert b. induction l as [|y l IH]; intros b H; cbn [find_split] in H; [discriminate H|]. destruct (p y); [injection H as <- <- <-; reflexivity|].
  destruct (find_split p l) as [[[b' z] t']|]; [|discriminate H]. injection H as <- <- <-. rewrite (IH b' eq_refl). reflexivity.
Qed.
Lemma filled_insert x a : filled a -> filled (insert_address x a).
Proof.
  unfold filled, insert_address. intros F. destruct (ad_empty x) eqn:X; [exact F|].
  change (Forall (fun x => ad_empty x = false) (replace_or (fun q => leqb (ad_id q) (ad_id x)) x true (a_addresses a))).
  unfold replace_or. destruct (find_split _ _) as [[[b z] t]|] eqn:S; [|apply Forall_app; auto].
  apply find_split_parts in S. rewrite S in F. apply Forall_app in F. destruct F as (F1 & F2). inversion F2; subst. apply Forall_app. auto.
Qed.
Lemma filled_line T id l a b : read_line T id l a = Some b -> filled a -> filled b.
Proof.
  intros H F. destruct (match line_kind l with LAdr | LLabel => true | _ => false end) eqn:K.
  - unfold read_line in H. cbv zeta in H. destruct (line_kind l); try discriminate K.
    + destruct (parse_address T id l); [|discriminate H]. injection H as <-. apply filled_insert, F.
    + injection H as <-. unfold read_label. cbv zeta. destruct (find _ _); apply filled_insert, F.
  - destruct (read_line_eff T id l a b H) as (e & ->). unfold filled. change (a_addresses (put_empty e (eff T id l a))) with (a_addresses (eff T id l a)).
    assert (X : a_addresses (eff T id l a) = a_addresses a) by (revert K; eff_cases l). rewrite X. exact F.
Qed.
Lemma filled_lines T card ls : forall k a b, read_lines T card k ls a = Some b -> filled a -> filled b.
Proof.
  induction ls as [|l ls IH]; intros k a b H F; cbn [read_lines] in H; [injection H as <-; exact F|].
  destruct (read_line T (t_newid T card k) l a) as [c|] eqn:E; [|discriminate H]. exact (IH _ _ _ H (filled_line _ _ _ _ _ E F)).
Qed.
Lemma read_filled E T v export a b : reads_as E T v export a b -> filled b.
Proof. intros (card & R). apply (filled_lines _ _ _ _ _ _ R). constructor. Qed.

(** ** What LDIF takes of a contact *)
Lemma pick_same {A} (R : A -> A -> Prop) ty pref blank t l m : (forall x y, R x y -> ty y = ty x /\ blank y = blank x) -> Forall2 R l m ->
  forall c d, R c d -> R (M_Addressee.pick ty pref blank t c l) (M_Addressee.pick ty pref blank t d m).
Proof.
  intros H F. induction F as [|x y l m Rxy F IH]; intros c d Rcd; cbn [M_Addressee.pick]; [exact Rcd|].
  destruct (H x y Rxy) as [-> _]. destruct (H c d Rcd) as [_ ->].
  destruct (match_pattern (ty x) t); [|apply IH, Rcd]. destruct (negb _); [exact Rxy|]. destruct (blank c); apply IH; assumption.
Qed.
Lemma phone_same t a b : same_in a b -> ph_number (phone_number [] t b) = ph_number (phone_number [] t a).
Proof.
  intros S. refine (proj1 (pick_same same_phone ph_type tPref (fun p => isnil (ph_number p)) t (a_phones a) (a_phones b) _ (k_phones _ _ S) _ _ _)).
  - intros x y (X1 & X2 & _). rewrite X1, X2. auto.
  - unfold same_phone. auto.
Qed.
Lemma address_same t a b : same_in a b -> filled a -> filled b -> same_address (address_of [] t a) (address_of [] t b).
Proof.
  intros S Fa Fb. refine (proj1 (pick_same (fun x y => same_address x y /\ ad_empty y = ad_empty x) ad_type aPref ad_empty t (a_addresses a) (a_addresses b) _ _ _ _ _)).
  - intros x y (X & Y). split; [apply X|exact Y].
  - pose proof (k_addresses _ _ S) as K. unfold filled in Fa, Fb. revert Fa Fb. induction K as [|x y l m X K IH]; intros Fa Fb; [constructor|].
    inversion Fa; subst. inversion Fb; subst. constructor; [split; [exact X|congruence]|auto].
  - unfold same_address. tauto.
Qed.
Lemma pairs_same X a b : same_in a b -> filled a -> filled b -> a_nicks b = a_nicks a -> contact_pairs X b = contact_pairs X a.
Proof.
  intros S Fa Fb K. unfold contact_pairs. cbv zeta.
  rewrite !(phone_same _ a b S).
  destruct (address_same aHome a b S Fa Fb) as (_ & _ & H3 & H4 & H5 & H6 & H7 & _).
  destruct (address_same aWork a b S Fa Fb) as (W1 & _ & W3 & W4 & W5 & W6 & W7 & _).
  rewrite H3, H4, H5, H6, H7, W1, W3, W4, W5, W6, W7.
  destruct S. injection k_texts as T1 T2 T3. injection k_n as N1 N2 N3 N4 N5. destruct k_orgs as (O1 & O2). destruct k_birthday as (B1 & _).
  unfold nickname, title, role, organization, preferred_email, emails_of, url_text, custom.
  rewrite T1, T2, T3, N1, N2, N4, K, k_titles, k_roles, O1, O2, B1, k_revision, k_urls, k_emails, k_customs. reflexivity.
Qed.
Lemma ldif_same X a b : same_in a b -> filled a -> filled b -> a_nicks b = a_nicks a -> a_empty b = a_empty a -> addressee_to_ldif X b = addressee_to_ldif X a.
Proof.
  intros S Fa Fb K M. unfold addressee_to_ldif. rewrite M, (pairs_same X a b S Fa Fb K). destruct S. injection k_texts as T1 _ _. unfold preferred_email. rewrite T1, k_emails. reflexivity.
Qed.
