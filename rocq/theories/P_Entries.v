(** The parameters of the entries of a contact (C78). *)
From Verif Require P_Values.
From Verif Require Import Base BaseFacts QtText Utf8 Utf8Facts M_ParamMap M_VCard M_VCardText S_Card P_Assoc P_Card S_Escape P_Escape
  S_Parse P_Parse P_Parse2 S_Soft P_Soft P_SoftLoop M_Split S_Split P_Split M_Values M_Date M_Addressee M_VCardTool P_ReadBack S_Order P_CardOrder P_Unknown
  S_Case P_Case P_Foreign P_RoundTrip P_RoundTrip2 S_Coding P_Coding P_ReadFields P_Contact P_Lists P_Fields P_Types S_Contact S_DateText P_DateText P_Fields5 P_Four S_Meaning P_Meaning P_Meaning2 S_Entries.

Lemma meant_carries l p : meant l p -> carries p (vl_params l).
Proof. intros (_ & _ & _ & _ & H & _). exact H. Qed.
Lemma meant_value l p : meant l p -> lvalue l = sd_text p.
Proof. intros (_ & _ & H & _). exact H. Qed.
Lemma key_free k : k <> B "encoding" -> k <> B "charset" -> kept_key k.
Proof. split; assumption. Qed.
Lemma meant_param l p k : meant l p -> kept_key k -> exists vs, parameter p k vs /\ find_param k (vl_params l) = match vs with [] => None | _ => Some vs end.
Proof.
  intros (_ & _ & _ & _ & H1 & H2 & H3) Hk. destruct (H3 k) as (vs & V). exists vs. split; [exact V|].
  specialize (H1 k vs Hk V). specialize (H2 k Hk). unfold vl_parameters in H1. destruct (find_param k (vl_params l)) as [ws|]; subst vs; [|reflexivity].
  destruct ws; [exfalso; apply H2; reflexivity|reflexivity].
Qed.
Lemma contains_ci_In v vs : contains_ci v vs = true <-> exists w, In w vs /\ to_lower w = to_lower v.
Proof.
  rewrite P_Values.contains_ci_existsb, existsb_exists. split; intros (w & W1 & W2); exists w; split; auto; apply leqb_eq; exact W2.
Qed.
Lemma meant_preferred l p : meant l p -> (pm_preferred (vl_params l) = true <-> marked_preferred p).
Proof.
  intros Hm. destruct (meant_param l p (B "pref") Hm) as (vs & V1 & V2); [split; discriminate|].
  assert (Hu : forall ws, parameter p (B "pref") ws -> ws = vs).
  { intros ws W. destruct Hm as (_ & _ & _ & _ & H1 & _). rewrite <- (H1 (B "pref") ws), <- (H1 (B "pref") vs); auto; split; discriminate. }
  unfold pm_preferred, kPREF, kTYPE in *. rewrite V2. unfold marked_preferred. destruct vs as [|v vs].
  - destruct Hm as (_ & _ & _ & Ht & _). unfold line_types, vl_parameters in Ht. split.
    + intros H. right. split; [exact V1|]. destruct (find_param (B "type") (vl_params l)) as [ws|]; [|discriminate].
      apply contains_ci_In in H as (w & W1 & W2). exists w. split; [apply Ht; exact W1|exact W2].
    + intros [(ws & W)|(_ & w & W1 & W2)]; [apply Hu in W; discriminate|]. apply Ht in W1. destruct (find_param (B "type") (vl_params l)) as [ws|]; [|destruct W1].
      apply contains_ci_In. exists w. auto.
  - split.
    + intros H. apply leqb_eq in H. subst. left. exists vs. exact V1.
    + intros [(ws & W)|(W & _)]; apply Hu in W; [injection W as <- <-; reflexivity|discriminate].
Qed.
Lemma lookup_ext (f g : ustring -> bool) tab : (forall n, f n = g n) -> lookup_type f tab = lookup_type g tab.
Proof. intros H. induction tab as [|[n t] tab IH]; [reflexivity|]. cbn [lookup_type]. rewrite H, IH. reflexivity. Qed.
Lemma types_flipped up tab vs : types_of up tab vs = fold_left (fun t s => N.lor t (lookup_type (fun n => leqb (up s) n) tab)) vs 0%N.
Proof.
  unfold types_of. generalize 0%N. induction vs as [|v vs IH]; intros n; [reflexivity|]. cbn [fold_left].
  rewrite (lookup_ext (fun n => leqb n (up v)) (fun n => leqb (up v) n)) by (intros; apply leqb_sym). apply IH.
Qed.
Lemma meant_types up tab l : pm_type up tab (vl_params l) = join_types (fun s => lookup_type (fun n => leqb (up s) n) tab) (line_types l).
Proof.
  unfold pm_type, join_types, line_types, vl_parameters, kTYPE. destruct (find_param (B "type") (vl_params l)) as [vs|]; [|reflexivity]. apply types_flipped.
Qed.
Lemma meant_email_types l p t : meant l p -> flags_of email_flags p (email_type (mkEmail (vl_params l) t)).
Proof.
  intros Hm. unfold email_type. cbn [em_params]. rewrite meant_types. apply flags_said; [exact Hm|]. intros s i. apply lookup_bit.
  - unfold email_type_names, email_flags. repeat (apply Forall2_cons; [split; [reflexivity|intros x; apply upper_iff; reflexivity]|]). constructor.
  - cbn. repeat (apply NoDup_cons; [intros X; cbv in X; intuition discriminate|]). constructor.
Qed.
Definition url_flags' : list (string * N) :=
  [("HOME", 0); ("WORK", 1); ("OTHER", 6); ("PROFILE", 2); ("FTP", 3); ("RESERVATION", 4); ("APPINSTALLPAGE", 5)]%string%N.
Lemma exact_bit (tab : list (ustring * N)) (flags : list (string * N)) :
  Forall2 (fun e f => snd e = (2 ^ snd f)%N /\ fst e = B (fst f)) tab flags -> NoDup (map fst tab) ->
  forall s i, N.testbit (lookup_type (fun n => leqb s n) tab) i = true <-> exists w, In (w, i) flags /\ s = B w.
Proof.
  induction 1 as [|[n f] [w j] tab flags [H1 H2] HF IH]; intros Hn s i; cbn [lookup_type].
  - rewrite N.bits_0. split; [discriminate|]. intros (w & [] & _).
  - cbn [fst snd map] in *. inversion Hn as [|? ? Hnot Hn']; subst. destruct (leqb_spec s (B w)) as [En|En].
    + rewrite N.pow2_bits_eqb, N.eqb_eq. split.
      * intros ->. exists w. split; [left; reflexivity|exact En].
      * intros (w' & [Hw|Hw] & Hs); [congruence|]. exfalso. apply Hnot. rewrite <- En, Hs. clear - HF Hw.
        induction HF as [|[n' f'] [w'' j'] tab flags [K1 K2] _ IH]; [destruct Hw|]. cbn [fst snd map] in *. destruct Hw as [Hw|Hw]; [|right; auto].
        left. injection Hw as -> ->. exact K2.
    + rewrite IH by auto. split.
      * intros (w' & Hw & Hs). exists w'. split; [right; exact Hw|exact Hs].
      * intros (w' & [Hw|Hw] & Hs); [|eauto]. injection Hw as -> ->. congruence.
Qed.
Lemma meant_url_types l p u : meant l p -> exact_flags url_flags p (rurl_type (mkRurl (vl_params l) u)).
Proof.
  intros Hm i. unfold rurl_type. cbn [ru_params]. rewrite meant_types. unfold join_types. rewrite join_types_bit, N.bits_0.
  assert (HB : forall s, N.testbit (lookup_type (fun n => leqb s n) url_type_names) i = true <-> exists w, In (w, i) url_flags /\ s = B w).
  { intros s. rewrite (exact_bit url_type_names url_flags').
    - assert (X : forall e, In e url_flags <-> In e url_flags') by (intros e; unfold url_flags, url_flags'; cbn [In]; tauto).
      split; intros (w & W1 & W2); exists w; split; auto; apply X; exact W1.
    - unfold url_type_names, url_flags'. repeat (apply Forall2_cons; [split; reflexivity|]). constructor.
    - cbn. repeat (apply NoDup_cons; [intros X; cbv in X; intuition discriminate|]). constructor. }
  destruct Hm as (_ & _ & _ & Ht & _). split.
  - intros [K|(v & V1 & V2)]; [discriminate|]. apply HB in V2 as (w & W1 & ->). exists w. split; [exact W1|]. apply Ht. exact V1.
  - intros (w & W1 & W2). right. exists (B w). split; [apply Ht; exact W2|]. apply HB. eauto.
Qed.

(** ** Lists that are appended to *)
Lemma entries_said {X} T (get : addressee -> list X) K f (mk : vline -> X) (ok : X -> bool) (R : said -> X -> Prop) (want : said -> bool) ps L a :
  keyed K f -> (forall e x, get (put_empty e x) = get x) ->
  (forall id l x, K (line_kind l) = true -> get (eff T id l x) = if ok (mk l) then get x ++ [mk l] else get x) ->
  (forall id l x, K (line_kind l) = false -> get (eff T id l x) = get x) -> (forall id, get (addressee_new id) = []) ->
  (forall l p, meant l p -> ok (mk l) = want p /\ R p (mk l)) ->
  Forall2 meant L ps -> read_from T L a -> alike_in_case f ps -> Forall2 R (filter want (of_name f ps)) (get a).
Proof.
  intros HK He H1 H0 Hd Hm HL Hr Ha. destruct (fold_said T get K f (fun l x => if ok (mk l) then x ++ [mk l] else x) ps L a HK He H1 H0 Ha HL Hr) as (M & HM & ->).
  rewrite Hd.
  assert (HF : forall ws init, Forall2 R ws init -> Forall2 R (ws ++ filter want (of_name f ps)) (fold_left (fun x l => if ok (mk l) then x ++ [mk l] else x) M init)); [|apply (HF [] []); constructor].
  induction HM as [|m p M qs Hp _ IH]; intros ws init Hi; [cbn; rewrite app_nil_r; exact Hi|]. cbn [fold_left filter].
  destruct (Hm m p Hp) as [K1 K2]. rewrite K1. destruct (want p); [|apply IH; exact Hi].
  replace (ws ++ p :: filter want qs) with ((ws ++ [p]) ++ filter want qs) by (rewrite <- app_assoc; reflexivity). apply IH. apply Forall2_app; [exact Hi|]. constructor; [exact K2|constructor].
Qed.
Lemma texts_carry T E ps : reads_as_contact T E ps (fun a =>
  let entries f xs := alike_in_case f ps ->
    Forall2 (fun p x => pt_text x = sd_text p /\ carries p (pt_params x)) (filter (fun p => not_empty (sd_text p)) (of_name f ps)) xs in
  entries "nickname"%string (a_nicks a) /\ entries "title"%string (a_titles a) /\ entries "role"%string (a_roles a) /\ entries "clientpidmap"%string (a_pidmaps a)).
Proof.
  apply contact_read. intros L a HL Hr. cbv zeta.
  assert (HX : forall l p, meant l p -> ptext_valid (line_ptext l) = not_empty (sd_text p) /\ pt_text (line_ptext l) = sd_text p /\ carries p (pt_params (line_ptext l))).
  { intros l p Hm. unfold ptext_valid, not_empty, line_ptext. cbn [pt_text pt_params]. rewrite (meant_value l p Hm). split; [reflexivity|]. split; [reflexivity|]. apply meant_carries. exact Hm. }
  split; [|split; [|split]]; intros Ha.
  - apply (entries_said T a_nicks (isk LNickname) "nickname" line_ptext ptext_valid _ _ ps L a); auto; side.
  - apply (entries_said T a_titles (isk LTitle) "title" line_ptext ptext_valid _ _ ps L a); auto; side.
  - apply (entries_said T a_roles (isk LRole) "role" line_ptext ptext_valid _ _ ps L a); auto; side.
  - apply (entries_said T a_pidmaps (isk LClientpidmap) "clientpidmap" line_ptext ptext_valid _ _ ps L a); auto; side.
Qed.
Definition org_step (l : vline) (x : list ptext) : list ptext := match nth_error (parts_of cSEMI l) 0 with Some s => add_first (mkPtext (vl_params l) s) x | None => x end.
Lemma org_stepped l p ls x : meant l p -> in_parts 59 ls (sd_text p) ->
  org_step l x = if not_empty (hd [] ls) then x ++ [mkPtext (vl_params l) (hd [] ls)] else x.
Proof.
  intros Hm Hp. unfold org_step, parts_of. rewrite (meant_value l p Hm), (parts_read cSEMI ls) by (discriminate || auto). destruct Hp as (Hl & _). destruct ls as [|s ls]; [congruence|].
  reflexivity.
Qed.
Lemma orgs_carry T E ps ls : alike_in_case "org" ps -> Forall2 (fun p l => in_parts 59 l (sd_text p)) (of_name "org" ps) ls ->
  reads_as_contact T E ps (fun a =>
    Forall2 (fun pl x => pt_text x = hd [] (snd pl) /\ carries (fst pl) (pt_params x))
      (filter (fun pl => not_empty (hd [] (snd pl))) (combine (of_name "org" ps) ls)) (a_orgs a)).
Proof.
  intros Ha Hp. apply contact_read. intros L a HL Hr.
  destruct (fold_said T a_orgs (isk LOrg) "org" org_step ps L a) as (M & HM & ->); auto; side.
  cbn [a_orgs addressee_new]. clear HL Hr Ha.
  pose (R := fun (pl : said * list ustring) (x : ptext) => pt_text x = hd [] (snd pl) /\ carries (fst pl) (pt_params x)).
  assert (HF : forall ws init, Forall2 R ws init ->
    Forall2 R (ws ++ filter (fun pl => not_empty (hd [] (snd pl))) (combine (of_name "org" ps) ls)) (fold_left (fun x l => org_step l x) M init)); [|apply (HF [] []); constructor].
  revert M HM. induction Hp as [|p l qs ls Hp _ IH]; intros M HM ws init Hi; inversion HM as [|m ? M' ? Hm HM']; subst; [cbn; rewrite app_nil_r; exact Hi|].
  cbn [combine fold_left filter fst snd]. rewrite (org_stepped m p l init Hm Hp). destruct (not_empty (hd [] l)); [|apply IH; auto].
  refine (eq_ind _ (fun z => Forall2 R z _) _ _ _); [apply (IH _ HM' (ws ++ [(p, l)]))|rewrite <- app_assoc; reflexivity]. apply Forall2_app; [exact Hi|]. constructor; [|constructor]. split; [reflexivity|]. apply meant_carries. exact Hm.
Qed.
Lemma phones_carry T E ps : fresh_ids T -> alike_in_case "tel" ps -> reads_as_contact T E ps (fun a =>
  Forall2 (fun p x => ph_number x = simplified (sd_text p) /\ carries p (ph_params x)) (filter (fun p => visible (sd_text p)) (of_name "tel" ps)) (a_phones a)).
Proof.
  intros Hid Ha. apply contact_read. intros L a HL Hr.
  apply (fold_ids_said T a_phones (isk LTel) "tel" parse_phone ph_id (fun p => negb (isnil (simplified (ph_number p)))) _ _ ps L); auto; side.
  - intros l _. revert l. intros l Hl id x. revert Hl. eff_cases l.
  - intros id l p Hm _. cbn [parse_phone ph_number ph_params]. rewrite (meant_value l p Hm), simplified_idem. split; [reflexivity|]. split; [reflexivity|]. apply meant_carries. exact Hm.
Qed.
Lemma urls_carry T E ps : reads_as_contact T E ps (fun a =>
  let U := env_url (t_env T) in
  let url p := url_parse U (sd_text p) in
  let entries f := filter (fun p => url_valid U (url p)) (of_name f ps) in
  let calendars t := filter (fun c => caltype_eq (cu_type c) t) (a_calurls a) in
  (alike_in_case "url" ps -> Forall2 (fun p x => ru_url x = url p /\ carries p (ru_params x) /\ (rurl_preferred x = true <-> marked_preferred p) /\ exact_flags url_flags p (rurl_type x))
     (entries "url"%string) (a_urls a)) /\
  (alike_in_case "fburl" ps -> Forall2 (fun p x => cu_url x = url p /\ carries p (cu_params x)) (entries "fburl"%string) (calendars CalFBUrl)) /\
  (alike_in_case "caluri" ps -> Forall2 (fun p x => cu_url x = url p /\ carries p (cu_params x)) (entries "caluri"%string) (calendars CalCALUri)) /\
  (alike_in_case "caladruri" ps -> Forall2 (fun p x => cu_url x = url p /\ carries p (cu_params x)) (entries "caladruri"%string) (calendars CalCALADRUri))).
Proof.
  apply contact_read. intros L a HL Hr. cbv zeta.
  assert (HC : forall t K f, keyed K f -> t <> CalUnknown ->
    (forall id l x, K (line_kind l) = true -> typed_urls t (eff T id l x) =
       if calurl_valid (env_url (t_env T)) (mkCalurl (vl_params l) t (url_parse (env_url (t_env T)) (lvalue l)))
       then typed_urls t x ++ [mkCalurl (vl_params l) t (url_parse (env_url (t_env T)) (lvalue l))] else typed_urls t x) ->
    (forall id l x, K (line_kind l) = false -> typed_urls t (eff T id l x) = typed_urls t x) ->
    alike_in_case f ps -> Forall2 (fun p x => cu_url x = url_parse (env_url (t_env T)) (sd_text p) /\ carries p (cu_params x))
      (filter (fun p => url_valid (env_url (t_env T)) (url_parse (env_url (t_env T)) (sd_text p))) (of_name f ps)) (typed_urls t a)).
  { intros t K f HK Ht H1 H0 Ha.
    apply (entries_said T (typed_urls t) K f (fun l => mkCalurl (vl_params l) t (url_parse (env_url (t_env T)) (lvalue l))) (calurl_valid (env_url (t_env T))) _ _ ps L a); auto.
    intros l p Hm. cbn [cu_url cu_params]. rewrite (meant_value l p Hm). split; [|split; [reflexivity|apply meant_carries; exact Hm]].
    unfold calurl_valid. cbn [cu_type cu_url]. destruct t; try reflexivity. congruence. }
  split; [|split; [|split]].
  - intros Ha. apply (entries_said T a_urls (isk LUrl) "url" (fun l => mkRurl (vl_params l) (url_parse (env_url (t_env T)) (lvalue l))) (rurl_valid (env_url (t_env T))) _ _ ps L a); auto; side.
    intros l p Hm. rewrite (meant_value l p Hm). split; [reflexivity|]. split; [reflexivity|]. split; [apply meant_carries; exact Hm|]. split; [apply meant_preferred; exact Hm|].
    apply meant_url_types. exact Hm.
  - apply (HC CalFBUrl (isk LFburl) "fburl"%string); [keyed|discriminate|cal..].
  - apply (HC CalCALUri (isk LCaluri) "caluri"%string); [keyed|discriminate|cal..].
  - apply (HC CalCALADRUri (isk LCaladruri) "caladruri"%string); [keyed|discriminate|cal..].
Qed.

(** ** Lists with one entry per text *)
Lemma last_entries {X} T (get : addressee -> list X) K f (step : vline -> list X -> list X) (key : X -> ustring) (live : said -> bool) (R : said -> X -> Prop) ps L a :
  keyed K f -> (forall e x, get (put_empty e x) = get x) ->
  (forall id l x, K (line_kind l) = true -> get (eff T id l x) = step l (get x)) ->
  (forall id l x, K (line_kind l) = false -> get (eff T id l x) = get x) -> (forall id, get (addressee_new id) = []) ->
  (forall l x, NoDup (map key x) -> NoDup (map key (step l x))) ->
  (forall l p x e, meant l p -> NoDup (map key x) -> In e (step l x) -> (key e = sd_text p /\ R p e) \/ (In e x /\ (live p = true -> key e <> sd_text p))) ->
  Forall2 meant L ps -> read_from T L a -> alike_in_case f ps ->
  NoDup (map key (get a)) /\ forall e, In e (get a) -> exists qs p rs, of_name f ps = qs ++ p :: rs /\ key e = sd_text p /\ R p e /\ forall q, In q rs -> live q = true -> sd_text q <> key e.
Proof.
  intros HK He H1 H0 Hd Hn Hs HL Hr Ha. destruct (fold_said T get K f step ps L a HK He H1 H0 Ha HL Hr) as (M & HM & ->). rewrite Hd. clear HL Hr Ha.
  revert HM. generalize (of_name f ps) as ws. induction M as [|m M IH] using rev_ind; intros ws HM.
  - split; [constructor|]. intros e [].
  - apply Forall2_app_inv_l in HM as (ws1 & ws2 & HM1 & HM2 & ->). inversion HM2 as [|? p ? r Hm Hnil]; subst. inversion Hnil; subst. clear HM2 Hnil. rewrite fold_left_app. cbn [fold_left].
    destruct (IH _ HM1) as [I1 I2]. split; [apply Hn; exact I1|]. intros e Hin. destruct (Hs m p _ e Hm I1 Hin) as [[E1 E2]|[E1 E2]].
    + exists ws1, p, []. split; [reflexivity|]. split; [exact E1|]. split; [exact E2|]. intros q [].
    + destruct (I2 e E1) as (qs & p' & rs & -> & F1 & F2 & F3). exists qs, p', (rs ++ [p]). split; [rewrite <- app_assoc; reflexivity|]. split; [exact F1|]. split; [exact F2|].
      intros q Hq. apply in_app_iff in Hq as [Hq|[<-|[]]]; [auto|]. intros V W. apply (E2 V). auto.
Qed.

Lemma find_split_none {X} (f : X -> bool) l : find_split f l = None -> Forall (fun x => f x = false) l.
Proof.
  induction l as [|x l IH]; [constructor|]. cbn [find_split]. destruct (f x) eqn:E; [discriminate|]. destruct (find_split f l) as [[[b y] t]|]; [discriminate|]. intros _. constructor; auto.
Qed.
Lemma email_keys e l : NoDup (map em_mail l) -> NoDup (map em_mail (add_email_list e l)).
Proof.
  intros H. unfold add_email_list. destruct (find_split (fun x => leqb (em_mail x) (em_mail e)) l) as [[[b x] t]|] eqn:F.
  - apply find_split_Some in F as (-> & Hx & _). apply leqb_eq in Hx. rewrite map_app in H. cbn [map] in H. rewrite Hx in H.
    destruct (email_preferred e); cbn [map]; rewrite ?map_app; [|exact H]. cbn [map]. apply NoDup_remove in H as [H1 H2]. constructor; auto.
  - apply find_split_none in F. assert (N : ~ In (em_mail e) (map em_mail l)).
    { intros K. apply in_map_iff in K as (x & E & K). rewrite Forall_forall in F. specialize (F x K). cbn in F. rewrite E, leqb_refl in F. discriminate. }
    destruct (email_preferred e); [cbn [map]; constructor; auto|]. rewrite map_app. cbn [map]. apply NoDup_snoc; auto.
Qed.
Lemma email_members e l x : NoDup (map em_mail l) -> In x (add_email_list e l) -> x = e \/ (In x l /\ em_mail x <> em_mail e).
Proof.
  intros H. unfold add_email_list. destruct (find_split (fun x => leqb (em_mail x) (em_mail e)) l) as [[[b y] t]|] eqn:F.
  - apply find_split_Some in F as (-> & Hy & _). apply leqb_eq in Hy. rewrite map_app in H. cbn [map] in H. rewrite Hy in H. apply NoDup_remove in H as [_ H].
    assert (HX : In x (e :: b ++ t) -> x = e \/ In x (b ++ y :: t) /\ em_mail x <> em_mail e).
    { intros [->|I]; [auto|]. right. split; [apply in_app_iff in I; apply in_app_iff; cbn; tauto|]. intros K. apply H. rewrite <- K, <- map_app. apply in_map. exact I. }
    intros I. apply HX. destruct (email_preferred e); [exact I|]. apply in_app_iff in I. cbn [In] in *. rewrite in_app_iff. intuition.
  - apply find_split_none in F. rewrite Forall_forall in F. intros I. assert (K : x = e \/ In x l) by (destruct (email_preferred e); [destruct I; auto|apply in_app_iff in I; cbn in I; intuition]).
    destruct K as [->|K]; [auto|]. right. split; [exact K|]. intros Q. specialize (F x K). cbn in F. rewrite Q, leqb_refl in F. discriminate.
Qed.

Lemma emails_carry T E ps : alike_in_case "email" ps -> reads_as_contact T E ps (fun a =>
  NoDup (emails_of a) /\
  forall e, In e (a_emails a) -> exists p, last_with_text "email" ps p /\
    em_mail e = sd_text p /\ carries p (em_params e) /\ (email_preferred e = true <-> marked_preferred p) /\ flags_of email_flags p (email_type e)).
Proof.
  intros Ha. apply contact_read. intros L a HL Hr.
  destruct (last_entries T a_emails (isk LEmail) "email" (fun l x => add_email_list (mkEmail (vl_params l) (lvalue l)) x) em_mail (fun _ => true)
    (fun p e => carries p (em_params e) /\ (email_preferred e = true <-> marked_preferred p) /\ flags_of email_flags p (email_type e)) ps L a) as [H1 H2]; auto; side.
  - intros l x. apply email_keys.
  - intros l p x e Hm Hn Hin. rewrite (meant_value l p Hm) in Hin. destruct (email_members _ _ _ Hn Hin) as [->|[I1 I2]]; [left|right; auto].
    split; [reflexivity|]. split; [apply meant_carries; exact Hm|]. split; [apply meant_preferred; exact Hm|]. apply meant_email_types. exact Hm.
  - split; [exact H1|]. intros e He. destruct (H2 e He) as (qs & p & rs & E1 & E2 & E3 & E4). exists p. split; [|auto].
    exists qs, rs. split; [exact E1|]. intros q Hq. rewrite <- E2. auto.
Qed.
Lemma lang_keys e l : NoDup (map pt_text l) -> NoDup (map pt_text (insert_lang_list e l)).
Proof.
  intros H. unfold insert_lang_list. destruct (find_split (fun x => leqb (pt_text x) (pt_text e)) l) as [[[b x] t]|] eqn:F.
  - apply find_split_Some in F as (-> & Hx & _). rewrite map_app in *. exact H.
  - apply find_split_none in F. rewrite map_app. cbn [map]. apply NoDup_snoc; auto. intros K. apply in_map_iff in K as (x & E & K). rewrite Forall_forall in F. specialize (F x K).
    cbn in F. rewrite E, leqb_refl in F. discriminate.
Qed.
Lemma lang_members e l x : NoDup (map pt_text l) -> In x (insert_lang_list e l) -> x = e \/ (In x l /\ pt_text x <> pt_text e).
Proof.
  intros H. unfold insert_lang_list. destruct (find_split (fun x => leqb (pt_text x) (pt_text e)) l) as [[[b y] t]|] eqn:F.
  - apply find_split_Some in F as (-> & Hy & _). apply leqb_eq in Hy. rewrite map_app in H. cbn [map] in H. rewrite Hy in *. apply NoDup_remove in H as [_ H].
    intros I. apply in_app_iff in I. cbn [In] in I. assert (K : x = e \/ In x (b ++ t)) by (rewrite in_app_iff; destruct I as [I|[<-|I]]; [auto|left; destruct e; reflexivity|auto]).
    destruct K as [->|K]; [auto|]. right. split; [apply in_app_iff in K; apply in_app_iff; cbn; tauto|]. intros Q. apply H. rewrite <- Q, <- map_app. apply in_map. exact K.
  - apply find_split_none in F. rewrite Forall_forall in F. intros I. apply in_app_iff in I as [K|[->|[]]]; [|auto]. right. split; [exact K|]. intros Q. specialize (F x K). cbn in F.
    rewrite Q, leqb_refl in F. discriminate.
Qed.
Lemma langs_carry T E ps : alike_in_case "lang" ps -> reads_as_contact T E ps (fun a =>
  NoDup (map pt_text (a_langs a)) /\
  forall x, In x (a_langs a) -> exists p, last_with_text "lang" ps p /\ pt_text x = sd_text p /\ carries p (pt_params x)).
Proof.
  intros Ha. apply contact_read. intros L a HL Hr.
  destruct (last_entries T a_langs (isk LLang) "lang" (fun l x => if isnil (simplified (lvalue l)) then x else insert_lang_list (line_ptext l) x) pt_text (fun p => visible (sd_text p))
    (fun p e => visible (sd_text p) = true /\ carries p (pt_params e)) ps L a) as [H1 H2]; auto; side.
  - intros l x Hn. destruct (isnil (simplified (lvalue l))); [exact Hn|]. apply lang_keys. exact Hn.
  - intros l p x e Hm Hn Hin. rewrite (meant_value l p Hm) in Hin. unfold visible, not_empty. destruct (isnil (simplified (sd_text p))) eqn:V; [right; split; [exact Hin|discriminate]|].
    destruct (lang_members _ _ _ Hn Hin) as [->|[I1 I2]]; [left|right; split; [exact I1|intros _]].
    + cbn [line_ptext pt_text pt_params]. split; [apply meant_value; exact Hm|]. split; [reflexivity|apply meant_carries; exact Hm].
    + cbn [line_ptext pt_text] in I2. rewrite (meant_value l p Hm) in I2. exact I2.
  - split; [exact H1|]. intros e He. destruct (H2 e He) as (qs & p & rs & E1 & E2 & (E3 & E3') & E4). exists p. split; [|auto].
    exists qs, rs. split; [exact E1|]. intros q Hq K. apply (E4 q Hq); [rewrite K; exact E3|congruence].
Qed.

(** ** The preferred e-mail address *)
Definition first_mail (l : list email) : ustring := match l with [] => [] | e :: _ => em_mail e end.
Lemma first_preferred e l : email_preferred e = true -> first_mail (add_email_list e l) = em_mail e.
Proof. intros H. unfold add_email_list. rewrite H. destruct (find_split _ l) as [[[b x] t]|]; reflexivity. Qed.
Lemma first_kept e l : email_preferred e = false -> l <> [] -> first_mail (add_email_list e l) = first_mail l.
Proof.
  intros H Hl. unfold add_email_list. rewrite H. destruct (find_split (fun x => leqb (em_mail x) (em_mail e)) l) as [[[b x] t]|] eqn:F.
  - apply find_split_Some in F as (-> & Hx & _). apply leqb_eq in Hx. destruct b; cbn; auto.
  - destruct l; [congruence|reflexivity].
Qed.
Lemma add_email_some e l : add_email_list e l <> [].
Proof.
  unfold add_email_list. destruct (find_split _ l) as [[[b x] t]|]; destruct (email_preferred e); try discriminate; [destruct b|destruct l]; discriminate.
Qed.
Lemma preferred_said T E ps : alike_in_case "email" ps -> reads_as_contact T E ps (fun a =>
  forall qs p rs, of_name "email" ps = qs ++ p :: rs -> Forall (fun q => ~ marked_preferred q) rs ->
    (marked_preferred p \/ (qs = [] /\ ~ marked_preferred p)) -> preferred_email a = sd_text p).
Proof.
  intros Ha. apply contact_read. intros L a HL Hr qs p rs Hq Hn Hp. change (preferred_email a) with (first_mail (a_emails a)).
  destruct (fold_said T a_emails (isk LEmail) "email" (fun l x => add_email_list (mkEmail (vl_params l) (lvalue l)) x) ps L a) as (M & HM & ->); auto; side.
  rewrite Hq in HM. apply Forall2_app_inv_r in HM as (M1 & M2 & HM1 & HM2 & ->). inversion HM2 as [|m ? M3 ? Hm HM3]; subst. rewrite fold_left_app. cbn [fold_left a_emails addressee_new].
  assert (HF : forall init, first_mail init = sd_text p -> init <> [] ->
    first_mail (fold_left (fun x l => add_email_list (mkEmail (vl_params l) (lvalue l)) x) M3 init) = sd_text p).
  { clear - HM3 Hn. induction HM3 as [|m q M rs Hm _ IH]; intros init H1 H2; [exact H1|]. apply Forall_cons_iff in Hn as [Hn Hn']. cbn [fold_left]. apply (IH Hn'); [|apply add_email_some].
    rewrite first_kept; auto. destruct (email_preferred _) eqn:P; [|reflexivity]. exfalso. apply Hn. apply (meant_preferred m q Hm). exact P. }
  apply HF; [|apply add_email_some]. destruct Hp as [Hp|[-> Hp]].
  - rewrite first_preferred by (apply (meant_preferred m p Hm); exact Hp). apply meant_value. exact Hm.
  - inversion HM1; subst. cbn [fold_left]. unfold add_email_list. cbn [find_split]. destruct (email_preferred _); apply meant_value; exact Hm.
Qed.

(** ** Related contacts and messengers *)
Lemma meant_found L ps p : Forall2 meant L ps -> In p ps -> exists l, In l L /\ meant l p.
Proof.
  induction 1 as [|x q L ps Hx _ IH]; intros Hp; [destruct Hp|]. destruct Hp as [->|Hp]; [exists x; cbn; auto|]. destruct (IH Hp) as (l & L1 & L2). exists l. cbn. auto.
Qed.
Lemma related_carry T E ps : reads_as_contact T E ps (fun a =>
  (forall p, In p (of_name "related" ps) -> exists x, In x (a_related a) /\ pt_text x = sd_text p /\ carries p (pt_params x)) /\
  (forall x, In x (a_related a) -> exists p, In p (of_name "related" ps) /\ pt_text x = sd_text p /\ carries p (pt_params x)) /\
  NoDup (a_related a)).
Proof.
  apply contact_read. intros L a HL Hr. unfold read_from in Hr.
  pose (step := fun l (x : list ptext) => if existsb (fun y => ptext_eq y (line_ptext l)) x then x else x ++ [line_ptext l]).
  rewrite (read_lines_plain T a_related (isk LRelated) step 0) with (ls := in_order (card_of L)) (k := 1) (a := addressee_new (t_newid T 0 0)) (b := a); auto; side.
  cbn [a_related addressee_new]. set (M := filter (fun l => isk LRelated (line_kind l)) (in_order (card_of L))).
  assert (HF : forall M init y, In y (fold_left (fun x l => step l x) M init) <-> In y init \/ exists l, In l M /\ y = line_ptext l).
  { clear. induction M as [|m M IH]; intros init y; cbn [fold_left].
    - split; [auto|]. intros [H|(l & [] & _)]. exact H.
    - rewrite IH. assert (S1 : In y (step m init) <-> In y init \/ y = line_ptext m).
      { unfold step. destruct (existsb _ init) eqn:X; [|rewrite in_app_iff; cbn; intuition]. apply existsb_exists in X as (z & Z1 & Z2). apply P_Values.ptext_eq_eq in Z2. subst z. split; [auto|]. intros [H| ->]; auto. }
      rewrite S1. split.
      + intros [[H|H]|(l & H1 & H2)]; [auto|right; exists m; cbn; auto|right; exists l; cbn; auto].
      + intros [H|(l & [<-|H1] & H2)]; [auto|auto|right; exists l; auto]. }
  assert (HD : forall M init, NoDup init -> NoDup (fold_left (fun x l => step l x) M init)).
  { clear. induction M as [|m M IH]; intros init H; [exact H|]. cbn [fold_left]. apply IH. unfold step. destruct (existsb _ init) eqn:X; [exact H|].
    rewrite <- (rev_involutive (init ++ [line_ptext m])). apply NoDup_rev. rewrite rev_app_distr. cbn [rev app]. constructor; [|apply NoDup_rev; exact H].
    rewrite <- in_rev. intros K. rewrite (proj2 (existsb_exists _ _)) in X; [discriminate|]. exists (line_ptext m). split; [exact K|]. apply P_Values.ptext_eq_eq. reflexivity. }
  pose proof (filter_meant (isk LRelated) "related" L ps ltac:(keyed) HL) as HM. split; [|split].
  - intros p Hp. destruct (meant_found _ _ p HM Hp) as (l & L1 & L2). exists (line_ptext l). split; [|split; [apply (meant_value l p L2)|apply (meant_carries l p L2)]].
    apply HF. right. exists l. split; [|reflexivity]. apply filter_In in L1 as [L1 L3]. apply filter_In. split; [apply in_order_in; exact L1|exact L3].
  - intros x Hx. apply HF in Hx as [[]|(l & L1 & ->)]. apply filter_In in L1 as [L1 L3]. apply (proj1 (in_order_in _ _)) in L1.
    destruct (meant_in _ _ _ l HM) as (p & P1 & P2); [apply filter_In; auto|]. exists p. split; [exact P1|]. split; [apply (meant_value l p P2)|apply (meant_carries l p P2)].
  - apply HD. constructor.
Qed.
Lemma impps_grow T id l x i : In i (a_impps x) -> In i (a_impps (eff T id l x)).
Proof.
  assert (HA : forall V j is, In i is -> In i (add_impp V j is)) by (intros V j is H; unfold add_impp; destruct (impp_valid _ j); [apply in_app_iff; auto|exact H]).
  assert (HC : forall vs acc, In i (fst acc) -> In i (fst (fold_left (fun (acc : list impp * qurl) value =>
                      let url := t_set_path T value (snd acc) in
                      (add_impp (t_env T) (mkImpp (vl_params l) url) (fst acc), url)) vs acc))).
  { induction vs as [|v vs IH]; intros acc H; [exact H|]. cbn [fold_left]. apply IH. cbn [fst]. apply HA. exact H. }
  intros H. unfold eff. cbv zeta. destruct (line_kind l); try exact H;
    try (repeat match goal with
      | |- context [match ?x with _ => _ end] => destruct x
      | |- context [if ?x then _ else _] => destruct x
    end; exact H).
  - cbn [a_impps put_impps]. apply HA. exact H.
  - cbn [a_impps put_impps]. unfold custom_impps. cbv zeta. destruct (starts_with _ _); [|exact H]. apply HC. exact H.
Qed.
Lemma impps_read T card i l : (forall id x, In i (a_impps (eff T id l x))) -> forall ls k a b,
  (In i (a_impps a) \/ In l ls) -> read_lines T card k ls a = Some b -> In i (a_impps b).
Proof.
  intros Hi. induction ls as [|m ls IH]; intros k a b H Hr; cbn [read_lines] in Hr.
  - injection Hr as <-. destruct H as [H|[]]. exact H.
  - destruct (read_line T (t_newid T card k) m a) as [a'|] eqn:E; [|discriminate]. apply (IH _ _ _) with (2 := Hr). apply read_line_eff in E as [e ->].
    change (a_impps (put_empty ?u ?v)) with (a_impps v). destruct H as [H|[->|H]]; [left; apply impps_grow; exact H|left; apply Hi|right; exact H].
Qed.
Lemma impps_carry T E ps : reads_as_contact T E ps (fun a =>
  let U := env_url (t_env T) in
  forall p u, In p (of_name "impp" ps) -> u <> [] -> url_scheme U u <> [] ->
    ((url_parse U (sd_text p) = u) \/
     (exists service vs, parameter p (B "x-service-type") (service :: vs) /\ service <> [] /\ url_scheme U (url_parse U (sd_text p)) = [] /\
        u = t_set_scheme T (service_scheme (to_lower service)) (url_parse U (sd_text p)))) ->
    exists x, In x (a_impps a) /\ im_address x = u /\ carries p (im_params x) /\ (impp_preferred x = true <-> exists vs, parameter p (B "pref") (B "1" :: vs))).
Proof.
  apply contact_read. intros L a HL Hr. cbv zeta. intros p u Hp Hu Hs Hc.
  pose (K := fun k => match k with LImpp => true | _ => false end).
  pose proof (filter_meant K "impp" L ps ltac:(keyed) HL) as HM. destruct (meant_found _ _ p HM Hp) as (l & L1 & Hm). apply filter_In in L1 as [L1 L2].
  exists (mkImpp (vl_params l) u). split; [|split; [reflexivity|split; [apply meant_carries; exact Hm|]]].
  - apply (impps_read T 0 _ l) with (3 := Hr); [|right; apply in_order_in; exact L1]. intros id x. unfold eff. cbv zeta. destruct (line_kind l); try discriminate.
    cbn [a_impps put_impps]. rewrite (meant_value l p Hm).
    assert (HV : forall v, v = u -> In (mkImpp (vl_params l) u) (add_impp (t_env T) (mkImpp (vl_params l) v) (a_impps x))).
    { intros v ->. unfold add_impp, impp_valid. cbn [im_address]. destruct u as [|c u]; [congruence|]. cbn [isnil negb andb]. destruct (url_scheme (env_url (t_env T)) (c :: u)); [congruence|].
      cbn [isnil negb]. apply in_app_iff. right. left. reflexivity. }
    apply HV. destruct Hc as [<-|(service & vs & V1 & V2 & V3 & ->)].
    + destruct (url_scheme (env_url (t_env T)) (url_parse (env_url (t_env T)) (sd_text p))); [congruence|]. cbn [isnil]. rewrite andb_false_r. reflexivity.
    + rewrite V3. unfold vl_parameter. destruct Hm as (_ & _ & _ & _ & H1 & _). rewrite (H1 (B "x-service-type") _ ltac:(split; discriminate) V1). destruct service; [congruence|]. reflexivity.
  - destruct (meant_param l p (B "pref") Hm) as (vs & V1 & V2); [split; discriminate|]. unfold impp_preferred. cbn [im_params]. unfold kPREF. rewrite V2.
    assert (Hu' : forall ws, parameter p (B "pref") ws -> ws = vs).
    { intros ws W. destruct Hm as (_ & _ & _ & _ & H1 & _). rewrite <- (H1 (B "pref") ws), <- (H1 (B "pref") vs); auto; split; discriminate. }
    destruct vs as [|v vs]; [split; [intros Q; discriminate Q|intros (ws & W); apply Hu' in W; discriminate W]|]. split.
    + intros H. apply leqb_eq in H. subst. eauto.
    + intros (ws & W). apply Hu' in W. injection W as <- <-. reflexivity.
Qed.

(** ** Keys *)
Lemma listed k m : contains k (map fst m) = match find_param k m with Some _ => true | None => false end.
Proof.
  induction m as [|[q vs] m IH]; [reflexivity|]. cbn [map fst find_param contains]. rewrite IH. destruct (leqb q k); reflexivity.
Qed.
Lemma keys_said T E ps : fresh_ids T -> alike_in_case "key" ps -> reads_as_contact T E ps (fun a => Forall2 key_kind (of_name "key" ps) (a_keys a)).
Proof.
  intros Hid Ha. apply contact_read. intros L a HL Hr.
  replace (of_name "key" ps) with (filter (fun _ : said => true) (of_name "key" ps)) by (generalize (of_name "key" ps); induction l as [|x l IH]; [reflexivity|cbn; congruence]).
  apply (fold_ids_said T a_keys (fun k => match k with LKey => true | _ => false end) "key" parse_key ke_id (fun _ => true) _ _ ps L); auto; side.
  - intros l _. revert l. intros l Hl id x. revert Hl. eff_cases l.
  - intros id l. unfold parse_key. repeat match goal with |- context [if ?b then _ else _] => destruct b end; reflexivity.
  - intros id l p Hm _. split; [reflexivity|]. 
    destruct (meant_param l p (B "type") Hm) as (ts & T1 & T2); [split; discriminate|]. destruct (meant_param l p (B "mediatype") Hm) as (ms & M1 & M2); [split; discriminate|].
    assert (Hu : forall k ws us, kept_key k -> parameter p k ws -> parameter p k us -> ws = us).
    { intros k ws us Hk W1 W2. destruct Hm as (_ & _ & _ & _ & H1 & _). rewrite <- (H1 k ws), <- (H1 k us); auto. }
    unfold key_kind, parse_key. unfold vl_param_list. rewrite !listed, T2, M2. unfold vl_parameter, vl_parameters. rewrite T2, M2.
    assert (FT : kept_key (B "type")) by (split; discriminate). assert (FM : kept_key (B "mediatype")) by (split; discriminate).
    destruct ts as [|t ts].
    + split; [intros v vs V; pose proof (Hu _ _ _ FT V T1); discriminate|]. intros _. split.
      * intros v vs V. pose proof (Hu _ _ _ FM V M1) as <-. split; intros ->; match goal with |- context [if ?b then ke_set_bin _ _ else _] => destruct b end; reflexivity.
      * intros V. pose proof (Hu _ _ _ FM V M1) as <-. match goal with |- context [if ?b then ke_set_bin _ _ else _] => destruct b end; reflexivity.
    + split; [|intros V; pose proof (Hu _ _ _ FT V T1); discriminate]. intros v vs V. pose proof (Hu _ _ _ FT V T1) as X. injection X as -> ->. split; [|split].
      * intros ->. match goal with |- context [if ?b then ke_set_bin _ _ else _] => destruct b end; reflexivity.
      * intros ->. match goal with |- context [if ?b then ke_set_bin _ _ else _] => destruct b end; reflexivity.
      * intros N1 N2. rewrite !(proj2 (leqb_neq _ _)) by auto. match goal with |- context [if ?b then ke_set_bin _ _ else _] => destruct b end; split; reflexivity.
Qed.

(** ** The position *)
Lemma geo_said T E ps : reads_as_contact T E ps (fun a =>
  forall p lat lon, of_name "geo" ps = [p] -> S_Contact.number_text lat -> S_Contact.number_text lon -> sd_text p = lat ++ 59%N :: lon \/ sd_text p = B "geo:" ++ lat ++ 44%N :: lon ->
    between (-90) (t_float T lat) 90 -> between (-180) (t_float T lon) 180 -> a_geo a = mkGeo (t_float T lat) (t_float T lon) true true).
Proof.
  apply contact_read. intros L a HL Hr p lat lon Hq H1 H2 Ht [La1 La2] [Lo1 Lo2].
  apply (one_said T a_geo (fun k => match k with LGeo => true | _ => false end) "geo"
    (fun l x => match geo_parts l with
                | lat :: lon :: _ => let g := geo_set_lon (t_float T lon) (geo_set_lat (t_float T lat) geo_new) in if geo_eq g x then x else g
                | _ => x end) ps L a p); auto; side.
  intros l id Hm.
  assert (Hc : forall c s, In c [cCOMMA; cSEMI] -> S_Contact.number_text s -> ~ In c s) by (intros c s Hc Hs; apply (number_no c s Hs); destruct Hc as [<-|[<-|[]]]; unfold cCOMMA, cSEMI; lia).
  assert (Hp : geo_parts l = [lat; lon]).
  { unfold geo_parts. rewrite (meant_value l p Hm). cbv zeta. destruct Ht as [-> | ->].
    - rewrite starts_geo_app by (auto; right; eexists; reflexivity). rewrite split_app by (apply Hc; [right; left; auto|auto]). rewrite split_notin by (apply Hc; [right; left; auto|auto]). reflexivity.
    - change (starts_with (B "geo:") (B "geo:" ++ lat ++ 44%N :: lon)) with true. cbv iota. destruct (place_parts lat lon H1 H2) as [P1 P2].
      change (44%N :: lon) with ([cCOMMA] ++ lon). rewrite P1. exact P2. }
  rewrite Hp. cbn [a_geo addressee_new]. unfold geo_set_lat. rewrite La1, La2. unfold geo_set_lon. cbn [andb]. rewrite Lo1, Lo2. reflexivity.
Qed.
