(** The lines of a contact, property by property. *)
From Coq Require Import Permutation.
From Verif Require Import Base BaseFacts QtText Utf8 Utf8Facts M_ParamMap M_VCard M_VCardText
  S_Escape P_Escape S_Fold P_Fold S_CardText P_CardText S_Card P_Assoc P_Card S_Parse P_Parse P_Parse2
  S_RoundTrip P_RoundTrip P_RoundTrip2 P_RoundTrip3 P_ReadBack P_Items P_Order
  M_Split S_Split P_Split M_Values M_Date M_Addressee M_VCardTool S_Contact P_Seen P_ReadFields P_Lines P_Contact.

Inductive tag := TId (i : ustring) | TPic (b : bool) (i : ustring) | TAny (p : ustring -> bool).
Definition tag_ok (t : tag) (i : ustring) : Prop :=
  match t with
  | TId j => i = j
  | TPic b j => i = j \/ (b = true /\ exists s, i = j ++ [cCOLON] ++ s)
  | TAny p => p i = true
  end.
Definition pick (i : ustring) (c : tag * list vline) : list vline :=
  match fst c with
  | TId j => if leqb j i then snd c else []
  | TPic b j => if leqb j i then if b then filter (named i) (snd c) else snd c else []
  | TAny p => if p i then filter (named i) (snd c) else []
  end.

Definition chunks (T : Tool) (v : version) (export : bool) (a : addressee) : list (tag * list vline) :=
  [(TId (B "VERSION"), [text_line (B "VERSION") (version_text v)]);
   (TAny (fun i => leqb i (B "ADR") || leqb i (B "LABEL")), flat_map (address_lines T v) (a_addresses a));
   (TId (B "BDAY"), [bday_line v a]);
   (TId (B "DEATHDATE"), when (is40 v) [vl_set_value (QStr (create_datetime (a_deathdate a) v true)) (vline_new (B "DEATHDATE") QInvalid)]);
   (TId (B "CATEGORIES"), when (negb (is21 v)) [text_line (B "CATEGORIES") (join_components cCOMMA (a_categories a))]);
   (TId (B "MEMBER"), when (is40 v && leqb (to_lower (a_kind a)) (B "group")) (map (text_line (B "MEMBER")) (a_members a)));
   (TId (B "SOURCE"), map (text_line (B "SOURCE")) (a_sources a));
   (TId (B "RELATED"), map (params_line (B "RELATED")) (a_related a));
   (TId (B "CLASS"), when (is30 v) [secrecy_line (a_secrecy a)]);
   (TId (B "LANG"), when (is40 v) (map (params_line (B "LANG")) (a_langs a)));
   (TId (B "CLIENTPIDMAP"), when (is40 v) (map (params_line (B "CLIENTPIDMAP")) (a_pidmaps a)));
   (TId (B "EMAIL"), map (email_line v) (a_emails a));
   (TId (B "FN"), [line21 v (B "FN") (a_formatted a)]);
   (TId (B "GEO"), geo_lines T v (a_geo a));
   (TId (B "KEY"), map (key_line v) (a_keys a));
   (TPic (is40 v) (B "LOGO"), picture_line T v (B "LOGO") (a_logo a) :: map (picture_line T v (B "LOGO")) (a_xlogos a));
   (TId (B "MAILER"), when (negb (is40 v)) [line21 v (B "MAILER") (a_mailer a)]);
   (TId (B "N"), [n_line v a]);
   (TId (B "NAME"), when (negb (is40 v)) [line21 v (B "NAME") (a_name a)]);
   (TId (B "NICKNAME"), when (negb (is21 v)) (map (params_line (B "NICKNAME")) (a_nicks a)));
   (TId (B "NOTE"), [line21 v (B "NOTE") (a_note a)]);
   (TId (B "ORG"), map (org_line v (a_department a)) (a_orgs a));
   (TPic (is40 v) (B "PHOTO"), picture_line T v (B "PHOTO") (a_photo a) :: map (picture_line T v (B "PHOTO")) (a_xphotos a));
   (TId (B "PRODID"), when (negb (is21 v)) [text_line (B "PRODID") (a_prodid a)]);
   (TId (B "REV"), [text_line (B "REV") (create_datetime (a_revision a) v true)]);
   (TId (B "ROLE"), map (fun t => vl_add_params (pt_params t) (line21 v (B "ROLE") (pt_text t))) (a_roles a));
   (TId (B "SORT-STRING"), when (is30 v) [text_line (B "SORT-STRING") (a_sortstring a)]);
   (TId (B "SOUND"), when (negb (is40 v)) (sound_line v (a_sound a) :: map (sound_line v) (a_xsounds a)));
   (TId (B "TEL"), map (phone_line v) (a_phones a));
   (TId (B "TITLE"), map (fun t => vl_add_params (pt_params t) (line21 v (B "TITLE") (pt_text t))) (a_titles a));
   (TId (B "TZ"), when (tz_valid (a_tz a)) [text_line (B "TZ") (create_tz (tz_offset (a_tz a)))]);
   (TId (B "UID"), [text_line (B "UID") (a_uid a)]);
   (TId (B "URL"), map (fun u => vl_add_params (ru_params u) (text_line (B "URL") (ru_url u))) (a_urls a));
   (TId (B "GENDER"), when (is40 v) (when (gender_valid (a_gender a)) [text_line (B "GENDER") (gender_text (a_gender a))]));
   (TId (B "KIND"), when (is40 v) (when (negb (isnil (a_kind a))) [text_line (B "KIND") (a_kind a)]));
   (TAny (fun i => leqb i (B "FBURL") || leqb i (B "CALURI") || leqb i (B "CALADRURI")), when (is40 v) (flat_map (calurl_lines T) (a_calurls a)));
   (TAny (fun i => mem cDOT i && negb (mem cCOLON i)), map (fun f => vl_add_params (fg_params f) (text_line (fg_name f) (fg_value f))) (a_fgroups a));
   (TId (B "IMPP"), map impp_line (a_impps a));
   (TAny (fun i => starts_with (B "X-") i || leqb i (B "ANNIVERSARY") || leqb i (B "RELATED")), flat_map (custom_lines T v export) (customs_of a))].

Lemma when_app {A} b (x y : list A) : when b (x ++ y) = when b x ++ when b y.
Proof. destruct b; reflexivity. Qed.
Lemma chunks_lines T v export a : contact_lines T v export a = flat_map snd (chunks T v export a).
Proof.
  unfold contact_lines, chunks. rewrite !when_app, <- !(app_assoc (when _ _)). cbn [flat_map snd]. rewrite app_nil_r.
  repeat (match goal with |- ?x :: _ = ?x :: _ => f_equal | |- ?x ++ _ = ?x ++ _ => f_equal end); reflexivity.
Qed.

(** ** the names of the lines *)
Lemma add_params_id m l : vl_id (vl_add_params m l) = vl_id l.
Proof. rewrite vl_add_params_all. apply add_all_id. Qed.
Lemma tool_param_id v names l : vl_id (tool_param v (B "TYPE") names l) = vl_id l.
Proof. rewrite tool_param_all. apply add_all_id. Qed.
Lemma line21_id v id s : vl_id (line21 v id s) = id.
Proof. unfold line21, encode21. destruct v; try reflexivity. destruct (needs_encoding s); reflexivity. Qed.
Lemma vl_add_param_id k x l : vl_id (vl_add_param k x l) = vl_id l.
Proof. apply (add_all_id [(k, x)] l). Qed.
Lemma in_when {A} b (x : A) l : In x (when b l) -> In x l.
Proof. destruct b; [auto|intros []]. Qed.
Lemma email_line_id v e : vl_id (email_line v e) = B "EMAIL".
Proof.
  unfold email_line. assert (H : forall m l, vl_id (fold_left (email_param v) m l) = vl_id l); [|rewrite H; reflexivity].
  induction m as [|pv m IH]; intros l; auto. cbn [fold_left]. rewrite IH. unfold email_param.
  assert (Hf : forall vs x, vl_id (fold_left (fun acc s => vl_add_param s [] acc) vs x) = vl_id x).
  { induction vs as [|s vs IH']; intros x; auto. cbn [fold_left]. rewrite IH'. apply vl_add_param_id. }
  destruct v; try apply vl_add_param_id. destruct (leqb (to_lower (fst pv)) (B "type")); [|apply vl_add_param_id].
  destruct (contains (B "PREF") (snd pv)); rewrite ?vl_add_param_id; destruct (isnil _); unfold tool_param; rewrite ?Hf; auto.
Qed.
Lemma sound_line_id v s : vl_id (sound_line v s) = B "SOUND".
Proof. unfold sound_line. rewrite enc_param_all. destruct (so_intern s); [destruct (isnil (so_data s))|destruct (isnil (so_url s))]; rewrite ?add_all_id, ?vl_add_param_id; reflexivity. Qed.
Lemma key_line_id v k : vl_id (key_line v k) = B "KEY".
Proof.
  rewrite key_line_eq, add_all_id, enc_param_all. destruct (ke_isbin k); [destruct (isnil (ke_bin k))|destruct (isnil (ke_text k))]; rewrite ?add_all_id; reflexivity.
Qed.
Lemma picture_line_id T v id p : tag_ok (TPic (is40 v) id) (vl_id (picture_line T v id p)).
Proof.
  unfold picture_line. destruct v; cbn [is40 tag_ok].
  - left. destruct (picture_empty p); [reflexivity|]. destruct (pi_intern p); rewrite ?vl_add_param_id; reflexivity.
  - left. destruct (picture_empty p); [reflexivity|]. destruct (pi_intern p); rewrite ?vl_add_param_id; reflexivity.
  - unfold picture_line4. destruct (pi_intern p); [right; split; auto; exists (B "data:image/" ++ pi_type p); reflexivity|left; reflexivity].
Qed.
Lemma custom_line_id T v export n value l : wf_name n -> In l (custom_lines T v export (n ++ cCOLON :: value)) ->
  starts_with (B "X-") (vl_id l) || leqb (vl_id l) (B "ANNIVERSARY") || leqb (vl_id l) (B "RELATED") = true.
Proof.
  intros Hn. unfold custom_lines. rewrite custom_index by auto. destruct (isnil _); [intros []|]. cbv zeta.
  set (id := if export then _ else _). assert (Hid : starts_with (B "X-") id = true).
  { unfold id. destruct export; [|reflexivity]. destruct (renamed_x (firstn (length n) (n ++ cCOLON :: value))) as (r & -> & _). reflexivity. }
  clearbody id. intros H. assert (Hx : vl_id l = id \/ vl_id l = B "ANNIVERSARY" \/ vl_id l = B "RELATED").
  { destruct v.
    - destruct H as [<-|[]]. rewrite line21_id. auto.
    - destruct H as [<-|[]]. rewrite line21_id. auto.
    - destruct (leqb (to_lower id) _); [destruct H as [<-|[]]; right; left; reflexivity|].
      destruct (leqb (to_lower id) _); [destruct H as [<-|[]]; right; right; reflexivity|]. destruct H as [<-|[]]. left; reflexivity. }
  destruct Hx as [->|[->| ->]]; [rewrite Hid; reflexivity|reflexivity|reflexivity].
Qed.
Lemma address_line_id T v x l : In l (address_lines T v x) -> leqb (vl_id l) (B "ADR") || leqb (vl_id l) (B "LABEL") = true.
Proof.
  unfold address_lines. cbv zeta. rewrite in_app_iff. intros H.
  assert (Hx : vl_id l = B "ADR" \/ vl_id l = B "LABEL").
  { destruct H as [H|H].
    - right. destruct v; [| |destruct H]; (destruct (negb (isnil (ad_label x))); [destruct H as [<-|[]]|destruct H]); rewrite tool_param_id, line21_id; reflexivity.
    - left. destruct (address_blank x); [destruct H|destruct H as [<-|[]]]. rewrite tool_param_id.
      destruct v; rewrite ?line21_id; auto. destruct (geo_valid (ad_geo x)); rewrite ?vl_add_param_id; destruct (negb (isnil (ad_label x))); rewrite ?vl_add_param_id; reflexivity. }
  destruct Hx as [->| ->]; reflexivity.
Qed.

Ltac tag_one := intros l Hl; repeat apply in_when in Hl;
  first [apply in_map_iff in Hl as (? & <- & _) | destruct Hl as [<-|[]]];
  cbn [tag_ok]; unfold params_line, org_line, bday_line, secrecy_line, n_line;
  rewrite ?email_line_id, ?sound_line_id, ?key_line_id, ?phone_line_eq, ?add_all_id, ?add_params_id, ?line21_id; try reflexivity.
Lemma chunks_ok {E} T v export a : fitting E T v a -> Forall (fun c => forall l, In l (snd c) -> tag_ok (fst c) (vl_id l)) (chunks T v export a).
Proof.
  intros Hf. unfold chunks.
  repeat (apply Forall_cons; [cbn [fst snd]|]); [..|constructor].
  all: match goal with |- context [TAny _] => idtac | _ => try tag_one end.
  - intros l Hl. apply in_flat_map in Hl as (x & _ & Hl). eapply address_line_id; eauto.
  - destruct v; reflexivity.
  - destruct (a_secrecy a); reflexivity.
  - intros l [<-|Hl]; [apply picture_line_id|]. apply in_map_iff in Hl as (p & <- & _). apply picture_line_id.
  - destruct v; rewrite ?line21_id; auto. destruct (isnil (a_sortstring a)); reflexivity.
  - intros l [<-|Hl]; [apply picture_line_id|]. apply in_map_iff in Hl as (p & <- & _). apply picture_line_id.
  - intros l Hl. apply in_when in Hl. destruct Hl as [<-|Hl]; [apply sound_line_id|]. apply in_map_iff in Hl as (s & <- & _). apply sound_line_id.
  - intros l Hl. apply in_when in Hl. apply in_flat_map in Hl as (c & _ & Hl). unfold calurl_lines in Hl.
    destruct (calurl_valid (env_url (t_env T)) c); [|destruct Hl].
    destruct (cu_type c); try destruct Hl as [<-|[]]; try destruct Hl; cbn [tag_ok]; rewrite add_params_id; reflexivity.
  - intros l Hl. apply in_map_iff in Hl as (f & <- & Hin). cbn [tag_ok]. rewrite add_params_id. cbn [text_line vline_new vl_id].
    pose proof (fq_groups _ _ _ _ Hf) as Hg. rewrite Forall_forall in Hg. destruct (Hg f Hin) as (g & n & -> & [_ Wg] & [_ Wn] & _).
    apply andb_true_iff. split; [apply mem_In, in_or_app; right; left; reflexivity|]. apply negb_true_iff, mem_false. rewrite Forall_forall in Wg, Wn.
    rewrite !in_app_iff. intros [H|[[H|[]]|H]]; [destruct (Wg _ H) as [_ Hx]; apply Hx|discriminate|destruct (Wn _ H) as [_ Hx]; apply Hx]; unfold cCOLON; cbn; auto.
  - unfold impp_line. rewrite (fold_skip (fun pv => leqb (to_lower (fst pv)) (B "x-service-type"))). apply add_params_id.
  - intros l Hl. apply in_flat_map in Hl as (c & Hc & Hl). unfold customs_of in Hc. apply in_map_iff in Hc as (e & <- & He).
    pose proof (fq_customs _ _ _ _ Hf) as Hn. rewrite Forall_forall in Hn. cbn [tag_ok]. eapply custom_line_id; eauto.
Qed.

Lemma filter_flat_map {A B} (p : B -> bool) (f : A -> list B) l : filter p (flat_map f l) = flat_map (fun x => filter p (f x)) l.
Proof. induction l as [|x l IH]; auto. cbn. rewrite filter_app, IH. auto. Qed.
Lemma named_lines (E : Ext) T v export a i : fitting E T v a -> In i known ->
  filter (named i) (contact_lines T v export a) = flat_map (pick i) (chunks T v export a).
Proof.
  intros Hf Hi. pose proof (chunks_ok T v export a Hf) as Hc.
  assert (Hg : Forall (fun l => vl_group l = []) (flat_map snd (chunks T v export a))).
  { rewrite <- chunks_lines. eapply Forall_impl; [|apply (all_classed E T v export a Hf)].
    intros l Hl. apply (cl_group _ _ Hl). }
  rewrite chunks_lines, filter_flat_map. revert Hg. induction (chunks T v export a) as [|c cs IH]; intros Hg; auto.
  inversion Hc as [|? ? H1 H2]; subst. cbn [flat_map] in *. apply Forall_app in Hg as [G1 G2]. f_equal; [|apply IH; auto].
  rewrite Forall_forall in G1.
  assert (Hn : forall l, In l (snd c) -> named i l = leqb (vl_id l) i) by (intros l Hl; unfold named; rewrite (G1 l Hl); apply andb_true_r).
  unfold pick. destruct (fst c) as [j|b j|p]; cbn [tag_ok] in H1.
  - destruct (leqb_spec j i) as [->|Hne].
    + apply filter_all. intros l Hl. rewrite Hn, (H1 l Hl) by auto. apply leqb_refl.
    + apply filter_none. intros l Hl. rewrite Hn, (H1 l Hl) by auto. apply leqb_neq; auto.
  - destruct (leqb_spec j i) as [->|Hne].
    + destruct b; auto. apply filter_all. intros l Hl. rewrite Hn by auto. destruct (H1 l Hl) as [->|[H _]]; [apply leqb_refl|discriminate].
    + apply filter_none. intros l Hl. rewrite Hn by auto. apply leqb_neq. destruct (H1 l Hl) as [->|[_ [s ->]]]; auto. intros E0.
      assert (Hd : forallb (fun i => negb (mem cCOLON i)) known = true) by reflexivity. rewrite forallb_forall in Hd. specialize (Hd _ Hi).
      apply negb_true_iff, mem_false in Hd. apply Hd. rewrite <- E0. apply in_or_app. right. left. reflexivity.
  - destruct (p i) eqn:Ep; auto. apply filter_none. intros l Hl. rewrite Hn by auto. apply leqb_neq. intros E0.
    specialize (H1 l Hl). rewrite E0 in H1. exact (eq_true_false_abs _ H1 Ep).
Qed.

Lemma no_data {E} T v export a i l t : fitting E T v a -> v <> V40 -> pictured i = true -> In l (contact_lines T v export a) -> vl_id l <> i ++ B ":data:image/" ++ t.
Proof.
  intros Hf Hv Hi Hl E0. rewrite chunks_lines in Hl. apply in_flat_map in Hl as (c & Hc & Hl).
  pose proof (chunks_ok T v export a Hf) as Hok. rewrite Forall_forall in Hok. specialize (Hok c Hc l Hl). rewrite E0 in Hok.
  assert (H4 : is40 v = false) by (destruct v; auto; congruence).
  assert (Hno : forall i, In i [B "PHOTO"; B "LOGO"] -> Forall (fun c => ~ tag_ok (fst c) (i ++ B ":data:image/" ++ t)) (chunks T v export a)).
  { clear -H4. intros i Hi. unfold chunks. rewrite H4.
    repeat (apply Forall_cons; [cbn [fst]; destruct Hi as [<-|[<-|[]]]; cbn [tag_ok]|]); [..|constructor].
    all: try (intros H; discriminate H).
    all: try (intros [H|[H _]]; discriminate H).
    all: rewrite andb_false_r; discriminate. }
  assert (Hi' : In i [B "PHOTO"; B "LOGO"]) by (unfold pictured in Hi; rewrite orb_true_iff, !leqb_eq in Hi; cbn; intuition).
  specialize (Hno i Hi'). rewrite Forall_forall in Hno. exact (Hno c Hc Hok).
Qed.

(** the lines seen for one property *)
Theorem seen_chunk E T v export a K i : fitting E T v a -> of_kinds K [i] -> (pictured i = true -> v <> V40) ->
  filter (fun l => K (line_kind l)) (seen E T v export a) = readings E (flat_map (pick i) (chunks T v export a)).
Proof.
  intros Hf Hk Hp. assert (Hi : In i known).
  { destruct Hk as (_ & _ & _ & H). cbn [forallb] in H. rewrite andb_true_r in H. apply contains_In in H. exact H. }
  rewrite (seen_kind E T v export a K i) by auto. rewrite seen_named; auto.
  - rewrite (named_lines E) by auto. reflexivity.
  - intros Hpi l t Hl. apply (no_data (E := E) T v export a); auto.
Qed.
