(** What a written card says (C80): values made of components. *)
From Coq Require Import Permutation.
From Verif Require Import Base BaseFacts QtText Utf8 Utf8Facts M_ParamMap M_VCard M_VCardText
  S_Escape P_Escape S_Fold P_Fold S_CardText P_CardText S_Card P_Assoc P_Card S_Parse P_Parse P_Parse2
  S_RoundTrip P_RoundTrip P_RoundTrip2 P_RoundTrip3 P_ReadBack P_Items P_Order
  M_Split S_Split P_Split M_Values M_Date M_Addressee M_VCardTool S_Contact P_Seen P_ReadFields P_Lines P_Contact P_Chunks
  P_Types P_Addr P_Contact2 P_Fields P_Fields2 S_Soft S_Order S_Coding S_Meaning S_Written P_Written.

Lemma utf8_sep c : (c < 128)%N -> forall n s t, length s <= n -> to_utf8 (s ++ c :: t) = to_utf8 s ++ c :: to_utf8 t.
Proof.
  intros Hc. assert (Ec : enc1 c = [c]) by reflexivity. assert (Hc0 : forall t, to_utf8 (c :: t) = c :: to_utf8 t).
  { intros t. cbn [to_utf8]. rewrite (proj2 (N.ltb_lt c 0x80)) by lia. reflexivity. }
  assert (Hl : is_low c = false) by (unfold is_low; lia).
  induction n as [|n IH]; intros s t L; (destruct s as [|d s]; [apply Hc0|]); cbn [length] in L; [lia|].
  cbn [app]. cbn [to_utf8]. destruct (d <? 0x80)%N; [rewrite IH by lia; rewrite <- app_assoc; reflexivity|].
  destruct (d <? 0x800)%N; [rewrite IH by lia; rewrite <- app_assoc; reflexivity|].
  destruct (negb (is_surr d)); [rewrite IH by lia; rewrite <- app_assoc; reflexivity|].
  destruct (is_high d); [|rewrite IH by lia; reflexivity].
  destruct s as [|e s].
  - cbn [app]. rewrite Hl. cbn [app]. f_equal. apply Hc0.
  - cbn [app]. cbn [length] in L. destruct (is_low e).
    + rewrite IH by lia. rewrite <- app_assoc. reflexivity.
    + change (e :: s ++ c :: t) with ((e :: s) ++ c :: t). rewrite (IH (e :: s)) by (cbn [length]; lia). reflexivity.
Qed.
Lemma utf8_in c : (c < 128)%N -> c <> 63%N -> forall n s, length s <= n -> In c (to_utf8 s) -> In c s.
Proof.
  intros Hc Hq. assert (H2 : forall u, (0x80 <= u)%N -> ~ In c (enc2 u)) by (intros u Hu; cbn; lia).
  induction n as [|n IH]; intros s L; (destruct s as [|d s]; [intros []|]); cbn [length] in L; [lia|].
  cbn [to_utf8]. destruct (N.ltb_spec d 0x80).
  - cbn [app In enc1]. intros [H1|H1]; [left; auto|right; apply IH; [lia|auto]].
  - destruct (d <? 0x800)%N.
    + rewrite in_app_iff. intros [K|K]; [exfalso; revert K; cbn; lia|right; apply IH; [lia|auto]].
    + destruct (negb (is_surr d)).
      * rewrite in_app_iff. intros [K|K]; [exfalso; revert K; cbn; lia|right; apply IH; [lia|auto]].
      * destruct (is_high d).
        -- destruct s as [|e s]; [intros [K|[]]; congruence|]. cbn [length] in L. destruct (is_low e).
           ++ rewrite in_app_iff. intros [K|K]; [exfalso; revert K; cbn; lia|right; right; apply IH; [lia|auto]].
           ++ intros [K|K]; [congruence|]. right. apply (IH (e :: s)); [cbn [length]; lia|exact K].
        -- intros [K|K]; [congruence|right; apply IH; [lia|auto]].
Qed.
Lemma tok_sep e sep s : (sep = 59 \/ (sep = 44 /\ e = true))%N -> ~ In sep s -> ~ In sep (flat_map (tok true true e) s).
Proof.
  intros He Hs H. apply in_flat_map in H as (c & Hc & Hi). unfold tok in Hi.
  assert (Hne : c <> sep) by (intros ->; auto).
  destruct (N.eqb_spec c 92); [cbn in Hi; lia|]. destruct (N.eqb_spec c 44).
  { destruct He as [->|[-> ->]]; [destruct e; cbn in Hi; lia|cbn in Hi; lia]. }
  destruct (N.eqb_spec c 13); [cbn in Hi; lia|]. destruct (N.eqb_spec c 10); [cbn in Hi; lia|]. cbn in Hi. lia.
Qed.
Lemma escape_free sep s : ~ In sep s -> escape_sep sep s = s.
Proof.
  unfold escape_sep, replace_ch. induction s as [|c s IH]; intros H; auto. cbn [flat_map]. destruct (N.eqb_spec c sep) as [->|_]; [exfalso; apply H; left; auto|].
  cbn [app]. f_equal. apply IH. intros K. apply H. right. exact K.
Qed.
Lemma parts_written e sep l : (sep = 59 \/ (sep = 44 /\ e = true))%N -> Forall (fun s => ~ In sep s) l ->
  add_escapes e (to_utf8 (join_components sep l)) = join [sep] (map (fun s => add_escapes e (to_utf8 s)) l).
Proof.
  intros He Hl. unfold join_components. rewrite add_escapes_tok. rewrite (map_ext_in (escape_sep sep) (fun s => s)) by (intros s Hs; rewrite Forall_forall in Hl; apply escape_free; auto).
  rewrite map_id. rewrite (map_ext _ (fun s => flat_map (tok true true e) (to_utf8 s))) by (intros; apply add_escapes_tok).
  assert (Et : flat_map (tok true true e) [sep] = [sep]) by (destruct He as [->|[-> ->]]; reflexivity).
  induction l as [|s [|t l] IH]; [reflexivity|reflexivity|]. inversion Hl; subst.
  change (join [sep] (s :: t :: l)) with (s ++ sep :: join [sep] (t :: l)). rewrite (utf8_sep sep) with (n := length s) by (destruct He as [->|[-> _]]; lia).
  rewrite flat_map_app. cbn [flat_map]. cbn [flat_map] in Et. rewrite app_nil_r in Et. rewrite Et, IH by auto. reflexivity.
Qed.
Lemma parts_decoded e sep l : (sep = 59 \/ (sep = 44 /\ e = true))%N -> Forall (fun s => ~ In sep s) l ->
  Forall2 (fun w s => ~ In sep w /\ decodes w (to_utf8 s)) (map (fun s => add_escapes e (to_utf8 s)) l) l.
Proof.
  intros He. induction 1 as [|s l Hs _ IH]; constructor; auto. split; [|apply decodes_escapes]. rewrite add_escapes_tok. apply tok_sep; auto.
  intros K. apply Hs. apply (utf8_in sep) with (n := length s); auto; destruct He as [->|[-> _]]; lia.
Qed.
Lemma parts_held E i sep kvs l : sep = (if leqb i (B "CATEGORIES") then 44 else 59)%N -> Forall (fun s => ~ In sep s) l -> NoDup (map fst kvs) -> Forall plain_item kvs ->
  holds_parts sep (put_of E (add_all kvs (text_line i (join_components sep l)))) l.
Proof.
  intros Hs Hl Hn Hp. rewrite text_put by auto. split; cbn [sd_params sd_text]; [apply coding_items; auto|].
  set (e := leqb i (B "CATEGORIES") || leqb i (B "GEO")).
  assert (He : (sep = 59 \/ (sep = 44 /\ e = true))%N) by (unfold e; destruct (leqb i (B "CATEGORIES")); [right; subst; auto|left; auto]).
  exists (map (fun s => add_escapes e (to_utf8 s)) l). split; [apply parts_written; auto|apply parts_decoded; auto].
Qed.

(** ** Types *)
Lemma item_type kv v : plain_item kv ->
  (let q := iput kv in
   (~ In 61%N q /\ to_lower q <> B "quoted-printable" /\ to_lower q <> B "base64" /\ v = q) \/
   (exists k r, q = k ++ 61%N :: r /\ ~ In 34%N r /\ to_lower k = B "type" /\ In v (split 44%N r)) \/
   exists k vs r, in_quotes k vs r q /\ to_lower k = B "type" /\ (In v vs \/ In v (split 44%N r))) <-> In (B "type", v) (item_ops kv).
Proof.
  destruct kv as [k x]. intros ([Hk Hx] & _ & _ & Hs1 & _). cbn [fst snd] in *. unfold iput. cbn [fst snd]. rewrite ikey_latin1 by auto.
  unfold silent_key, item_ops in *. cbn [fst snd] in *.
  assert (Hl : to_lower (to_upper k) = to_lower k) by (apply lower_upper_ikey; auto).
  assert (Hu : ~ In 61%N (to_upper k)).
  { intros K. unfold to_upper in K. apply in_map_iff in K as (d & Hd & Hi). rewrite Forall_forall in Hk. destruct (Hk _ Hi) as [H1 H2]. cbn [In] in H2.
    unfold upper1, is_lower in Hd. destruct ((97 <=? d)%N && (d <=? 122)%N) eqn:E0; lia. }
  assert (Ht : forall k', to_lower k' = B "type" -> ~ In 61%N k').
  { intros k' Hk' K. apply (to_lower_in 61) in K; [|lia]. rewrite Hk' in K. cbv in K. intuition discriminate. }
  destruct x as [|c x]; cbn [isnil].
  - rewrite app_nil_r. split.
    + intros [(_ & H1 & H2 & ->)|[(k' & r & H & _)|(k' & vs & r & (H & _) & _)]].
      * left. unfold bare_key. rewrite (proj2 (leqb_neq _ _) H1), (proj2 (leqb_neq _ _) H2). reflexivity.
      * exfalso. apply Hu. rewrite H. apply in_or_app. right. left. reflexivity.
      * exfalso. apply Hu. rewrite H. apply in_or_app. right. left. reflexivity.
    + intros [H|[]]. injection H as H1 H2. left. split; [exact Hu|]. subst v. unfold bare_key in H1.
      destruct (leqb_spec (to_lower (to_upper k)) (B "quoted-printable")); [discriminate H1|]. destruct (leqb_spec (to_lower (to_upper k)) (B "base64")); [discriminate H1|]. auto.
  - assert (E0 : [cEQ] ++ to_latin1 (c :: x) = 61%N :: c :: x).
    { change ([cEQ] ++ ?z) with (61%N :: z). f_equal. apply latin1_of. destruct Hx as [Hx|(w & -> & Hw)].
      - eapply Forall_impl; [|exact Hx]. unfold ivalue_char. intros; lia.
      - constructor; [unfold cDQ; lia|]. apply Forall_app. split; [eapply Forall_impl; [|exact Hw]; unfold iquoted_char; intros; lia|repeat constructor; unfold cDQ; lia]. }
    assert (E1 : forall A (f : bytes -> A), f ([cEQ] ++ to_latin1 (c :: x)) = f (61%N :: c :: x)) by (intros; rewrite E0; reflexivity).
    cbv zeta. rewrite E0. clear E0 E1.
    assert (Hfirst : forall k' r, to_upper k ++ 61%N :: c :: x = k' ++ 61%N :: r -> to_lower k' = B "type" -> k' = to_upper k /\ r = c :: x).
    { intros k' r H H'. pose proof (first_eq _ _ _ _ Hu (Ht k' H') H) as Ek. subst k'. split; auto. apply app_inv_head in H. injection H as H. auto. }
    assert (Hno : ~ (~ In 61%N (to_upper k ++ 61%N :: c :: x) /\ to_lower (to_upper k ++ 61%N :: c :: x) <> B "quoted-printable" /\ to_lower (to_upper k ++ 61%N :: c :: x) <> B "base64" /\ v = to_upper k ++ 61%N :: c :: x)).
    { intros (H & _). apply H. apply in_or_app. right. left. reflexivity. }
    assert (Hpair : forall l : list bytes, In (B "type", v) (map (pair (to_lower k)) l) <-> to_lower k = B "type" /\ In v l).
    { intros l. rewrite in_map_iff. split; [intros (y & Hy & Hi); injection Hy as Hy1 Hy2; subst; auto|intros [<- Hi]; eauto]. }
    destruct Hx as [Hx|(w & Hw & Hw')].
    + assert (Hq : ~ In 34%N (c :: x)) by (intros K; rewrite Forall_forall in Hx; destruct (Hx _ K) as [_ K']; apply K'; cbn; auto).
      destruct (N.eqb_spec c cDQ) as [->|_]; [exfalso; apply Hq; left; reflexivity|]. rewrite Hpair. split.
      * intros [H|[(k' & r & H & _ & H2 & H3)|(k' & vs & r & (H & _) & H2 & _)]]; [destruct (Hno H)| |].
        -- destruct (Hfirst _ _ H H2) as [-> ->]. rewrite Hl in H2. auto.
        -- destruct (Hfirst _ _ H H2) as [_ Hr]. exfalso. apply Hq. rewrite <- Hr. apply in_or_app. right. left. reflexivity.
      * intros [H1 H2]. right. left. exists (to_upper k), (c :: x). rewrite Hl. auto.
    + injection Hw as -> Hw. change (cDQ =? cDQ)%N with true. cbn iota. rewrite Hw, removelast_last, Hpair. rewrite Hw in *. clear Hw x.
      assert (Hwq : ~ In 34%N w) by (intros K; rewrite Forall_forall in Hw'; destruct (Hw' _ K) as [_ K']; apply K'; reflexivity).
      split.
      * intros [H|[(k' & r & H & H0 & H2 & H3)|(k' & vs & r & (H & H4 & _ & H5 & H6) & H2 & H3)]]; [destruct (Hno H)| |].
        -- destruct (Hfirst _ _ H H2) as [_ ->]. exfalso. apply H0. left. reflexivity.
        -- destruct (Hfirst _ _ H H2) as [-> Hr]. destruct vs as [|v0 vs].
           ++ cbn [flat_map app] in Hr. injection Hr as Hr. change [cDQ] with [34%N] in Hr. apply app_inv_tail in Hr. subst r. rewrite Hl in H2. split; auto.
              unfold qsplit. rewrite H2. change (leqb (B "type") (B "type")) with true. cbn iota. destruct H3 as [[]|H3]; exact H3.
           ++ exfalso. inversion H5 as [|? ? [P1 P2] P3]; subst. cbn [flat_map] in Hr. destruct v0 as [|d v0]; cbn [app] in Hr; [discriminate|].
              injection Hr as -> _. destruct P1 as [_ P1]. apply P1. left. reflexivity.
      * intros [H1 H2]. right. right. exists (to_upper k), [], w. unfold qsplit in H2. rewrite H1 in H2. change (leqb (B "type") (B "type")) with true in H2. cbn iota in H2.
        split; [|rewrite Hl; auto]. split; [reflexivity|]. split; [|auto].
        rewrite <- Hl in H1. split; [|split]; intros K; (apply to_lower_in in K; [|lia]); rewrite H1 in K; cbv in K; intuition discriminate.
Qed.
Lemma type_put E i kvs u v : NoDup (map fst kvs) -> Forall plain_item kvs ->
  type_value v (put_of E (add_all kvs (text_line i u))) <-> exists kv, In kv kvs /\ In (B "type", v) (item_ops kv).
Proof.
  intros Hn Hp. rewrite text_put by auto. unfold type_value. cbn [sd_params]. rewrite Forall_forall in Hp. split.
  - intros (q & Hq & H). apply in_map_iff in Hq as (kv & <- & Hkv). assert (Hin : In kv kvs) by (eapply Permutation_in; [apply items_perm; auto|exact Hkv]).
    exists kv. split; auto. apply (item_type kv v (Hp kv Hin)). exact H.
  - intros (kv & Hin & H). exists (iput kv). split; [|apply (item_type kv v (Hp kv Hin)); exact H].
    apply in_map. eapply Permutation_in; [symmetry; apply items_perm; auto|exact Hin].
Qed.

(** ** Single texts and lists of texts *)
Lemma only_from T E v export a f i l : fits T v a -> In i known -> pictured i = false -> to_lower i = B f ->
  flat_map (pick i) (chunks T v export a) = map (text_line i) l -> only_texts f l (puts E (written (create_card T v export a))).
Proof. intros Hf Hi Hp Ef Hc. unfold only_texts. rewrite (of_name_puts T E v export a f i Hf Hi Hp Ef), Hc. apply texts_put; auto. Qed.
Lemma entries_from {A} T E v export a f i (mk : A -> vline) text params l : fits T v a -> In i known -> pictured i = false -> to_lower i = B f ->
  flat_map (pick i) (chunks T v export a) = map mk l ->
  (forall x, In x l -> mk x = vl_add_params (params x) (text_line i (text x)) /\ plain_params (params x)) ->
  only_entries f text params l (puts E (written (create_card T v export a))).
Proof. intros Hf Hi Hp Ef Hc Hm. unfold only_entries. rewrite (of_name_puts T E v export a f i Hf Hi Hp Ef), Hc. apply entries_put with (i := i); auto. Qed.
Ltac put_side := match goal with
  | |- In _ known => in_known
  | |- pictured _ = false => reflexivity
  | |- to_lower _ = B _ => reflexivity
  | _ => idtac
  end.

Lemma put_texts T E v export a : fits T v a -> let ps := puts E (written (create_card T v export a)) in
  only_texts "version" [version_text v] ps /\ only_texts "fn" [a_formatted a] ps /\ only_texts "note" [a_note a] ps /\ only_texts "uid" [a_uid a] ps /\
  only_texts "mailer" (when (negb (is40 v)) [a_mailer a]) ps /\ only_texts "name" (when (negb (is40 v)) [a_name a]) ps /\
  only_texts "prodid" (when (negb (is21 v)) [a_prodid a]) ps /\ only_texts "sort-string" (when (is30 v) [a_sortstring a]) ps /\
  only_texts "kind" (when (is40 v) [a_kind a]) ps /\ only_texts "source" (a_sources a) ps /\
  only_texts "member" (when (is40 v && leqb (to_lower (a_kind a)) (B "group")) (a_members a)) ps.
Proof.
  intros Hf ps. unfold ps. assert (Hm : forall b i l, map (text_line i) (when b l) = when b (map (text_line i) l)) by (intros [] ? ?; reflexivity).
  repeat match goal with |- _ /\ _ => split end.
  - apply (only_from T E v export a "version" (B "VERSION")); put_side; auto.
  - apply (only_from T E v export a "fn" (B "FN")); put_side; auto.
    change (flat_map (pick (B "FN")) (chunks T v export a)) with [line21 v (B "FN") (a_formatted a)]. rewrite line21_plain; [reflexivity|needs21 Hf].
  - apply (only_from T E v export a "note" (B "NOTE")); put_side; auto.
    change (flat_map (pick (B "NOTE")) (chunks T v export a)) with [line21 v (B "NOTE") (a_note a)]. rewrite line21_plain; [reflexivity|needs21 Hf].
  - apply (only_from T E v export a "uid" (B "UID")); put_side; auto.
  - apply (only_from T E v export a "mailer" (B "MAILER")); put_side; auto. rewrite Hm.
    change (flat_map (pick (B "MAILER")) (chunks T v export a)) with (when (negb (is40 v)) [line21 v (B "MAILER") (a_mailer a)] ++ []). rewrite app_nil_r, line21_plain; [reflexivity|needs21 Hf].
  - apply (only_from T E v export a "name" (B "NAME")); put_side; auto. rewrite Hm.
    change (flat_map (pick (B "NAME")) (chunks T v export a)) with (when (negb (is40 v)) [line21 v (B "NAME") (a_name a)] ++ []). rewrite app_nil_r, line21_plain; [reflexivity|needs21 Hf].
  - apply (only_from T E v export a "prodid" (B "PRODID")); put_side; auto. rewrite Hm.
    change (flat_map (pick (B "PRODID")) (chunks T v export a)) with (when (negb (is21 v)) [text_line (B "PRODID") (a_prodid a)] ++ []). apply app_nil_r.
  - apply (only_from T E v export a "sort-string" (B "SORT-STRING")); put_side; auto. rewrite Hm.
    change (flat_map (pick (B "SORT-STRING")) (chunks T v export a)) with (when (is30 v) [text_line (B "SORT-STRING") (a_sortstring a)] ++ []). apply app_nil_r.
  - assert (Hk : only_texts "kind" (when (is40 v) (when (negb (isnil (a_kind a))) [a_kind a])) (puts E (written (create_card T v export a)))).
    { apply (only_from T E v export a "kind" (B "KIND")); put_side; auto. rewrite !Hm.
      change (flat_map (pick (B "KIND")) (chunks T v export a)) with (when (is40 v) (when (negb (isnil (a_kind a))) [text_line (B "KIND") (a_kind a)]) ++ []). apply app_nil_r. }
    destruct v; try exact Hk. cbn [is40 when] in *. destruct (a_kind a) as [|c k]; exact Hk.
  - apply (only_from T E v export a "source" (B "SOURCE")); put_side; auto.
    change (flat_map (pick (B "SOURCE")) (chunks T v export a)) with (map (text_line (B "SOURCE")) (a_sources a) ++ []). apply app_nil_r.
  - apply (only_from T E v export a "member" (B "MEMBER")); put_side; auto. rewrite Hm.
    change (flat_map (pick (B "MEMBER")) (chunks T v export a)) with (when (is40 v && leqb (to_lower (a_kind a)) (B "group")) (map (text_line (B "MEMBER")) (a_members a)) ++ []). apply app_nil_r.
Qed.
Lemma put_version T E v export a : exists p rest, puts E (written (create_card T v export a)) = p :: rest /\
  sd_name p = B "VERSION" /\ sd_params p = [] /\ sd_text p = version_text v.
Proof.
  destruct (written_version T v export a) as [rest Hw]. rewrite Hw. unfold puts. change (text_line (B "VERSION") (version_text v)) with (add_all [] (text_line (B "VERSION") (version_text v))). cbn [filter].
  rewrite (text_loud E (B "VERSION") [] (version_text v)) by (try in_known; constructor).
  replace (not_empty (version_text v)) with true by (destruct v; reflexivity). cbn [map].
  eexists; eexists; split; [reflexivity|].
  rewrite (text_put E (B "VERSION") [] (version_text v)) by constructor. destruct v; repeat split.
Qed.

Lemma put_lists T E v export a : fits T v a -> let ps := puts E (written (create_card T v export a)) in
  only_entries "lang" pt_text pt_params (when (is40 v) (a_langs a)) ps /\ only_entries "clientpidmap" pt_text pt_params (when (is40 v) (a_pidmaps a)) ps /\
  only_entries "nickname" pt_text pt_params (when (negb (is21 v)) (a_nicks a)) ps /\
  only_entries "role" pt_text pt_params (a_roles a) ps /\ only_entries "title" pt_text pt_params (a_titles a) ps /\
  only_entries "email" em_mail em_params (a_emails a) ps /\ only_entries "url" ru_url ru_params (a_urls a) ps /\
  only_entries "impp" im_address (fun x => filter (fun kv => negb (leqb (fst kv) (B "x-service-type"))) (im_params x)) (a_impps a) ps.
Proof.
  intros Hf ps. unfold ps. destruct (params_facts a (fit_params _ _ _ Hf)) as (P1 & P2 & P3 & P4 & P5 & P6 & P7).
  assert (Hm : forall {A} b (g : A -> vline) l, map g (when b l) = when b (map g l)) by (intros ? [] ? ?; reflexivity).
  repeat match goal with |- _ /\ _ => split end.
  - apply (entries_from T E v export a "lang" (B "LANG") (params_line (B "LANG"))); put_side; auto.
    + rewrite Hm. change (flat_map (pick (B "LANG")) (chunks T v export a)) with (when (is40 v) (map (params_line (B "LANG")) (a_langs a)) ++ []). apply app_nil_r.
    + intros x Hx. apply in_when in Hx. split; [reflexivity|]. apply P3. in_app.
  - apply (entries_from T E v export a "clientpidmap" (B "CLIENTPIDMAP") (params_line (B "CLIENTPIDMAP"))); put_side; auto.
    + rewrite Hm. change (flat_map (pick (B "CLIENTPIDMAP")) (chunks T v export a)) with (when (is40 v) (map (params_line (B "CLIENTPIDMAP")) (a_pidmaps a)) ++ []). apply app_nil_r.
    + intros x Hx. apply in_when in Hx. split; [reflexivity|]. apply P3. in_app.
  - apply (entries_from T E v export a "nickname" (B "NICKNAME") (params_line (B "NICKNAME"))); put_side; auto.
    + rewrite Hm. change (flat_map (pick (B "NICKNAME")) (chunks T v export a)) with (when (negb (is21 v)) (map (params_line (B "NICKNAME")) (a_nicks a)) ++ []). apply app_nil_r.
    + intros x Hx. apply in_when in Hx. split; [reflexivity|]. apply P3. in_app.
  - apply (entries_from T E v export a "role" (B "ROLE") (params_line (B "ROLE"))); put_side; auto.
    + change (flat_map (pick (B "ROLE")) (chunks T v export a)) with (map (fun t => vl_add_params (pt_params t) (line21 v (B "ROLE") (pt_text t))) (a_roles a) ++ []).
      rewrite app_nil_r. apply line21_map. intros Hv. pose proof (fit21_texts _ _ _ Hf Hv) as H. rewrite Forall_forall in *. intros t Ht. apply H. in_app.
    + intros x Hx. split; [reflexivity|]. apply P3. in_app.
  - apply (entries_from T E v export a "title" (B "TITLE") (params_line (B "TITLE"))); put_side; auto.
    + change (flat_map (pick (B "TITLE")) (chunks T v export a)) with (map (fun t => vl_add_params (pt_params t) (line21 v (B "TITLE") (pt_text t))) (a_titles a) ++ []).
      rewrite app_nil_r. apply line21_map. intros Hv. pose proof (fit21_texts _ _ _ Hf Hv) as H. rewrite Forall_forall in *. intros t Ht. apply H. in_app.
    + intros x Hx. split; [reflexivity|]. apply P3. in_app.
  - apply (entries_from T E v export a "email" (B "EMAIL") (email_line v)); put_side; auto.
    + change (flat_map (pick (B "EMAIL")) (chunks T v export a)) with (map (email_line v) (a_emails a) ++ []). apply app_nil_r.
    + intros x Hx. split; [apply email_line_eq; auto|apply P1; auto]. intros Hv. destruct (fit_21 _ _ _ Hf Hv) as [_ H]. rewrite Forall_forall in H. auto.
  - apply (entries_from T E v export a "url" (B "URL") (fun u => vl_add_params (ru_params u) (text_line (B "URL") (ru_url u)))); put_side; auto.
    change (flat_map (pick (B "URL")) (chunks T v export a)) with (map (fun u => vl_add_params (ru_params u) (text_line (B "URL") (ru_url u))) (a_urls a) ++ []). apply app_nil_r.
  - apply (entries_from T E v export a "impp" (B "IMPP") impp_line); put_side; auto.
    + change (flat_map (pick (B "IMPP")) (chunks T v export a)) with (map impp_line (a_impps a) ++ []). apply app_nil_r.
    + intros x Hx. split; [|apply plain_filter; auto]. unfold impp_line. rewrite (fold_skip (fun pv => leqb (to_lower (fst pv)) (B "x-service-type"))).
      f_equal. apply filter_ext_in'. intros kv Hkv. destruct (P7 x Hx) as ((_ & Hw) & _). rewrite Forall_forall in Hw. destruct (Hw kv Hkv) as [Hk _]. rewrite key_lower by auto. reflexivity.
Qed.
