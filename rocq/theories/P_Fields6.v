(** Custom fields, messaging addresses, calendars and field groups after writing and reading. *)
From Coq Require Import Permutation.
From Verif Require Import Base BaseFacts QtText Utf8 Utf8Facts M_ParamMap M_VCard M_VCardText
  S_Escape P_Escape S_Fold P_Fold S_CardText P_CardText S_Card P_Assoc P_Card S_Parse P_Parse P_Parse2
  S_RoundTrip P_RoundTrip P_RoundTrip2 P_RoundTrip3 P_ReadBack P_Items P_Order
  M_Split S_Split P_Split M_Values M_Date M_Addressee M_VCardTool S_Contact P_Seen P_ReadFields P_Lines P_Contact P_Chunks P_Lists P_Values P_Fields P_Fields2 P_Types P_Addr P_Fields3 P_Fields4 P_Fields5 P_Addressee.
From Verif Require P_Email.


(** ** the lines of a contact by kind *)
Definition main_chunks (T : Tool) (v : version) (export : bool) (a : addressee) := firstn 36 (chunks T v export a).
Definition fgroup_lines (a : addressee) : list vline := map (fun f => vl_add_params (fg_params f) (text_line (fg_name f) (fg_value f))) (a_fgroups a).
Definition custom_part (T : Tool) (v : version) (export : bool) (a : addressee) : list vline := flat_map (custom_lines T v export) (customs_of a).
Lemma lines_split T v export a :
  contact_lines T v export a = flat_map snd (main_chunks T v export a) ++ fgroup_lines a ++ map impp_line (a_impps a) ++ custom_part T v export a.
Proof.
  rewrite chunks_lines. rewrite <- (firstn_skipn 36 (chunks T v export a)). rewrite flat_map_app. f_equal.
  change (skipn 36 (chunks T v export a)) with (skipn 36 (chunks T v export a)). unfold chunks. cbn [skipn flat_map snd]. rewrite app_nil_r. reflexivity.
Qed.
(** neither a custom field nor a grouped line *)
Definition quiet (i : ustring) : Prop := starts_with (B "X-") i = false /\ (In cDOT i -> In cCOLON i).
Lemma quiet_dec i : negb (starts_with (B "X-") i) && (negb (mem cDOT i) || mem cCOLON i) = true -> quiet i.
Proof.
  intros H. apply andb_true_iff in H as [H1 H2]. split; [apply negb_true_iff; auto|]. intros Hd. apply mem_In in Hd. rewrite Hd in H2. cbn in H2. apply mem_In. exact H2.
Qed.
Lemma main_quiet {E} T v export a l : fitting E T v a -> In l (flat_map snd (main_chunks T v export a)) -> quiet (vl_id l).
Proof.
  intros Hf Hl. apply in_flat_map in Hl as (c & Hc & Hl). pose proof (chunks_ok T v export a Hf) as Ht. rewrite Forall_forall in Ht.
  assert (Hin : In c (chunks T v export a)) by (rewrite <- (firstn_skipn 36 (chunks T v export a)); apply in_or_app; left; exact Hc).
  specialize (Ht c Hin l Hl). clear Hin Hl Hf.
  assert (Hp : forall j, quiet (j ++ [cCOLON]) -> starts_with (B "X-") j = false -> 2 <= length j -> forall s, quiet (j ++ [cCOLON] ++ s)).
  { intros j [H1 H2] H3 Hlen s. split; [|intros _; rewrite !in_app_iff; right; left; left; auto].
    destruct j as [|x [|y j]]; [cbn in Hlen; lia|cbn in Hlen; lia|]. exact H3. }
  unfold main_chunks, chunks in Hc. cbn [firstn] in Hc.
  repeat (destruct Hc as [<-|Hc]; [cbn [fst tag_ok] in Ht;
     first [ rewrite Ht; apply quiet_dec; reflexivity
           | destruct Ht as [->|[_ [s ->]]]; [apply quiet_dec; reflexivity|apply Hp; [apply quiet_dec; reflexivity|reflexivity|cbn; lia]]
           | repeat (apply orb_true_iff in Ht as [Ht|Ht]); apply leqb_eq in Ht; rewrite Ht; apply quiet_dec; reflexivity ] | ]).
  destruct Hc.
Qed.
Definition is_x (l : vline) : bool := match line_kind l with LX => true | _ => false end.
Definition is_group (l : vline) : bool := match line_kind l with LGroup => true | _ => false end.
Lemma known_plain i : In i known -> quiet i /\ kind_of kind_table (to_lower i) <> LX /\ kind_of kind_table (to_lower i) <> LGroup.
Proof.
  assert (H : forallb (fun i => negb (starts_with (B "X-") i) && (negb (mem cDOT i) || mem cCOLON i) && match kind_of kind_table (to_lower i) with LX | LGroup => false | _ => true end) known = true) by (vm_compute; reflexivity).
  intros Hi. rewrite forallb_forall in H. specialize (H i Hi). apply andb_true_iff in H as [H1 H2]. split; [apply quiet_dec; exact H1|].
  destruct (kind_of kind_table (to_lower i)); split; discriminate.
Qed.
Lemma quiet_reread E x : classed E x -> loud E x = true -> quiet (vl_id x) -> (~ In cCOLON (vl_id x) \/ vl_group (reread E x) = []) ->
  is_x (reread E x) = false /\ is_group (reread E x) = false.
Proof.
  intros Hc Hl [Q1 Q2] Hcol. unfold is_x, is_group.
  destruct (cl_seen E x Hc Hl) as [(H1 & H2 & H3)|[(H1 & H2 & H3)|(H1 & H2 & H3)]].
  - rewrite shaped_kind by (left; rewrite H2; auto). rewrite H1. cbn [isnil]. rewrite H2. destruct H3 as [H3|[q H3]].
    + destruct (known_plain _ H3) as (_ & K1 & K2). destruct (kind_of kind_table (to_lower (vl_id x))); try tauto; auto.
    + rewrite H3 in Q1. discriminate.
  - exfalso. destruct Hcol as [Hcol|Hcol]; [|congruence]. apply Hcol, Q2. rewrite H3. apply in_or_app. right. left. reflexivity.
  - rewrite shaped_kind by (left; split; auto; left; apply pictured_known; exact H2). rewrite H1. cbn [isnil].
    destruct (known_plain _ (pictured_known _ H2)) as (_ & K1 & K2). destruct (kind_of kind_table (to_lower (vl_id (reread E x)))); try tauto; auto.
Qed.
Lemma picture_ungrouped E T v i p : In i [B "PHOTO"; B "LOGO"] -> picture_fits T v p ->
  ~ In cCOLON (vl_id (picture_line T v i p)) \/ vl_group (reread E (picture_line T v i p)) = [].
Proof.
  intros Hi Hfit. assert (Hn : ~ In cCOLON i) by (destruct Hi as [<-|[<-|[]]]; cbn; intuition discriminate).
  assert (Hv : v = V40 /\ pi_intern p = true \/ vl_id (picture_line T v i p) = i).
  { unfold picture_line, picture_line4. destruct v; [right; destruct (picture_empty p), (pi_intern p); rewrite ?vl_add_param_id; reflexivity..|].
    destruct (pi_intern p); auto. }
  destruct Hv as [[-> Hp]|Hv]; [|left; rewrite Hv; exact Hn]. right. unfold picture_line, picture_line4. rewrite Hp.
  destruct (proj1 Hfit Hp) as [Hb Ht]. destruct (seen_data E i (pi_type p) (pi_raw_of (env_img (t_env T)) p) Hi Ht Hb) as (_ & _ & R). cbv zeta in R. rewrite R. reflexivity.
Qed.
Lemma main_ungrouped E T v export a l : fitting E T v a -> In l (flat_map snd (main_chunks T v export a)) ->
  ~ In cCOLON (vl_id l) \/ vl_group (reread E l) = [].
Proof.
  intros Hf Hl. apply in_flat_map in Hl as (c & Hc & Hl). pose proof (chunks_ok T v export a Hf) as Ht. rewrite Forall_forall in Ht.
  assert (Hin : In c (chunks T v export a)) by (rewrite <- (firstn_skipn 36 (chunks T v export a)); apply in_or_app; left; exact Hc).
  specialize (Ht c Hin l Hl). clear Hin.
  pose proof (fq_pictures _ _ _ _ Hf) as Hp. rewrite Forall_forall in Hp.
  assert (Hno : forall i, mem cCOLON i = false -> ~ In cCOLON i) by (intros i Hi Hx; apply mem_In in Hx; congruence).
  unfold main_chunks, chunks in Hc. cbn [firstn] in Hc.
  repeat (destruct Hc as [<-|Hc]; [cbn [fst snd tag_ok] in Ht, Hl;
     first [ left; rewrite Ht; apply Hno; reflexivity
           | left; repeat (apply orb_true_iff in Ht as [Ht|Ht]); apply leqb_eq in Ht; rewrite Ht; apply Hno; reflexivity
           | clear Ht; destruct Hl as [<-|Hl]; [apply picture_ungrouped; [cbn; auto|apply Hp; cbn; auto]|];
             apply in_map_iff in Hl as (p & <- & Hl); apply picture_ungrouped; [cbn; auto|apply Hp; do 2 right; apply in_or_app; auto] ] | ]).
  destruct Hc.
Qed.

(** ** the custom lines *)
Definition custom_out (v : version) (export : bool) (e : ustring * ustring) : vline := mkVline (custom_id export (fst e)) [] (read_params (seen_ops (line_kvs v (snd e)))) (QStr (snd e)) [].
Definition full_custom (e : ustring * ustring) : bool := negb (isnil (snd e)).
Lemma custom_id_reads export n : wf_name n -> exists q, custom_id export n = B "X-" ++ q /\ Forall name_char q.
Proof.
  intros [_ Hn]. unfold custom_id. destruct export; [|exists n; split; [reflexivity|exact Hn]]. destruct (renamed_x n) as (r & -> & Hr). exists r. split; [reflexivity|apply Hr, Hn].
Qed.
Lemma custom_id_cases export n : custom_id export n = B "X-" ++ n \/ In (B "X-" ++ n, custom_id export n) export_names.
Proof.
  unfold custom_id. destruct export; [|auto].
  assert (H : forall tab id, renamed tab id = id \/ In (id, renamed tab id) tab).
  { induction tab as [|[x y] tab IH]; intros id; cbn [renamed]; auto. destruct (leqb_spec id x) as [->|_]; [right; left; auto|].
    destruct (IH id) as [E|E]; auto. right; right; exact E. }
  apply H.
Qed.
Lemma spelled_same tab lower given : (forall s, In (lower, s) tab -> s = given) -> spelled tab lower given = given.
Proof.
  induction tab as [|[x y] tab IH]; intros H; [reflexivity|]. cbn [spelled]. destruct (leqb_spec lower x) as [->|_].
  - apply H. left. reflexivity.
  - apply IH. intros s Hs. apply H. right. exact Hs.
Qed.
Lemma custom_key_back v export n value : (forall s, In (to_lower (B "X-" ++ n), s) import_names -> s = B "X-" ++ n) -> custom_key (custom_out v export (n, value)) = n.
Proof.
  intros H. unfold custom_key, custom_out. cbn [vl_id fst]. destruct (custom_id_cases export n) as [->|Hin].
  - rewrite spelled_same by exact H. reflexivity.
  - assert (Hall : forallb (fun e => leqb (spelled import_names (to_lower (snd e)) (snd e)) (fst e)) export_names = true) by (vm_compute; reflexivity).
    rewrite forallb_forall in Hall. specialize (Hall _ Hin). cbn [fst snd] in Hall. apply leqb_eq in Hall. rewrite Hall. reflexivity.
Qed.
(** names the reader treats as messaging keep their name *)
Lemma messaging_import n : starts_with (B "messaging/") n = true -> forall s, In (to_lower (B "X-" ++ n), s) import_names -> s = B "X-" ++ n.
Proof.
  intros Hn s Hin. exfalso.
  assert (Hs : starts_with (B "x-messaging/") (to_lower (B "X-" ++ n)) = true).
  { apply starts_with_spec in Hn as [t ->]. reflexivity. }
  assert (Hall : forallb (fun e => negb (starts_with (B "x-messaging/") (fst e))) import_names = true) by (vm_compute; reflexivity).
  rewrite forallb_forall in Hall. specialize (Hall _ Hin). cbn [fst] in Hall. rewrite Hs in Hall. discriminate.
Qed.
Lemma custom_id_own export n : ~ own_property n -> leqb (to_lower (custom_id export n)) (B "x-kaddressbook-x-anniversary") = false /\
  leqb (to_lower (custom_id export n)) (B "x-kaddressbook-x-spousesname") = false.
Proof.
  intros Hn. destruct (custom_id_cases export n) as [->|Hin].
  - split; apply leqb_neq; intros H; apply (f_equal (skipn 2)) in H; change (to_lower n = skipn 2 (B "x-kaddressbook-x-anniversary")) in H || change (to_lower n = skipn 2 (B "x-kaddressbook-x-spousesname")) in H;
      apply Hn; unfold own_property; rewrite H; [left|right; left]; reflexivity.
  - assert (Hall : forallb (fun e => negb (leqb (to_lower (snd e)) (B "x-kaddressbook-x-anniversary")) && negb (leqb (to_lower (snd e)) (B "x-kaddressbook-x-spousesname"))) export_names = true) by (vm_compute; reflexivity).
    rewrite forallb_forall in Hall. specialize (Hall _ Hin). cbn [snd] in Hall. apply andb_true_iff in Hall as [H1 H2]. split; apply negb_true_iff; auto.
Qed.
Lemma customs_text {E} T v export a e : fitting E T v a -> special_free v a -> In e (a_customs a) ->
  custom_lines T v export (fst e ++ cCOLON :: snd e) = if isnil (snd e) then [] else [line21 v (custom_id export (fst e)) (snd e)].
Proof.
  intros Hf Hsp Hin. pose proof (fq_customs _ _ _ _ Hf) as Hw. rewrite Forall_forall in Hw. specialize (Hw e Hin).
  rewrite custom_lines_full by exact Hw.
  destruct (isnil (snd e)); [reflexivity|]. cbv zeta. fold (custom_id export (fst e)).
  destruct v; [reflexivity|reflexivity|]. specialize (Hsp eq_refl). rewrite Forall_forall in Hsp.
  destruct (custom_id_own export (fst e) (Hsp e Hin)) as [-> ->]. reflexivity.
Qed.
Lemma custom_line_seen E v export e : wf_name (fst e) -> codes E v (snd e) -> text_safe (snd e) ->
  loud E (line21 v (custom_id export (fst e)) (snd e)) = full_custom e /\
  reread E (line21 v (custom_id export (fst e)) (snd e)) = custom_out v export e.
Proof.
  intros Hw Hq [S1 S2]. destruct (custom_id_reads export _ Hw) as (q & Hi & Hc). unfold custom_out. rewrite Hi.
  destruct (seen_coded E (B "X-" ++ q) [] (B "X-" ++ q) v [] (snd e) (x_id q Hc) (NoDup_nil _) (Forall_nil _) Hq) as (_ & L & w & R & W).
  rewrite app_nil_r in L, R. rewrite line21_all, L, R, (W S1 S2). auto.
Qed.
Lemma custom_text_seen E export e : wf_name (fst e) -> text_safe (snd e) ->
  loud E (text_line (custom_id export (fst e)) (snd e)) = full_custom e /\
  reread E (text_line (custom_id export (fst e)) (snd e)) = custom_out V40 export e.
Proof. intros Hw Hs. exact (custom_line_seen E V40 export e Hw ltac:(intros H; discriminate) Hs). Qed.
Lemma custom_readings E T v export a : fitting E T v a -> special_free v a -> Forall (fun e => text_safe (snd e)) (a_customs a) ->
  readings E (custom_part T v export a) = map (custom_out v export) (filter full_custom (a_customs a)).
Proof.
  intros Hf Hsp Hs. pose proof (fq_customs _ _ _ _ Hf) as Hw. rewrite Forall_forall in Hw, Hs. unfold custom_part, customs_of.
  assert (H : forall l, (forall e, In e l -> In e (a_customs a)) ->
    readings E (flat_map (custom_lines T v export) (map (fun e => fst e ++ 58%N :: snd e) l)) = map (custom_out v export) (filter full_custom l)).
  { assert (Hq : forall e, In e (a_customs a) -> codes E v (snd e)).
    { intros e He Hv. destruct (fq_21 _ _ _ _ Hf Hv) as [H _]. rewrite Forall_forall in H. apply H, in_or_app. left. unfold texts21. rewrite !in_app_iff. right. right. apply in_map. exact He. }
    induction l as [|e l IH]; intros Hl; [reflexivity|]. cbn [map flat_map filter]. unfold readings. rewrite filter_app, map_app.
    fold (readings E (flat_map (custom_lines T v export) (map (fun e => fst e ++ 58%N :: snd e) l))). rewrite IH by (intros; apply Hl; right; auto).
    assert (He := Hl e ltac:(left; auto)). change (fst e ++ 58%N :: snd e) with (fst e ++ cCOLON :: snd e). rewrite (customs_text T v export a e Hf Hsp He). destruct (custom_line_seen E v export e (Hw e He) (Hq e He) (Hs e He)) as [L R].
    unfold full_custom at 2. destruct (isnil (snd e)) eqn:En; cbn [negb filter map app]; [reflexivity|].
    rewrite L. unfold full_custom. rewrite En. cbn [negb map app]. rewrite R. reflexivity. }
  apply H. auto.
Qed.
Lemma readings_app E x y : readings E (x ++ y) = readings E x ++ readings E y.
Proof. unfold readings. rewrite filter_app, map_app. reflexivity. Qed.
Lemma seen_perm E T v export a : Permutation (seen E T v export a) (readings E (contact_lines T v export a)).
Proof. apply reread_perm. Qed.
Lemma in_readings E l L : In l (readings E L) <-> exists x, In x L /\ loud E x = true /\ reread E x = l.
Proof.
  unfold readings. rewrite in_map_iff. split; intros (x & H); [destruct H as [<- H]; apply filter_In in H as [H1 H2]|destruct H as (H1 & H2 & <-)].
  - exists x. auto.
  - exists x. split; auto. apply filter_In. auto.
Qed.
Lemma impp_line_all i : impp_line i = vl_add_params (filter (fun pv => negb (leqb (to_lower (fst pv)) (B "x-service-type"))) (im_params i)) (text_line (B "IMPP") (im_address i)).
Proof. unfold impp_line. apply fold_skip. Qed.
Lemma quiet_parts E T v export a l : fitting E T v a -> In l (readings E (flat_map snd (main_chunks T v export a))) \/ In l (readings E (map impp_line (a_impps a))) ->
  is_x l = false /\ is_group l = false.
Proof.
  intros Hf Hl. pose proof (all_classed E T v export a Hf) as Hc. rewrite Forall_forall in Hc. pose proof (lines_split T v export a) as Hsplit.
  destruct Hl as [Hl|Hl]; apply in_readings in Hl as (x & Hx & Hloud & <-).
  - apply quiet_reread; auto; [apply Hc; rewrite Hsplit; apply in_or_app; auto|eapply main_quiet; eauto|eapply main_ungrouped; eauto].
  - assert (Hid : vl_id x = B "IMPP") by (apply in_map_iff in Hx as (i & <- & _); rewrite impp_line_all, add_params_id; reflexivity).
    apply quiet_reread; auto; [apply Hc; rewrite Hsplit; do 2 (apply in_or_app; right); apply in_or_app; auto|rewrite Hid; apply quiet_dec; reflexivity|].
    left. rewrite Hid. cbn. intuition discriminate.
Qed.
Lemma fgroup_seen E T v a f : fitting E T v a -> In f (a_fgroups a) ->
  loud E (vl_add_params (fg_params f) (text_line (fg_name f) (fg_value f))) = negb (isnil (fg_value f)) /\
  exists g n val, fg_name f = g ++ [cDOT] ++ n /\ g <> [] /\ to_lower n <> B "adr" /\ (text_safe (fg_value f) -> val = fg_value f) /\
    reread E (vl_add_params (fg_params f) (text_line (fg_name f) (fg_value f))) = mkVline n g (fg_params f) (QStr val) [].
Proof.
  intros Hf Hin. pose proof (fq_groups _ _ _ _ Hf) as Hg. rewrite Forall_forall in Hg. destruct (Hg f Hin) as (g & n & Hn & Wg & Wn & Ha).
  destruct (params_facts a (fq_params _ _ _ _ Hf)) as (_ & _ & _ & _ & _ & Hp & _).
  destruct (seen_params_group E (fg_name f) g n (fg_params f) (fg_value f)) as (_ & L & R); [rewrite Hn; apply reads_group; auto|apply Hp; exact Hin|].
  cbv zeta in L, R. split; [exact L|]. exists g, n, (thru (excl_of (vl_add_params (fg_params f) (vline_new (fg_name f) (QStr (fg_value f))))) (fg_value f)).
  split; [exact Hn|]. split; [apply Wg|]. split; [exact Ha|]. split; [|exact R]. intros [S1 S2]. apply thru_id; auto.
Qed.
Lemma custom_out_x v export e : wf_name (fst e) -> is_x (custom_out v export e) = true /\ is_group (custom_out v export e) = false.
Proof.
  intros Hw. destruct (custom_id_reads export _ Hw) as (q & Hq & _). unfold is_x, is_group. rewrite shaped_kind by (left; split; [reflexivity|right; exists q; exact Hq]).
  cbn [custom_out vl_group vl_id isnil]. rewrite Hq, kind_x. auto.
Qed.
Lemma fgroup_kind E T v a l : fitting E T v a -> In l (readings E (fgroup_lines a)) -> is_x l = false /\ is_group l = true.
Proof.
  intros Hf Hl. apply in_readings in Hl as (x & Hx & _ & <-). unfold fgroup_lines in Hx. apply in_map_iff in Hx as (f & <- & Hin).
  destruct (fgroup_seen E T v a f Hf Hin) as (_ & g & n & val & _ & Hg & Ha & _ & ->). unfold is_x, is_group.
  rewrite shaped_kind by (right; auto). cbn [vl_group]. rewrite (proj2 (isnil_false _) Hg). auto.
Qed.
Lemma lx_perm E T v export a : fitting E T v a -> special_free v a -> Forall (fun e => text_safe (snd e)) (a_customs a) ->
  Permutation (filter is_x (seen E T v export a)) (map (custom_out v export) (filter full_custom (a_customs a))).
Proof.
  intros Hf Hsp Hs. etransitivity; [apply perm_filter, seen_perm|]. rewrite lines_split, !readings_app, !filter_app.
  rewrite (filter_none is_x (readings E (flat_map snd (main_chunks T v export a)))) by (intros l Hl; apply (quiet_parts E T v export a l Hf); auto).
  rewrite (filter_none is_x (readings E (fgroup_lines a))) by (intros l Hl; apply (fgroup_kind E T v a l Hf Hl)).
  rewrite (filter_none is_x (readings E (map impp_line (a_impps a)))) by (intros l Hl; apply (quiet_parts E T v export a l Hf); auto).
  cbn [app]. rewrite custom_readings by auto. rewrite filter_all; [reflexivity|]. intros l Hl. apply in_map_iff in Hl as (e & <- & He). apply filter_In in He as [He _].
  pose proof (fq_customs _ _ _ _ Hf) as Hw. rewrite Forall_forall in Hw. apply custom_out_x. apply Hw. exact He.
Qed.
Lemma group_perm E T v export a : fitting E T v a ->
  Permutation (filter is_group (seen E T v export a)) (readings E (fgroup_lines a)).
Proof.
  intros Hf. etransitivity; [apply perm_filter, seen_perm|]. rewrite lines_split, !readings_app, !filter_app.
  rewrite (filter_none is_group (readings E (flat_map snd (main_chunks T v export a)))) by (intros l Hl; apply (quiet_parts E T v export a l Hf); auto).
  rewrite (filter_none is_group (readings E (map impp_line (a_impps a)))) by (intros l Hl; apply (quiet_parts E T v export a l Hf); auto).
  rewrite (filter_all is_group (readings E (fgroup_lines a))) by (intros l Hl; apply (fgroup_kind E T v a l Hf Hl)).
  rewrite (filter_none is_group (readings E (custom_part T v export a))); [cbn [app]; rewrite app_nil_r; reflexivity|].
  intros l Hl. apply in_readings in Hl as (x & Hx & Hloud & <-).
  pose proof (all_classed E T v export a Hf) as Hc. rewrite Forall_forall in Hc. assert (Hcx : classed E x) by (apply Hc; rewrite lines_split; do 3 (apply in_or_app; right); exact Hx).
  unfold custom_part in Hx. apply in_flat_map in Hx as (c & Hcin & Hx). pose proof (customs_wf _ _ _ Hf) as Hw. rewrite Forall_forall in Hw. destruct (Hw c Hcin) as (n & value & -> & Hn & Hin).
  rewrite custom_lines_full in Hx by auto. destruct (isnil value); [destruct Hx|]. cbv zeta in Hx.
  fold (custom_id export n) in Hx.
  assert (Hnd : ~ In cDOT (vl_id x)).
  { destruct (custom_id_reads export n Hn) as (q & Hq & Hqc). assert (Hd : ~ In cDOT (custom_id export n)).
    { rewrite Hq. intros Hd. apply in_app_or in Hd as [Hd|Hd]; [cbn in Hd; intuition discriminate|]. rewrite Forall_forall in Hqc. destruct (Hqc _ Hd) as [_ Hd']. apply Hd'. left. reflexivity. }
    destruct (is40 v && leqb _ _); [destruct Hx as [<-|[]]; cbn; intuition discriminate|].
    destruct (is40 v && leqb _ _); [destruct Hx as [<-|[]]; cbn; intuition discriminate|]. destruct Hx as [<-|[]]. rewrite line21_id. exact Hd. }
  unfold is_group. destruct (cl_seen E x Hcx Hloud) as [(H1 & H2 & H3)|[(H1 & H2 & H3)|(H1 & H2 & H3)]].
  - rewrite shaped_kind by (left; rewrite H2; auto). rewrite H1. cbn [isnil]. rewrite H2. destruct H3 as [H3|[q H3]].
    + destruct (known_plain _ H3) as (_ & _ & K2). destruct (kind_of kind_table (to_lower (vl_id x))); tauto.
    + rewrite H3, kind_x. reflexivity.
  - exfalso. apply Hnd. rewrite H3. apply in_or_app. right. left. reflexivity.
  - rewrite shaped_kind by (left; split; auto; left; apply pictured_known; exact H2). rewrite H1. cbn [isnil].
    destruct (known_plain _ (pictured_known _ H2)) as (_ & _ & K2). destruct (kind_of kind_table (to_lower (vl_id (reread E x)))); tauto.
Qed.

(** ** custom fields *)
Lemma no_anniversary E T v export a : fitting E T v a -> special_free v a ->
  filter (fun l => match line_kind l with LAnniversary => true | _ => false end) (seen E T v export a) = [].
Proof.
  intros Hf Hsp. rewrite (seen_chunk E T v export a (fun k => match k with LAnniversary => true | _ => false end) (B "ANNIVERSARY")) by first [exact Hf | kinds | discriminate].
  change (flat_map (pick (B "ANNIVERSARY")) (chunks T v export a)) with (filter (named (B "ANNIVERSARY")) (custom_part T v export a) ++ []).
  rewrite app_nil_r, filter_none; [reflexivity|]. intros l Hl. unfold custom_part, customs_of in Hl. apply in_flat_map in Hl as (c & Hc & Hl).
  apply in_map_iff in Hc as (e & <- & He). pose proof (customs_text T v export a e Hf Hsp He) as Hct. change (custom_lines T v export (fst e ++ cCOLON :: snd e)) with (custom_lines T v export ((fun e : list N * list N => fst e ++ 58%N :: snd e) e)) in Hct. rewrite Hct in Hl. clear Hct.
  match type of Hl with In _ (if ?c then _ else _) => destruct c end; [destruct Hl|]. destruct Hl as [<-|[]]. unfold named. rewrite line21_id.
  match goal with |- leqb ?x ?y && _ = false => destruct (leqb_spec x y) as [Hx|_] end; [|reflexivity]. pose proof (custom_id_x export (fst e)) as Hi. assert (Hx2 : custom_id export (fst e) = B "ANNIVERSARY") by exact Hx. rewrite Hx2 in Hi. discriminate.
Qed.
Lemma increasing_filtered' (f : ustring * ustring -> bool) m : increasing (map fst m) -> increasing (map fst (filter f m)).
Proof.
  induction m as [|x m IH]; intros H; auto. cbn [map] in H. inversion H as [|? ? H1 H2]; subst. cbn [filter].
  destruct (f x); [|apply IH; auto]. cbn [map]. constructor; [apply IH; auto|]. rewrite Forall_forall in *. intros y Hy. apply H2.
  apply in_map_iff in Hy as (z & <- & Hz). apply filter_In in Hz as [Hz _]. apply in_map; auto.
Qed.
Lemma afind_nodup q (w : ustring) l : NoDup (map fst l) -> In (q, w) l -> afind q l = Some w.
Proof.
  induction l as [|[k u] l IH]; intros Hn Hi; [destruct Hi|]. cbn [map fst] in Hn. inversion Hn; subst. cbn [afind]. destruct Hi as [Hi|Hi].
  - injection Hi as -> ->. rewrite leqb_refl. reflexivity.
  - destruct (leqb_spec k q) as [->|_]; [|auto]. exfalso. apply H1. apply (in_map fst) in Hi. exact Hi.
Qed.
(** entries put one after the other *)
Definition put_entry (e : ustring * ustring) (cs : list (ustring * ustring)) : list (ustring * ustring) :=
  match find_custom (fst e) cs with Some _ => update_custom (fst e) (snd e) cs | None => insert_sorted (fst e) (snd e) cs end.
Lemma put_entries es : forall cs, NoDup (map fst es) -> asorted cs -> (forall q, In q (map fst es) -> ~ In q (map fst cs)) ->
  let m := fold_left (fun cs e => put_entry e cs) es cs in asorted m /\ forall q, afind q m = match afind q es with Some v => Some v | None => afind q cs end.
Proof.
  induction es as [|[k w] es IH]; intros cs Hn Hs Hd; [split; [exact Hs|reflexivity]|]. cbn [fold_left map fst] in *. inversion Hn as [|? ? Hk Hn']; subst.
  assert (Hf : afind k cs = None) by (apply afind_None, Hd; left; auto).
  assert (Hp : put_entry (k, w) cs = ains k w cs).
  { unfold put_entry. cbn [fst snd]. rewrite find_custom_afind, Hf. apply insert_sorted_ains. }
  rewrite Hp. destruct (IH (ains k w cs) Hn' ltac:(apply ains_sorted; auto)) as [H1 H2].
  { intros q Hq Hx. apply ains_keys_in in Hx as [->|Hx]; [auto|]. apply (Hd q); auto. right; auto. }
  split; [exact H1|]. intros q. rewrite H2. rewrite ains_find by exact Hf. cbn [afind]. rewrite (leqb_sym k q).
  destruct (leqb_spec q k) as [->|Hq].
  - rewrite (proj2 (afind_None _ _)); auto.
  - destruct (afind q es); reflexivity.
Qed.
Definition kept_custom (e : ustring * ustring) : bool := full_custom e && negb (is_messaging e).
Lemma field_customs E T v export a b : fitting E T v a -> reads_as E T v export a b -> special_free v a ->
  increasing (map fst (a_customs a)) -> Forall (fun e => text_safe (snd e) /\ (is_messaging e = true \/ custom_name (fst e))) (a_customs a) ->
  a_customs b = filter kept_custom (a_customs a).
Proof.
  intros Hf [card Hr] Hsp Hinc Hs.
  assert (Hts : Forall (fun e => text_safe (snd e)) (a_customs a)) by (eapply Forall_impl; [|exact Hs]; intros e He; apply He).
  rewrite Forall_forall in Hs.
  set (K := fun k => match k with LX | LAnniversary => true | _ => false end).
  set (g := fun (l : vline) (x : list (ustring * ustring)) => match line_kind l with LX => custom_customs l x
              | _ => ins_custom vendor_id x_anniversary (t_date_iso T (dt_date (fst (parse_datetime (lvalue l))))) x end).
  assert (H1 : forall id l x, K (line_kind l) = true -> a_customs (eff T id l x) = g l (a_customs x)).
  { intros id l x. unfold g, K. unfold eff. cbv zeta. destruct (line_kind l); intros H; try discriminate; reflexivity. }
  assert (H0 : forall id l x, K (line_kind l) = false -> a_customs (eff T id l x) = a_customs x).
  { intros id l x. unfold K. eff_cases l. }
  rewrite (read_lines_plain T a_customs K g card (fun e x => eq_refl) H1 H0 _ _ _ _ Hr).
  rewrite (fold_skip_lines g is_x).
  2: { intros l x Hin Hx. exfalso. apply filter_In in Hin as [Hin HK]. pose proof (no_anniversary E T v export a Hf Hsp) as Hno.
       assert (Hl : In l (filter (fun l => match line_kind l with LAnniversary => true | _ => false end) (seen E T v export a))).
       { apply filter_In. split; auto. unfold is_x in Hx. unfold K in HK. destruct (line_kind l); auto; discriminate. }
       rewrite Hno in Hl. destruct Hl. }
  rewrite filter_sub by (intros x; unfold is_x, K; destruct (line_kind x); auto). cbn [a_customs addressee_new].
  pose proof (lx_perm E T v export a Hf Hsp Hts) as Hp. apply Permutation_map_inv in Hp as (es & -> & Hp).
  assert (Hin : forall e, In e es -> In e (a_customs a) /\ full_custom e = true) by (intros e He; apply filter_In; apply (Permutation_in _ (Permutation_sym Hp) He)).
  pose proof (fq_customs _ _ _ _ Hf) as Hw. rewrite Forall_forall in Hw.
  assert (Hfold : forall l cs, (forall e, In e l -> In e es) -> fold_left (fun x l => g l x) (map (custom_out v export) l) cs = fold_left (fun cs e => put_entry e cs) (filter (fun e => negb (is_messaging e)) l) cs).
  { induction l as [|e l IH]; intros cs Hl; [reflexivity|]. cbn [map fold_left filter]. rewrite IH by (intros; apply Hl; right; auto).
    destruct (Hin e (Hl e ltac:(left; auto))) as [He Hfull]. destruct (custom_out_x v export e (Hw e He)) as [Hx _].
    assert (Hg : g (custom_out v export e) cs = custom_customs (custom_out v export e) cs) by (unfold g; unfold is_x in Hx; destruct (line_kind (custom_out v export e)); try discriminate; reflexivity).
    rewrite Hg. unfold custom_customs. destruct (Hs e He) as [_ Hname].
    assert (Hkey : custom_key (custom_out v export e) = fst e).
    { destruct e as [n value]. apply custom_key_back. cbn [fst] in Hname. destruct Hname as [Hm|(_ & _ & Hi)]; [apply messaging_import; exact Hm|exact Hi]. }
    rewrite Hkey. unfold is_messaging at 2. destruct (starts_with (B "messaging/") (fst e)) eqn:Em; cbn [negb]; [reflexivity|].
    destruct Hname as [Hm|((app & name & Hn & Ha & Hna & Hd) & _ & _)]; [unfold is_messaging in Hm; congruence|].
    cbn [fold_left]. f_equal. rewrite Hn. change (app ++ [45%N] ++ name) with (app ++ 45%N :: name). rewrite index_of_app_notin by exact Hd.
    rewrite firstn_app, Nat.sub_diag, firstn_all. cbn [firstn]. rewrite app_nil_r.
    replace (skipn (S (length app)) (app ++ 45%N :: name)) with name.
    2: { rewrite skipn_app. rewrite skipn_all2 by lia. replace (S (length app) - length app) with 1 by lia. reflexivity. }
    unfold ins_custom. unfold full_custom in Hfull. cbn [lvalue custom_out vl_value variant_string]. 
    apply negb_true_iff in Hfull. rewrite Hfull, (proj2 (isnil_false _) Hna), (proj2 (isnil_false _) Ha). cbn [orb]. unfold put_entry, qualified. rewrite Hn. reflexivity. }
  rewrite Hfold by auto.
  assert (Hnd : NoDup (map fst (filter (fun e => negb (is_messaging e)) es))).
  { assert (Hnd0 : NoDup (map fst (filter full_custom (a_customs a)))) by (apply asorted_nodup; unfold asorted; apply increasing_filtered'; exact Hinc).
    assert (Hnd1 : NoDup (map fst es)) by (eapply Permutation_NoDup; [apply Permutation_map; exact Hp|exact Hnd0]).
    clear - Hnd1. induction es as [|e es IH]; [constructor|]. cbn [map filter] in *. inversion Hnd1; subst. destruct (negb (is_messaging e)); cbn [map]; [|auto].
    constructor; [|auto]. intros Hx. apply H1. apply in_map_iff in Hx as (y & Hy & Hyin). apply filter_In in Hyin as [Hyin _]. rewrite <- Hy. apply in_map. exact Hyin. }
  destruct (put_entries (filter (fun e => negb (is_messaging e)) es) [] Hnd ltac:(constructor) ltac:(intros q _ Hq; exact Hq)) as [M1 M2]. cbv zeta in M1, M2.
  apply asorted_ext; [exact M1|unfold asorted; apply increasing_filtered'; exact Hinc|].
  intros q. rewrite M2.
  assert (Hperm : Permutation (filter kept_custom (a_customs a)) (filter (fun e => negb (is_messaging e)) es)).
  { replace (filter kept_custom (a_customs a)) with (filter (fun e => negb (is_messaging e)) (filter full_custom (a_customs a))).
    - apply perm_filter. exact Hp.
    - rewrite filter_filter. apply filter_ext. intros e. unfold kept_custom. reflexivity. }
  assert (Hk : asorted (filter kept_custom (a_customs a))) by (unfold asorted; apply increasing_filtered'; exact Hinc).
  destruct (afind q (filter kept_custom (a_customs a))) as [w|] eqn:Eq.
  - apply afind_In in Eq. apply (Permutation_in _ Hperm) in Eq. rewrite (afind_nodup q w _ Hnd Eq). reflexivity.
  - apply afind_None in Eq. rewrite (proj2 (afind_None _ _)); [reflexivity|]. intros Hq. apply Eq. eapply Permutation_in; [apply Permutation_map, Permutation_sym; exact Hperm|exact Hq].
Qed.
