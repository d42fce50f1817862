(** Every line of a contact keeps its name when it is read. *)
From Coq Require Import Permutation.
From Verif Require Import Base BaseFacts QtText Utf8 Utf8Facts M_ParamMap M_VCard M_VCardText
  S_Escape P_Escape S_Fold P_Fold S_CardText P_CardText S_Card P_Assoc P_Card S_Parse P_Parse P_Parse2
  S_RoundTrip P_RoundTrip P_RoundTrip2 P_RoundTrip3 P_ReadBack P_Items P_Order
  M_Split S_Split P_Split M_Values M_Date M_Addressee M_VCardTool S_Contact P_Seen P_ReadFields.

(** ** names of lines *)
Definition known : list ustring := B "VERSION" :: map (fun e => to_upper (fst e)) kind_table.
Definition pictured (i : ustring) : bool := leqb i (B "PHOTO") || leqb i (B "LOGO").

Lemma known_id i : In i known -> id_reads i [] i.
Proof.
  intros H. assert (Hk : forallb (fun i => name_ok i && negb (leqb (to_lower i) (B "begin")) && negb (leqb (to_lower i) (B "end"))) known = true)
    by (vm_compute; reflexivity).
  rewrite forallb_forall in Hk. specialize (Hk i H). apply andb_true_iff in Hk as [Hk H3]. apply andb_true_iff in Hk as [H1 H2].
  apply negb_true_iff in H2, H3. apply leqb_neq in H2, H3. apply reads_id; auto. split; [|apply name_ok_spec; auto].
  intros ->. assert (Hk : contains [] known = false) by (vm_compute; reflexivity). apply contains_In in H. congruence.
Qed.
Lemma x_id q : Forall name_char q -> id_reads (B "X-" ++ q) [] (B "X-" ++ q).
Proof.
  intros Hc. apply reads_id.
  - split; [discriminate|]. apply Forall_app. split; auto.
    apply name_ok_spec. reflexivity.
  - discriminate.
  - discriminate.
Qed.

(** how a line is seen by the reader of contacts *)
Record classed (E : Ext) (l : vline) : Prop := {
  cl_good : good E l;
  cl_group : vl_group l = [];
  cl_seen : loud E l = true ->
    (vl_group (reread E l) = [] /\ vl_id (reread E l) = vl_id l /\
       (In (vl_id l) known \/ exists q, vl_id l = B "X-" ++ q)) \/
    (vl_group (reread E l) <> [] /\ to_lower (vl_id (reread E l)) <> B "adr" /\
       vl_id l = vl_group (reread E l) ++ [cDOT] ++ vl_id (reread E l)) \/
    (vl_group (reread E l) = [] /\ pictured (vl_id (reread E l)) = true /\
       exists t, vl_id l = vl_id (reread E l) ++ B ":data:image/" ++ t);
  cl_picture : loud E l = true -> vl_group (reread E l) = [] -> pictured (vl_id (reread E l)) = true ->
    parse_picture (reread E l) <> None;
  cl_head : loud E l = true ->
    match vl_value l with
    | QInvalid => exists i t, vl_id l = i ++ B ":data:image/" ++ t /\ pictured i = true /\ Forall (fun c => (33 <= c <= 126)%N /\ c <> 92%N) t
    | _ => exists g i ops, header_reads l g i ops
    end
}.

Lemma classed_silent E l : vl_group l = [] -> good E l -> loud E l = false -> classed E l.
Proof. intros Hg H Hl. constructor; auto; intros; congruence. Qed.
Lemma classed_known E l m val : vl_group l = [] -> vl_value l <> QInvalid -> (exists g i ops, header_reads l g i ops) -> In (vl_id l) known -> good E l ->
  reread E l = mkVline (vl_id l) [] m val [] -> (pictured (vl_id l) = true -> m <> []) -> classed E l.
Proof.
  intros Hg Hv Hh Hk H Hr Hp. constructor; auto.
  - intros _. left. rewrite Hr. auto.
  - intros _ _ Hpi. rewrite Hr in *. cbn [vl_id] in Hpi. specialize (Hp Hpi). unfold parse_picture, vl_param_list. cbn [vl_params].
    destruct m; [congruence|]. cbn [map isnil]. repeat match goal with |- (if ?b then _ else _) <> None => destruct b end; discriminate.
  - intros _. destruct (vl_value l); [congruence|exact Hh|exact Hh].
Qed.
Lemma add_all_group kvs l : vl_group (add_all kvs l) = vl_group l. Proof. apply add_all_fields. Qed.
Lemma add_all_id kvs l : vl_id (add_all kvs l) = vl_id l. Proof. apply add_all_fields. Qed.

(** items that do not announce quoted-printable *)
Definition calm (kv : item) : Prop :=
  item_ok kv /\ forall x, In (B "encoding", x) (item_ops kv) -> to_lower x <> B "quoted-printable".
Lemma last_in {A} (l : list A) d : last l d <> d -> In (last l d) l.
Proof. induction l as [|x [|y l] IH]; intros H; [exfalso; apply H; reflexivity|left; auto|]. right. apply IH. exact H. Qed.
Lemma calm_enc kvs : NoDup (map fst kvs) -> Forall calm kvs -> enc_of (seen_ops kvs) <> B "quoted-printable".
Proof.
  intros Hn Hc He. unfold enc_of in He.
  assert (Hin : In (B "quoted-printable") (map to_lower (added (B "encoding") (seen_ops kvs)))).
  { rewrite <- He. apply last_in. rewrite He. discriminate. }
  apply in_map_iff in Hin as (x & Hx & Hin).
  eapply Permutation_in in Hin; [|apply seen_added_perm; auto]. apply in_flat_map in Hin as (kv & Hkv & Hin).
  apply in_added in Hin. rewrite Forall_forall in Hc. destruct (Hc kv Hkv) as [_ H]. apply (H x Hin Hx).
Qed.
Lemma plain_calm kv : plain_item kv -> calm kv.
Proof.
  intros (H1 & _ & _ & H2 & _). split; auto. intros x Hx. exfalso. apply H2. apply in_map_iff. exists (B "encoding", x). auto.
Qed.
Definition coded : list ustring := [B "encoding"; B "quoted-printable"; B "base64"].
Lemma calm_kv k v : Forall ikey_char k -> Forall ivalue_char v -> ~ In (to_lower k) coded -> calm (k, v).
Proof.
  intros Hk Hv Hn. split; [split; auto|]. intros x Hx. exfalso.
  assert (Hi : In (B "encoding") (map fst (item_ops (k, v)))) by (apply in_map_iff; exists (B "encoding", x); auto).
  apply item_ops_keys in Hi. cbn [fst snd] in Hi. destruct Hi as [[_ Hi]|[_ Hi]].
  - unfold bare_key in Hi. rewrite lower_upper_ikey in Hi by auto.
    destruct (leqb (to_lower k) (B "quoted-printable")) eqn:E1; [apply leqb_eq in E1; apply Hn; rewrite E1; cbn; auto|].
    destruct (leqb (to_lower k) (B "base64")) eqn:E2; [apply leqb_eq in E2; apply Hn; rewrite E2; cbn; auto|]. discriminate.
  - apply Hn. rewrite <- Hi. left. auto.
Qed.
Lemma calm_quoted k w : Forall ikey_char k -> Forall iquoted_char w -> to_lower k <> B "encoding" -> calm (k, [cDQ] ++ w ++ [cDQ]).
Proof.
  intros Hk Hv Hn. split; [split; cbn [fst snd]; auto; right; exists w; auto|]. intros x Hx. exfalso.
  assert (Hi : In (B "encoding") (map fst (item_ops (k, [cDQ] ++ w ++ [cDQ])))) by (apply in_map_iff; exists (B "encoding", x); auto).
  apply item_ops_keys in Hi. cbn [fst snd] in Hi. destruct Hi as [[Hi _]|[_ Hi]]; [discriminate|congruence].
Qed.
Definition calm_b (kv : item) : bool :=
  ikey_b (fst kv) && ivalue_b (snd kv) && negb (contains (to_lower (fst kv)) coded).
Lemma calm_dec kv : calm_b kv = true -> calm kv.
Proof.
  unfold calm_b. destruct kv as [k v]. cbn [fst snd]. rewrite !andb_true_iff, negb_true_iff. intros [[H1 H2] H3].
  apply calm_kv; [apply ikey_dec; auto|apply ivalue_dec; auto|]. intros H. apply contains_In in H. congruence.
Qed.
(** the encodings that are announced *)
Lemma calm_encoding k v : In k [B "encoding"; B "ENCODING"] -> In v [B "b"; B "BASE64"] -> calm (k, v).
Proof.
  intros Hk Hv. assert (H : forall P : item -> Prop, P (B "encoding", B "b") -> P (B "ENCODING", B "b") -> P (B "encoding", B "BASE64") -> P (B "ENCODING", B "BASE64") -> P (k, v)).
  { destruct Hk as [<-|[<-|[]]]; destruct Hv as [<-|[<-|[]]]; auto. }
  apply (H calm); (split; [split; [apply ikey_dec; reflexivity|left; apply ivalue_dec; reflexivity]|]; intros x [Hx|[]]; injection Hx as <-; discriminate).
Qed.

Lemma seen_nonnil kvs : NoDup (map fst kvs) -> kvs <> [] -> read_params (seen_ops kvs) <> [].
Proof.
  intros Hn Hk E. destruct kvs as [|kv kvs]; [congruence|].
  assert (Ho : exists o, In o (item_ops kv)).
  { destruct kv as [k v]. unfold item_ops. cbn [fst snd]. destruct v as [|c r]; [eexists; left; reflexivity|].
    assert (Hs : forall w, exists y, In y (split cCOMMA w)).
    { intros w. destruct (split cCOMMA w) as [|y r'] eqn:Es; [exfalso; apply (split_nonnil _ _ Es)|exists y; left; auto]. }
    destruct (N.eqb c cDQ).
    - unfold qsplit. destruct (leqb (to_lower k) (B "type")).
      + destruct (Hs (removelast r)) as [y Hy]. exists (to_lower k, y). apply in_map. auto.
      + eexists. left. reflexivity.
    - destruct (Hs (c :: r)) as [y Hy]. exists (to_lower k, y). apply in_map. auto. }
  destruct Ho as [[p x] Ho].
  assert (Hin : In x (added p (seen_ops (kv :: kvs)))).
  { eapply Permutation_in; [apply Permutation_sym, seen_added_perm; auto|]. cbn [flat_map]. apply in_or_app. left. apply in_added. exact Ho. }
  pose proof (read_params_find p (seen_ops (kv :: kvs))) as Hf. rewrite E in Hf. destruct (added p (seen_ops (kv :: kvs))); [destruct Hin|discriminate].
Qed.

Lemma classed_calm E id kvs val : In id known -> val <> QInvalid -> NoDup (map fst kvs) -> Forall calm kvs ->
  (pictured id = true -> kvs <> []) -> classed E (add_all kvs (vline_new id val)).
Proof.
  intros Hk Hv Hn Hc Hp.
  assert (Hh : header_reads (add_all kvs (vline_new id val)) [] id (seen_ops kvs)).
  { unfold vline_new. rewrite add_all_new. apply header_added; auto; [apply known_id; auto|].
    eapply Forall_impl; [|exact Hc]. intros x H. apply H. }
  destruct (value_text_raw E (add_all kvs (vline_new id val))) as (raw & mb & Evt).
  destruct (reads_any E _ _ _ _ raw mb Hh) as (H1 & H2 & H3); auto.
  - unfold vline_new. rewrite add_all_new. exact Hv.
  - intros He. exfalso. apply (calm_enc kvs Hn Hc He).
  - eapply classed_known; [apply add_all_group|unfold vline_new; rewrite add_all_new; exact Hv|eauto|rewrite add_all_id; auto|auto|rewrite H3, add_all_id; reflexivity|].
    rewrite add_all_id. intros Hpi. apply seen_nonnil; auto.
Qed.
Lemma classed_invalid E id kvs : classed E (add_all kvs (vline_new id QInvalid)).
Proof. destruct (seen_silent E kvs id) as [H1 H2]. apply classed_silent; auto. apply add_all_group. Qed.

Lemma classed_plain E id u : In id known -> pictured id = false -> classed E (text_line id u).
Proof. intros Hk Hp. apply (classed_calm E id [] (QStr u) Hk); try constructor; try discriminate. congruence. Qed.
Lemma classed_params E id m u : In id known -> pictured id = false -> plain_params m -> classed E (vl_add_params m (text_line id u)).
Proof.
  intros Hk Hp Hm. rewrite vl_add_params_all. apply classed_calm; auto.
  - discriminate.
  - apply joined_nodup. apply Hm.
  - eapply Forall_impl; [|apply plain_params_items; eauto]. apply plain_calm.
  - congruence.
Qed.
Lemma classed_x E q u : Forall name_char q -> classed E (text_line (B "X-" ++ q) u).
Proof.
  intros Hq. destruct (seen_plain E (B "X-" ++ q) u (x_id q Hq)) as (H1 & H2 & H3). unfold text_line. constructor; auto.
  - intros _. left. rewrite H3. cbn [vl_group vl_id vline_new]. split; auto. split; auto. right. exists q. auto.
  - intros _ _. rewrite H3. cbn [vl_id]. discriminate.
  - intros _. cbn [vl_value vline_new]. exists [], (B "X-" ++ q), (seen_ops []). apply (header_added _ [] _ []); [apply x_id; auto|constructor|constructor].
Qed.
Lemma classed_group E s m u : group_name s -> plain_params m -> classed E (vl_add_params m (text_line s u)).
Proof.
  intros (g & n & -> & Hg & Hn & Ha) Hm.
  destruct (seen_params_group E (g ++ [cDOT] ++ n) g n m u (reads_group g n Hg Hn) Hm) as (H1 & H2 & H3).
  constructor.
  - exact H1.
  - rewrite vl_add_params_all. apply add_all_group.
  - intros _. right. left. unfold text_line. rewrite H3. cbn [vl_group vl_id]. split; [apply Hg|]. split; auto.
    rewrite vl_add_params_all, add_all_id. reflexivity.
  - intros _. unfold text_line. rewrite H3. cbn [vl_group]. destruct Hg. congruence.
  - intros _. rewrite vl_add_params_all. unfold text_line, vline_new. rewrite add_all_new. cbn [vl_value]. exists g, n, (seen_ops (joined m)).
    apply header_added; [apply reads_group; auto|apply joined_nodup; apply Hm|].
    eapply Forall_impl; [|apply plain_params_items; eauto]. intros x H. apply H.
Qed.

(** ** texts that version 2.1 encodes *)
Definition line_kvs (v : version) (s : ustring) : list item :=
  match v with
  | V21 => if needs_encoding s then [(B "charset", B "UTF-8"); (B "encoding", B "QUOTED-PRINTABLE")] else []
  | _ => []
  end.
Lemma line21_all v id s : line21 v id s = add_all (line_kvs v s) (text_line id s).
Proof. unfold line21, encode21, line_kvs. destruct v; auto. destruct (needs_encoding s); auto. Qed.
Lemma line_kvs_plain v s : (v = V21 -> needs_encoding s = false) -> line_kvs v s = [].
Proof. unfold line_kvs. destruct v; auto. intros ->; auto. Qed.
Lemma line_kvs_ops v s kv k x : In kv (line_kvs v s) -> In (k, x) (item_ops kv) -> k = B "charset" \/ k = B "encoding".
Proof.
  unfold line_kvs. destruct v; try (intros []; fail). destruct (needs_encoding s); [|intros []].
  intros [<-|[<-|[]]] [H|[]]; injection H as <- _; auto.
Qed.
Lemma line_kvs_ok v s kvs : NoDup (map fst kvs) -> Forall plain_item kvs ->
  NoDup (map fst (line_kvs v s ++ kvs)) /\ Forall item_ok (line_kvs v s ++ kvs).
Proof.
  intros Hn Hp. assert (Hi : Forall item_ok kvs) by (eapply Forall_impl; [|exact Hp]; intros x H; apply H).
  unfold line_kvs. destruct v; auto. destruct (needs_encoding s); auto. cbn [app map fst].
  assert (He : ~ In (B "encoding") (map fst kvs) /\ ~ In (B "charset") (map fst kvs)).
  { rewrite Forall_forall in Hp. split; intros H; apply in_map_iff in H as (x & Hx & Hin); destruct (Hp x Hin) as (_ & P1 & P2 & _); auto. }
  destruct He as [He Hc]. split.
  - constructor; [|constructor; auto]. intros [H|H]; [discriminate|auto].
  - constructor; [|constructor]; auto; (split; [apply ikey_dec; reflexivity|left; apply ivalue_dec; reflexivity]).
Qed.
Definition codes (E : Ext) (v : version) (s : ustring) : Prop := v = V21 -> needs_encoding s = true -> quotable E s.
Lemma codes_plain E v s : (v = V21 -> needs_encoding s = false) -> codes E v s.
Proof. intros H Hv Hn. rewrite H in Hn; auto. discriminate. Qed.
Lemma needs_nonnil s : needs_encoding s = true -> isnil s = false.
Proof. destruct s; [discriminate|reflexivity]. Qed.

Lemma nodup_key_eq {A X} (h : A -> X) l x y : NoDup (map h l) -> In x l -> In y l -> h x = h y -> x = y.
Proof.
  induction l as [|z l IH]; intros Hn Hx Hy He; [destruct Hx|]. inversion Hn as [|? ? H1 H2]; subst. destruct Hx as [->|Hx], Hy as [->|Hy]; auto.
  - exfalso. apply H1. rewrite He. apply in_map. auto.
  - exfalso. apply H1. rewrite <- He. apply in_map. auto.
Qed.
Lemma seen_coded E id g i v kvs s : id_reads id g i -> NoDup (map fst kvs) -> Forall plain_item kvs -> codes E v s ->
  let l := add_all (line_kvs v s ++ kvs) (text_line id s) in
  good E l /\ loud E l = negb (isnil s) /\
  exists w, reread E l = mkVline i g (read_params (seen_ops (line_kvs v s ++ kvs))) (QStr w) [] /\ (text_ok s = true -> ~ ambiguous s -> w = s).
Proof.
  intros Hid Hn Hp Hq. cbv zeta.
  assert (Hplain : line_kvs v s = [] -> good E (add_all (line_kvs v s ++ kvs) (text_line id s)) /\ loud E (add_all (line_kvs v s ++ kvs) (text_line id s)) = negb (isnil s) /\
    exists w, reread E (add_all (line_kvs v s ++ kvs) (text_line id s)) = mkVline i g (read_params (seen_ops (line_kvs v s ++ kvs))) (QStr w) [] /\ (text_ok s = true -> ~ ambiguous s -> w = s)).
  { intros ->. cbn [app]. destruct (seen_text E id g i kvs s Hid Hn Hp) as (H1 & H2 & H3). split; [exact H1|]. split; [exact H2|].
    eexists. split; [exact H3|]. intros. apply thru_id; auto. }
  destruct v; [|apply Hplain; reflexivity|apply Hplain; reflexivity]. unfold line_kvs in *. destruct (needs_encoding s) eqn:En; [|apply Hplain; reflexivity].
  clear Hplain. destruct (Hq eq_refl En) as (Q1 & Q2 & Q3 & Q4).
  set (ck := [(B "charset", B "UTF-8"); (B "encoding", B "QUOTED-PRINTABLE")]).
  destruct (line_kvs_ok V21 s kvs Hn Hp) as [Kn Ki]. unfold line_kvs in Kn, Ki. rewrite En in Kn, Ki. fold ck in Kn, Ki.
  assert (Ho : forall y k, In y (ck ++ kvs) -> k = B "encoding" \/ k = B "charset" -> fst y <> k -> ~ In k (map fst (item_ops y))).
  { intros y k Hy Hk Hne Hin. apply in_app_or in Hy as [[<-|[<-|[]]]|Hy].
    - cbn in Hin. destruct Hin as [<-|[]]. apply Hne. reflexivity.
    - cbn in Hin. destruct Hin as [<-|[]]. apply Hne. reflexivity.
    - rewrite Forall_forall in Hp. destruct (Hp y Hy) as (_ & _ & _ & P1 & P2). destruct Hk as [->| ->]; [apply P1|apply P2]; exact Hin. }
  assert (Hfst : forall y z, In y (ck ++ kvs) -> In z (ck ++ kvs) -> fst y = fst z -> y = z).
  { intros y z Hy Hz. apply (nodup_key_eq fst (ck ++ kvs) y z Kn Hy Hz). }
  assert (Ie : In (B "encoding", B "QUOTED-PRINTABLE") (ck ++ kvs)) by (right; left; reflexivity).
  assert (Ic : In (B "charset", B "UTF-8") (ck ++ kvs)) by (left; reflexivity).
  assert (Ae : added (B "encoding") (seen_ops (ck ++ kvs)) = [B "QUOTED-PRINTABLE"]).
  { rewrite (seen_added_one _ _ _ Kn Ie); [reflexivity|]. intros y Hy Hne. apply Ho; [exact Hy|auto|]. intros H. apply Hne. apply Hfst; auto. }
  assert (Ac : added (B "charset") (seen_ops (ck ++ kvs)) = [B "UTF-8"]).
  { rewrite (seen_added_one _ _ _ Kn Ic); [reflexivity|]. intros y Hy Hne. apply Ho; [exact Hy|auto|]. intros H. apply Hne. apply Hfst; auto. }
  set (l := add_all (ck ++ kvs) (text_line id s)).
  assert (Hl : l = mkVline id [] (read_params (ck ++ kvs)) (QStr s) []) by (unfold l, text_line, vline_new; apply add_all_new).
  assert (Hh : header_reads l g i (seen_ops (ck ++ kvs))) by (rewrite Hl; apply header_added; auto).
  assert (Fe : find_param (B "encoding") (vl_params l) = Some [B "QUOTED-PRINTABLE"]) by (rewrite Hl; apply (read_params_some _ _ _ Kn Ie)).
  assert (Fc : find_param (B "charset") (vl_params l) = Some [B "UTF-8"]) by (rewrite Hl; apply (read_params_some _ _ _ Kn Ic)).
  assert (Hvt : exists mb, value_text E l = (add_escapes (excl_of l) (written21 E s), mb)).
  { unfold value_text. replace (vl_parameter (B "charset") l) with (B "UTF-8") by (unfold vl_parameter, vl_parameters; rewrite Fc; reflexivity).
    replace (vl_parameter (B "encoding") l) with (B "QUOTED-PRINTABLE") by (unfold vl_parameter, vl_parameters; rewrite Fe; reflexivity).
    assert (Hc : contains (B "encoding") (vl_param_list l) = true).
    { apply contains_In. unfold vl_param_list. rewrite find_param_afind in Fe. apply afind_In in Fe. apply (in_map fst) in Fe. exact Fe. }
    rewrite Hc. change (negb (isnil (B "UTF-8"))) with true. cbv iota. change (to_latin1 (B "UTF-8")) with (B "UTF-8").
    replace (vl_value l) with (QStr s) by (rewrite Hl; reflexivity). cbn [variant_string].
    unfold written21. destruct (charset_encode E (B "UTF-8")); eexists; reflexivity. }
  destruct Hvt as [mb Hvt].
  assert (Hun : remove_escapes (add_escapes (excl_of l) (written21 E s)) = written21 E s) by (apply escape_iff; auto).
  destruct (reads_any E l g i _ (written21 E s) mb Hh) as (H1 & H2 & H3); [rewrite Hl; discriminate|exact Hvt| |].
  - intros _. rewrite Hun. destruct (ends_with [cEQ] (written21 E s)) eqn:Ee; auto. exfalso. apply Q4. apply ends_with_1 in Ee. exact Ee.
  - change (good E l /\ loud E l = negb (isnil s) /\ exists w, reread E l = mkVline i g (read_params (seen_ops (ck ++ kvs))) (QStr w) [] /\ (text_ok s = true -> ~ ambiguous s -> w = s)). split; [exact H1|]. split; [rewrite H2, (needs_nonnil s En), (proj2 (isnil_false _) Q2); reflexivity|].
    exists s. split; [|auto]. rewrite H3. f_equal. unfold value_read. rewrite Hun. unfold enc_of, cs_of. rewrite Ae, Ac. cbn [map last].
    change (to_lower (B "QUOTED-PRINTABLE")) with (B "quoted-printable"). change (to_lower (B "UTF-8")) with (B "utf-8"). cbn [isnil negb].
    change (leqb (B "quoted-printable") (B "b") || leqb (B "quoted-printable") (B "base64")) with false.
    change (leqb (B "quoted-printable") (B "quoted-printable")) with true. cbv iota. cbn [fst].
    change (isnil (B "quoted-printable")) with false. change (isnil (B "utf-8")) with false. cbv iota. cbn [negb fst].
    unfold read21 in Q1. destruct (charset_decode E (B "utf-8")); rewrite Q1; reflexivity.
Qed.
Lemma line21_more kvs v id s : add_all kvs (line21 v id s) = add_all (line_kvs v s ++ kvs) (text_line id s).
Proof. rewrite line21_all. unfold add_all. symmetry. apply fold_left_app. Qed.
Lemma seen_coded_safe E i v kvs s : In i known -> NoDup (map fst kvs) -> Forall plain_item kvs -> codes E v s -> text_safe s ->
  loud E (add_all kvs (line21 v i s)) = negb (isnil s) /\
  reread E (add_all kvs (line21 v i s)) = mkVline i [] (read_params (seen_ops (line_kvs v s ++ kvs))) (QStr s) [].
Proof.
  intros Hi Hn Hp Hq [S1 S2]. destruct (seen_coded E i [] i v kvs s (known_id i Hi) Hn Hp Hq) as (_ & L & w & R & W).
  rewrite line21_more, L, R, (W S1 S2). auto.
Qed.
Lemma classed_coded E id v kvs s : In id known -> pictured id = false -> NoDup (map fst kvs) -> Forall plain_item kvs -> codes E v s ->
  classed E (add_all (line_kvs v s ++ kvs) (text_line id s)).
Proof.
  intros Hk Hpic Hn Hp Hq. destruct (seen_coded E id [] id v kvs s (known_id id Hk) Hn Hp Hq) as (H1 & H2 & w & H3 & _).
  destruct (line_kvs_ok v s kvs Hn Hp) as [Kn Ki].
  assert (Hh : header_reads (add_all (line_kvs v s ++ kvs) (text_line id s)) [] id (seen_ops (line_kvs v s ++ kvs))).
  { unfold text_line, vline_new. rewrite add_all_new. apply header_added; auto. apply known_id; auto. }
  eapply classed_known; [apply add_all_group|unfold text_line, vline_new; rewrite add_all_new; discriminate|eauto|rewrite add_all_id; auto|auto|rewrite H3, add_all_id; reflexivity|].
  rewrite add_all_id. cbn [text_line vline_new vl_id]. congruence.
Qed.
Lemma classed_coded_x E q v s : Forall name_char q -> codes E v s -> classed E (line21 v (B "X-" ++ q) s).
Proof.
  intros Hc Hq. destruct (seen_coded E (B "X-" ++ q) [] (B "X-" ++ q) v [] s (x_id q Hc) (NoDup_nil _) (Forall_nil _) Hq) as (H1 & H2 & w & H3 & _).
  destruct (line_kvs_ok v s [] (NoDup_nil _) (Forall_nil _)) as [Kn Ki]. rewrite line21_all. rewrite app_nil_r in *. constructor; auto.
  - apply add_all_group.
  - intros _. left. rewrite H3, add_all_id. cbn [vl_group vl_id text_line vline_new]. split; auto. split; auto. right. exists q. auto.
  - intros _ _. rewrite H3. cbn [vl_id]. discriminate.
  - intros _. unfold text_line, vline_new. rewrite add_all_new. cbn [vl_value]. exists [], (B "X-" ++ q), (seen_ops (line_kvs v s)).
    apply header_added; auto. apply x_id; auto.
Qed.

(** ** line21 without encoding *)
Lemma line21_plain v id s : (v = V21 -> needs_encoding s = false) -> line21 v id s = text_line id s.
Proof. unfold line21, encode21. destruct v; auto. intros H. rewrite H; auto. Qed.

Lemma needs_join sep l : In sep [cSEMI; cCOMMA] -> Forall (fun s => needs_encoding s = false) l -> needs_encoding (join_components sep l) = false.
Proof.
  intros Hs Hl. unfold needs_encoding, join_components in *.
  set (f := fun c => negb ((33 <=? c)%N && (c <=? 126)%N) && negb (N.eqb c 32) && negb (N.eqb c 61)) in *.
  assert (Hsep : f sep = false) by (destruct Hs as [<-|[<-|[]]]; reflexivity).
  assert (Hbs : f cBS = false) by reflexivity.
  assert (He : forall s, existsb f s = false -> existsb f (escape_sep sep s) = false).
  { induction s as [|c s IH]; intros H; auto. cbn [existsb] in H. apply orb_false_iff in H as [H1 H2].
    unfold escape_sep, replace_ch. cbn [flat_map]. rewrite existsb_app. fold (replace_ch sep [cBS; sep] s). fold (escape_sep sep s).
    rewrite IH by auto. rewrite orb_false_r. destruct (N.eqb c sep); cbn [existsb]; rewrite ?Hbs, ?Hsep, ?H1; auto. }
  induction l as [|s [|t l] IH]; auto.
  - inversion Hl; subst. cbn. auto.
  - inversion Hl; subst. change (join [sep] (map (escape_sep sep) (s :: t :: l))) with (escape_sep sep s ++ [sep] ++ join [sep] (map (escape_sep sep) (t :: l))).
    rewrite !existsb_app, IH, He by auto. cbn [existsb]. rewrite Hsep. auto.
Qed.

(** ** TYPE parameters *)
Definition type_kvs (v : version) (names : list ustring) : list item :=
  match v with
  | V21 => map (fun s => (s, [])) names
  | V30 => [(B "TYPE", join [cCOMMA] names)]
  | V40 => [(B "TYPE", if length names <? 2 then join [cCOMMA] names else [cDQ] ++ join [cCOMMA] names ++ [cDQ])]
  end.
Lemma tool_param_all v names l : tool_param v (B "TYPE") names l = add_all (type_kvs v names) l.
Proof.
  unfold tool_param, type_kvs. destruct v; auto.
  - revert l. induction names as [|s names IH]; intros l; auto. cbn [map fold_left add_all fst snd]. apply IH.
  - destruct (length names <? 2); auto.
Qed.
Lemma add_all_app a b l : add_all (a ++ b) l = add_all b (add_all a l).
Proof. unfold add_all. apply fold_left_app. Qed.

Definition type_name_b (s : ustring) : bool :=
  negb (isnil s) && ivalue_b s && negb (mem cCOMMA s) && calm_b (s, []).
Definition type_name (s : ustring) : Prop := type_name_b s = true.
Lemma type_name_spec s : type_name s -> s <> [] /\ Forall ivalue_char s /\ ~ In cCOMMA s /\ calm (s, []).
Proof.
  unfold type_name, type_name_b. rewrite !andb_true_iff, !negb_true_iff. intros [[[H1 H2] H3] H4].
  split; [apply isnil_false; auto|]. split; [apply ivalue_dec; auto|]. split; [apply mem_false; auto|]. apply calm_dec; auto.
Qed.
Lemma type_names_all tab t (P : ustring -> bool) : forallb (fun e => P (fst e)) tab = true -> Forall (fun s => P s = true) (type_names tab t).
Proof.
  intros H. rewrite forallb_forall in H. unfold type_names. apply Forall_map, Forall_forall. intros e He. apply filter_In in He as [He _].
  apply H; auto.
Qed.
Lemma type_names_nodup tab t : NoDup (map fst tab) -> NoDup (type_names tab t).
Proof.
  unfold type_names. induction tab as [|e tab IH]; intros Hn; [constructor|]. cbn [map] in Hn. inversion Hn as [|? ? H1 H2]; subst. cbn [filter].
  match goal with |- context [if ?b then _ else _] => destruct b end; auto. cbn [map]. constructor; auto.
  intros H. apply H1. apply in_map_iff in H as (x & Hx & Hin). apply filter_In in Hin as [Hin _]. rewrite <- Hx. apply in_map; auto.
Qed.
Lemma ivalue_quoted s : Forall ivalue_char s -> Forall iquoted_char s.
Proof. intros H. eapply Forall_impl; [|exact H]. intros c [H1 H2]. split; auto. intros ->. apply H2. left. auto. Qed.
Lemma type_kvs_calm v names : Forall type_name names -> Forall calm (type_kvs v names).
Proof.
  intros H. assert (Hj : Forall ivalue_char (join [cCOMMA] names)).
  { apply Forall_join; [split; unfold cCOMMA; cbn [In]; lia|]. eapply Forall_impl; [|exact H]. intros s Hs. apply type_name_spec; auto. }
  assert (HT : Forall ikey_char (B "TYPE")) by (apply ikey_dec; reflexivity).
  assert (HT' : ~ In (to_lower (B "TYPE")) coded) by (intros Hx; apply contains_In in Hx; discriminate).
  unfold type_kvs. destruct v.
  - apply Forall_map. eapply Forall_impl; [|exact H]. intros s Hs. apply type_name_spec; auto.
  - constructor; [|constructor]. apply calm_kv; auto.
  - constructor; [|constructor]. destruct (length names <? 2); [apply calm_kv; auto|].
    apply calm_quoted; auto; [apply ivalue_quoted; auto|discriminate].
Qed.
Lemma type_kvs_nodup v names : NoDup names -> NoDup (map fst (type_kvs v names)).
Proof.
  intros H. unfold type_kvs. destruct v; [|constructor; [intros []|constructor]|constructor; [intros []|constructor]].
  rewrite map_map. cbn [fst]. rewrite map_id. auto.
Qed.

(** ** the lines of a contact *)
Lemma fold_skip (P : ustring * list ustring -> bool) m l :
  fold_left (fun acc (pv : ustring * list ustring) => if P pv then acc else vl_add_param (fst pv) (join [cCOMMA] (snd pv)) acc) m l
  = vl_add_params (filter (fun pv => negb (P pv)) m) l.
Proof.
  revert l. induction m as [|pv m IH]; intros l; auto. cbn [fold_left filter]. destruct (P pv); cbn [negb]; rewrite IH; reflexivity.
Qed.
Lemma increasing_filtered (f : ustring * list ustring -> bool) m : increasing (map fst m) -> increasing (map fst (filter f m)).
Proof.
  induction m as [|x m IH]; intros H; auto. cbn [map] in H. inversion H as [|? ? H1 H2]; subst. cbn [filter].
  destruct (f x); [|apply IH; auto]. cbn [map]. constructor; [apply IH; auto|]. rewrite Forall_forall in *. intros y Hy. apply H2.
  apply in_map_iff in Hy as (z & <- & Hz). apply filter_In in Hz as [Hz _]. apply in_map; auto.
Qed.
Lemma plain_filter f m : plain_params m -> plain_params (filter f m).
Proof.
  intros ([H1 H2] & H3 & H4). split; [split|split].
  - apply increasing_filtered; auto.
  - rewrite Forall_forall in *. intros x Hx. apply filter_In in Hx as [Hx _]. auto.
  - intros H. apply H3. apply in_map_iff in H as (z & <- & Hz). apply filter_In in Hz as [Hz _]. apply in_map; auto.
  - intros H. apply H4. apply in_map_iff in H as (z & <- & Hz). apply filter_In in Hz as [Hz _]. apply in_map; auto.
Qed.

Ltac in_known := apply contains_In; vm_compute; reflexivity.
Ltac side := match goal with
  | |- In _ known => in_known
  | |- pictured _ = false => reflexivity
  | |- pictured _ = true -> _ => let H := fresh in intros H; discriminate H
  | |- pictured _ = true -> _ :: _ <> [] => intros _; discriminate
  | |- QStr _ <> QInvalid => discriminate
  | |- QBytes _ <> QInvalid => discriminate
  | _ => idtac
  end.

(** addresses *)
Definition address_kvs (T : Tool) (v : version) (x : address) : list item :=
  match v with
  | V40 =>
      (if negb (isnil (ad_label x)) then [(B "LABEL", [cDQ] ++ ad_label x ++ [cDQ])] else [])
      ++ (if geo_valid (ad_geo x)
          then [(B "GEO", [cDQ] ++ (B "geo:" ++ t_fmt6 T (g_lat (ad_geo x)) ++ [cCOMMA] ++ t_fmt6 T (g_lon (ad_geo x))) ++ [cDQ])] else [])
  | _ => []
  end ++ type_kvs v (type_names address_types (ad_type x)).
Definition address_text (x : address) : list ustring :=
  [ad_pobox x; ad_extended x; ad_street x; ad_locality x; ad_region x; ad_postal x; ad_country x].
Definition label_line (v : version) (x : address) : vline :=
  add_all (type_kvs v (type_names address_types (ad_type x))) (vline_new (B "LABEL") (QStr (ad_label x))).
Definition adr_line (T : Tool) (v : version) (x : address) : vline :=
  add_all (address_kvs T v x) (vline_new (B "ADR") (QStr (address_value x))).
Definition label_full (v : version) (x : address) : vline :=
  add_all (line_kvs v (ad_label x) ++ type_kvs v (type_names address_types (ad_type x))) (vline_new (B "LABEL") (QStr (ad_label x))).
Definition adr_full (T : Tool) (v : version) (x : address) : vline :=
  add_all (line_kvs v (address_value x) ++ address_kvs T v x) (vline_new (B "ADR") (QStr (address_value x))).
Lemma address_lines_full T v x :
  address_lines T v x =
    (match v with V40 => [] | _ => if negb (isnil (ad_label x)) then [label_full v x] else [] end)
    ++ (if address_blank x then [] else [adr_full T v x]).
Proof.
  unfold address_lines. rewrite !line21_all, !tool_param_all. unfold adr_full, label_full, address_kvs. rewrite !add_all_app. fold (text_line (B "ADR") (address_value x)). fold (text_line (B "LABEL") (ad_label x)).
  destruct v; destruct (negb (isnil (ad_label x))); destruct (geo_valid (ad_geo x)); destruct (address_blank x);
    rewrite <- ?(app_assoc (B "geo:")), <- ?(app_assoc (t_fmt6 T (g_lat (ad_geo x)))), <- ?(app_assoc [cCOMMA]); reflexivity.
Qed.
Definition address_plain (v : version) (x : address) : Prop :=
  v = V21 -> Forall (fun s => needs_encoding s = false) (address_text x ++ [ad_label x]).
Lemma address_lines_eq T v x : address_plain v x ->
  address_lines T v x =
    (match v with V40 => [] | _ => if negb (isnil (ad_label x)) then [label_line v x] else [] end)
    ++ (if address_blank x then [] else [adr_line T v x]).
Proof.
  intros Hp. unfold address_lines.
  rewrite (line21_plain v (B "ADR")).
  2: { intros Hv. specialize (Hp Hv). unfold address_value. apply needs_join; [left; auto|]. apply Forall_app in Hp. apply Hp. }
  rewrite (line21_plain v (B "LABEL")).
  2: { intros Hv. specialize (Hp Hv). apply Forall_app in Hp as [_ Hp]. inversion Hp; auto. }
  rewrite !tool_param_all. unfold adr_line, label_line, address_kvs. rewrite add_all_app. fold (text_line (B "ADR") (address_value x)).
  destruct v; destruct (negb (isnil (ad_label x))); destruct (geo_valid (ad_geo x)); destruct (address_blank x);
    rewrite <- ?(app_assoc (B "geo:")), <- ?(app_assoc (t_fmt6 T (g_lat (ad_geo x)))), <- ?(app_assoc [cCOMMA]); reflexivity.
Qed.
Lemma address_types_ok t : Forall type_name (type_names address_types t) /\ NoDup (type_names address_types t).
Proof.
  split; [apply (type_names_all _ _ type_name_b); vm_compute; reflexivity|].
  apply type_names_nodup. apply nodup_b_spec. vm_compute. reflexivity.
Qed.
Definition address_heads (T : Tool) (v : version) (x : address) : Prop :=
  v = V40 -> quoted_chars (ad_label x) /\
    (geo_valid (ad_geo x) = true -> quoted_chars (t_fmt6 T (g_lat (ad_geo x))) /\ quoted_chars (t_fmt6 T (g_lon (ad_geo x)))).
Lemma address_kvs_ok T v x : address_heads T v x -> Forall calm (address_kvs T v x) /\ NoDup (map fst (address_kvs T v x)).
Proof.
  intros Hh. destruct (address_types_ok (ad_type x)) as [Ht Hn]. unfold address_kvs. destruct v.
  - split; [apply (type_kvs_calm V21); auto|apply (type_kvs_nodup V21); auto].
  - split; [apply (type_kvs_calm V30); auto|apply (type_kvs_nodup V30); auto].
  - destruct (Hh eq_refl) as [Hl Hg]. split.
    + apply Forall_app. split; [apply Forall_app; split|apply type_kvs_calm; auto].
      * destruct (negb (isnil (ad_label x))); constructor; [|constructor].
        apply calm_quoted; [apply ikey_dec; reflexivity|exact Hl|discriminate].
      * destruct (geo_valid (ad_geo x)) eqn:Eg; constructor; [|constructor]. destruct (Hg eq_refl) as [G1 G2].
        apply calm_quoted; [apply ikey_dec; reflexivity| |discriminate].
        apply Forall_app. split; [repeat constructor; unfold iquoted_char; cbn; lia|].
        apply Forall_app. split; [exact G1|]. apply Forall_app. split; [apply ivalue_quoted, ivalue_dec; reflexivity|exact G2].
    + destruct (negb (isnil (ad_label x))); destruct (geo_valid (ad_geo x)); cbn [map fst app type_kvs]; apply nodup_b_spec; vm_compute; reflexivity.
Qed.
Lemma plain_calm_kv kv : calm kv -> fst kv <> B "encoding" -> fst kv <> B "charset" -> ~ In (B "encoding") (map fst (item_ops kv)) -> ~ In (B "charset") (map fst (item_ops kv)) -> plain_item kv.
Proof. intros [H _] H1 H2 H3 H4. split; auto. Qed.
Lemma classed_address E T v x : codes E v (address_value x) -> codes E v (ad_label x) -> address_heads T v x -> Forall (classed E) (address_lines T v x).
Proof.
  intros Hq1 Hq2 Hh. rewrite address_lines_full. destruct (address_types_ok (ad_type x)) as [Ht Hn].
  destruct (address_kvs_ok T v x Hh) as [Hc Hk].
  assert (H21 : v = V21 -> Forall plain_item (type_kvs v (type_names address_types (ad_type x)))).
  { intros ->. unfold type_kvs.
    assert (Hb : Forall (fun s => (fun s => negb (leqb s (B "encoding")) && negb (leqb s (B "charset")) && negb (leqb (bare_key (to_upper s)) (B "encoding")) && negb (leqb (bare_key (to_upper s)) (B "charset"))) s = true)
      (type_names address_types (ad_type x))) by (apply (type_names_all _ _ (fun s => negb (leqb s (B "encoding")) && negb (leqb s (B "charset")) && negb (leqb (bare_key (to_upper s)) (B "encoding")) && negb (leqb (bare_key (to_upper s)) (B "charset")))); vm_compute; reflexivity).
    apply Forall_map. rewrite Forall_forall in Hb, Ht |- *. intros s Hs. specialize (Hb s Hs). cbv beta in Hb. rewrite !andb_true_iff, !negb_true_iff, !leqb_neq in Hb. destruct Hb as [[[B1 B2] B3] B4].
    apply plain_calm_kv; cbn [fst]; auto; [apply type_name_spec; auto| |]; intros [H|[]]; auto. }
  assert (Hl : classed E (label_full v x)).
  { unfold label_full. destruct v; [|apply classed_calm; side; [apply type_kvs_nodup; auto|apply type_kvs_calm; auto]|apply classed_calm; side; [apply type_kvs_nodup; auto|apply type_kvs_calm; auto]].
    apply (classed_coded E (B "LABEL") V21); side; auto. }
  assert (Ha : classed E (adr_full T v x)).
  { unfold adr_full. destruct v; [|apply classed_calm; side; auto|apply classed_calm; side; auto].
    apply (classed_coded E (B "ADR") V21); side; auto. }
  apply Forall_app. split; [|destruct (address_blank x); constructor; auto].
  destruct v; try constructor; destruct (negb (isnil (ad_label x))); constructor; auto.
Qed.

Lemma NoDup_app {A} (a b : list A) : NoDup a -> NoDup b -> (forall x, In x a -> ~ In x b) -> NoDup (a ++ b).
Proof.
  induction a as [|x a IH]; intros Ha Hb H; auto. inversion Ha; subst. cbn. constructor.
  - rewrite in_app_iff. intros [H'|H']; [auto|apply (H x); auto; left; auto].
  - apply IH; auto. intros y Hy. apply H. right; auto.
Qed.

(** e-mail addresses *)
Lemma email_line_eq v e : plain_params (em_params e) -> (v = V21 -> ~ In (B "type") (map fst (em_params e))) ->
  email_line v e = vl_add_params (em_params e) (text_line (B "EMAIL") (em_mail e)).
Proof.
  intros Hp Ht. unfold email_line, vl_add_params. generalize (text_line (B "EMAIL") (em_mail e)). intros l.
  assert (H : forall pv, In pv (em_params e) -> forall l, email_param v l pv = vl_add_param (fst pv) (join [cCOMMA] (snd pv)) l).
  { intros pv Hin l'. unfold email_param. destruct v; auto. specialize (Ht eq_refl).
    destruct (leqb (to_lower (fst pv)) (B "type")) eqn:E; auto. exfalso. apply leqb_eq in E.
    destruct Hp as ([_ Hf] & _). rewrite Forall_forall in Hf. destruct (Hf _ Hin) as [Hk _]. rewrite key_lower in E by auto.
    apply Ht. rewrite <- E. apply in_map; auto. }
  clear Hp Ht. revert l. induction (em_params e) as [|pv m IH]; intros l; auto. cbn [fold_left].
  rewrite H by (left; auto). apply IH. intros p Hin. apply H. right; auto.
Qed.
(** in general: the items of the line *)
Definition email_items (v : version) (pv : ustring * list ustring) : list item :=
  match v with
  | V21 => if leqb (to_lower (fst pv)) (B "type")
           then map (fun s => (s, [])) (remove_all (B "PREF") (snd pv)) ++ (if contains (B "PREF") (snd pv) then [(B "PREF", [])] else [])
           else [(fst pv, join [cCOMMA] (snd pv))]
  | _ => [(fst pv, join [cCOMMA] (snd pv))]
  end.
Definition email_kvs (v : version) (m : pmap) : list item := flat_map (email_items v) m.
Lemma email_line_all v e : email_line v e = add_all (email_kvs v (em_params e)) (text_line (B "EMAIL") (em_mail e)).
Proof.
  unfold email_line, email_kvs. generalize (text_line (B "EMAIL") (em_mail e)). induction (em_params e) as [|pv m IH]; intros l; auto.
  cbn [fold_left flat_map]. rewrite IH, add_all_app. f_equal. unfold email_param, email_items. destruct v; auto.
  destruct (leqb (to_lower (fst pv)) (B "type")); auto. rewrite add_all_app. change (map (fun s => (s, [])) (remove_all (B "PREF") (snd pv))) with (type_kvs V21 (remove_all (B "PREF") (snd pv))).
  rewrite <- tool_param_all. replace (if isnil (remove_all (B "PREF") (snd pv)) then l else tool_param V21 (fst pv) (remove_all (B "PREF") (snd pv)) l)
    with (tool_param V21 (B "TYPE") (remove_all (B "PREF") (snd pv)) l) by (destruct (remove_all (B "PREF") (snd pv)); reflexivity).
  destruct (contains (B "PREF") (snd pv)); reflexivity.
Qed.
Definition listed_types (m : pmap) : list ustring := flat_map (fun pv => if leqb (fst pv) (B "type") then snd pv else []) m.
Definition typeless (m : pmap) : pmap := filter (fun pv => negb (leqb (fst pv) (B "type"))) m.
Lemma pref_last vs : NoDup vs -> Permutation (remove_all (B "PREF") vs ++ (if contains (B "PREF") vs then [B "PREF"] else [])) vs.
Proof.
  intros H. apply NoDup_Permutation; auto.
  - unfold remove_all. destruct (contains (B "PREF") vs).
    + eapply Permutation_NoDup; [apply Permutation_app_comm|]. cbn [app]. constructor; [|apply NoDup_filter; auto]. intros Hin. apply filter_In in Hin as [_ Hin].
      rewrite leqb_refl in Hin. discriminate.
    + rewrite app_nil_r. apply NoDup_filter; auto.
  - intros s. rewrite in_app_iff. unfold remove_all. rewrite filter_In, negb_true_iff, leqb_neq. split.
    + intros [[Hs _]|Hs]; auto. destruct (contains (B "PREF") vs) eqn:Ec; [|destruct Hs]. destruct Hs as [<-|[]]. apply contains_In. auto.
    + intros Hs. destruct (list_eq_dec N.eq_dec s (B "PREF")) as [->|Hn]; [right|left; auto]. rewrite (proj2 (contains_In _ _) Hs). left. auto.
Qed.
Lemma email_kvs_perm m : wf_params m -> Permutation (email_kvs V21 m) (joined (typeless m) ++ type_kvs V21 (listed_types m)).
Proof.
  intros [_ Hf]. induction m as [|[k vs] m IH]; [reflexivity|]. inversion Hf as [|? ? (H1 & H2 & H3 & H4) Hf']; subst. specialize (IH Hf').
  cbn [fst snd] in *. unfold email_kvs, typeless, listed_types in *. cbn [flat_map filter fst snd email_items]. rewrite key_lower by auto. destruct (leqb k (B "type")); cbn [negb].
  - unfold type_kvs. rewrite map_app. etransitivity; [apply Permutation_app; [|exact IH]|].
    + etransitivity; [|apply (Permutation_map (fun s => (s, @nil N))), (pref_last vs H3)]. rewrite map_app. destruct (contains (B "PREF") vs); reflexivity.
    + apply Permutation_app_swap_app.
  - cbn [app joined map fst snd]. constructor. exact IH.
Qed.
Lemma listed_in m s : In s (listed_types m) -> exists vs, In (B "type", vs) m /\ In s vs.
Proof.
  unfold listed_types. intros H. apply in_flat_map in H as ([k vs] & Hin & Hs). cbn [fst snd] in Hs. destruct (leqb_spec k (B "type")) as [->|_]; [|destruct Hs]. exists vs. auto.
Qed.
Lemma listed_eq m vs : increasing (map fst m) -> In (B "type", vs) m -> listed_types m = vs.
Proof.
  intros Hi Hin. apply increasing_NoDup in Hi. unfold listed_types. rewrite (flat_map_single _ m (B "type", vs)); auto; [apply NoDup_fst; auto|].
  intros [k ws] Hy Hne. cbn [fst snd]. destruct (leqb_spec k (B "type")) as [->|_]; auto. exfalso. apply Hne. apply (nodup_key_eq fst m); auto.
Qed.
Lemma bare_type_name m vs : plain_params m -> bare_types m -> In (B "type", vs) m -> Forall type_name vs /\ NoDup vs.
Proof.
  intros ([_ Hf] & _) Hb Hin. destruct (Hb vs Hin) as [H1 H2]. rewrite Forall_forall in Hf. destruct (Hf _ Hin) as (_ & _ & Hn & Hv). cbn [snd] in *. split; auto.
  rewrite Forall_forall in *. intros s Hs. destruct (H1 s Hs) as (Hc & Hk & _). destruct (Hv s Hs) as [He _]. rewrite Forall_forall in Hc. unfold type_name, type_name_b, calm_b.
  rewrite !andb_true_iff, !negb_true_iff. cbn [fst snd]. repeat split.
  - apply isnil_false; auto.
  - unfold ivalue_b. apply forallb_forall. intros c Hx. destruct (Hc c Hx) as [C1 C2]. rewrite !andb_true_iff, N.leb_le, N.ltb_lt, negb_true_iff. split; [lia|].
    destruct (mem c _) eqn:Em; auto. apply mem_In in Em. exfalso. apply C2. cbn [In] in *. intuition.
  - destruct (mem cCOMMA s) eqn:Em; auto. apply mem_In in Em. destruct (Hc _ Em) as [_ C2]. exfalso. apply C2. right. left. reflexivity.
  - unfold ikey_b. apply forallb_forall. intros c Hx. destruct (Hc c Hx) as [C1 C2]. rewrite !andb_true_iff, N.leb_le, N.ltb_lt, negb_true_iff. split; [lia|].
    destruct (mem c _) eqn:Em; auto. apply mem_In in Em. exfalso. apply C2. cbn [In] in *. intuition.
  - destruct (contains (to_lower s) coded) eqn:Em; auto. apply contains_In in Em. exfalso. apply Hk. unfold coded in Em. cbn [In] in *. intuition.
Qed.
Lemma email_types m : plain_params m -> bare_types m -> Forall type_name (listed_types m) /\ NoDup (listed_types m) /\
  forall s, In s (listed_types m) -> ~ In (to_lower s) [B "encoding"; B "charset"; B "quoted-printable"; B "base64"] /\ ~ In s (map fst m).
Proof.
  intros Hp Hb. destruct (find (fun pv => leqb (fst pv) (B "type")) m) as [[k vs]|] eqn:Ef.
  - apply find_some in Ef as [Hin Hk]. cbn [fst] in Hk. apply leqb_eq in Hk as ->. rewrite (listed_eq m vs (proj1 (proj1 Hp)) Hin).
    destruct (bare_type_name m vs Hp Hb Hin) as [H1 H2]. split; auto. split; auto. intros s Hs. destruct (Hb vs Hin) as [H3 _]. rewrite Forall_forall in H3. apply (H3 s Hs).
  - assert (Hl : listed_types m = []).
    { unfold listed_types. apply flat_map_nil. intros pv Hin. rewrite (find_none _ _ Ef pv Hin). reflexivity. }
    rewrite Hl. split; [constructor|]. split; [constructor|]. intros s [].
Qed.
Lemma email_kvs_ok v m : plain_params m -> (v = V21 -> bare_types m) -> Forall calm (email_kvs v m) /\ NoDup (map fst (email_kvs v m)).
Proof.
  intros Hp Hb.
  assert (Hj : forall m, plain_params m -> Forall calm (joined m) /\ NoDup (map fst (joined m))).
  { clear. intros m Hp. split; [eapply Forall_impl; [|apply plain_params_items; exact Hp]; intros kv; apply plain_calm|].
    rewrite joined_keys. apply increasing_NoDup, Hp. }
  assert (He : forall v, v <> V21 -> email_kvs v m = joined m).
  { intros v' Hv. unfold email_kvs, joined. clear - Hv. induction m as [|pv m IH]; auto. cbn [flat_map map]. rewrite IH. destruct v'; [congruence| |]; reflexivity. }
  destruct v; [|rewrite He by discriminate; auto|rewrite He by discriminate; auto].
  specialize (Hb eq_refl). destruct (email_types m Hp Hb) as (T1 & T2 & T3).
  pose proof (email_kvs_perm m (proj1 Hp)) as P. apply (plain_filter (fun pv => negb (leqb (fst pv) (B "type")))) in Hp as Hp'. fold (typeless m) in Hp'. destruct (Hj _ Hp') as [J1 J2]. split.
  - eapply Permutation_Forall; [symmetry; exact P|]. apply Forall_app. split; auto. apply type_kvs_calm; auto.
  - eapply Permutation_NoDup; [apply Permutation_map; symmetry; exact P|]. rewrite map_app. apply NoDup_app; auto; [apply type_kvs_nodup; auto|].
    intros k H1 H2. unfold type_kvs in H2. rewrite map_map in H2. cbn [fst] in H2. rewrite map_id in H2. apply (proj2 (T3 k H2)). rewrite joined_keys in H1.
    apply in_map_iff in H1 as (pv & <- & H1). apply in_map. apply filter_In in H1. apply H1.
Qed.
Lemma classed_email E v e : plain_params (em_params e) -> (v = V21 -> bare_types (em_params e)) -> classed E (email_line v e).
Proof. intros Hp Hb. rewrite email_line_all. destruct (email_kvs_ok v _ Hp Hb) as [H1 H2]. apply classed_calm; side; auto. Qed.

(** telephone numbers *)
Definition not_type (pv : ustring * list ustring) : bool := negb (leqb (to_upper (fst pv)) (B "TYPE")).
Definition phone_names (v : version) (p : phone) : list ustring :=
  match v with V40 => map to_lower (type_names phone_types (ph_type p)) | _ => type_names phone_types (ph_type p) end.
Definition phone_kvs (v : version) (p : phone) : list item :=
  joined (filter not_type (ph_params p)) ++ (if isnil (phone_names v p) then [] else type_kvs v (phone_names v p)).
Lemma phone_line_eq v p : phone_line v p = add_all (phone_kvs v p) (text_line (B "TEL") (ph_number p)).
Proof.
  unfold phone_line, phone_kvs. rewrite (fold_skip (fun pv => leqb (to_upper (fst pv)) (B "TYPE"))). rewrite vl_add_params_all, add_all_app.
  fold (phone_names v p). unfold not_type. destruct (isnil (phone_names v p)); auto. apply tool_param_all.
Qed.
Lemma phone_types_ok v p : Forall type_name (phone_names v p) /\ NoDup (phone_names v p).
Proof.
  assert (H1 : Forall type_name (type_names phone_types (ph_type p))) by (apply (type_names_all _ _ type_name_b); vm_compute; reflexivity).
  assert (H2 : Forall type_name (map to_lower (type_names phone_types (ph_type p)))).
  { apply Forall_map. apply (type_names_all _ _ (fun s => type_name_b (to_lower s))). vm_compute. reflexivity. }
  assert (H3 : NoDup (type_names phone_types (ph_type p))) by (apply type_names_nodup, nodup_b_spec; vm_compute; reflexivity).
  unfold phone_names. destruct v; auto. split; auto.
  assert (Hm : map to_lower (type_names phone_types (ph_type p)) = type_names (map (fun e => (to_lower (fst e), snd e)) phone_types) (ph_type p)).
  { unfold type_names. generalize phone_types. clear. intros tab. induction tab as [|e tab IH]; auto. cbn [filter map].
    change (snd (to_lower (fst e), snd e)) with (snd e). destruct (negb (N.land (snd e) (ph_type p) =? 0)%N); [|exact IH]. cbn [map fst]. f_equal. exact IH. }
  rewrite Hm. apply type_names_nodup, nodup_b_spec. vm_compute. reflexivity.
Qed.
Lemma no_upper_key p : Forall key_char p -> existsb is_upper p = false.
Proof.
  induction 1 as [|c p (H1 & H2 & H3) _ IH]; auto. cbn [existsb]. rewrite IH, orb_false_r. unfold is_upper.
  destruct ((65 <=? c)%N && (c <=? 90)%N) eqn:E; auto. exfalso. lia.
Qed.
Lemma phone_kvs_ok v p : plain_params (ph_params p) -> Forall calm (phone_kvs v p) /\ NoDup (map fst (phone_kvs v p)).
Proof.
  intros Hp. apply (plain_filter not_type) in Hp. destruct (phone_types_ok v p) as [Ht Hn]. unfold phone_kvs. split.
  - apply Forall_app. split.
    + eapply Forall_impl; [|apply plain_params_items; eauto]. apply plain_calm.
    + destruct (isnil (phone_names v p)); [constructor|apply type_kvs_calm; auto].
  - rewrite map_app. apply NoDup_app.
    + apply joined_nodup. apply Hp.
    + destruct (isnil (phone_names v p)); [constructor|apply type_kvs_nodup; auto].
    + intros x Hx Hx'. rewrite joined_keys in Hx. destruct Hp as ([_ Hf] & _). rewrite Forall_forall in Hf.
      apply in_map_iff in Hx as (pv & <- & Hin). destruct (Hf _ Hin) as [Hk _]. pose proof (no_upper_key _ Hk) as Hu.
      destruct (isnil (phone_names v p)); [destruct Hx'|].
      assert (Hx2 : existsb is_upper (fst pv) = true); [|exact (eq_true_false_abs _ Hx2 Hu)].
      unfold type_kvs in Hx'. destruct v.
      * rewrite map_map in Hx'. cbn [fst] in Hx'. rewrite map_id in Hx'.
        assert (Hall : Forall (fun s => existsb is_upper s = true) (type_names phone_types (ph_type p)))
          by (apply (type_names_all _ _ (fun s => existsb is_upper s)); vm_compute; reflexivity).
        rewrite Forall_forall in Hall. apply Hall. exact Hx'.
      * destruct Hx' as [<-|[]]. reflexivity.
      * destruct Hx' as [<-|[]]. reflexivity.
Qed.
Lemma classed_phone E v p : plain_params (ph_params p) -> classed E (phone_line v p).
Proof. intros Hp. rewrite phone_line_eq. destruct (phone_kvs_ok v p Hp) as [H1 H2]. apply classed_calm; side; auto. Qed.

(** keys and sounds *)
Lemma enc_param_all v l : enc_param v l = add_all [match v with V21 => (B "ENCODING", B "BASE64") | _ => (B "encoding", B "b") end] l.
Proof. destruct v; reflexivity. Qed.
Lemma enc_calm v : calm (match v with V21 => (B "ENCODING", B "BASE64") | _ => (B "encoding", B "b") end).
Proof. destruct v; apply calm_encoding; cbn; auto. Qed.
Lemma classed_sound E v s : classed E (sound_line v s).
Proof.
  unfold sound_line. rewrite enc_param_all.
  change (vl_add_param (B "value") (B "URI") (text_line (B "SOUND") (so_url s))) with (add_all [(B "value", B "URI")] (vline_new (B "SOUND") (QStr (so_url s)))).
  destruct (so_intern s).
  - destruct (isnil (so_data s)); [apply (classed_invalid E _ [])|].
    apply classed_calm; side; [apply nodup_b_spec; destruct v; reflexivity|constructor; [apply enc_calm|constructor]].
  - destruct (isnil (so_url s)); [apply (classed_invalid E _ [])|].
    apply classed_calm; side; [apply nodup_b_spec; reflexivity|constructor; [apply calm_dec; reflexivity|constructor]].
Qed.
Definition key_kv (v : version) (k : key) : item :=
  match v with
  | V40 => (B "MEDIATYPE", match ke_type k with KX509 => B "application/x-x509-ca-cert" | KPGP => B "application/pgp-keys" | KCustom => ke_custom k end)
  | _ => (B "type", match ke_type k with KX509 => B "X509" | KPGP => B "PGP" | KCustom => ke_custom k end)
  end.
Lemma key_kv_calm v k : key_fits k -> calm (key_kv v k).
Proof.
  intros [_ H]. unfold key_kv.
  assert (Hc : forall w, In w [B "MEDIATYPE"; B "type"] -> forall x, Forall ivalue_char x -> calm (w, x)).
  { intros w Hw x Hx. apply calm_kv; auto.
    - destruct Hw as [<-|[<-|[]]]; apply ikey_dec; reflexivity.
    - intros Hi. apply contains_In in Hi. destruct Hw as [<-|[<-|[]]]; discriminate. }
  destruct v; apply Hc; cbn [In]; auto; destruct (ke_type k); try (apply ivalue_dec; reflexivity); apply H; auto.
Qed.
Lemma key_line_eq v k : key_line v k =
  add_all [key_kv v k] (if ke_isbin k then if isnil (ke_bin k) then vline_new (B "KEY") QInvalid
                                          else enc_param v (vline_new (B "KEY") (QBytes (ke_bin k)))
                        else if isnil (ke_text k) then vline_new (B "KEY") QInvalid else text_line (B "KEY") (ke_text k)).
Proof. unfold key_line, key_kv. destruct v; reflexivity. Qed.
Lemma classed_key E v k : key_fits k -> classed E (key_line v k).
Proof.
  intros Hk. rewrite key_line_eq, enc_param_all. pose proof (key_kv_calm v k Hk) as Hc.
  assert (Hn : NoDup (map fst [key_kv v k])) by (constructor; [intros []|constructor]).
  destruct (ke_isbin k).
  - destruct (isnil (ke_bin k)); [apply classed_invalid|]. rewrite <- add_all_app. apply classed_calm; side.
    + cbn [app map]. apply nodup_b_spec. destruct v; reflexivity.
    + constructor; [apply enc_calm|]. constructor; [auto|constructor].
  - destruct (isnil (ke_text k)); [apply classed_invalid|]. apply classed_calm; side; auto.
Qed.

(** ** pictures *)
Lemma to_base64_length s : s <> [] -> (4 <= length (to_base64 s))%nat.
Proof. destruct s as [|a [|b [|c s]]]; intros H; [congruence| | |]; cbn [to_base64 length]; lia. Qed.
Definition data_text (t b64 : list N) : list N := B "data:image/" ++ t ++ B ";base64," ++ b64.
Lemma printed_no c s : forallb (fun c => (33 <=? c)%N && (c <=? 126)%N && negb (N.eqb c 92)) s = true -> (c <= 32 \/ c = 92 \/ 127 <= c)%N -> ~ In c s.
Proof. rewrite forallb_forall. intros H Hc Hin. specialize (H c Hin). apply andb_true_iff in H as [H1 H2]. apply negb_true_iff, N.eqb_neq in H2. lia. Qed.
Lemma data_printed t b : Forall (fun c => (33 <= c <= 126)%N /\ c <> 92%N) t -> is_bytes b = true ->
  forallb (fun c => (33 <=? c)%N && (c <=? 126)%N && negb (N.eqb c 92)) (data_text t (to_base64 b)) = true.
Proof.
  intros Ht Hb. unfold data_text. rewrite !forallb_app. rewrite !andb_true_iff.
  split; [reflexivity|]. split; [|split; [reflexivity|]].
  - apply forallb_forall. rewrite Forall_forall in Ht. intros c Hc. destruct (Ht c Hc) as [H1 H2].
    apply andb_true_iff. split; [lia|]. apply negb_true_iff, N.eqb_neq. auto.
  - pose proof (to_base64_chars b Hb) as H. rewrite forallb_forall in H. apply forallb_forall. intros c Hc. specialize (H c Hc).
    unfold is_b64 in H. apply andb_true_iff. split; [lia|]. apply negb_true_iff, N.eqb_neq. lia.
Qed.
Lemma from_utf8_ascii s : ascii s -> from_utf8 s = s.
Proof.
  intros H. rewrite <- (to_utf8_ascii s H) at 1. apply utf8_roundtrip. unfold text_ok. apply andb_true_iff. split.
  - apply bmp_valid, ascii_bmp, H.
  - destruct H as [|c s Hc _]; auto. unfold no_bom. destruct (N.eqb c 65279) eqn:E; auto. apply N.eqb_eq in E. lia.
Qed.

(** a picture with its data in version 4.0: the name of the line contains the start of a URL *)
Lemma seen_data E id t b : In id [B "PHOTO"; B "LOGO"] -> Forall (fun c => (33 <= c <= 126)%N /\ c <> 92%N) t -> is_bytes b = true ->
  let l := vl_set_b64 (to_base64 b) (vl_add_param (B "type") t (vline_new (id ++ B ":data:image/" ++ t) QInvalid)) in
  good E l /\ loud E l = negb (isnil b) /\ reread E l = mkVline id [] [] (QStr (data_text t (to_base64 b))) [].
Proof.
  intros Hi Ht Hb l.
  assert (El : l = mkVline (id ++ B ":data:image/" ++ t) [] [(B "type", [t])] QInvalid (to_base64 b)) by reflexivity.
  clearbody l. subst l. set (v := data_text t (to_base64 b)). pose proof (data_printed t b Ht Hb) as Hp. fold v in Hp.
  assert (Hk : In id known) by (destruct Hi as [<-|[<-|[]]]; in_known).
  set (h := vline_new id QInvalid).
  assert (Hh : header_reads h [] id (seen_ops [])) by (apply (header_added id [] id [] QInvalid []); [apply known_id; auto|constructor|constructor]).
  assert (Hid : ascii id) by (destruct Hi as [<-|[<-|[]]]; repeat constructor).
  assert (Hht : header_text h = id).
  { destruct (header_text_items h [] id _ Hh) as [-> _]. unfold h. cbn [vl_id vl_params vline_new]. apply app_nil_r. }
  assert (Hw : wline E (mkVline (id ++ B ":data:image/" ++ t) [] [(B "type", [t])] QInvalid (to_base64 b)) = header_text h ++ [cCOLON] ++ v).
  { unfold wline, v, data_text. cbn [vl_value vl_id vl_b64]. rewrite Hht.
    rewrite ascii_latin1.
    - rewrite <- !app_assoc. reflexivity.
    - apply Forall_app. split; auto. apply Forall_app. split; [repeat constructor|]. eapply Forall_impl; [|exact Ht]. cbn. lia. }
  destruct (run_header_items h [] id _ v Hh) as (y & Hy & Hl & Hen & Hcs). change (px_enc y = []) in Hen. change (px_charset y = []) in Hcs.
  assert (Hnb : ~ In cBS v) by (apply (printed_no cBS v Hp); auto).
  split; [|split].
  - intros _. rewrite Hw. destruct (header_text_items h [] id _ Hh) as (_ & Hst & Hcl).
    split; [|split].
    + destruct Hcl as [C1 C2]. assert (V1 : ~ In 13%N v) by (apply (printed_no _ v Hp); lia). assert (V2 : ~ In 10%N v) by (apply (printed_no _ v Hp); lia).
      split; rewrite !in_app_iff; cbn [In]; unfold cCOLON; intuition congruence.
    + cbn [vl_value vl_id]. destruct Hi as [<-|[<-|[]]]; eexists; eexists; (split; [reflexivity|]); vm_compute; split; discriminate.
    + destruct (header_marks h [] id _ v Hh) as [M1 M2]. split; auto. split; auto.
      unfold quiet. rewrite Hy, Hen. discriminate.
  - unfold loud, line_text. cbn [vl_value vl_id vl_b64].
    destruct b as [|c r]; [reflexivity|]. rewrite (proj2 (isnil_false (to_base64 (c :: r)))) by (apply to_base64_nonnil; discriminate).
    destruct Hi as [<-|[<-|[]]]; reflexivity.
  - unfold reread, parse_pure. rewrite Hw, Hy, finish_value, Hen, Hcs, Hl.
    unfold value_read. cbn [isnil fst snd negb].
    replace (remove_escapes v) with v by (unfold remove_escapes; apply mem_false in Hnb; rewrite Hnb; reflexivity).
    rewrite from_utf8_ascii; [reflexivity|]. apply Forall_forall. intros c Hc. rewrite forallb_forall in Hp. specialize (Hp c Hc). lia.
Qed.

Lemma classed_picture E T v id p : In id [B "PHOTO"; B "LOGO"] -> picture_fits T v p -> classed E (picture_line T v id p).
Proof.
  intros Hi [Hf Hu]. assert (Hk : In id known) by (destruct Hi as [<-|[<-|[]]]; in_known).
  assert (Hpi : pictured id = true) by (destruct Hi as [<-|[<-|[]]]; reflexivity).
  unfold picture_line. destruct v.
  - destruct (picture_empty p); [apply (classed_invalid E id [])|]. destruct (pi_intern p).
    + destruct (Hf eq_refl) as [Hb [Ht Hn]].
      change (vl_add_param (pi_type p) [] (vl_add_param (B "ENCODING") (B "BASE64") (vline_new id (QBytes (pi_raw_of (env_img (t_env T)) p)))))
        with (add_all [(B "ENCODING", B "BASE64"); (pi_type p, [])] (vline_new id (QBytes (pi_raw_of (env_img (t_env T)) p)))).
      apply classed_calm; side; auto.
      * cbn [map fst]. constructor; [|constructor; [intros []|constructor]]. intros [H|[]]. apply Hn. rewrite H. left. reflexivity.
      * constructor; [apply calm_encoding; cbn; auto|]. constructor; [|constructor]. apply calm_kv; [|constructor|exact Hn].
        eapply Forall_impl; [|exact Ht]. intros c Hc. exact Hc.
    + change (vl_add_param (B "value") (B "URI") (text_line id (pi_url p))) with (add_all [(B "value", B "URI")] (vline_new id (QStr (pi_url p)))).
      apply classed_calm; side; auto; [apply nodup_b_spec; reflexivity|constructor; [apply calm_dec; reflexivity|constructor]].
  - destruct (picture_empty p); [apply (classed_invalid E id [])|]. destruct (pi_intern p).
    + destruct (Hf eq_refl) as [Hb Ht].
      change (vl_add_param (B "type") (pi_type p) (vl_add_param (B "encoding") (B "b") (vline_new id (QBytes (pi_raw_of (env_img (t_env T)) p)))))
        with (add_all [(B "encoding", B "b"); (B "type", pi_type p)] (vline_new id (QBytes (pi_raw_of (env_img (t_env T)) p)))).
      apply classed_calm; side; auto.
      * apply nodup_b_spec. reflexivity.
      * constructor; [apply calm_encoding; cbn; auto|]. constructor; [|constructor].
        apply calm_kv; [apply ikey_dec; reflexivity|exact Ht|]. intros H. apply contains_In in H. discriminate.
    + change (vl_add_param (B "value") (B "URI") (text_line id (pi_url p))) with (add_all [(B "value", B "URI")] (vline_new id (QStr (pi_url p)))).
      apply classed_calm; side; auto; [apply nodup_b_spec; reflexivity|constructor; [apply calm_dec; reflexivity|constructor]].
  - unfold picture_line4. destruct (pi_intern p).
    + destruct (Hf eq_refl) as [Hb Ht].
      destruct (seen_data E id (pi_type p) (pi_raw_of (env_img (t_env T)) p) Hi Ht Hb) as (H1 & H2 & H3).
      constructor; auto.
      * intros _. right. right. rewrite H3. cbn [vl_group vl_id]. split; auto. split; auto. exists (pi_type p). reflexivity.
      * intros Hl _ _. rewrite H3. rewrite H2 in Hl. apply negb_true_iff, isnil_false in Hl. unfold parse_picture. cbn [vl_value vl_param_list vl_params map isnil].
        assert (Hlen : (22 <= length (variant_bytes (QStr (data_text (pi_type p) (to_base64 (pi_raw_of (env_img (t_env T)) p))))))%nat).
        { unfold variant_bytes. rewrite to_utf8_ascii.
          - unfold data_text. rewrite !app_length. pose proof (to_base64_length _ Hl). change (length (B "data:image/")) with 11. change (length (B ";base64,")) with 8. lia.
          - apply Forall_forall. intros c Hc. pose proof (data_printed _ _ Ht Hb) as Hp. rewrite forallb_forall in Hp. specialize (Hp c Hc). lia. }
        apply Nat.ltb_ge in Hlen. do 2 (match goal with |- match find_sub ?a ?b with _ => _ end <> None => destruct (find_sub a b) as [?|]; [|intros Hx; discriminate Hx] end).
        intros Hx. rewrite Hlen in Hx. discriminate Hx.
      * intros _. exists id, (pi_type p). auto.
    + destruct (Hu eq_refl eq_refl) as (U1 & U2 & U3).
      destruct (seen_plain E id (pi_url p) (known_id id Hk)) as (H1 & H2 & H3). unfold text_line. constructor; auto.
      * intros _. left. rewrite H3. auto.
      * intros _ _ _. rewrite H3. unfold parse_picture. cbn [vl_value vl_param_list vl_params map isnil variant_bytes].
        rewrite thru_id by auto. rewrite U3. discriminate.
      * intros _. cbn [vl_value vline_new]. exists [], id, (seen_ops []). apply (header_added _ [] _ []); [apply known_id; auto|constructor|constructor].
Qed.

(** ** custom fields *)
Lemma renamed_x q : exists r, renamed export_names (B "X-" ++ q) = B "X-" ++ r /\ (Forall name_char q -> Forall name_char r).
Proof.
  assert (H : forall tab : list (ustring * ustring), Forall (fun e => exists r, snd e = B "X-" ++ r /\ Forall name_char r) tab ->
    exists r, renamed tab (B "X-" ++ q) = B "X-" ++ r /\ (Forall name_char q -> Forall name_char r)).
  { induction tab as [|[a b] tab IH]; intros Hf; [exists q; auto|]. inversion Hf as [|? ? (r & Hr & Hn) Hf']; subst. cbn [renamed].
    destruct (leqb (B "X-" ++ q) a); [|apply IH; auto]. exists r. auto. }
  apply H. repeat (constructor; [eexists; split; [reflexivity|apply name_ok_spec; reflexivity]|]). constructor.
Qed.
Lemma custom_index n value : wf_name n -> index_of cCOLON (n ++ cCOLON :: value) = Some (length n).
Proof.
  intros [_ H]. apply index_of_app_notin. intros Hin. rewrite Forall_forall in H. destruct (H _ Hin) as [_ H']. apply H'. unfold cCOLON. cbn. auto.
Qed.
Lemma custom_lines_full T v export n value : wf_name n ->
  custom_lines T v export (n ++ cCOLON :: value) =
    if isnil value then []
    else let id := if export then renamed export_names (B "X-" ++ n) else B "X-" ++ n in
      if is40 v && leqb (to_lower id) (B "x-kaddressbook-x-anniversary")
      then [add_all [(B "VALUE", B "DATE")] (vline_new (B "ANNIVERSARY") (QStr (create_datetime (mk_dt (t_iso_date T value) None TLocal) v true)))]
      else if is40 v && leqb (to_lower id) (B "x-kaddressbook-x-spousesname")
      then [add_all [(B "TYPE", B "spouse"); (B "VALUE", value)] (vline_new (B "RELATED") (QStr (B ";")))]
      else [line21 v id value].
Proof.
  intros Hn. unfold custom_lines. rewrite custom_index by auto.
  replace (skipn (S (length n)) (n ++ cCOLON :: value)) with value.
  2: { rewrite skipn_app, skipn_all2 by lia. replace (S (length n) - length n) with 1 by lia. reflexivity. }
  replace (firstn (length n) (n ++ cCOLON :: value)) with n.
  2: { rewrite firstn_app, firstn_all, Nat.sub_diag. cbn. rewrite app_nil_r. reflexivity. }
  destruct (isnil value); auto. cbv zeta. set (id := if export then _ else _). destruct v; cbn [is40 andb]; auto.
Qed.
Lemma custom_lines_eq T v export n value : wf_name n -> (v = V21 -> needs_encoding value = false) ->
  custom_lines T v export (n ++ cCOLON :: value) =
    if isnil value then []
    else let id := if export then renamed export_names (B "X-" ++ n) else B "X-" ++ n in
      if is40 v && leqb (to_lower id) (B "x-kaddressbook-x-anniversary")
      then [add_all [(B "VALUE", B "DATE")] (vline_new (B "ANNIVERSARY") (QStr (create_datetime (mk_dt (t_iso_date T value) None TLocal) v true)))]
      else if is40 v && leqb (to_lower id) (B "x-kaddressbook-x-spousesname")
      then [add_all [(B "TYPE", B "spouse"); (B "VALUE", value)] (vline_new (B "RELATED") (QStr (B ";")))]
      else [text_line id value].
Proof.
  intros Hn Hv. unfold custom_lines. rewrite custom_index by auto.
  replace (skipn (S (length n)) (n ++ cCOLON :: value)) with value.
  2: { rewrite skipn_app, skipn_all2 by lia. replace (S (length n) - length n) with 1 by lia. reflexivity. }
  replace (firstn (length n) (n ++ cCOLON :: value)) with n.
  2: { rewrite firstn_app, firstn_all, Nat.sub_diag. cbn. rewrite app_nil_r. reflexivity. }
  destruct (isnil value); auto. cbv zeta. set (id := if export then _ else _). destruct v; cbn [is40 andb]; rewrite ?line21_plain by auto; auto.
Qed.
Lemma classed_custom E T v export n value : wf_name n -> codes E v value ->
  (v = V40 -> to_lower n = B "kaddressbook-x-spousesname" -> value_chars value) ->
  Forall (classed E) (custom_lines T v export (n ++ cCOLON :: value)).
Proof.
  intros Hn H21 H40. rewrite custom_lines_full by auto. destruct (isnil value); [constructor|]. cbv zeta.
  assert (Hr : exists r, (if export then renamed export_names (B "X-" ++ n) else B "X-" ++ n) = B "X-" ++ r /\ Forall name_char r /\
     (to_lower (B "X-" ++ r) = B "x-kaddressbook-x-spousesname" -> to_lower n = B "kaddressbook-x-spousesname")).
  { destruct export.
    - destruct (renamed_x n) as (r & Hr & Hc). exists r. split; auto. split; [apply Hc, Hn|]. intros Hs.
      assert (Hx : renamed export_names (B "X-" ++ n) = B "X-" ++ n \/ In (renamed export_names (B "X-" ++ n)) (map snd export_names)).
      { generalize export_names. clear. induction l as [|[a b] l IH]; [left; reflexivity|]. cbn [renamed map]. destruct (leqb (B "X-" ++ n) a); [right; left; auto|].
        destruct IH; [left|right; right]; auto. }
      destruct Hx as [Hx|Hx].
      + rewrite Hx in Hr. apply app_inv_head in Hr. subst r. apply (f_equal (skipn 2)) in Hs. exact Hs.
      + exfalso. assert (Hn2 : contains (B "x-kaddressbook-x-spousesname") (map (fun e => to_lower (snd e)) export_names) = false) by reflexivity.
        assert (Hin : In (B "x-kaddressbook-x-spousesname") (map (fun e => to_lower (snd e)) export_names)).
        { rewrite <- Hs, <- Hr. rewrite <- (map_map snd to_lower). apply in_map. exact Hx. }
        apply contains_In in Hin. exact (eq_true_false_abs _ Hin Hn2).
    - exists n. split; auto. split; [apply Hn|]. intros Hs. apply (f_equal (skipn 2)) in Hs. exact Hs. }
  destruct Hr as (r & -> & Hr & Hs).
  destruct (is40 v && leqb (to_lower (B "X-" ++ r)) (B "x-kaddressbook-x-anniversary")).
  { constructor; [|constructor]. apply classed_calm; side; [apply nodup_b_spec; reflexivity|constructor; [apply calm_dec; reflexivity|constructor]]. }
  destruct (is40 v && leqb (to_lower (B "X-" ++ r)) (B "x-kaddressbook-x-spousesname")) eqn:Es.
  { apply andb_true_iff in Es as [E4 Es]. apply leqb_eq in Es. destruct v; try discriminate.
    constructor; [|constructor]. apply classed_calm; side; [apply nodup_b_spec; reflexivity|].
    constructor; [apply calm_dec; reflexivity|]. constructor; [|constructor].
    apply calm_kv; [apply ikey_dec; reflexivity|apply H40; auto|]. intros H. apply contains_In in H. discriminate. }
  constructor; [|constructor]. apply classed_coded_x; auto.
Qed.

(** ** all lines *)
Lemma org_line_eq v dept o : (v = V21 -> needs_encoding (pt_text o) = false /\ needs_encoding dept = false) ->
  org_line v dept o = vl_add_params (pt_params o) (text_line (B "ORG") (join_components cSEMI (pt_text o :: (if isnil dept then [] else [dept])))).
Proof.
  intros H. unfold org_line. rewrite line21_plain; auto. intros Hv. destruct (H Hv) as [H1 H2].
  apply needs_join; [left; auto|]. constructor; auto. destruct (isnil dept); constructor; auto.
Qed.
Lemma n_line_eq v a : (v = V21 -> Forall (fun s => needs_encoding s = false) [a_family a; a_given a; a_additional a; a_prefix a; a_suffix a]) ->
  n_line v a = add_all (if is40 v && negb (isnil (a_sortstring a)) then [(B "SORT-AS", a_sortstring a)] else [])
    (text_line (B "N") (join_components cSEMI [a_family a; a_given a; a_additional a; a_prefix a; a_suffix a])).
Proof.
  intros H. unfold n_line. rewrite line21_plain; [|intros Hv; apply needs_join; [left; auto|auto]].
  destruct v; cbn [is40 andb]; auto. destruct (isnil (a_sortstring a)); reflexivity.
Qed.
Lemma params_facts a : Forall plain_params (all_params a) ->
  (forall e, In e (a_emails a) -> plain_params (em_params e)) /\ (forall e, In e (a_phones a) -> plain_params (ph_params e)) /\
  (forall e, In e (a_related a ++ a_langs a ++ a_pidmaps a ++ a_nicks a ++ a_orgs a ++ a_roles a ++ a_titles a) -> plain_params (pt_params e)) /\
  (forall e, In e (a_urls a) -> plain_params (ru_params e)) /\ (forall e, In e (a_calurls a) -> plain_params (cu_params e)) /\
  (forall e, In e (a_fgroups a) -> plain_params (fg_params e)) /\ (forall e, In e (a_impps a) -> plain_params (im_params e)).
Proof.
  unfold all_params. rewrite Forall_forall. intros H.
  split; [|split; [|split; [|split; [|split; [|split]]]]]. all: intros e He; apply H; rewrite !in_app_iff.
  - left. apply in_map; auto.
  - right; left. apply in_map; auto.
  - right; right; left. apply in_map; auto.
  - do 3 right; left. apply in_map; auto.
  - do 4 right; left. apply in_map; auto.
  - do 5 right; left. apply in_map; auto.
  - do 6 right. apply in_map; auto.
Qed.
Lemma Forall_flat_map' {A B} (P : B -> Prop) (f : A -> list B) l : (forall x, In x l -> Forall P (f x)) -> Forall P (flat_map f l).
Proof. induction l as [|x l IH]; intros H; [constructor|]. cbn. apply Forall_app. split; [apply H; left; auto|apply IH; intros; apply H; right; auto]. Qed.
Lemma Forall_map_in {A B} (P : B -> Prop) (f : A -> B) l : (forall x, In x l -> P (f x)) -> Forall P (map f l).
Proof. intros H. apply Forall_map, Forall_forall. auto. Qed.
Lemma Forall_when {A} (P : A -> Prop) b l : (b = true -> Forall P l) -> Forall P (when b l).
Proof. intros H. destruct b; [apply H; auto|constructor]. Qed.
Lemma Forall_one {A} (P : A -> Prop) x : P x -> Forall P [x].
Proof. auto. Qed.

Lemma n_line_full v a :
  n_line v a = add_all (line_kvs v (join_components cSEMI [a_family a; a_given a; a_additional a; a_prefix a; a_suffix a]) ++ (if is40 v && negb (isnil (a_sortstring a)) then [(B "SORT-AS", a_sortstring a)] else []))
    (text_line (B "N") (join_components cSEMI [a_family a; a_given a; a_additional a; a_prefix a; a_suffix a])).
Proof.
  unfold n_line. rewrite add_all_app, <- line21_all. destruct v; cbn [is40 andb]; auto. destruct (isnil (a_sortstring a)); reflexivity.
Qed.
Lemma org_line_full v dept o :
  org_line v dept o = let s := join_components cSEMI (pt_text o :: (if isnil dept then [] else [dept])) in
    add_all (line_kvs v s ++ joined (pt_params o)) (text_line (B "ORG") s).
Proof. unfold org_line. cbv zeta. rewrite vl_add_params_all, line21_more. reflexivity. Qed.
Lemma classed_coded_params E v id m s : In id known -> pictured id = false -> plain_params m -> codes E v s ->
  classed E (vl_add_params m (line21 v id s)).
Proof.
  intros Hk Hp Hm Hq. rewrite vl_add_params_all, line21_more. apply classed_coded; auto; [apply joined_nodup; apply Hm|apply plain_params_items; auto].
Qed.
(** what [fits] covers *)
Lemma fits_fitting E T v a : fits T v a -> fitting E T v a.
Proof.
  intros [H1 H2 H3 H4 H5 H6 H7 H8]. constructor; auto. intros Hv. destruct (H8 Hv) as [H H9]. split.
  2: { eapply Forall_impl; [|exact H9]. intros e He vs Hin. destruct He. apply in_map_iff. exists (B "type", vs). auto. }
  clear - H. assert (Hw : forall s, In s (texts21 a ++ ptexts21 a) -> needs_encoding s = false).
  { rewrite Forall_forall in H. intros s Hs. unfold texts21, ptexts21 in Hs. apply in_app_or in Hs as [Hs|Hs]; apply in_app_or in Hs as [Hs|Hs].
    - cbn [In] in Hs. destruct Hs as [<-|[<-|[<-|[<-|[<-|[]]]]]]; try (apply H; cbn [app In]; tauto).
      apply needs_join; [left; reflexivity|]. repeat constructor; apply H; cbn [app In]; tauto.
    - apply in_app_or in Hs as [Hs|Hs]; [|apply H; rewrite !in_app_iff; tauto]. apply in_flat_map in Hs as (x & Hx & Hs).
      assert (Ha : forall t, In t [ad_pobox x; ad_extended x; ad_street x; ad_locality x; ad_region x; ad_postal x; ad_country x; ad_label x] -> needs_encoding t = false).
      { intros t Ht. apply H. rewrite !in_app_iff. right. left. apply in_flat_map. exists x. auto. }
      destruct Hs as [<-|[<-|[]]]; [|apply Ha; cbn [In]; tauto]. apply needs_join; [left; reflexivity|]. repeat constructor; apply Ha; cbn [In]; tauto.
    - apply in_map_iff in Hs as (o & <- & Ho). apply needs_join; [left; reflexivity|].
      constructor; [apply H; rewrite !in_app_iff, map_app, !in_app_iff; right; right; left; left; apply in_map; auto|].
      destruct (isnil (a_department a)); repeat constructor. apply H. cbn [app In]. tauto.
    - apply H. rewrite !in_app_iff, !map_app, !in_app_iff. rewrite map_app, in_app_iff in Hs. tauto. }
  apply Forall_forall. intros s Hs Hn. rewrite (Hw s Hs) in Hn. discriminate.
Qed.
Set Warnings "-uniform-inheritance".
Coercion fits_fitting : fits >-> fitting.
#[global] Hint Resolve fits_fitting : core.

Theorem all_classed E T v export a : fitting E T v a -> Forall (classed E) (contact_lines T v export a).
Proof.
  intros [Hpar Hgr Hcu Hpi Hso Hke H40 H21].
  destruct (params_facts a Hpar) as (Pem & Pph & Ppt & Pur & Pca & Pfg & Pim). clear Hpar.
  assert (Pre : forall e, In e (a_related a) -> plain_params (pt_params e)) by (intros e He; apply Ppt; rewrite !in_app_iff; auto).
  assert (Pla : forall e, In e (a_langs a) -> plain_params (pt_params e)) by (intros e He; apply Ppt; rewrite !in_app_iff; auto).
  assert (Ppi : forall e, In e (a_pidmaps a) -> plain_params (pt_params e)) by (intros e He; apply Ppt; rewrite !in_app_iff; auto 8).
  assert (Pni : forall e, In e (a_nicks a) -> plain_params (pt_params e)) by (intros e He; apply Ppt; rewrite !in_app_iff; auto 8).
  assert (Por : forall e, In e (a_orgs a) -> plain_params (pt_params e)) by (intros e He; apply Ppt; rewrite !in_app_iff; auto 8).
  assert (Pro : forall e, In e (a_roles a) -> plain_params (pt_params e)) by (intros e He; apply Ppt; rewrite !in_app_iff; auto 10).
  assert (Pti : forall e, In e (a_titles a) -> plain_params (pt_params e)) by (intros e He; apply Ppt; rewrite !in_app_iff; auto 10).
  assert (N1 : forall s, In s (texts21 a ++ ptexts21 a) -> codes E v s).
  { intros s Hs Hv. destruct (H21 Hv) as [H _]. rewrite Forall_forall in H. apply H. exact Hs. }
  assert (N2 : forall x, In x (a_addresses a) -> codes E v (address_value x) /\ codes E v (ad_label x)).
  { intros x Hx. split; apply N1; unfold texts21; rewrite !in_app_iff; left; right; left; apply in_flat_map; exists x; (split; [exact Hx|]); [left|right; left]; reflexivity. }
  assert (N4 : forall e, In e (a_customs a) -> codes E v (snd e)).
  { intros e He. apply N1. unfold texts21. rewrite !in_app_iff. left. right. right. apply in_map. exact He. }
  assert (N5 : v = V21 -> forall e, In e (a_emails a) -> bare_types (em_params e)).
  { intros Hv e He. destruct (H21 Hv) as [_ H]. rewrite Forall_forall in H. auto. }
  clear H21.
  rewrite Forall_forall in Hgr, Hcu, Hpi, Hso, Hke.
  unfold contact_lines.
  assert (L21 : forall id s, In id known -> pictured id = false ->
     In s [a_formatted a; a_mailer a; join_components cSEMI [a_family a; a_given a; a_additional a; a_prefix a; a_suffix a]; a_name a; a_note a] ->
     classed E (line21 v id s)).
  { intros id s H1 H2 H3. rewrite line21_all, <- (app_nil_r (line_kvs v s)). apply classed_coded; auto; [constructor|]. apply N1. unfold texts21. rewrite !in_app_iff. auto. }
  apply Forall_app. split; [apply Forall_one, classed_plain; side|].
  apply Forall_app. split.
  { apply Forall_flat_map'. intros x Hx. destruct (N2 x Hx) as [Nx1 Nx2]. apply classed_address; auto. intros Hv. destruct (H40 Hv) as [H _]. rewrite Forall_forall in H. auto. }
  apply Forall_app. split.
  { apply Forall_one. unfold bday_line. destruct v; try (apply classed_plain; side).
    change (classed E (add_all [(B "VALUE", B "DATE")] (vline_new (B "BDAY") (QStr (create_datetime (a_birthday a) V40 (a_bdaytime a)))))).
    apply classed_calm; side; [apply nodup_b_spec; reflexivity|constructor; [apply calm_dec; reflexivity|constructor]]. }
  apply Forall_app. split.
  { apply Forall_when. intros _. apply Forall_one. apply (classed_plain E (B "DEATHDATE")); side. }
  apply Forall_app. split; [apply Forall_when; intros _; apply Forall_one, classed_plain; side|].
  apply Forall_app. split; [apply Forall_when; intros _; apply Forall_map_in; intros; apply classed_plain; side|].
  apply Forall_app. split; [apply Forall_map_in; intros; apply classed_plain; side|].
  apply Forall_app. split; [apply Forall_map_in; intros; apply classed_params; side; auto|].
  apply Forall_app. split.
  { apply Forall_when. intros _. apply Forall_one. unfold secrecy_line. destruct (a_secrecy a); try (apply classed_plain; side). apply (classed_invalid E _ []). }
  apply Forall_app. split.
  { apply Forall_when. intros _. apply Forall_app. split; apply Forall_map_in; intros; apply classed_params; side; auto. }
  apply Forall_app. split; [apply Forall_map_in; intros; apply classed_email; auto|].
  apply Forall_app. split; [apply Forall_one, L21; side; cbn; auto|].
  apply Forall_app. split; [unfold geo_lines; destruct (geo_valid (a_geo a)); constructor; [apply classed_plain; side|constructor]|].
  apply Forall_app. split; [apply Forall_map_in; intros; apply classed_key; auto|].
  constructor; [apply classed_picture; [right; left; reflexivity|apply Hpi; left; auto]|].
  apply Forall_app. split.
  { apply Forall_map_in. intros. apply classed_picture; [right; left; reflexivity|apply Hpi; right; right; rewrite in_app_iff; auto]. }
  apply Forall_app. split; [apply Forall_when; intros _; apply Forall_one, L21; side; cbn; auto|].
  apply Forall_app. split.
  { apply Forall_one. destruct (is40 v) eqn:E4.
    - assert (Hv4 : v = V40) by (destruct v; auto; discriminate). rewrite n_line_eq by congruence. rewrite E4. apply classed_calm; side.
      + apply nodup_b_spec. destruct (true && negb (isnil (a_sortstring a))); reflexivity.
      + destruct (true && negb (isnil (a_sortstring a))) eqn:Es; constructor; [|constructor].
        apply calm_kv; [apply ikey_dec; reflexivity| |intros H; apply contains_In in H; discriminate].
        apply H40. exact Hv4.
    - unfold n_line. destruct v; [| |discriminate]; apply L21; side; cbn; auto. }
  apply Forall_app. split; [apply Forall_when; intros _; apply Forall_one, L21; side; cbn; auto 10|].
  apply Forall_app. split; [apply Forall_when; intros _; apply Forall_map_in; intros; apply classed_params; side; auto|].
  apply Forall_app. split; [apply Forall_one, L21; side; cbn; auto 12|].
  apply Forall_app. split.
  { apply Forall_map_in. intros o Ho. unfold org_line. apply classed_coded_params; side; auto.
    apply N1. unfold ptexts21. rewrite !in_app_iff. right. left. apply in_map_iff. exists o. auto. }
  constructor; [apply classed_picture; [left; reflexivity|apply Hpi; right; left; auto]|].
  apply Forall_app. split.
  { apply Forall_map_in. intros. apply classed_picture; [left; reflexivity|apply Hpi; right; right; rewrite in_app_iff; auto]. }
  apply Forall_app. split; [apply Forall_when; intros _; apply Forall_one, classed_plain; side|].
  apply Forall_app. split; [apply Forall_one, classed_plain; side|].
  apply Forall_app. split.
  { apply Forall_map_in. intros o Ho. apply classed_coded_params; side; auto. apply N1. unfold ptexts21. rewrite !in_app_iff, map_app, !in_app_iff. right. right.
    first [left; apply in_map; exact Ho|right; apply in_map; exact Ho]. }
  apply Forall_app. split; [apply Forall_when; intros _; apply Forall_one, classed_plain; side|].
  apply Forall_app. split; [apply Forall_when; intros _; constructor; [apply classed_sound|apply Forall_map_in; intros; apply classed_sound]|].
  apply Forall_app. split; [apply Forall_map_in; intros; apply classed_phone; auto|].
  apply Forall_app. split.
  { apply Forall_map_in. intros o Ho. apply classed_coded_params; side; auto. apply N1. unfold ptexts21. rewrite !in_app_iff, map_app, !in_app_iff. right. right.
    first [left; apply in_map; exact Ho|right; apply in_map; exact Ho]. }
  apply Forall_app. split; [apply Forall_when; intros _; apply Forall_one, classed_plain; side|].
  apply Forall_app. split; [apply Forall_one, classed_plain; side|].
  apply Forall_app. split; [apply Forall_map_in; intros; apply classed_params; side; auto|].
  apply Forall_app. split.
  { apply Forall_when. intros _. apply Forall_app. split; [apply Forall_when; intros _; apply Forall_one, classed_plain; side|].
    apply Forall_app. split; [apply Forall_when; intros _; apply Forall_one, classed_plain; side|].
    apply Forall_flat_map'. intros c Hc. unfold calurl_lines. destruct (calurl_valid (env_url (t_env T)) c); [|constructor].
    destruct (cu_type c); try constructor; try (apply classed_params; side; auto); constructor. }
  apply Forall_app. split; [apply Forall_map_in; intros; apply classed_group; auto|].
  apply Forall_app. split.
  { apply Forall_map_in. intros i Hi. unfold impp_line. rewrite (fold_skip (fun pv => leqb (to_lower (fst pv)) (B "x-service-type"))).
    apply classed_params; side. apply plain_filter. auto. }
  unfold customs_of. apply Forall_flat_map'. intros c Hc. apply in_map_iff in Hc as (e & <- & He).
  apply classed_custom; auto. intros Hv. destruct (H40 Hv) as (_ & _ & H). rewrite Forall_forall in H. auto.
Qed.
