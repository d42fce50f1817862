(** What is read for a line that the converter has built by adding parameters with
    distinct names to a new line. *)
From Coq Require Import Permutation.
From Verif Require Import Base BaseFacts Utf8 Utf8Facts M_ParamMap M_VCard M_VCardText
  S_Escape P_Escape S_Fold P_Fold S_CardText P_CardText S_Card P_Assoc P_Card S_Parse P_Parse P_Parse2
  S_RoundTrip P_RoundTrip P_RoundTrip2 P_RoundTrip3 P_ReadBack P_Items P_Order S_Contact.

(** ** the value read *)
Definition value_read (E : Ext) (enc cs raw : bytes) : qvariant :=
  let value := remove_escapes raw in
  let d := if isnil enc then (value, false)
    else if leqb enc (B "b") || leqb enc (B "base64") then (from_base64 value, true)
    else if leqb enc (B "quoted-printable") then (qp_decode E value, false)
    else if leqb enc (B "8bit") then (value, false)
    else ([], false) in
  if negb (isnil cs) then
    match charset_decode E cs with
    | Some dec => QStr (dec (fst d))
    | None => QStr (from_utf8 (fst d))
    end
  else if snd d then QBytes (fst d) else QStr (from_utf8 (fst d)).
Lemma finish_value E x raw : finish_pure E x (Some raw) = vl_set_value (value_read E (px_enc x) (px_charset x) raw) (px_line x).
Proof. reflexivity. Qed.

Definition enc_of (ops : list (ustring * ustring)) : bytes := last (map to_lower (added (B "encoding") ops)) [].
Definition cs_of (ops : list (ustring * ustring)) : bytes := last (map to_lower (added (B "charset") ops)) [].

Lemma value_text_raw E l : exists raw mb, value_text E l = (add_escapes (excl_of l) raw, mb).
Proof.
  unfold value_text.
  match goal with |- exists raw mb, (let (_, _) := ?x in _) = _ => destruct x as [i m] end.
  match goal with |- exists raw mb, (let (_, _) := ?x in _) = _ => destruct x as [o m'] end.
  exists o, m'. reflexivity.
Qed.
Lemma add_escapes_nil e : add_escapes e [] = [].
Proof. destruct e; reflexivity. Qed.
Lemma isnil_escapes e raw : isnil (add_escapes e raw) = isnil raw.
Proof.
  destruct raw as [|c r]; [rewrite add_escapes_nil; auto|].
  rewrite (proj2 (isnil_false _)); auto. apply add_escapes_nonnil. discriminate.
Qed.

Lemma reads_any E l g i ops raw mb : header_reads l g i ops -> vl_value l <> QInvalid ->
  value_text E l = (add_escapes (excl_of l) raw, mb) ->
  (enc_of ops = B "quoted-printable" -> ends_with [cEQ] (remove_escapes (add_escapes (excl_of l) raw)) = false) ->
  good E l /\ loud E l = negb (isnil raw) /\
  reread E l = mkVline i g (read_params ops) (value_read E (enc_of ops) (cs_of ops) (add_escapes (excl_of l) raw)) [].
Proof.
  intros Hh Hv Evt Hqp.
  assert (Hw : wline E l = header_text l ++ [cCOLON] ++ add_escapes (excl_of l) raw).
  { unfold wline. destruct (vl_value l); [congruence| |]; unfold logical; rewrite Evt; auto. }
  destruct (run_header_items l g i ops (add_escapes (excl_of l) raw) Hh) as (y & Hy & Hl & Hen & Hcs).
  fold (enc_of ops) in Hen. fold (cs_of ops) in Hcs.
  split; [|split].
  - intros _. rewrite Hw. destruct (header_text_items l g i ops Hh) as (_ & Hst & Hcl).
    split; [|split; [destruct (vl_value l); [congruence|auto|auto]|]].
    + destruct (value_clean E (excl_of l) raw) as [V1 V2]. destruct Hcl as [C1 C2].
      split; rewrite !in_app_iff; cbn [In]; unfold cCOLON; intuition congruence.
    + destruct (header_marks l g i ops (add_escapes (excl_of l) raw) Hh) as [M1 M2]. split; auto. split; auto.
      unfold quiet. rewrite Hy. intros Hq. rewrite Hen in Hq. auto.
  - unfold loud. assert (Hhv : has_value l) by exact Hv.
    rewrite line_text_value, Evt by auto. cbn [fst snd]. rewrite isnil_escapes. destruct (isnil raw); auto.
    destruct (fix_line_size_chunks (header_text l ++ [cCOLON] ++ add_escapes (excl_of l) raw) mb) as (c0 & cs & Hf & _).
    rewrite Hf, join_terminated. cbn [terminated flat_map]. destruct c0; reflexivity.
  - unfold reread, parse_pure. rewrite Hw, Hy. rewrite finish_value, Hen, Hcs, Hl. reflexivity.
Qed.

(** any text goes through the text layer as [thru] makes it *)
Definition thru (e : bool) (u : ustring) : ustring := from_utf8 (remove_escapes (add_escapes e (to_utf8 u))).
Lemma thru_id e u : text_ok u = true -> ~ ambiguous u -> thru e u = u.
Proof.
  intros Hok Ha. unfold thru. rewrite (proj2 (escape_iff _ _)) by (apply ambiguous_utf8; auto). apply utf8_roundtrip; auto.
Qed.
Lemma isnil_utf8 u : isnil (to_utf8 u) = isnil u.
Proof. destruct u as [|c u]; auto. cbn [isnil]. apply isnil_false, to_utf8_nonnil. discriminate. Qed.

Lemma reads_text_any E l g i ops u : header_reads l g i ops -> vl_value l = QStr u ->
  find_param (B "encoding") (vl_params l) = None -> find_param (B "charset") (vl_params l) = None ->
  no_key (B "encoding") ops -> no_key (B "charset") ops ->
  good E l /\ loud E l = negb (isnil u) /\ reread E l = mkVline i g (read_params ops) (QStr (thru (excl_of l) u)) [].
Proof.
  intros Hh Hv He Hc He' Hc'. unfold no_key in *.
  destruct (reads_any E l g i ops (to_utf8 u) true Hh) as (H1 & H2 & H3).
  - rewrite Hv. discriminate.
  - apply plain_text_mb. repeat split; auto.
  - unfold enc_of. rewrite He'. discriminate.
  - split; auto. split; [rewrite H2, isnil_utf8; auto|]. rewrite H3. f_equal. unfold enc_of, cs_of. rewrite He', Hc'. reflexivity.
Qed.

(** ** lines built by adding parameters *)
Definition ikey_b (s : ustring) : bool := forallb (fun c => (32 <=? c)%N && (c <? 127)%N && negb (mem c [58; 59; 61]%N)) s.
Definition ivalue_b (s : ustring) : bool := forallb (fun c => (32 <=? c)%N && (c <? 256)%N && negb (mem c [34; 58; 59]%N)) s.
Lemma ikey_dec s : ikey_b s = true -> Forall ikey_char s.
Proof.
  unfold ikey_b. rewrite forallb_forall, Forall_forall. intros H c Hc. specialize (H c Hc).
  apply andb_true_iff in H as [H1 H2]. split; [lia|]. apply negb_true_iff in H2. intros Hin. apply mem_In in Hin. congruence.
Qed.
Lemma ivalue_dec s : ivalue_b s = true -> Forall ivalue_char s.
Proof.
  unfold ivalue_b. rewrite forallb_forall, Forall_forall. intros H c Hc. specialize (H c Hc).
  apply andb_true_iff in H as [H1 H2]. split; [lia|]. apply negb_true_iff in H2. intros Hin. apply mem_In in Hin. congruence.
Qed.
Definition item_ops (kv : item) : list (ustring * ustring) :=
  match snd kv with
  | [] => [(bare_key (to_upper (fst kv)), to_upper (fst kv))]
  | c :: r => if N.eqb c cDQ then map (pair (to_lower (fst kv))) (qsplit (to_lower (fst kv)) (removelast r))
              else map (pair (to_lower (fst kv))) (split cCOMMA (c :: r))
  end.
Definition item_ok (kv : item) : Prop :=
  Forall ikey_char (fst kv) /\
  (Forall ivalue_char (snd kv) \/ exists w, snd kv = [cDQ] ++ w ++ [cDQ] /\ Forall iquoted_char w).
Lemma item_ok_reads kv : item_ok kv -> item_reads kv (item_ops kv).
Proof.
  destruct kv as [k v]. unfold item_ok, item_ops. cbn [fst snd]. intros [Hk [Hv|(w & -> & Hw)]].
  - destruct v as [|c r]; [apply reads_bare; auto|].
    replace (N.eqb c cDQ) with false.
    + apply reads_values; auto. discriminate.
    + symmetry. apply N.eqb_neq. inversion Hv as [|? ? [_ Hc] _]; subst. cbn [In] in Hc. unfold cDQ. intuition.
  - cbn [app]. replace (N.eqb cDQ cDQ) with true by reflexivity. rewrite removelast_last. apply reads_quoted; auto.
Qed.

Definition seen_ops (kvs : list item) : list (ustring * ustring) := flat_map item_ops (items_of (read_params kvs)).

Lemma add_all_new kvs id v b : add_all kvs (mkVline id [] [] v b) = mkVline id [] (read_params kvs) v b.
Proof. apply add_all_base. Qed.

Lemma read_params_ok kvs : pm_ok (read_params kvs) kvs.
Proof. unfold read_params. apply (add_all_ok kvs vline_empty []). apply pm_ok_nil. Qed.
Lemma read_params_sorted kvs : increasing (map fst (read_params kvs)).
Proof. apply read_params_ok. Qed.
Lemma read_params_find k kvs : find_param k (read_params kvs) = match added k kvs with [] => None | _ => Some (firsts (added k kvs)) end.
Proof. apply read_params_ok. Qed.

Lemma in_added k v kvs : In v (added k kvs) <-> In (k, v) kvs.
Proof.
  unfold added. rewrite in_map_iff. split.
  - intros ([k' v'] & <- & Hin). apply filter_In in Hin as [Hin He]. cbn in *. apply leqb_eq in He. subst. auto.
  - intros H. exists (k, v). split; auto. apply filter_In. split; auto. cbn. apply leqb_refl.
Qed.
Lemma added_nil k kvs : added k kvs = [] <-> ~ In k (map fst kvs).
Proof.
  split.
  - intros H Hin. apply in_map_iff in Hin as ([k' v] & Hk & Hin). cbn in Hk. subst k'. apply in_added in Hin. rewrite H in Hin. destruct Hin.
  - intros H. destruct (added k kvs) as [|v r] eqn:E; auto. exfalso. apply H. apply in_map_iff. exists (k, v).
    split; auto. apply in_added. rewrite E. left; auto.
Qed.
Lemma added_single k v kvs : NoDup (map fst kvs) -> In (k, v) kvs -> added k kvs = [v].
Proof.
  induction kvs as [|[k' v'] kvs IH]; [intros _ []|]. cbn [map]. intros Hn [H|H]; inversion Hn; subst.
  - injection H as -> ->. unfold added. cbn. rewrite leqb_refl. cbn. f_equal. apply added_nil. auto.
  - unfold added. cbn. destruct (leqb_spec k' k) as [->|Hne].
    + exfalso. apply H2. apply in_map_iff. exists (k, v). auto.
    + apply IH; auto.
Qed.

Lemma NoDup_fst {A B} (l : list (A * B)) : NoDup (map fst l) -> NoDup l.
Proof. apply NoDup_map_inv. Qed.

(** with distinct names, the items written are the parameters added *)
Lemma items_perm kvs : NoDup (map fst kvs) -> Permutation (items_of (read_params kvs)) kvs.
Proof.
  intros Hn. pose proof (read_params_sorted kvs) as Hs.
  assert (Hin : forall k vs, In (k, vs) (read_params kvs) -> exists v, vs = [v] /\ In (k, v) kvs).
  { intros k vs H. apply (In_afind _ _ _ Hs) in H. rewrite <- find_param_afind, read_params_find in H.
    destruct (added k kvs) as [|v r] eqn:E; [discriminate|].
    assert (Hv : In (k, v) kvs) by (apply in_added; rewrite E; left; auto).
    rewrite (added_single _ _ _ Hn Hv) in E. injection E as <-. exists v. split; auto. cbn in H. injection H as <-. auto. }
  assert (Hk : map fst (items_of (read_params kvs)) = map fst (read_params kvs)).
  { clear -Hin. induction (read_params kvs) as [|[k vs] m IH]; auto. unfold items_of. cbn [flat_map map].
    destruct (Hin k vs) as (v & -> & _); [left; auto|]. cbn [snd fst map app]. f_equal. apply IH. intros; apply Hin; right; auto. }
  apply NoDup_Permutation.
  - apply NoDup_fst. rewrite Hk. apply increasing_NoDup; auto.
  - apply NoDup_fst; auto.
  - intros [k v]. split.
    + intros H. unfold items_of in H. apply in_flat_map in H as ([k' vs] & H1 & H2). cbn in H2.
      apply in_map_iff in H2 as (v' & Hv & Hi). injection Hv as -> ->. destruct (Hin _ _ H1) as (w & -> & Hw).
      destruct Hi as [->|[]]. auto.
    + intros H. unfold items_of. apply in_flat_map. exists (k, [v]). split; [|left; auto].
      apply afind_In. rewrite <- find_param_afind, read_params_find, (added_single _ _ _ Hn H). reflexivity.
Qed.

Lemma header_added id g i kvs v b : id_reads id g i -> NoDup (map fst kvs) -> Forall item_ok kvs ->
  header_reads (mkVline id [] (read_params kvs) v b) g i (seen_ops kvs).
Proof.
  intros Hid Hn Hok. constructor; cbn [vl_group vl_id vl_params]; auto.
  - apply read_params_sorted.
  - exists (map item_ops (items_of (read_params kvs))). split.
    + pose proof (items_perm kvs Hn) as Hp.
      assert (Hall : Forall item_ok (items_of (read_params kvs))).
      { rewrite Forall_forall in *. intros x Hx. apply Hok. eapply Permutation_in; eauto. }
      clear -Hall. induction Hall; cbn; constructor; auto. apply item_ok_reads; auto.
    + unfold seen_ops. rewrite flat_map_concat_map. auto.
Qed.

Lemma read_params_none k kvs : ~ In k (map fst kvs) -> find_param k (read_params kvs) = None.
Proof. intros H. rewrite read_params_find. rewrite (proj2 (added_nil k kvs) H). auto. Qed.
Lemma read_params_some k v kvs : NoDup (map fst kvs) -> In (k, v) kvs -> find_param k (read_params kvs) = Some [v].
Proof. intros Hn H. rewrite read_params_find, (added_single _ _ _ Hn H). auto. Qed.

(** names added by an item *)
Lemma item_ops_keys kv k : In k (map fst (item_ops kv)) ->
  (snd kv = [] /\ k = bare_key (to_upper (fst kv))) \/ (snd kv <> [] /\ k = to_lower (fst kv)).
Proof.
  destruct kv as [p v]. unfold item_ops. cbn [fst snd]. destruct v as [|c r].
  - cbn. intros [<-|[]]. auto.
  - intros H. right. split; [discriminate|]. rewrite <- (map_id k). rewrite map_id.
    destruct (N.eqb c cDQ); rewrite map_map in H; cbn in H; apply in_map_iff in H as (? & <- & _); auto.
Qed.
Lemma added_flat k (l : list item) : added k (flat_map item_ops l) = flat_map (fun kv => added k (item_ops kv)) l.
Proof. unfold added. induction l as [|x l IH]; cbn; auto. rewrite filter_app', map_app, IH. auto. Qed.
Lemma seen_added_perm k kvs : NoDup (map fst kvs) -> Permutation (added k (seen_ops kvs)) (flat_map (fun kv => added k (item_ops kv)) kvs).
Proof.
  intros Hn. unfold seen_ops. rewrite added_flat. apply Permutation_flat_map. apply items_perm; auto.
Qed.
(** if only one item contributes to a name, the order is that of its values *)
Lemma flat_map_single {A B} (f : A -> list B) (l : list A) x : NoDup l -> In x l -> (forall y, In y l -> y <> x -> f y = []) ->
  flat_map f l = f x.
Proof.
  induction l as [|y l IH]; [intros _ []|]. intros Hn [->|Hin] H; inversion Hn; subst; cbn [flat_map].
  - rewrite <- (app_nil_r (f x)) at 2. f_equal.
    assert (Hz : forall z, In z l -> f z = []) by (intros z Hz; apply H; [right; auto|intros ->; auto]).
    clear -Hz. induction l; cbn; auto. rewrite Hz by (left; auto). apply IHl. intros; apply Hz; right; auto.
  - rewrite H; [|left; auto|intros ->; auto]. cbn. apply IH; auto. intros; apply H; auto. right; auto.
Qed.
Lemma flat_map_nil {A B} (f : A -> list B) (l : list A) : (forall y, In y l -> f y = []) -> flat_map f l = [].
Proof. induction l; intros H; cbn; auto. rewrite H by (left; auto). apply IHl. intros; apply H; right; auto. Qed.
Lemma seen_added_one k kvs kv : NoDup (map fst kvs) -> In kv kvs ->
  (forall y, In y kvs -> y <> kv -> ~ In k (map fst (item_ops y))) -> added k (seen_ops kvs) = added k (item_ops kv).
Proof.
  intros Hn Hin H. unfold seen_ops. rewrite added_flat. pose proof (items_perm kvs Hn) as Hp.
  apply (flat_map_single (fun kv => added k (item_ops kv)) (items_of (read_params kvs)) kv).
  - eapply Permutation_NoDup; [symmetry; exact Hp|]. apply NoDup_fst; auto.
  - eapply Permutation_in; [symmetry; exact Hp|]; auto.
  - intros y Hy Hne. apply added_nil. apply H; auto. eapply Permutation_in; eauto.
Qed.
Lemma seen_added_none k kvs : NoDup (map fst kvs) -> (forall y, In y kvs -> ~ In k (map fst (item_ops y))) -> added k (seen_ops kvs) = [].
Proof.
  intros Hn H. unfold seen_ops. rewrite added_flat. apply flat_map_nil. intros y Hy. apply added_nil. apply H.
  eapply Permutation_in; [apply items_perm; auto|auto].
Qed.

(** an item says nothing about encodings *)
Definition silent_key (k : ustring) (kv : item) : Prop := ~ In k (map fst (item_ops kv)).
Definition plain_item (kv : item) : Prop :=
  item_ok kv /\ fst kv <> B "encoding" /\ fst kv <> B "charset" /\
  silent_key (B "encoding") kv /\ silent_key (B "charset") kv.

(** a text line with such parameters *)
Lemma seen_text E id g i kvs u : id_reads id g i -> NoDup (map fst kvs) -> Forall plain_item kvs ->
  let l := add_all kvs (vline_new id (QStr u)) in
  good E l /\ loud E l = negb (isnil u) /\
  reread E l = mkVline i g (read_params (seen_ops kvs)) (QStr (thru (excl_of l) u)) [].
Proof.
  intros Hid Hn Hp l. unfold l, vline_new. rewrite add_all_new. clear l.
  rewrite Forall_forall in Hp.
  apply reads_text_any; cbn [vl_value vl_params]; auto.
  - apply header_added; auto. apply Forall_forall. intros x Hx. apply (Hp x Hx).
  - apply read_params_none. intros H. apply in_map_iff in H as (x & Hx & Hin). destruct (Hp x Hin) as (_ & P1 & P2 & _). auto.
  - apply read_params_none. intros H. apply in_map_iff in H as (x & Hx & Hin). destruct (Hp x Hin) as (_ & P1 & P2 & _). auto.
  - apply seen_added_none; auto. intros y Hy. destruct (Hp y Hy) as (_ & _ & _ & P3 & _). exact P3.
  - apply seen_added_none; auto. intros y Hy. destruct (Hp y Hy) as (_ & _ & _ & _ & P4). exact P4.
Qed.

(** binary data with the encoding parameter of version 3.0 *)
Lemma seen_bytes E id g i kvs b : id_reads id g i -> NoDup (map fst kvs) -> In (B "encoding", B "b") kvs ->
  Forall (fun kv => kv = (B "encoding", B "b") \/ plain_item kv) kvs -> is_bytes b = true ->
  let l := add_all kvs (vline_new id (QBytes b)) in
  good E l /\ loud E l = negb (isnil b) /\
  reread E l = mkVline i g (read_params (seen_ops kvs)) (QBytes b) [].
Proof.
  intros Hid Hn Hin Hp Hb l. unfold l, vline_new. rewrite add_all_new. clear l.
  rewrite Forall_forall in Hp.
  assert (Hek : item_ok (B "encoding", B "b")).
  { split; [apply ikey_dec; reflexivity|left; apply ivalue_dec; reflexivity]. }
  apply reads_binary; cbn [vl_value vl_params]; auto.
  - apply header_added; auto. apply Forall_forall. intros x Hx. destruct (Hp x Hx) as [->|H]; auto. apply H.
  - apply read_params_some; auto.
  - apply read_params_none. intros H. apply in_map_iff in H as (x & Hx & Hx').
    destruct (Hp x Hx') as [->|(_ & _ & Hq & _)]; [discriminate|]. auto.
  - rewrite (seen_added_one _ _ _ Hn Hin); [reflexivity|]. intros y Hy Hne. destruct (Hp y Hy) as [->|(_ & _ & _ & P3 & _)]; [congruence|exact P3].
  - apply seen_added_none; auto. intros y Hy. destruct (Hp y Hy) as [->|(_ & _ & _ & _ & P4)]; [|exact P4]. cbn. intros [H|[]]. discriminate.
Qed.

(** lines with neither value nor data are not written *)
Lemma seen_silent E kvs id : let l := add_all kvs (vline_new id QInvalid) in good E l /\ loud E l = false.
Proof.
  intros l. apply silent_line; unfold l, vline_new; rewrite add_all_new; auto.
Qed.

(** ** parameters that are kept as they are *)
Definition joined (m : pmap) : list item := map (fun pv => (fst pv, join [cCOMMA] (snd pv))) m.
Lemma vl_add_params_all m l : vl_add_params m l = add_all (joined m) l.
Proof. unfold vl_add_params, add_all, joined. revert l. induction m as [|pv m IH]; intros l; auto. cbn [map fold_left fst snd]. apply IH. Qed.
Lemma joined_keys m : map fst (joined m) = map fst m.
Proof. unfold joined. rewrite map_map. reflexivity. Qed.

Lemma split_join_comma (vs : list ustring) : vs <> [] -> Forall (fun v => ~ In cCOMMA v) vs -> split cCOMMA (join [cCOMMA] vs) = vs.
Proof.
  induction vs as [|v vs IH]; intros Hn Hf; [congruence|]. inversion Hf; subst. destruct vs as [|w vs].
  - cbn. apply split_notin; auto.
  - change (join [cCOMMA] (v :: w :: vs)) with (v ++ [cCOMMA] ++ join [cCOMMA] (w :: vs)). cbn [app].
    rewrite split_app by auto. f_equal. apply IH; auto. discriminate.
Qed.
Lemma join_nonnil (vs : list ustring) : vs <> [] -> Forall (fun v => v <> []) vs -> join [cCOMMA] vs <> [].
Proof.
  destruct vs as [|v [|w vs]]; intros Hn Hf; [congruence| |]; inversion Hf; subst; auto.
  change (join [cCOMMA] (v :: w :: vs)) with (v ++ [cCOMMA] ++ join [cCOMMA] (w :: vs)). destruct v; discriminate.
Qed.
Lemma Forall_join (P : N -> Prop) (vs : list ustring) : P cCOMMA -> Forall (Forall P) vs -> Forall P (join [cCOMMA] vs).
Proof.
  intros Hc. induction vs as [|v [|w vs] IH]; intros Hf; [constructor| |]; inversion Hf; subst; auto.
  change (join [cCOMMA] (v :: w :: vs)) with (v ++ [cCOMMA] ++ join [cCOMMA] (w :: vs)).
  apply Forall_app. split; auto. constructor; auto.
Qed.

Lemma key_char_ikey c : key_char c -> ikey_char c /\ lower1 c = c.
Proof.
  intros (H1 & H2 & H3). unfold printable in H1. cbn [In] in H2. split.
  - split; [lia|]. cbn [In]. auto.
  - unfold lower1, is_upper. destruct ((65 <=? c)%N && (c <=? 90)%N) eqn:E; lia.
Qed.
Lemma key_lower p : Forall key_char p -> to_lower p = p.
Proof. intros H. unfold to_lower. rewrite <- (map_id p) at 2. apply map_ext_in. intros c Hc. rewrite Forall_forall in H. apply key_char_ikey; auto. Qed.

Lemma joined_item p vs : Forall key_char p -> vs <> [] -> Forall (fun v => v <> [] /\ Forall pvalue_char v) vs ->
  item_ok (p, join [cCOMMA] vs) /\ item_ops (p, join [cCOMMA] vs) = map (pair p) vs.
Proof.
  intros Hp Hn Hv.
  assert (Hj : Forall ivalue_char (join [cCOMMA] vs)).
  { apply Forall_join; [split; [unfold cCOMMA; lia|unfold cCOMMA; cbn [In]; lia]|].
    eapply Forall_impl; [|exact Hv]. intros v [_ H]. eapply Forall_impl; [|exact H]. intros c [H1 H2]. split; auto. cbn [In] in *. intuition. }
  assert (Hne : join [cCOMMA] vs <> []) by (apply join_nonnil; auto; eapply Forall_impl; [|exact Hv]; cbn; intuition).
  split.
  - split; cbn [fst snd]; [eapply Forall_impl; [|exact Hp]; intros; apply key_char_ikey; auto|left; auto].
  - unfold item_ops. cbn [fst snd]. destruct (join [cCOMMA] vs) as [|c r] eqn:Ej; [congruence|].
    inversion Hj as [|? ? [_ Hc] _]; subst. cbn [In] in Hc.
    rewrite (proj2 (N.eqb_neq c cDQ)) by (unfold cDQ; intuition). rewrite <- Ej, split_join_comma; auto.
    + rewrite key_lower; auto.
    + eapply Forall_impl; [|exact Hv]. intros v [_ H] Hin. rewrite Forall_forall in H. destruct (H _ Hin) as [_ H']. apply H'. cbn. unfold cCOMMA. auto.
Qed.

Lemma plain_params_items m : plain_params m -> Forall plain_item (joined m).
Proof.
  intros ([Hs Hf] & He & Hc). unfold joined. apply Forall_map. rewrite Forall_forall in *. intros [p vs] Hin.
  destruct (Hf _ Hin) as (Hp & Hn & Hd & Hv). cbn [fst snd] in *. destruct (joined_item p vs Hp Hn Hv) as [H1 H2].
  assert (Hk : forall k, In k (map fst (item_ops (p, join [cCOMMA] vs))) -> k = p).
  { assert (HX : forall k, In k (map fst (map (pair p) vs)) -> k = p).
    { intros k Hk. apply in_map_iff in Hk as (x & <- & Hx). apply in_map_iff in Hx as (y & <- & _). reflexivity. }
    exact (eq_ind (map (pair p) vs) (fun z => forall k, In k (map fst z) -> k = p) HX _ (eq_sym H2)). }
  assert (Hpin : In p (map fst m)) by (apply in_map_iff; exists (p, vs); auto).
  split; [exact H1|]. split; [|split; [|split]]; cbn [fst].
  - intros ->; auto.
  - intros ->; auto.
  - intros H. apply Hk in H. rewrite <- H in Hpin. auto.
  - intros H. apply Hk in H. rewrite <- H in Hpin. auto.
Qed.
Lemma joined_nodup m : wf_params m -> NoDup (map fst (joined m)).
Proof. intros [Hs _]. rewrite joined_keys. apply increasing_NoDup; auto. Qed.

Lemma asorted_read kvs : increasing (map fst kvs) -> items_of (read_params kvs) = kvs.
Proof.
  intros Hs. assert (Hn : NoDup (map fst kvs)) by (apply increasing_NoDup; auto).
  assert (E : read_params kvs = map (fun kv => (fst kv, [snd kv])) kvs).
  { apply asorted_ext.
    - apply read_params_sorted.
    - unfold asorted. rewrite map_map. exact Hs.
    - intros p. rewrite <- find_param_afind, read_params_find.
      destruct (added p kvs) as [|v r] eqn:Ea.
      + symmetry. apply afind_None. rewrite map_map. cbn. apply added_nil in Ea. exact Ea.
      + assert (Hin : In (p, v) kvs) by (apply in_added; rewrite Ea; left; auto).
        rewrite (added_single _ _ _ Hn Hin) in Ea. injection Ea as <-. cbn. symmetry.
        apply In_afind; [unfold asorted; rewrite map_map; exact Hs|]. apply in_map_iff. exists (p, v). auto. }
  rewrite E. unfold items_of. clear. induction kvs as [|[k v] kvs IH]; auto. cbn. f_equal. auto.
Qed.

Lemma joined_seen m : wf_params m -> seen_ops (joined m) = pvs_of m.
Proof.
  intros [Hs Hf]. unfold seen_ops. rewrite asorted_read by (rewrite joined_keys; auto).
  unfold joined, pvs_of. clear Hs. induction m as [|[p vs] m IH]; auto. cbn [map flat_map]. inversion Hf as [|? ? (Hp & Hn & Hd & Hv) Hf']; subst.
  cbn [fst snd] in *. destruct (joined_item p vs Hp Hn Hv) as [_ H]. apply f_equal2; [exact H|apply IH; auto].
Qed.
Lemma joined_read m : wf_params m -> read_params (seen_ops (joined m)) = m.
Proof.
  intros H. rewrite joined_seen by auto. unfold read_params. rewrite rebuild_params; auto.
Qed.

(** a line with plain parameters *)
Lemma seen_params E id m u : id_reads id [] id -> plain_params m ->
  let l := vl_add_params m (vline_new id (QStr u)) in
  good E l /\ loud E l = negb (isnil u) /\ reread E l = mkVline id [] m (QStr (thru (excl_of l) u)) [].
Proof.
  intros Hid Hp l. unfold l. rewrite vl_add_params_all. destruct Hp as (Hw & He & Hc).
  destruct (seen_text E id [] id (joined m) u Hid (joined_nodup m Hw) (plain_params_items m (conj Hw (conj He Hc)))) as (H1 & H2 & H3).
  rewrite joined_read in H3 by auto. auto.
Qed.
Lemma seen_params_group E id g i m u : id_reads id g i -> plain_params m ->
  let l := vl_add_params m (vline_new id (QStr u)) in
  good E l /\ loud E l = negb (isnil u) /\ reread E l = mkVline i g m (QStr (thru (excl_of l) u)) [].
Proof.
  intros Hid Hp l. unfold l. rewrite vl_add_params_all. destruct Hp as (Hw & He & Hc).
  destruct (seen_text E id g i (joined m) u Hid (joined_nodup m Hw) (plain_params_items m (conj Hw (conj He Hc)))) as (H1 & H2 & H3).
  rewrite joined_read in H3 by auto. auto.
Qed.
Lemma seen_plain E id u : id_reads id [] id ->
  good E (vline_new id (QStr u)) /\ loud E (vline_new id (QStr u)) = negb (isnil u) /\
  reread E (vline_new id (QStr u)) = mkVline id [] [] (QStr (thru (excl_of (vline_new id (QStr u))) u)) [].
Proof. intros H. apply (seen_text E id [] id [] u H); constructor. Qed.
