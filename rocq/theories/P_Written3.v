(** What a written card says (C80): names, organisations, addresses, telephone numbers. *)
From Coq Require Import Permutation.
From Verif Require Import Base BaseFacts QtText Utf8 Utf8Facts M_ParamMap M_VCard M_VCardText
  S_Escape P_Escape S_Fold P_Fold S_CardText P_CardText S_Card P_Assoc P_Card S_Parse P_Parse P_Parse2
  S_RoundTrip P_RoundTrip P_RoundTrip2 P_RoundTrip3 P_ReadBack P_Items P_Order
  M_Split S_Split P_Split M_Values M_Date M_Addressee M_VCardTool S_Contact P_Seen P_ReadFields P_Lines P_Contact P_Chunks
  P_Types P_Addr P_Contact2 P_Fields P_Fields2 S_Soft S_Order S_Coding S_Meaning S_Written P_Written P_Written2.

(** ** The name *)
Lemma join_full sep s t l : join_components sep (s :: t :: l) <> [].
Proof. intros H. apply join_nil in H. destruct H; discriminate. Qed.
Lemma put_n T E v export a : fits T v a -> Forall (fun s => ~ In 59%N s) (name_parts a) ->
  exists p, of_name "n" (puts E (written (create_card T v export a))) = [p] /\ holds_parts 59 p (name_parts a) /\
    sd_params p = (if is40 v && negb (isnil (a_sortstring a)) then [B "SORT-AS=" ++ a_sortstring a] else []).
Proof.
  intros Hf Hs. rewrite (of_name_puts T E v export a "n" (B "N")); put_side; auto.
  change (flat_map (pick (B "N")) (chunks T v export a)) with [n_line v a].
  rewrite n_line_eq by (intros Hv; destruct (fit_21 _ _ _ Hf Hv) as [H _]; rewrite Forall_forall in *; intros s Hin; apply H; cbn [app In] in *; tauto).
  fold (name_parts a). set (kvs := if is40 v && negb (isnil (a_sortstring a)) then _ else _).
  assert (Hk : NoDup (map fst kvs) /\ Forall plain_item kvs /\ map iput (items_of (read_params kvs)) = (if is40 v && negb (isnil (a_sortstring a)) then [B "SORT-AS=" ++ a_sortstring a] else [])).
  { unfold kvs. destruct (is40 v && negb (isnil (a_sortstring a))) eqn:E4; [|repeat split; constructor]. split; [apply nodup_b_spec; reflexivity|].
    apply andb_true_iff in E4 as [E4 E5]. destruct v; try discriminate. destruct (fit_40 _ _ _ Hf eq_refl) as (_ & Hc & _). split.
    - constructor; [|constructor].
      split; [split; [apply ikey_dec; reflexivity|left; exact Hc]|]. split; [discriminate|]. split; [discriminate|].
      split; intros Hx; apply item_ops_keys in Hx; cbn [fst snd] in Hx; destruct Hx as [[_ Hx]|[_ Hx]]; discriminate.
    - rewrite asorted_read by (repeat constructor). cbn [map]. unfold iput. cbn [fst snd]. apply negb_true_iff in E5. rewrite E5.
      rewrite (latin1_of (a_sortstring a)); [reflexivity|]. eapply Forall_impl; [|exact Hc]. cbn. intros; lia. }
  destruct Hk as (K1 & K2 & K3). exists (put_of E (add_all kvs (text_line (B "N") (join_components cSEMI (name_parts a))))). split; [|split].
  - unfold puts. cbn [filter]. rewrite (text_loud E (B "N") kvs) by (auto; in_known).
    unfold not_empty. rewrite (proj2 (isnil_false _)); [reflexivity|]. apply join_full.
  - apply parts_held; auto.
  - rewrite text_put by auto. exact K3.
Qed.

(** ** Organisations *)
Lemma put_orgs T E v export a : fits T v a ->
  Forall2 (fun p o => sd_params p = map param_of (pt_params o) /\
             (~ In 59%N (pt_text o) -> ~ In 59%N (a_department a) -> holds_parts 59 p (pt_text o :: (if isnil (a_department a) then [] else [a_department a]))))
    (of_name "org" (puts E (written (create_card T v export a)))) (filter (fun o => not_empty (pt_text o) || not_empty (a_department a)) (a_orgs a)).
Proof.
  intros Hf. rewrite (of_name_puts T E v export a "org" (B "ORG")); put_side; auto.
  change (flat_map (pick (B "ORG")) (chunks T v export a)) with (map (org_line v (a_department a)) (a_orgs a) ++ []). rewrite app_nil_r.
  destruct (params_facts a (fit_params _ _ _ Hf)) as (_ & _ & P3 & _).
  apply puts_map. intros o Ho. assert (Hp : plain_params (pt_params o)) by (apply P3; in_app). destruct (joined_plain _ Hp) as [J1 J2].
  rewrite org_line_eq.
  2: { intros Hv. destruct (fit_21 _ _ _ Hf Hv) as [H _]. rewrite Forall_forall in H. split; apply H.
    - apply in_or_app. right. apply in_or_app. right. apply in_or_app. left. apply in_map. in_app.
    - cbn [app In]. tauto. }
  split.
  - rewrite vl_add_params_all, text_loud by (auto; in_known). unfold not_empty.
    destruct (pt_text o) as [|c t] eqn:Et; [destruct (a_department a) as [|d r] eqn:Ed; cbn [isnil negb orb]; [reflexivity|rewrite (proj2 (isnil_false _)); [reflexivity|apply join_full]]|].
    cbn [isnil negb orb]. rewrite (proj2 (isnil_false _)); [reflexivity|]. intros K. apply join_nil in K. destruct K as [K|K]; [discriminate|injection K; discriminate].
  - intros _. split; [apply params_put; auto|]. intros H1 H2. rewrite vl_add_params_all. apply parts_held; auto.
    constructor; auto. destruct (isnil (a_department a)); constructor; auto.
Qed.

(** ** Flags *)
Section Told.
Variable tab : list (ustring * N).
Variable flags : list (string * N).
Variable spell : ustring -> ustring.
Hypothesis H1 : forallb (fun e => existsb (fun g => leqb (to_lower (spell (fst e))) (B (fst g)) && N.eqb (snd e) (2 ^ snd g)) flags) tab = true.
Hypothesis H2 : forallb (fun g => existsb (fun e => leqb (to_lower (spell (fst e))) (B (fst g)) && N.eqb (snd e) (2 ^ snd g)) tab) flags = true.
Hypothesis H3 : forallb (fun g => forallb (fun h => implb (leqb (B (fst g)) (B (fst h))) (N.eqb (snd g) (snd h))) flags) flags = true.
Lemma names_told t p : (forall s, In s (map spell (type_names tab t)) -> type_value s p) ->
  (forall s, type_value s p -> In s (map spell (type_names tab t)) \/ (forall w i, In (w, i) flags -> to_lower s <> B w)) -> flags_told flags t p.
Proof using H1 H2 H3.
  intros Ha Hb w i Hw. rewrite forallb_forall in H1, H2, H3.
  assert (Hbit : forall f j, f = (2 ^ j)%N -> negb (N.eqb (N.land f t) 0) = N.testbit t j).
  { intros f j ->. destruct (N.testbit t j) eqn:Et.
    - apply negb_true_iff, N.eqb_neq. intros K. assert (K' : N.testbit (N.land (2 ^ j) t) j = true) by (rewrite N.land_spec, N.pow2_bits_true, Et; reflexivity).
      rewrite K, N.bits_0 in K'. discriminate.
    - apply negb_false_iff, N.eqb_eq. apply N.bits_inj. intros n. rewrite N.land_spec, N.bits_0. destruct (N.eqb_spec j n) as [->|Hne]; [rewrite Et; apply andb_false_r|].
      rewrite N.pow2_bits_false by auto. reflexivity. }
  split.
  - intros Ht. specialize (H2 (w, i) Hw). apply existsb_exists in H2 as ([n f] & Hin & He). cbn [fst snd] in He. apply andb_true_iff in He as [He Hf].
    apply leqb_eq in He. apply N.eqb_eq in Hf. exists (spell n). split; [|exact He]. apply Ha. apply in_map. unfold type_names. apply in_map_iff. exists (n, f). split; [reflexivity|].
    apply filter_In. split; [exact Hin|]. cbn [snd]. rewrite (Hbit f i Hf). exact Ht.
  - intros (s & Hs & El). destruct (Hb s Hs) as [Hin|Hno]; [|destruct (Hno w i Hw El)].
    apply in_map_iff in Hin as (n & <- & Hin). unfold type_names in Hin. apply in_map_iff in Hin as ([n' f] & <- & Hin). apply filter_In in Hin as [Hin Hx]. cbn [fst snd] in *.
    specialize (H1 _ Hin). apply existsb_exists in H1 as ([w' j] & Hw' & He). cbn [fst snd] in He. apply andb_true_iff in He as [He Hf]. apply leqb_eq in He. apply N.eqb_eq in Hf.
    rewrite (Hbit f j Hf) in Hx. specialize (H3 _ Hw). rewrite forallb_forall in H3. specialize (H3 _ Hw'). cbn [fst snd] in H3.
    rewrite <- El, He, leqb_refl in H3. cbn [implb] in H3. apply N.eqb_eq in H3. subst. exact Hx.
Qed.
Lemma names_only t p : (forall s, type_value s p -> In s (map spell (type_names tab t))) -> only_flags flags p.
Proof using H1.
  intros Hb s Hs. rewrite forallb_forall in H1. apply Hb in Hs. apply in_map_iff in Hs as (n & <- & Hin). unfold type_names in Hin. apply in_map_iff in Hin as ([n' f] & <- & Hin).
  apply filter_In in Hin as [Hin _]. specialize (H1 _ Hin). apply existsb_exists in H1 as ([w' j] & Hw' & He). cbn [fst snd] in He. apply andb_true_iff in He as [He _]. apply leqb_eq in He. exists w', j. auto.
Qed.
End Told.

(** ** Telephone numbers *)
Lemma phone_type_values E v x s : plain_params (ph_params x) ->
  type_value s (put_of E (phone_line v x)) <-> In s (map (phone_spell v) (type_names phone_types (ph_type x))).
Proof.
  intros Hp. rewrite phone_line_eq. destruct (phone_kvs_plain v x Hp) as [K1 K2]. rewrite type_put by auto. rewrite <- phone_spelled.
  assert (Hj : forall kv y, In kv (joined (filter not_type (ph_params x))) -> ~ In (B "type", y) (item_ops kv)).
  { intros kv y Hkv Hx. apply (plain_filter not_type) in Hp. destruct (joined_ops _ kv (proj1 Hp) Hkv) as (vs & Hin & Ho). rewrite Ho in Hx.
    apply in_map_iff in Hx as (z & Hy & _). injection Hy as Hk _. apply (not_type_key _ _ _ Hin Hk). }
  destruct (phone_types_ok v x) as [P1 P2]. unfold phone_kvs. split.
  - intros (kv & Hin & Hx). apply in_app_or in Hin as [Hin|Hin]; [exfalso; exact (Hj kv s Hin Hx)|].
    destruct (isnil (phone_names v x)) eqn:En; [destruct Hin|]. apply isnil_false in En. apply (type_kvs_ops v _ kv P1 En Hin (B "type") s Hx).
  - intros Hin. apply in_map_iff in Hin as (n & <- & Hin). destruct (type_kvs_named v _ n P1 Hin) as (kv & Hk & Hx).
    exists kv. split; auto. apply in_or_app. right. destruct (phone_names v x); [destruct Hin|exact Hk].
Qed.
Lemma type_kvs_put v names kv : Forall type_name names -> In kv (type_kvs v names) -> ~ In 61%N (iput kv) \/ exists r, iput kv = B "TYPE=" ++ r.
Proof.
  intros Ht Hin. unfold type_kvs in Hin. destruct v.
  - apply in_map_iff in Hin as (s & <- & Hs). left. unfold iput. cbn [fst snd isnil]. rewrite app_nil_r.
    assert (Hc : calm (s, [])).
    { pose proof (type_kvs_calm V21 names Ht) as Hc. rewrite Forall_forall in Hc. apply Hc. unfold type_kvs. apply in_map_iff. eauto. }
    destruct Hc as [[Hk _] _]. cbn [fst] in Hk. rewrite ikey_latin1 by auto. intros K. unfold to_upper in K. apply in_map_iff in K as (d & Hd & Hi).
    rewrite Forall_forall in Hk. destruct (Hk _ Hi) as [G1 G2]. cbn [In] in G2. unfold upper1, is_lower in Hd. destruct ((97 <=? d)%N && (d <=? 122)%N) eqn:E0; lia.
  - destruct Hin as [<-|[]]. unfold iput. cbn [fst snd]. destruct (isnil _); [left; intros K; cbv in K; intuition discriminate|right; eexists; reflexivity].
  - destruct Hin as [<-|[]]. unfold iput. cbn [fst snd]. destruct (isnil _); [left; intros K; cbv in K; intuition discriminate|right; eexists; reflexivity].
Qed.
Lemma put_phones T E v export a : fits T v a ->
  Forall2 (fun p x => holds_text p (ph_number x) /\ flags_told phone_flags (ph_type x) p /\ only_flags phone_flags p /\
             (forall kv, In kv (ph_params x) -> fst kv <> B "type" -> In (param_of kv) (sd_params p)) /\
             (forall q, In q (sd_params p) -> (exists kv, In kv (ph_params x) /\ fst kv <> B "type" /\ q = param_of kv) \/ ~ In 61%N q \/ exists r, q = B "TYPE=" ++ r))
    (of_name "tel" (puts E (written (create_card T v export a)))) (filter (fun x => not_empty (ph_number x)) (a_phones a)).
Proof.
  intros Hf. rewrite (of_name_puts T E v export a "tel" (B "TEL")); put_side; auto.
  change (flat_map (pick (B "TEL")) (chunks T v export a)) with (map (phone_line v) (a_phones a) ++ []). rewrite app_nil_r.
  destruct (params_facts a (fit_params _ _ _ Hf)) as (_ & P2 & _).
  apply puts_map. intros x Hx. pose proof (P2 x Hx) as Hp. destruct (phone_kvs_plain v x Hp) as [K1 K2].
  pose proof (fun s => phone_type_values E v x s Hp) as Hv. split.
  - rewrite phone_line_eq, text_loud by (auto; in_known). reflexivity.
  - intros _. split; [rewrite phone_line_eq; apply text_held; auto|]. split; [|split; [|split]].
    + apply (names_told phone_types phone_flags (phone_spell v));
        [destruct v; vm_compute; reflexivity|destruct v; vm_compute; reflexivity|vm_compute; reflexivity|intros s; rewrite Hv; auto|intros s; rewrite Hv; auto].
    + apply (names_only phone_types phone_flags (phone_spell v)) with (t := ph_type x); [destruct v; vm_compute; reflexivity|]. intros s. apply Hv.
    + intros kv Hkv Hne. rewrite phone_line_eq, text_put by auto. cbn [sd_params].
      assert (Hin : In kv (filter not_type (ph_params x))).
      { apply filter_In. split; auto. unfold not_type. apply negb_true_iff, leqb_neq. intros Hu. apply Hne. destruct Hp as ((_ & Hw) & _). rewrite Forall_forall in Hw.
        destruct (Hw kv Hkv) as (G1 & G2 & _ & G4). rewrite <- (key_lower (fst kv) G1), <- (lower_upper_ikey (fst kv)), Hu; [reflexivity|].
        destruct (joined_item (fst kv) (snd kv) G1 G2 G4) as [[Hi _] _]. exact Hi. }
      assert (Hj : In (param_of kv) (map iput (joined (filter not_type (ph_params x))))) by (rewrite joined_put by (apply (plain_filter not_type) in Hp; apply Hp); apply in_map; auto).
      apply in_map_iff in Hj as (j & <- & Hj). apply in_map. eapply Permutation_in; [symmetry; apply items_perm; auto|]. unfold phone_kvs. apply in_or_app. auto.
    + intros q Hq. rewrite phone_line_eq, text_put in Hq by auto. cbn [sd_params] in Hq. apply in_map_iff in Hq as (kv & <- & Hkv).
      eapply Permutation_in in Hkv; [|apply items_perm; auto]. unfold phone_kvs in Hkv. apply in_app_or in Hkv as [Hkv|Hkv].
      * left. apply (in_map iput) in Hkv. rewrite joined_put in Hkv by (apply (plain_filter not_type) in Hp; apply Hp). apply in_map_iff in Hkv as ([k vs] & Hq & Hin).
        exists (k, vs). split; [apply filter_In in Hin; apply Hin|]. split; [apply (not_type_key _ _ _ Hin)|symmetry; exact Hq].
      * right. destruct (isnil (phone_names v x)); [destruct Hkv|]. eapply type_kvs_put; [|exact Hkv]. apply phone_types_ok.
Qed.

(** ** Addresses *)
Lemma adr_pick' T v l : Forall (address_plain v) l ->
  filter (P_Contact.named (B "ADR")) (flat_map (address_lines T v) l) = map (adr_line T v) (filter (fun x => negb (address_blank x)) l) /\
  filter (P_Contact.named (B "LABEL")) (flat_map (address_lines T v) l) = (match v with V40 => [] | _ => map (label_line v) (filter (fun x => negb (isnil (ad_label x))) l) end).
Proof.
  assert (Na : forall x, P_Contact.named (B "ADR") (adr_line T v x) = true /\ P_Contact.named (B "LABEL") (adr_line T v x) = false).
  { intros x. unfold P_Contact.named, adr_line. rewrite add_all_id, add_all_group. split; reflexivity. }
  assert (Nl : forall x, P_Contact.named (B "ADR") (label_line v x) = false /\ P_Contact.named (B "LABEL") (label_line v x) = true).
  { intros x. unfold P_Contact.named, label_line. rewrite add_all_id, add_all_group. split; reflexivity. }
  induction 1 as [|x l Hx _ [IH1 IH2]]; [destruct v; split; reflexivity|]. cbn [flat_map]. rewrite !filter_app, IH1, IH2, address_lines_eq by auto.
  destruct (Na x) as [A1 A2]. destruct (Nl x) as [L1 L2].
  split; destruct v; cbn [filter app]; destruct (address_blank x); cbn [negb]; destruct (isnil (ad_label x)); cbn [negb app filter map]; rewrite ?A1, ?A2, ?L1, ?L2; reflexivity.
Qed.
Lemma fit_address T v a x : fits T v a -> In x (a_addresses a) -> address_plain v x /\ address_heads T v x.
Proof.
  intros Hf Hx. split.
  - intros Hv. destruct (fit_21 _ _ _ Hf Hv) as [H _]. rewrite Forall_forall in *. intros s Hs. apply H. apply in_or_app. right. apply in_or_app. left.
    apply in_flat_map. exists x. split; auto.
  - intros Hv. destruct (fit_40 _ _ _ Hf Hv) as [H _]. rewrite Forall_forall in H. apply (H x Hx).
Qed.
Lemma address_spell v : forallb (fun e => existsb (fun g => leqb (to_lower (type_spell v (fst e))) (B (fst g)) && N.eqb (snd e) (2 ^ snd g)) address_flags) address_types = true /\
  forallb (fun g => existsb (fun e => leqb (to_lower (type_spell v (fst e))) (B (fst g)) && N.eqb (snd e) (2 ^ snd g)) address_types) address_flags = true /\
  forallb (fun g => forallb (fun h => implb (leqb (B (fst g)) (B (fst h))) (N.eqb (snd g) (snd h))) address_flags) address_flags = true.
Proof. destruct v; repeat split; vm_compute; reflexivity. Qed.
(** the types of a line with the items [head] and those of the types *)
Lemma typed_put E i u v head t : (forall kv s, In kv head -> ~ In (B "type", s) (item_ops kv)) ->
  let kvs := head ++ type_kvs v (type_names address_types t) in NoDup (map fst kvs) -> Forall plain_item kvs ->
  let p := put_of E (add_all kvs (text_line i u)) in
  flags_told address_flags t p /\ (v = V21 \/ (exists w j, In (w, j) address_flags /\ N.testbit t j = true) -> only_flags address_flags p).
Proof.
  intros Hh kvs Hn Hp p. destruct (address_types_ok t) as [Ht _]. destruct (address_spell v) as (S1 & S2 & S3).
  assert (Hv : forall s, type_value s p <-> exists kv, In kv (type_kvs v (type_names address_types t)) /\ In (B "type", s) (item_ops kv)).
  { intros s. unfold p. rewrite type_put by auto. split; intros (kv & Hin & Hx).
    - unfold kvs in Hin. apply in_app_or in Hin as [Hin|Hin]; [destruct (Hh kv s Hin Hx)|eauto].
    - exists kv. split; auto. unfold kvs. apply in_or_app. auto. }
  assert (Hin : forall s, In s (map (type_spell v) (type_names address_types t)) -> type_value s p).
  { intros s Hs. apply in_map_iff in Hs as (n & <- & Hs). apply Hv. destruct (type_kvs_named v _ n Ht Hs) as (kv & K1 & K2). eauto. }
  assert (Hout : forall s, type_value s p -> In s (map (type_spell v) (type_names address_types t)) \/ (v <> V21 /\ type_names address_types t = [] /\ s = B "TYPE")).
  { intros s Hs. apply Hv in Hs as (kv & K1 & K2). destruct (type_names address_types t) as [|n names] eqn:En.
    - right. unfold type_kvs in K1. destruct v; [destruct K1| |]; destruct K1 as [<-|[]]; destruct K2 as [K2|[]]; injection K2 as <-; repeat split; discriminate.
    - left. apply (type_kvs_ops v (n :: names) kv Ht ltac:(discriminate) K1 (B "type") s K2). }
  split.
  - apply (names_told address_types address_flags (type_spell v) S1 S2 S3); auto. intros s Hs. destruct (Hout s Hs) as [H|(_ & _ & ->)]; [auto|right].
    intros w j Hw. clear -Hw. cbn [In address_flags] in Hw. intros K. repeat destruct Hw as [Hw|Hw]; try (injection Hw as <- <-; discriminate K). destruct Hw.
  - intros Hc. apply (names_only address_types address_flags (type_spell v) S1 t). intros s Hs. destruct (Hout s Hs) as [H|(H1 & H2 & ->)]; [auto|exfalso].
    destruct Hc as [Hc|(w & j & Hw & Hj)]; [auto|]. rewrite forallb_forall in S2. specialize (S2 _ Hw). apply existsb_exists in S2 as ([n f] & Hi & He). cbn [fst snd] in He.
    apply andb_true_iff in He as [_ He]. apply N.eqb_eq in He. assert (Hx : In n (type_names address_types t)); [|rewrite H2 in Hx; exact Hx].
    unfold type_names. apply in_map_iff. exists (n, f). split; auto. apply filter_In. split; auto. cbn [snd]. apply negb_true_iff, N.eqb_neq. intros K.
    assert (K' : N.testbit (N.land f t) j = true) by (rewrite He, N.land_spec, N.pow2_bits_true, Hj; reflexivity). rewrite K, N.bits_0 in K'. discriminate.
Qed.
Lemma put_addresses T E v export a : fits T v a ->
  Forall2 (fun p x => (Forall (fun s => ~ In 59%N s) (address_text x) -> holds_parts 59 p (address_text x)) /\
             flags_told address_flags (ad_type x) p /\
             (v = V21 \/ (exists w j, In (w, j) address_flags /\ N.testbit (ad_type x) j = true) -> only_flags address_flags p) /\
             (v = V40 -> ad_label x <> [] -> In (B "LABEL=""" ++ ad_label x ++ [34%N]) (sd_params p)) /\
             (v = V40 -> geo_valid (ad_geo x) = true -> In (B "GEO=""geo:" ++ t_fmt6 T (g_lat (ad_geo x)) ++ [44%N] ++ t_fmt6 T (g_lon (ad_geo x)) ++ [34%N]) (sd_params p)))
    (of_name "adr" (puts E (written (create_card T v export a)))) (filter (fun x => existsb not_empty (address_text x)) (a_addresses a)) /\
  Forall2 (fun p x => holds_text p (ad_label x) /\ flags_told address_flags (ad_type x) p)
    (of_name "label" (puts E (written (create_card T v export a)))) (match v with V40 => [] | _ => filter (fun x => not_empty (ad_label x)) (a_addresses a) end).
Proof.
  intros Hf. rewrite (of_name_puts T E v export a "adr" (B "ADR")), (of_name_puts T E v export a "label" (B "LABEL")); put_side; auto.
  change (flat_map (pick (B "ADR")) (chunks T v export a)) with (filter (P_Contact.named (B "ADR")) (flat_map (address_lines T v) (a_addresses a)) ++ []).
  change (flat_map (pick (B "LABEL")) (chunks T v export a)) with (filter (P_Contact.named (B "LABEL")) (flat_map (address_lines T v) (a_addresses a)) ++ []).
  assert (Hall : Forall (address_plain v) (a_addresses a)) by (apply Forall_forall; intros x Hx; apply (fit_address T v a x Hf Hx)).
  destruct (adr_pick' T v _ Hall) as [-> ->]. rewrite !app_nil_r. split.
  - replace (filter (fun x => existsb not_empty (address_text x)) (a_addresses a)) with (filter (fun x => negb (address_blank x)) (a_addresses a)).
    2: { apply filter_ext. intros x. unfold address_blank, not_empty. cbn [existsb address_text]. rewrite !negb_andb, orb_false_r, <- !orb_assoc. reflexivity. }
    assert (Hk : forall l, (forall x, In x l -> negb (address_blank x) = true) -> filter (fun _ : address => true) l = l) by (intros l _; apply filter_all; auto).
    rewrite <- (Hk (filter (fun x => negb (address_blank x)) (a_addresses a))) at 2 by (intros x Hx; apply filter_In in Hx; apply Hx).
    apply puts_map. intros x Hx. apply filter_In in Hx as [Hx Hb]. destruct (fit_address T v a x Hf Hx) as [_ Hh]. destruct (address_kvs_plain T v x Hh) as [K1 K2].
    unfold adr_line. fold (text_line (B "ADR") (address_value x)). split.
    + rewrite text_loud by (auto; in_known). unfold not_empty. rewrite (proj2 (isnil_false _)); [reflexivity|]. apply join_full.
    + intros _. assert (Hhead : forall kv s, In kv (head_kvs T v x) -> ~ In (B "type", s) (item_ops kv)).
      { intros kv s Hkv Hs. destruct (head_ops T v x kv _ s Hkv Hs) as (_ & [(_ & _ & K & _)|(_ & K)]); discriminate. }
      destruct (typed_put E (B "ADR") (address_value x) v (head_kvs T v x) (ad_type x) Hhead K2 K1) as [F1 F2].
      split; [intros Hs; apply parts_held; auto|]. split; [exact F1|]. split; [exact F2|].
      assert (Hin : forall kv, In kv (address_kvs T v x) -> In (iput kv) (sd_params (put_of E (add_all (address_kvs T v x) (text_line (B "ADR") (address_value x)))))).
      { intros kv Hkv. rewrite text_put by auto. cbn [sd_params]. apply in_map. eapply Permutation_in; [symmetry; apply items_perm; auto|exact Hkv]. }
      split; intros -> H; destruct (Hh eq_refl) as [Q1 Q2].
      * assert (Hkv : In (B "LABEL", [cDQ] ++ ad_label x ++ [cDQ]) (address_kvs T V40 x)).
        { unfold address_kvs. rewrite (proj2 (isnil_false _) H). cbn [negb app]. left. reflexivity. }
        apply Hin in Hkv. unfold iput in Hkv. cbn [fst snd app isnil] in Hkv. change (cDQ :: ad_label x ++ [cDQ]) with ([cDQ] ++ ad_label x ++ [cDQ]) in Hkv.
        rewrite (latin1_of ([cDQ] ++ ad_label x ++ [cDQ])) in Hkv; [exact Hkv|]. constructor; [unfold cDQ; lia|]. apply Forall_app. split; [|repeat constructor; unfold cDQ; lia].
        eapply Forall_impl; [|exact Q1]. cbn. intros; lia.
      * destruct (Q2 H) as [G1 G2]. set (g := B "geo:" ++ t_fmt6 T (g_lat (ad_geo x)) ++ [cCOMMA] ++ t_fmt6 T (g_lon (ad_geo x))) in *.
        assert (Hkv : In (B "GEO", [cDQ] ++ g ++ [cDQ]) (address_kvs T V40 x)).
        { unfold address_kvs. fold g. rewrite H. apply in_or_app. left. apply in_or_app. right. left. reflexivity. }
        apply Hin in Hkv. unfold iput in Hkv. cbn [fst snd app isnil] in Hkv. change (cDQ :: g ++ [cDQ]) with ([cDQ] ++ g ++ [cDQ]) in Hkv.
        rewrite (latin1_of ([cDQ] ++ g ++ [cDQ])) in Hkv.
        -- unfold g in Hkv. rewrite <- !app_assoc in Hkv. exact Hkv.
        -- constructor; [unfold cDQ; lia|]. apply Forall_app. split; [|repeat constructor; unfold cDQ; lia].
           unfold g. apply Forall_app. split; [repeat constructor|]. apply Forall_app. split; [eapply Forall_impl; [|exact G1]; cbn; intros; lia|].
           constructor; [unfold cCOMMA; lia|]. eapply Forall_impl; [|exact G2]. cbn. intros; lia.
  - assert (Hl : Forall2 (fun p x => holds_text p (ad_label x) /\ flags_told address_flags (ad_type x) p)
      (puts E (map (label_line v) (filter (fun x => negb (isnil (ad_label x))) (a_addresses a)))) (filter (fun _ => true) (filter (fun x => not_empty (ad_label x)) (a_addresses a)))).
    { apply puts_map. intros x Hx. apply filter_In in Hx as [Hx Hb]. destruct (address_types_ok (ad_type x)) as [Ht Hn].
      assert (K1 : Forall plain_item (type_kvs v (type_names address_types (ad_type x)))) by (apply type_kvs_plain; [exact Ht|apply address_names_plain]).
      assert (K2 : NoDup (map fst (type_kvs v (type_names address_types (ad_type x))))) by (apply type_kvs_nodup; auto).
      unfold label_line. fold (text_line (B "LABEL") (ad_label x)). split; [rewrite text_loud by (auto; in_known); exact Hb|].
      intros _. split; [apply text_held; auto|]. apply (typed_put E (B "LABEL") (ad_label x) v [] (ad_type x)); auto. }
    rewrite (filter_all (fun _ : address => true)) in Hl by auto. destruct v; [exact Hl|exact Hl|constructor].
Qed.
