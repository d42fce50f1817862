(** The types of telephone numbers and addresses after writing and reading. *)
From Coq Require Import Permutation.
From Verif Require Import Base BaseFacts QtText Utf8 Utf8Facts M_ParamMap M_VCard M_VCardText
  S_Escape P_Escape S_Fold P_Fold S_CardText P_CardText S_Card P_Assoc P_Card S_Parse P_Parse P_Parse2
  S_RoundTrip P_RoundTrip P_RoundTrip2 P_RoundTrip3 P_ReadBack P_Items P_Order
  M_Split S_Split P_Split M_Values M_Date M_Addressee M_VCardTool S_Contact P_Seen P_ReadFields P_Lines P_Contact P_Chunks P_Lists P_Values P_Fields P_Fields2.
From Verif Require P_Email.

Lemma seen_ops_in k x kvs : NoDup (map fst kvs) -> In (k, x) (seen_ops kvs) <-> exists kv, In kv kvs /\ In (k, x) (item_ops kv).
Proof.
  intros Hn. pose proof (seen_added_perm k kvs Hn) as Hp. rewrite <- in_added. split.
  - intros H. apply (Permutation_in _ Hp) in H. apply in_flat_map in H as (kv & H1 & H2). exists kv. rewrite in_added in H2. auto.
  - intros (kv & H1 & H2). apply (Permutation_in _ (Permutation_sym Hp)). apply in_flat_map. exists kv. rewrite in_added. auto.
Qed.
Lemma read_values_in k x kvs : In x (match find_param k (read_params kvs) with Some vs => vs | None => [] end) <-> In (k, x) kvs.
Proof. rewrite read_params_find, <- in_added. destruct (added k kvs) as [|y l]; [tauto|]. apply firsts_in. Qed.
Lemma line_types_in i g kvs v b s : NoDup (map fst kvs) ->
  In s (line_types (mkVline i g (read_params (seen_ops kvs)) v b)) <-> exists kv, In kv kvs /\ In (B "type", s) (item_ops kv).
Proof. intros Hn. unfold line_types, vl_parameters. cbn [vl_params]. rewrite read_values_in. apply seen_ops_in; auto. Qed.

Lemma join_types_bits f l i : N.testbit (join_types f l) i = true <-> exists s, In s l /\ N.testbit (f s) i = true.
Proof.
  unfold join_types. assert (H : forall l t, N.testbit (fold_left (fun t s => N.lor t (f s)) l t) i = true <-> N.testbit t i = true \/ exists s, In s l /\ N.testbit (f s) i = true).
  { clear l. induction l as [|s l IH]; intros t; cbn [fold_left].
    - split; [auto|]. intros [H|(s & [] & _)]. auto.
    - rewrite IH, N.lor_spec, orb_true_iff. split.
      + intros [[H|H]|(x & H1 & H2)]; [auto|right; exists s; split; [left|]; auto|right; exists x; split; [right|]; auto].
      + intros [H|(x & [->|H1] & H2)]; [auto|auto|right; exists x; auto]. }
  rewrite H, N.bits_0. split; [intros [H'|H']; [discriminate|auto]|auto].
Qed.
(** the names of the flags of a type are read as the same flags *)
Lemma types_back (tab : list (ustring * N)) of_name (spell : ustring -> ustring) t l :
  Forall (fun e => of_name (spell (fst e)) = snd e /\ exists k, snd e = (2 ^ k)%N) tab ->
  (forall s, In s l -> of_name s <> 0%N -> In s (map spell (type_names tab t))) ->
  (forall n, In n (type_names tab t) -> In (spell n) l) ->
  join_types of_name l = N.land t (fold_right N.lor 0%N (map snd tab)).
Proof.
  intros Hf H1 H2. rewrite Forall_forall in Hf. apply N.bits_inj. intros i.
  apply eq_true_iff_eq. rewrite join_types_bits, N.land_spec, andb_true_iff.
  assert (Hm : N.testbit (fold_right N.lor 0%N (map snd tab)) i = true <-> exists e, In e tab /\ N.testbit (snd e) i = true).
  { clear. induction tab as [|e tab IH]; cbn [map fold_right].
    - rewrite N.bits_0. split; [discriminate|intros (e & [] & _)].
    - rewrite N.lor_spec, orb_true_iff, IH. split.
      + intros [H|(x & Hx & H)]; [exists e; split; [left|]; auto|exists x; split; [right|]; auto].
      + intros (x & [->|Hx] & H); [auto|right; exists x; auto]. }
  rewrite Hm.
  assert (Hl : forall e, In e tab -> N.testbit (snd e) i = true -> (N.land (snd e) t <> 0%N <-> N.testbit t i = true)).
  { intros e He Hb. destruct (Hf e He) as [_ [k Hk]]. rewrite Hk in *. rewrite N.pow2_bits_eqb in Hb. apply N.eqb_eq in Hb. subst i. split.
    - intros Hne. destruct (N.testbit t k) eqn:Et; auto. exfalso. apply Hne. apply N.bits_inj. intros j. rewrite N.land_spec, N.bits_0, N.pow2_bits_eqb.
      destruct (N.eqb_spec k j) as [<-|]; [rewrite Et; reflexivity|reflexivity].
    - intros Ht He0. assert (Hx : N.testbit (N.land (2 ^ k) t) k = true) by (rewrite N.land_spec, N.pow2_bits_true, Ht; reflexivity).
      rewrite He0, N.bits_0 in Hx. discriminate. }
  split.
  - intros (s & Hs & Hb). assert (Hne : of_name s <> 0%N) by (intros H; rewrite H, N.bits_0 in Hb; discriminate).
    apply H1 in Hs; auto. apply in_map_iff in Hs as (n & <- & Hn). unfold type_names in Hn. apply in_map_iff in Hn as (e & <- & He).
    apply filter_In in He as [He Hx]. apply negb_true_iff, N.eqb_neq in Hx. rewrite (proj1 (Hf e He)) in Hb. split; [apply (Hl e He Hb); auto|exists e; auto].
  - intros (Ht & e & He & Hb). exists (spell (fst e)). rewrite (proj1 (Hf e He)). split; auto. apply H2. unfold type_names. apply in_map. apply filter_In.
    split; auto. apply negb_true_iff, N.eqb_neq. apply (Hl e He Hb). auto.
Qed.

Definition type_spell (v : version) (s : ustring) : ustring := match v with V21 => to_upper s | _ => s end.
Lemma type_kvs_ops v names kv : Forall type_name names -> names <> [] -> In kv (type_kvs v names) ->
  forall k x, In (k, x) (item_ops kv) -> k = B "type" /\ In x (map (type_spell v) names).
Proof.
  intros Ht Hn Hin k x Hx. pose proof Ht as Ht'. rewrite Forall_forall in Ht'.
  assert (Hc : Forall (fun s => ~ In cCOMMA s) names) by (apply Forall_forall; intros s Hs; apply (type_name_spec s (Ht' s Hs))).
  assert (Hj : exists c r, join [cCOMMA] names = c :: r /\ c <> cDQ).
  { destruct names as [|n names]; [congruence|]. destruct (type_name_spec n (Ht' n ltac:(left; auto))) as (Hne & Hv & _).
    destruct n as [|c n]; [congruence|]. inversion Hv as [|? ? H1 _]; subst. exists c. cbn [join]. destruct names; eexists; (split; [reflexivity|]); unfold ivalue_char in H1; unfold cDQ; cbn [In] in H1; lia. }
  assert (Hs : split cCOMMA (join [cCOMMA] names) = names) by (apply split_join_comma; auto).
  unfold type_kvs in Hin. destruct v.
  - apply in_map_iff in Hin as (s & <- & Hs'). unfold item_ops in Hx. cbn [fst snd] in Hx. destruct Hx as [Hx|[]]. injection Hx as <- <-.
    split; [|apply in_map_iff; exists s; auto]. destruct (type_name_spec s (Ht' s Hs')) as (_ & _ & _ & Hcalm).
    specialize (Ht' s Hs'). unfold type_name, type_name_b, calm_b in Ht'. rewrite !andb_true_iff in Ht'. destruct Ht' as (_ & _ & Hcd). cbn [fst] in Hcd.
    apply negb_true_iff in Hcd. unfold bare_key.
    replace (to_lower (to_upper s)) with (to_lower s).
    2: { symmetry. apply lower_upper_ikey. apply Hcalm. }
    destruct (leqb_spec (to_lower s) (B "quoted-printable")) as [He|_]; [rewrite He in Hcd; discriminate|].
    destruct (leqb_spec (to_lower s) (B "base64")) as [He|_]; [rewrite He in Hcd; discriminate|]. reflexivity.
  - destruct Hin as [<-|[]]. unfold item_ops in Hx. cbn [fst snd] in Hx. destruct Hj as (c & r & Hj & Hd). rewrite Hj in Hx, Hs.
    rewrite (proj2 (N.eqb_neq c cDQ) Hd), Hs in Hx. apply in_map_iff in Hx as (y & Hy & Hx). injection Hy as <- <-. split; [reflexivity|]. rewrite map_id. auto.
  - destruct Hin as [<-|[]]. unfold item_ops in Hx. cbn [fst snd] in Hx. destruct (length names <? 2).
    + destruct Hj as (c & r & Hj & Hd). rewrite Hj in Hx, Hs.
      rewrite (proj2 (N.eqb_neq c cDQ) Hd), Hs in Hx. apply in_map_iff in Hx as (y & Hy & Hx). injection Hy as <- <-. split; [reflexivity|]. rewrite map_id. auto.
    + cbn [app] in Hx. rewrite N.eqb_refl, removelast_last in Hx. unfold qsplit in Hx. cbn in Hx. rewrite Hs in Hx.
      apply in_map_iff in Hx as (y & Hy & Hx). injection Hy as <- <-. split; [reflexivity|]. rewrite map_id. auto.
Qed.
Lemma type_kvs_named v names n : Forall type_name names -> In n names ->
  exists kv, In kv (type_kvs v names) /\ In (B "type", type_spell v n) (item_ops kv).
Proof.
  intros Ht Hin. pose proof Ht as Ht'. rewrite Forall_forall in Ht'. assert (Hn : names <> []) by (destruct names; [destruct Hin|discriminate]).
  assert (Hc : Forall (fun s => ~ In cCOMMA s) names) by (apply Forall_forall; intros s Hs; apply (type_name_spec s (Ht' s Hs))).
  assert (Hj : exists c r, join [cCOMMA] names = c :: r /\ c <> cDQ).
  { clear Hin. destruct names as [|m names]; [congruence|]. destruct (type_name_spec m (Ht' m ltac:(left; auto))) as (Hne & Hv & _).
    destruct m as [|c m]; [congruence|]. inversion Hv as [|? ? H1 _]; subst. exists c. cbn [join]. destruct names; eexists; (split; [reflexivity|]); unfold ivalue_char in H1; unfold cDQ; cbn [In] in H1; lia. }
  assert (Hs : split cCOMMA (join [cCOMMA] names) = names) by (apply split_join_comma; auto).
  unfold type_kvs. destruct v.
  - exists (n, []). split; [apply in_map_iff; exists n; auto|].
    assert (Hk : In (n, []) (type_kvs V21 names)) by (apply in_map_iff; exists n; auto).
    pose proof (type_kvs_ops V21 names (n, []) Ht Hn Hk (bare_key (to_upper n)) (to_upper n) ltac:(left; reflexivity)) as [Hb _].
    left. cbn [fst]. rewrite Hb. reflexivity.
  - eexists. split; [left; reflexivity|]. unfold item_ops. cbn [fst snd]. destruct Hj as (c & r & Hj & Hd). rewrite Hj in *.
    rewrite (proj2 (N.eqb_neq c cDQ) Hd), Hs. apply in_map_iff. exists n. auto.
  - eexists. split; [left; reflexivity|]. unfold item_ops. cbn [fst snd]. destruct (length names <? 2).
    + destruct Hj as (c & r & Hj & Hd). rewrite Hj in *. rewrite (proj2 (N.eqb_neq c cDQ) Hd), Hs. apply in_map_iff. exists n. auto.
    + cbn [app]. rewrite N.eqb_refl, removelast_last. unfold qsplit. cbn. rewrite Hs. apply in_map_iff. exists n. auto.
Qed.
Lemma type_kvs_plain v names : Forall type_name names -> ~ In (B "charset") names -> Forall plain_item (type_kvs v names).
Proof.
  intros Ht Hch. pose proof (type_kvs_calm v names Ht) as Hc. rewrite Forall_forall in Hc. apply Forall_forall. intros kv Hin.
  assert (Hk : forall k, In k [B "encoding"; B "charset"] -> fst kv <> k /\ silent_key k kv).
  { intros k Hk. assert (Hne : k <> B "type") by (intros ->; destruct Hk as [H|[H|[]]]; discriminate). split.
    - intros He. unfold type_kvs in Hin. destruct v; [|destruct Hin as [<-|[]]; cbn in He; subst; destruct Hk as [H|[H|[]]]; discriminate..].
      apply in_map_iff in Hin as (s & <- & Hs). cbn [fst] in He. subst s. rewrite Forall_forall in Ht. specialize (Ht k Hs).
      destruct Hk as [<-|[<-|[]]]; [discriminate|]. contradiction.
    - intros Hx. unfold silent_key in *. apply in_map_iff in Hx as ([k' x] & Hk' & Hx). cbn [fst] in Hk'. subst k'.
      destruct names as [|n names].
      + unfold type_kvs in Hin. destruct v; [destruct Hin| |]; destruct Hin as [<-|[]]; destruct Hx as [Hx|[]]; injection Hx as Hx _; subst; destruct Hk as [H|[H|[]]]; discriminate.
      + destruct (type_kvs_ops v (n :: names) kv Ht ltac:(discriminate) Hin k x Hx) as [He _]. auto. }
  destruct (Hk (B "encoding") ltac:(left; auto)) as [E1 E2]. destruct (Hk (B "charset") ltac:(right; left; auto)) as [C1 C2].
  split; [apply (Hc kv Hin)|]. auto.
Qed.

(** ** telephone numbers *)
Lemma phone_names_plain v p : ~ In (B "charset") (phone_names v p).
Proof.
  assert (H : Forall (fun s => negb (leqb s (B "charset")) = true) (type_names phone_types (ph_type p))) by (apply (type_names_all _ _ (fun s => negb (leqb s (B "charset")))); vm_compute; reflexivity).
  assert (H' : Forall (fun s => negb (leqb (to_lower s) (B "charset")) = true) (type_names phone_types (ph_type p))) by (apply (type_names_all _ _ (fun s => negb (leqb (to_lower s) (B "charset")))); vm_compute; reflexivity).
  rewrite Forall_forall in *. unfold phone_names. intros Hin. destruct v; [| |apply in_map_iff in Hin as (s & Hs & Hin)]; try (apply H in Hin; discriminate).
  apply H' in Hin. rewrite Hs in Hin. discriminate.
Qed.
Lemma phone_kvs_plain v p : plain_params (ph_params p) -> Forall plain_item (phone_kvs v p) /\ NoDup (map fst (phone_kvs v p)).
Proof.
  intros Hp. split; [|apply phone_kvs_ok; auto]. unfold phone_kvs. apply Forall_app. split.
  - apply plain_params_items, (plain_filter not_type); auto.
  - destruct (isnil _); [constructor|]. apply type_kvs_plain; [apply phone_types_ok|apply phone_names_plain].
Qed.
Lemma joined_ops m kv : wf_params m -> In kv (joined m) -> exists vs, In (fst kv, vs) m /\ item_ops kv = map (pair (fst kv)) vs.
Proof.
  intros [_ Hf] Hin. unfold joined in Hin. apply in_map_iff in Hin as ([k vs] & <- & Hin). exists vs. split; auto. rewrite Forall_forall in Hf.
  destruct (Hf _ Hin) as (H1 & H2 & H3 & H4). cbn [fst snd] in *. apply (joined_item k vs H1 H2 H4).
Qed.
Lemma not_type_key m k vs : In (k, vs) (filter not_type m) -> k <> B "type".
Proof. intros H ->. apply filter_In in H as [_ H]. discriminate. Qed.
Lemma type_names_nil (tab : list (ustring * N)) t : N.land t (fold_right N.lor 0%N (map snd tab)) = 0%N -> type_names tab t = [].
Proof.
  intros H. unfold type_names. rewrite filter_none; [reflexivity|]. intros e He. apply negb_false_iff, N.eqb_eq. apply N.bits_inj. intros i.
  rewrite N.land_spec, N.bits_0. destruct (N.testbit (snd e) i) eqn:E1; [|reflexivity]. destruct (N.testbit t i) eqn:E2; [|reflexivity]. exfalso.
  assert (Hm : N.testbit (fold_right N.lor 0%N (map snd tab)) i = true).
  { clear H. induction tab as [|x tab IH]; [destruct He|]. cbn [map fold_right]. rewrite N.lor_spec. destruct He as [->|He]; [rewrite E1; reflexivity|rewrite IH by auto; apply orb_true_r]. }
  assert (Hx : N.testbit (N.land t (fold_right N.lor 0%N (map snd tab))) i = true) by (rewrite N.land_spec, E2, Hm; reflexivity). rewrite H, N.bits_0 in Hx. discriminate.
Qed.
Definition pow2_b (n : N) : bool := N.eqb n (2 ^ N.log2 n).
Definition phone_spell (v : version) (s : ustring) : ustring := match v with V21 => to_upper s | V30 => s | V40 => to_lower s end.
Lemma phone_table v : Forall (fun e => phone_type (to_upper (phone_spell v (fst e))) = snd e /\ exists k, snd e = (2 ^ k)%N) phone_types.
Proof.
  assert (H : forallb (fun e => N.eqb (phone_type (to_upper (phone_spell v (fst e)))) (snd e) && pow2_b (snd e)) phone_types = true) by (destruct v; vm_compute; reflexivity).
  rewrite forallb_forall in H. apply Forall_forall. intros e He. specialize (H e He). apply andb_true_iff in H as [H1 H2]. apply N.eqb_eq in H1, H2.
  split; auto. exists (N.log2 (snd e)). auto.
Qed.
Lemma phone_spelled v p : map (type_spell v) (phone_names v p) = map (phone_spell v) (type_names phone_types (ph_type p)).
Proof. unfold phone_names. destruct v; auto. rewrite map_map. reflexivity. Qed.
Lemma phone_read E v p id : plain_params (ph_params p) -> text_safe (ph_number p) ->
  loud E (phone_line v p) = negb (isnil (ph_number p)) /\ phone_back p (parse_phone id (reread E (phone_line v p))).
Proof.
  intros Hp [H1 H2]. rewrite phone_line_eq. destruct (phone_kvs_plain v p Hp) as [K1 K2].
  destruct (seen_text E (B "TEL") [] (B "TEL") (phone_kvs v p) (ph_number p) (known_id (B "TEL") ltac:(in_known)) K2 K1) as (_ & L & R).
  unfold text_line. rewrite L, R. split; auto. rewrite thru_id by auto. set (l := mkVline _ _ _ _ _). unfold phone_back, parse_phone.
  cbn [ph_number ph_type ph_params]. split; [reflexivity|].
  assert (Hj : forall kv x, In kv (joined (filter not_type (ph_params p))) -> ~ In (B "type", x) (item_ops kv)).
  { intros kv x Hkv Hx. apply (plain_filter not_type) in Hp. destruct (joined_ops _ kv (proj1 Hp) Hkv) as (vs & Hin & Ho). rewrite Ho in Hx.
    apply in_map_iff in Hx as (y & Hy & _). injection Hy as Hk _. apply (not_type_key _ _ _ Hin Hk). }
  assert (Ht : forall s, In s (line_types l) <-> In s (map (phone_spell v) (type_names phone_types (ph_type p)))).
  { intros s. unfold l. rewrite line_types_in by auto. rewrite <- phone_spelled. destruct (phone_types_ok v p) as [P1 P2]. unfold phone_kvs. split.
    - intros (kv & Hin & Hx). apply in_app_or in Hin as [Hin|Hin]; [exfalso; exact (Hj kv s Hin Hx)|].
      destruct (isnil (phone_names v p)) eqn:En; [destruct Hin|]. apply isnil_false in En. apply (type_kvs_ops v _ kv P1 En Hin (B "type") s Hx).
    - intros Hin. apply in_map_iff in Hin as (n & <- & Hin). destruct (type_kvs_named v _ n P1 Hin) as (kv & Hk & Hx).
      exists kv. split; auto. apply in_or_app. right. destruct (phone_names v p); [destruct Hin|exact Hk]. }
  split.
  - assert (Hjt : join_types (fun s => phone_type (to_upper s)) (line_types l) = N.land (ph_type p) phone_vocabulary).
    { change phone_vocabulary with (fold_right N.lor 0%N (map snd phone_types)).
      apply (types_back phone_types (fun s => phone_type (to_upper s)) (phone_spell v)); [apply phone_table| |].
      - intros s Hs _. apply Ht. auto.
      - intros n Hn. apply Ht. apply in_map. auto. }
    cbv zeta. destruct (line_types l) as [|s r] eqn:El.
    + cbn [isnil]. rewrite <- Hjt. reflexivity.
    + cbn [isnil]. rewrite Hjt. destruct (N.eqb_spec (N.land (ph_type p) phone_vocabulary) 0) as [Hz|_]; [|reflexivity]. exfalso.
      change phone_vocabulary with (fold_right N.lor 0%N (map snd phone_types)) in Hz. apply type_names_nil in Hz.
      rewrite Hz in Ht. destruct (proj1 (Ht s) ltac:(left; reflexivity)).
  - intros k Hk. unfold l. cbn [vl_params]. rewrite read_params_find.
    assert (Ho : forall kv x, In kv (phone_kvs v p) -> In (k, x) (item_ops kv) -> fst kv = k /\ In kv (joined (filter not_type (ph_params p)))).
    { intros kv x Hin Hx. unfold phone_kvs in Hin. apply in_app_or in Hin as [Hin|Hin].
      - apply (plain_filter not_type) in Hp. destruct (joined_ops _ kv (proj1 Hp) Hin) as (vs & _ & Ho). rewrite Ho in Hx. apply in_map_iff in Hx as (y & Hy & _).
        injection Hy as Hy _. auto.
      - exfalso. destruct (isnil (phone_names v p)) eqn:En; [destruct Hin|]. apply isnil_false in En.
        apply Hk. apply (type_kvs_ops v _ kv (proj1 (phone_types_ok v p)) En Hin k x Hx). }
    pose proof Hp as ((Hs & Hf) & _). destruct (find_param k (ph_params p)) as [vs|] eqn:Ef.
    + apply find_param_in in Ef as (q & -> & Hin). rewrite Forall_forall in Hf. destruct (Hf _ Hin) as (F1 & F2 & F3 & F4). cbn [fst snd] in *.
      assert (Hkv : In (k, join [cCOMMA] vs) (phone_kvs v p)).
      { unfold phone_kvs. apply in_or_app. left. unfold joined. apply in_map_iff. exists (k, vs). split; auto. apply filter_In. split; auto.
        unfold not_type. cbn [fst]. apply negb_true_iff, leqb_neq. intros Hu. apply Hk.
        rewrite <- (key_lower k F1), <- (lower_upper_ikey k), Hu; [reflexivity|]. destruct (joined_item k vs F1 F2 F4) as [[Hi _] _]. exact Hi. }
      rewrite (seen_added_one k (phone_kvs v p) (k, join [cCOMMA] vs) K2 Hkv).
      * assert (Ha : added k (item_ops (k, join [cCOMMA] vs)) = vs).
        { destruct (joined_item k vs F1 F2 F4) as [_ Hi]. rewrite Hi. unfold added. clear. induction vs as [|x vs IH]; auto. cbn [map filter fst]. rewrite leqb_refl. cbn [map snd]. f_equal. auto. }
        rewrite Ha, firsts_id by auto. destruct vs; [destruct (F2 eq_refl)|reflexivity].
      * intros y Hy Hne Hx. apply in_map_iff in Hx as ([k' x] & Hk' & Hx). cbn [fst] in Hk'. subst k'. destruct (Ho y x Hy Hx) as [Hy1 Hy2].
        apply Hne. apply (nodup_key_eq fst (phone_kvs v p)); auto.
    + rewrite seen_added_none; auto. intros y Hy Hx. apply in_map_iff in Hx as ([k' x] & Hk' & Hx). cbn [fst] in Hk'. subst k'.
      destruct (Ho y x Hy Hx) as [Hy1 Hy2]. rewrite find_param_afind in Ef. apply afind_None in Ef. apply Ef. rewrite <- Hy1.
      apply (in_map fst) in Hy2. rewrite joined_keys in Hy2. apply in_map_iff in Hy2 as (e & He & Hin). apply filter_In in Hin as [Hin _]. rewrite <- He. apply in_map. auto.
Qed.

Definition word (w : ustring) : Prop := w <> [] /\ Forall (fun c => is_uspace c = false) w.
Lemma words_acc_words s : forall cur, Forall (fun c => is_uspace c = false) cur -> Forall word (words_acc cur s).
Proof.
  induction s as [|c s IH]; intros cur Hc; cbn [words_acc].
  - destruct cur; constructor; [split; [discriminate|auto]|constructor].
  - destruct (is_uspace c) eqn:Ec; [|apply IH, Forall_app; auto].
    destruct cur; [apply IH; auto|]. constructor; [split; [discriminate|auto]|apply IH; constructor].
Qed.
Lemma words_acc_app w s : Forall (fun c => is_uspace c = false) w -> forall cur, words_acc cur (w ++ s) = words_acc (cur ++ w) s.
Proof.
  induction w as [|c w IH]; intros Hw cur; [rewrite app_nil_r; reflexivity|]. inversion Hw; subst. cbn [app words_acc]. rewrite H1. rewrite IH by auto.
  rewrite <- app_assoc. reflexivity.
Qed.
Lemma words_join l : Forall word l -> words (join [cSP] l) = l.
Proof.
  unfold words. induction l as [|w [|x l] IH]; intros H; [reflexivity| |]; inversion H as [|? ? [Hn Hw] Hl]; subst.
  - cbn [join]. rewrite <- (app_nil_r w) at 1. rewrite words_acc_app by auto. cbn. destruct w; [congruence|reflexivity].
  - change (join [cSP] (w :: x :: l)) with (w ++ cSP :: join [cSP] (x :: l)). rewrite words_acc_app by auto. cbn [app words_acc].
    change (is_uspace cSP) with true. cbv iota. destruct w; [congruence|]. f_equal. apply IH; auto.
Qed.
Lemma simplified_idem s : simplified (simplified s) = simplified s.
Proof. unfold simplified. rewrite words_join; [reflexivity|]. apply words_acc_words. constructor. Qed.
(** entries that get a fresh identifier *)
Lemma fold_ids_in {X} (key : X -> ustring) (mk : ustring -> vline -> X) (keep : X -> bool) (newid : nat -> ustring) (P : vline -> Prop) :
  (forall id l, P l -> key (mk id l) = id) -> (forall i j, newid i = newid j -> i = j) ->
  forall ls ks init, Forall P ls -> NoDup ks -> Forall (fun x => forall k, In k ks -> key x <> newid k) init ->
  fold_left (fun x p => replace_or (fun q => leqb (key q) (key (mk (newid (fst p)) (snd p)))) (mk (newid (fst p)) (snd p)) (keep (mk (newid (fst p)) (snd p))) x) (combine ks ls) init
  = init ++ filter keep (map (fun p => mk (newid (fst p)) (snd p)) (combine ks ls)).
Proof.
  intros Hkey Hinj. induction ls as [|l ls IH]; intros ks init HP Hn Hi; [destruct ks; cbn; symmetry; apply app_nil_r|]. destruct ks as [|k ks]; [cbn; symmetry; apply app_nil_r|].
  inversion Hn as [|? ? Hk Hn']; subst. inversion HP as [|? ? HPl HP']; subst. cbn [combine fold_left map filter fst snd].
  assert (Hnew : find_split (fun q => leqb (key q) (key (mk (newid k) l))) init = None).
  { apply find_split_None. eapply Forall_impl; [|exact Hi]. intros x Hx. apply leqb_neq. rewrite Hkey by auto. apply Hx. left; auto. }
  unfold replace_or at 2. rewrite Hnew. rewrite IH; auto.
  - destruct (keep (mk (newid k) l)); [|reflexivity]. rewrite <- app_assoc. reflexivity.
  - assert (Hi' : Forall (fun x => forall j, In j ks -> key x <> newid j) init) by (eapply Forall_impl; [|exact Hi]; intros x Hx j Hj; apply Hx; right; auto).
    destruct (keep (mk (newid k) l)); [|exact Hi']. apply Forall_app. split; auto. constructor; [|constructor]. intros j Hj. rewrite Hkey by auto. intros He.
    apply Hinj in He. subst. contradiction.
Qed.
Lemma fold_ids {X} (key : X -> ustring) (mk : ustring -> vline -> X) (keep : X -> bool) (newid : nat -> ustring) :
  (forall id l, key (mk id l) = id) -> (forall i j, newid i = newid j -> i = j) ->
  forall ks ls init, NoDup ks -> Forall (fun x => forall k, In k ks -> key x <> newid k) init ->
  fold_left (fun x p => replace_or (fun q => leqb (key q) (key (mk (newid (fst p)) (snd p)))) (mk (newid (fst p)) (snd p)) (keep (mk (newid (fst p)) (snd p))) x) (combine ks ls) init
  = init ++ filter keep (map (fun p => mk (newid (fst p)) (snd p)) (combine ks ls)).
Proof.
  intros Hkey Hinj ks ls init Hn Hi. apply (fold_ids_in key mk keep newid (fun _ => True)); auto. apply Forall_forall. auto.
Qed.
Lemma ids_Forall2 {A X} (R : A -> X -> Prop) (mk : ustring -> vline -> X) (keep : X -> bool) (newid : nat -> ustring) (out : A -> vline) (kp : A -> bool) :
  forall l ks, length ks = length l -> (forall x id, In x l -> keep (mk id (out x)) = kp x /\ R x (mk id (out x))) ->
  Forall2 R (filter kp l) (filter keep (map (fun p => mk (newid (fst p)) (snd p)) (combine ks (map out l)))).
Proof.
  induction l as [|x l IH]; intros ks Hl H; [destruct ks; [constructor|discriminate]|]. destruct ks as [|k ks]; [discriminate|].
  cbn [map combine filter fst snd]. destruct (H x (newid k) ltac:(left; auto)) as [H1 H2]. rewrite H1.
  assert (IH' := IH ks ltac:(injection Hl as Hl; exact Hl) ltac:(intros; apply H; right; auto)). destruct (kp x); [constructor; auto|auto].
Qed.
(** as [fold_field], for the kinds whose lines get an identifier *)
Lemma fold_id_field {X} E T v export a b (f : addressee -> X) K i (step : ustring -> vline -> X -> X) :
  fitting E T v a -> reads_as E T v export a b -> of_kinds K [i] -> (pictured i = true -> v <> V40) ->
  (forall e x, f (put_empty e x) = f x) ->
  (forall id l x, K (line_kind l) = true -> f (eff T id l x) = step id l (f x)) ->
  (forall id l x, K (line_kind l) = false -> f (eff T id l x) = f x) ->
  exists card ks, let ls := readings E (flat_map (pick i) (chunks T v export a)) in
    length ks = length ls /\ NoDup ks /\
    f b = fold_left (fun x p => step (t_newid T card (fst p)) (snd p) x) (combine ks ls) (f (addressee_new (t_newid T card 0))).
Proof.
  intros Hf [card Hr] Hk Hp He H1 H0. exists card.
  destruct (read_lines_fold T f K step card He H1 H0 _ _ _ _ Hr) as (ks & Hl & Hn & _ & Hb). exists ks. cbv zeta.
  rewrite <- (seen_chunk E T v export a K i) by auto. auto.
Qed.
Lemma field_phones E T v export a b : fitting E T v a -> reads_as E T v export a b -> fresh_ids T -> Forall (fun p => text_safe (ph_number p)) (a_phones a) ->
  Forall2 phone_back (filter (fun p => negb (isnil (simplified (ph_number p)))) (a_phones a)) (a_phones b).
Proof.
  intros Hf Hr Hid Hs. rewrite Forall_forall in Hs. destruct (params_facts a (fq_params _ _ _ _ Hf)) as (_ & Hp & _).
  destruct (fold_id_field E T v export a b a_phones (fun k => match k with LTel => true | _ => false end) (B "TEL")
    (fun id l x => replace_or (fun q => leqb (ph_id q) (ph_id (parse_phone id l))) (parse_phone id l) (negb (isnil (simplified (ph_number (parse_phone id l))))) x) Hf Hr)
    as (card & ks & Hl & Hn & ->); text_side; try discriminate.
  change (flat_map (pick (B "TEL")) (chunks T v export a)) with (map (phone_line v) (a_phones a) ++ []) in *. rewrite app_nil_r in *.
  rewrite (readings_map E (phone_line v) (fun p => reread E (phone_line v p)) (fun p => negb (isnil (ph_number p)))) in *.
  - rewrite (fold_ids ph_id parse_phone (fun p => negb (isnil (simplified (ph_number p)))) (t_newid T card)); [|reflexivity|apply Hid|auto|constructor].
    cbn [a_phones addressee_new app].
    replace (filter (fun p => negb (isnil (simplified (ph_number p)))) (a_phones a)) with
      (filter (fun p => negb (isnil (simplified (ph_number p)))) (filter (fun p => negb (isnil (ph_number p))) (a_phones a))).
    + apply ids_Forall2; [rewrite map_length in Hl; exact Hl|]. intros p id Hin. apply filter_In in Hin as [Hin _].
      destruct (phone_read E v p id (Hp p Hin) (Hs p Hin)) as [_ Hb]. split; [|exact Hb]. destruct Hb as [-> _].
      f_equal. f_equal. apply simplified_idem.
    + rewrite filter_filter. apply filter_ext. intros p. destruct (ph_number p); reflexivity.
  - intros p Hin. destruct (phone_read E v p [] (Hp p Hin) (Hs p Hin)) as [L _]. auto.
  - intros p Hin. destruct (phone_read E v p [] (Hp p Hin) (Hs p Hin)) as [L _]. auto.
Qed.
