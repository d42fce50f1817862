(** The addresses of a contact after writing and reading. *)
From Coq Require Import Permutation.
From Verif Require Import Base BaseFacts QtText Utf8 Utf8Facts M_ParamMap M_VCard M_VCardText
  S_Escape P_Escape S_Fold P_Fold S_CardText P_CardText S_Card P_Assoc P_Card S_Parse P_Parse P_Parse2
  S_RoundTrip P_RoundTrip P_RoundTrip2 P_RoundTrip3 P_ReadBack P_Items P_Order
  M_Split S_Split P_Split M_Values M_Date M_Addressee M_VCardTool S_Contact P_Seen P_ReadFields P_Lines P_Contact P_Chunks P_Lists P_Values P_Fields P_Fields2 P_Types.
From Verif Require P_Email.

Lemma address_names_plain t : ~ In (B "charset") (type_names address_types t).
Proof.
  assert (H : Forall (fun s => negb (leqb s (B "charset")) = true) (type_names address_types t)) by (apply (type_names_all _ _ (fun s => negb (leqb s (B "charset")))); vm_compute; reflexivity).
  rewrite Forall_forall in H. intros Hin. apply H in Hin. discriminate.
Qed.
Lemma quoted_ops k w : k <> [] -> to_lower k <> B "type" -> item_ops (k, [cDQ] ++ w ++ [cDQ]) = [(to_lower k, w)].
Proof.
  intros _ Hk. unfold item_ops. cbn [fst snd app]. rewrite N.eqb_refl, removelast_last. unfold qsplit.
  rewrite (proj2 (leqb_neq _ _) Hk). reflexivity.
Qed.
Lemma quoted_plain k w : Forall ikey_char k -> k <> [] -> ~ In (to_lower k) [B "type"; B "encoding"; B "charset"] -> k <> B "encoding" -> k <> B "charset" -> quoted_chars w ->
  plain_item (k, [cDQ] ++ w ++ [cDQ]).
Proof.
  intros Hk Hn Hl H1 H2 Hw. split; [split; [exact Hk|right; exists w; auto]|]. split; auto. split; auto.
  assert (Ho : item_ops (k, [cDQ] ++ w ++ [cDQ]) = [(to_lower k, w)]) by (apply quoted_ops; auto; intros H; apply Hl; rewrite H; cbn; auto).
  unfold silent_key. rewrite Ho. split; intros [H|[]]; cbn [fst] in H; apply Hl; rewrite H; cbn; auto.
Qed.
Lemma address_kvs_plain T v x : address_heads T v x -> Forall plain_item (address_kvs T v x) /\ NoDup (map fst (address_kvs T v x)).
Proof.
  intros Hh. split; [|apply address_kvs_ok; auto]. unfold address_kvs. apply Forall_app. split.
  - destruct v; try constructor. destruct (Hh eq_refl) as [H1 H2]. apply Forall_app. split.
    + destruct (negb (isnil (ad_label x))); constructor; [|constructor].
      apply quoted_plain; [apply ikey_dec; reflexivity|discriminate|intros H; apply contains_In in H; discriminate|discriminate|discriminate|exact H1].
    + destruct (geo_valid (ad_geo x)); constructor; [|constructor]. destruct (H2 eq_refl) as [G1 G2].
      apply quoted_plain; [apply ikey_dec; reflexivity|discriminate|intros H; apply contains_In in H; discriminate|discriminate|discriminate|].
      apply Forall_app. split; [|apply Forall_app; split; [exact G1|apply Forall_app; split; [|exact G2]]]; repeat (constructor; [unfold cCOMMA; cbn; lia|]); constructor.
  - apply type_kvs_plain; [apply address_types_ok|apply address_names_plain].
Qed.
(** the types read from a line with the items [head] and those of the types of [t] *)
Lemma address_table : forall v, Forall (fun e => address_type (to_lower (type_spell v (fst e))) = snd e /\ exists k, snd e = (2 ^ k)%N) address_types.
Proof.
  intros v. assert (H : forallb (fun e => N.eqb (address_type (to_lower (type_spell v (fst e)))) (snd e) && pow2_b (snd e)) address_types = true) by (destruct v; vm_compute; reflexivity).
  rewrite forallb_forall in H. apply Forall_forall. intros e He. specialize (H e He). apply andb_true_iff in H as [H1 H2]. apply N.eqb_eq in H1, H2.
  split; auto. exists (N.log2 (snd e)). auto.
Qed.
Lemma address_types_read v head t i g val b :
  (forall kv s, In kv head -> ~ In (B "type", s) (item_ops kv)) ->
  let kvs := head ++ type_kvs v (type_names address_types t) in NoDup (map fst kvs) ->
  address_type_of (mkVline i g (read_params (seen_ops kvs)) val b) = N.land t address_vocabulary.
Proof.
  intros Hh kvs Hn. change address_vocabulary with (fold_right N.lor 0%N (map snd address_types)).
  unfold address_type_of. destruct (address_types_ok t) as [Ht _].
  apply (types_back address_types (fun s => address_type (to_lower s)) (type_spell v)); [apply address_table| |].
  - intros s Hs Hne. apply line_types_in in Hs; auto. destruct Hs as (kv & Hin & Hx). unfold kvs in Hin. apply in_app_or in Hin as [Hin|Hin]; [destruct (Hh kv s Hin Hx)|].
    destruct (type_names address_types t) as [|n names] eqn:En.
    + exfalso. apply Hne. unfold type_kvs in Hin. destruct v; [destruct Hin| |]; destruct Hin as [<-|[]]; destruct Hx as [Hx|[]]; injection Hx as <-; reflexivity.
    + apply (type_kvs_ops v (n :: names) kv Ht ltac:(discriminate) Hin (B "type") s Hx).
  - intros n Hin. apply line_types_in; auto. destruct (type_kvs_named v _ n Ht Hin) as (kv & Hk & Hx). exists kv. split; auto. unfold kvs. apply in_or_app. auto.
Qed.

Definition head_kvs (T : Tool) (v : version) (x : address) : list item :=
  match v with
  | V40 => (if negb (isnil (ad_label x)) then [(B "LABEL", [cDQ] ++ ad_label x ++ [cDQ])] else [])
           ++ (if geo_valid (ad_geo x) then [(B "GEO", [cDQ] ++ (B "geo:" ++ t_fmt6 T (g_lat (ad_geo x)) ++ [cCOMMA] ++ t_fmt6 T (g_lon (ad_geo x))) ++ [cDQ])] else [])
  | _ => []
  end.
Lemma head_ops T v x kv k s : In kv (head_kvs T v x) -> In (k, s) (item_ops kv) ->
  v = V40 /\ ((kv = (B "LABEL", [cDQ] ++ ad_label x ++ [cDQ]) /\ ad_label x <> [] /\ k = B "label" /\ s = ad_label x) \/ (fst kv = B "GEO" /\ k = B "geo")).
Proof.
  unfold head_kvs. destruct v; [intros []|intros []|]. intros Hin Hx. split; auto. apply in_app_or in Hin as [Hin|Hin].
  - left. destruct (ad_label x) as [|c r] eqn:El; [destruct Hin|]. destruct Hin as [<-|[]].
    rewrite quoted_ops in Hx by discriminate. destruct Hx as [Hx|[]]. injection Hx as <- <-. repeat split; auto. discriminate.
  - right. destruct (geo_valid (ad_geo x)); [|destruct Hin]. destruct Hin as [<-|[]].
    rewrite quoted_ops in Hx by discriminate. destruct Hx as [Hx|[]]. injection Hx as <- <-. auto.
Qed.
Lemma unquote_plain s : ~ In cDQ s -> unquote s = s.
Proof.
  intros H. unfold unquote. destruct s as [|c r]; [reflexivity|]. cbn [nth].
  destruct (N.eqb_spec c cDQ) as [->|_]; [destruct H; left; reflexivity|]. rewrite andb_false_r. reflexivity.
Qed.
Definition shown_label (v : version) (x : address) : ustring := match v with V40 => ad_label x | _ => [] end.
(** reading the line of one address *)
Lemma adr_read E T v x id : codes E v (address_value x) -> address_heads T v x -> address_safe x -> address_blank x = false ->
  loud E (adr_full T v x) = true /\
  exists y, parse_address T id (reread E (adr_full T v x)) = Some y /\ ad_id y = id /\ address_back x y /\
    ad_label y = shown_label v x.
Proof.
  intros Hq Hh Hs Hb. destruct (address_kvs_plain T v x Hh) as [K1 K2].
  destruct (parts_read21 E v cSEMI (B "ADR") (address_kvs T v x) (address_text x) ltac:(in_known) ltac:(left; reflexivity) ltac:(discriminate) Hs K2 K1 Hq) as [L R].
  change (add_all (line_kvs v (join_components cSEMI (address_text x)) ++ address_kvs T v x) (text_line (B "ADR") (join_components cSEMI (address_text x)))) with (adr_full T v x) in L, R.
  destruct (seen_coded E (B "ADR") [] (B "ADR") v (address_kvs T v x) (address_value x) (known_id (B "ADR") ltac:(in_known)) K2 K1 Hq) as (_ & _ & w & R' & _).
  change (add_all (line_kvs v (address_value x) ++ address_kvs T v x) (text_line (B "ADR") (address_value x))) with (adr_full T v x) in R'.
  destruct (line_kvs_ok v (address_value x) (address_kvs T v x) K2 K1) as [K3 _]. split.
  { rewrite L. destruct (isnil (join_components cSEMI (address_text x))) eqn:Ej; [|reflexivity]. apply isnil_true, join_nil in Ej. destruct Ej; discriminate. }
  unfold parse_address. unfold parts_of in R. destruct (split_string cSEMI (lvalue (reread E (adr_full T v x)))) as [ps|]; [|discriminate]. subst ps.
  eexists. split; [reflexivity|]. unfold address_text, set_part. cbn [nth_error].
  assert (Hty : address_type_of (reread E (adr_full T v x)) = N.land (ad_type x) address_vocabulary).
  { rewrite R'. change (address_kvs T v x) with (head_kvs T v x ++ type_kvs v (type_names address_types (ad_type x))) in K3 |- *. rewrite app_assoc in K3 |- *.
    apply (address_types_read v (line_kvs v (address_value x) ++ head_kvs T v x) (ad_type x)); [|exact K3]. intros kv s Hin Hx.
    apply in_app_or in Hin as [Hin|Hin]; [destruct (line_kvs_ops _ _ _ _ _ Hin Hx); discriminate|].
    destruct (head_ops T v x kv _ _ Hin Hx) as [_ [(_ & _ & H & _)|(_ & H)]]; discriminate. }
  rewrite Hty.
  assert (Hlab : vl_parameter (B "label") (reread E (adr_full T v x)) = shown_label v x).
  { rewrite R'. unfold vl_parameter, vl_parameters. cbn [vl_params].
    assert (Hin : forall s, In s (match find_param (B "label") (read_params (seen_ops (line_kvs v (address_value x) ++ address_kvs T v x))) with Some vs => vs | None => [] end) <-> v = V40 /\ ad_label x <> [] /\ s = ad_label x).
    { intros s. rewrite read_values_in, seen_ops_in by auto. split.
      - intros (kv & Hin & Hx). apply in_app_or in Hin as [Hin|Hin]; [destruct (line_kvs_ops _ _ _ _ _ Hin Hx); discriminate|]. change (address_kvs T v x) with (head_kvs T v x ++ type_kvs v (type_names address_types (ad_type x))) in Hin.
        apply in_app_or in Hin as [Hin|Hin].
        + destruct (head_ops T v x kv _ _ Hin Hx) as [Hv [(_ & Hne & _ & Hl)|(_ & H)]]; [auto|discriminate].
        + exfalso. destruct (type_names address_types (ad_type x)) as [|n names] eqn:En.
          * unfold type_kvs in Hin. destruct v; [destruct Hin| |]; destruct Hin as [<-|[]]; destruct Hx as [Hx|[]]; discriminate.
          * destruct (address_types_ok (ad_type x)) as [Ht _]. rewrite En in Ht. destruct (type_kvs_ops v (n :: names) kv Ht ltac:(discriminate) Hin _ s Hx) as [H _]. discriminate.
      - intros (-> & Hne & ->). exists (B "LABEL", [cDQ] ++ ad_label x ++ [cDQ]). split.
        + apply in_or_app. right. unfold address_kvs. destruct (ad_label x); [congruence|]. left. reflexivity.
        + rewrite quoted_ops by discriminate. left. reflexivity. }
    destruct (match find_param (B "label") (read_params (seen_ops (line_kvs v (address_value x) ++ address_kvs T v x))) with Some vs => vs | None => [] end) as [|s r].
    - unfold shown_label. destruct v; auto. destruct (ad_label x) as [|c l] eqn:El; auto. exfalso. apply (proj2 (Hin (c :: l))). split; auto. split; [discriminate|auto].
    - destruct (proj1 (Hin s) ltac:(left; reflexivity)) as (-> & _ & ->). reflexivity. }
  rewrite Hlab. clear Hlab Hty R' L.
  match goal with |- context [if ?c && ?d then match ?m with _ => _ end else _] => set (gq := c && d); set (gl := m) end. clearbody gq gl.
  assert (Hlb : forall y, ad_label y = [] -> let z := (if isnil (shown_label v x) then y else ad_set_label (unquote (shown_label v x)) y) in
    ad_label z = shown_label v x).
  { intros y Hy. unfold shown_label. destruct v; auto. destruct (ad_label x) as [|c r] eqn:El; [exact Hy|]. cbn [isnil]. cbv zeta. cbn [ad_set_label ad_label].
    apply unquote_plain. destruct (Hh eq_refl) as [Hqc _]. rewrite El in Hqc. intros Hin. unfold quoted_chars in Hqc. rewrite Forall_forall in Hqc. destruct (Hqc _ Hin) as [_ H]. apply H. reflexivity. }
  match goal with |- context [if isnil _ then ?y else ad_set_label _ ?y] => specialize (Hlb y eq_refl); set (y0 := y) in * end. cbv zeta in Hlb.
  set (lb := shown_label v x) in *.
  assert (Hz : forall z, z = (if isnil lb then y0 else ad_set_label (unquote lb) y0) -> ad_id z = id /\ address_back x z).
  { intros z ->. destruct (isnil lb); (split; [reflexivity|]); repeat split. }
  specialize (Hz _ eq_refl). set (z := if isnil lb then y0 else ad_set_label (unquote lb) y0) in *. clearbody z. clear y0.
  destruct Hz as [Hz1 Hz2]. destruct gq; [|auto]. destruct gl as [|la [|lo rest]]; auto. 
Qed.

(** ** all addresses *)
Lemma seen_sorted E T v export a : StronglySorted not_after (seen E T v export a).
Proof. unfold seen, reread_card. apply in_order_sorted. Qed.
Lemma seen_pair E T v export a K i j : fitting E T v a -> of_kinds K [i; j] -> lltb i j = true -> In i known -> In j known ->
  pictured i = false -> pictured j = false ->
  filter (fun l => K (line_kind l)) (seen E T v export a) =
    readings E (flat_map (pick i) (chunks T v export a)) ++ readings E (flat_map (pick j) (chunks T v export a)).
Proof.
  intros Hf Hk Hlt Hi Hj Pi Pj.
  rewrite (filter_ext_in' _ (fun l => named i l || named j l)).
  - rewrite (sorted_filter_app (named i) (named j)); [|apply seen_sorted|].
    + rewrite !seen_named, !(named_lines E) by (auto; congruence). reflexivity.
    + intros x y _ _ Hx Hy. rewrite (named_id _ _ Hx), (named_id _ _ Hy). exact Hlt.
  - intros l Hl. rewrite (shaped_kinds K [i; j]) by (auto; eapply seen_shaped; eauto). unfold named. cbn [contains].
    rewrite (leqb_sym i), (leqb_sym j). destruct (leqb (vl_id l) i), (leqb (vl_id l) j), (isnil (vl_group l)); reflexivity.
Qed.
Lemma label_read E v x : codes E v (ad_label x) -> text_safe (ad_label x) ->
  loud E (label_full v x) = negb (isnil (ad_label x)) /\
  lvalue (reread E (label_full v x)) = ad_label x /\ address_type_of (reread E (label_full v x)) = N.land (ad_type x) address_vocabulary.
Proof.
  intros Hq Hs. destruct (address_types_ok (ad_type x)) as [Ht Hn]. pose proof (type_kvs_plain v _ Ht (address_names_plain (ad_type x))) as K1. pose proof (type_kvs_nodup v _ Hn) as K2.
  destruct (seen_coded_safe E (B "LABEL") v _ (ad_label x) ltac:(in_known) K2 K1 Hq Hs) as [L R]. rewrite line21_more in L, R.
  change (add_all (line_kvs v (ad_label x) ++ type_kvs v (type_names address_types (ad_type x))) (text_line (B "LABEL") (ad_label x))) with (label_full v x) in L, R.
  rewrite L, R. split; auto. split; auto. apply (address_types_read v (line_kvs v (ad_label x)) (ad_type x)).
  - intros kv s Hin Hx. destruct (line_kvs_ops _ _ _ _ _ Hin Hx); discriminate.
  - apply line_kvs_ok; auto.
Qed.
Definition adr_of (T : Tool) (id : ustring) (l : vline) : address := match parse_address T id l with Some x => x | None => address_new id 0 end.
Definition adr_step (T : Tool) (id : ustring) (l : vline) (x : list address) : list address :=
  match line_kind l with
  | LAdr => match parse_address T id l with Some y => put_adr y x | None => x end
  | LLabel => label_addresses id l x
  | _ => x
  end.
Lemma nodup_split_eq {A} (a b : list A) x c d : NoDup (a ++ x :: c) -> a ++ x :: c = b ++ x :: d -> a = b /\ c = d.
Proof.
  revert b. induction a as [|y a IH]; intros b Hn He.
  - destruct b as [|z b]; [injection He as ->; auto|]. injection He as -> He. exfalso. cbn [app] in Hn. inversion Hn as [|? ? H _]; subst. apply H. apply in_or_app. right; left; auto.
  - destruct b as [|z b].
    + injection He as -> He. exfalso. inversion Hn as [|? ? H _]; subst. apply H. apply in_or_app. right; left; auto.
    + injection He as -> He. inversion Hn; subst. destruct (IH b H2 He) as [-> ->]. auto.
Qed.
Lemma labels_fold E v (newid : nat -> ustring) : forall todo dn yd yt ks,
  (forall x, In x todo -> codes E v (ad_label x) /\ text_safe (ad_label x)) ->
  Forall2 (fun x y => address_back x y /\ ad_label y = ad_label x) dn yd -> Forall2 (fun x y => address_back x y /\ ad_label y = []) todo yt ->
  NoDup (map ad_id (yd ++ yt)) -> labels_told_apart (dn ++ todo) -> length ks = length (filter (fun x => negb (isnil (ad_label x))) todo) ->
  Forall2 (fun x y => address_back x y /\ ad_label y = ad_label x) (dn ++ todo)
    (fold_left (fun x p => label_addresses (newid (fst p)) (snd p) x) (combine ks (map (fun x => reread E (label_full v x)) (filter (fun x => negb (isnil (ad_label x))) todo))) (yd ++ yt)).
Proof.
  induction todo as [|x todo IH]; intros dn yd yt ks Hs Hd Ht Hn Hc Hk.
  - inversion Ht; subst. cbn [filter map combine]. destruct ks; cbn [combine fold_left]; rewrite !app_nil_r; auto.
  - inversion Ht as [|? y ? yt' [Hb Hl] Ht']; subst. assert (Hs' : forall z, In z todo -> codes E v (ad_label z) /\ text_safe (ad_label z)) by (intros; apply Hs; right; auto).
    replace (dn ++ x :: todo) with ((dn ++ [x]) ++ todo) in Hc |- * by (rewrite <- app_assoc; reflexivity).
    cbn [filter]. destruct (isnil (ad_label x)) eqn:En; cbn [negb].
    + apply isnil_true in En. replace (yd ++ y :: yt') with ((yd ++ [y]) ++ yt') by (rewrite <- app_assoc; reflexivity).
      cbn [filter] in Hk. rewrite En in Hk. cbn [isnil negb] in Hk.
      apply IH; auto; [|rewrite <- app_assoc; exact Hn]. apply Forall2_app; auto. constructor; [|constructor]. split; auto. rewrite Hl, En. reflexivity.
    + cbn [filter] in Hk. rewrite En in Hk. cbn [negb length] in Hk. destruct ks as [|k ks]; [discriminate|]. injection Hk as Hk.
      cbn [map combine fold_left fst snd]. destruct (Hs x ltac:(left; auto)) as [Hq1 Hs1]. destruct (label_read E v x Hq1 Hs1) as (_ & R1 & R2).
      assert (Hnew : label_addresses (newid k) (reread E (label_full v x)) (yd ++ y :: yt') = (yd ++ [ad_set_label (ad_label x) (address_detach y)]) ++ yt').
      { unfold label_addresses. rewrite R1, R2.
        assert (Hf : find (fun z => N.eqb (ad_type z) (N.land (ad_type x) address_vocabulary)) (yd ++ y :: yt') = Some y).
        { assert (Hyd : Forall (fun z => N.eqb (ad_type z) (N.land (ad_type x) address_vocabulary) = false) yd).
          { assert (Ha := Hc dn x todo ltac:(rewrite <- app_assoc; reflexivity) ltac:(intros H; rewrite H in En; discriminate)).
            clear - Hd Ha. induction Hd as [|p q dn yd [Hp _] Hd IH]; constructor; inversion Ha; subst; auto.
            apply N.eqb_neq. unfold address_back in Hp. destruct Hp as (_ & _ & _ & _ & _ & _ & _ & ->). exact H1. }
          clear - Hyd Hb. induction Hyd as [|z yd Hz Hyd IH]; cbn [app find].
          - destruct Hb as (_ & _ & _ & _ & _ & _ & _ & ->). rewrite N.eqb_refl. reflexivity.
          - rewrite Hz. exact IH. }
        rewrite Hf. unfold put_adr, replace_or. cbn [ad_set_label ad_id address_detach].
        destruct (find_split (fun q => leqb (ad_id q) (ad_id y)) (yd ++ y :: yt')) as [[[b z] t]|] eqn:Es.
        - apply find_split_Some in Es as (He & Hz & Hb'). apply leqb_eq in Hz.
          assert (Hzy : b = yd /\ z = y /\ t = yt').
          { assert (Hin : In z (yd ++ y :: yt')) by (rewrite He; apply in_or_app; right; left; auto).
            assert (z = y) by (apply (nodup_key_eq ad_id (yd ++ y :: yt')); auto; apply in_or_app; right; left; auto). subst z.
            assert (Hnd : NoDup (yd ++ y :: yt')) by (apply (NoDup_map_inv ad_id); auto).
            destruct (nodup_split_eq b yd y t yt') as [-> ->]; [rewrite <- He; exact Hnd|symmetry; exact He|auto]. }
          destruct Hzy as (-> & -> & ->). rewrite <- app_assoc. reflexivity.
        - exfalso. rewrite find_split_None in Es. rewrite Forall_forall in Es. specialize (Es y ltac:(apply in_or_app; right; left; auto)).
          rewrite leqb_refl in Es. discriminate. }
      rewrite Hnew. apply IH; auto.
      * apply Forall2_app; [auto|constructor; [split; [exact Hb|reflexivity]|constructor]].
      * rewrite <- app_assoc. rewrite map_app in *. exact Hn.
Qed.
Lemma adr_pick T v l : Forall (fun x => address_blank x = false) l ->
  filter (named (B "ADR")) (flat_map (address_lines T v) l) = map (adr_full T v) l /\
  filter (named (B "LABEL")) (flat_map (address_lines T v) l) = (match v with V40 => [] | _ => map (label_full v) (filter (fun x => negb (isnil (ad_label x))) l) end).
Proof.
  assert (Hna : forall x, named (B "ADR") (adr_full T v x) = true /\ named (B "LABEL") (adr_full T v x) = false).
  { intros x. unfold named, adr_full. rewrite add_all_id, add_all_group. split; reflexivity. }
  assert (Hnl : forall x, named (B "ADR") (label_full v x) = false /\ named (B "LABEL") (label_full v x) = true).
  { intros x. unfold named, label_full. rewrite add_all_id, add_all_group. split; reflexivity. }
  induction l as [|x l IH]; intros H; [destruct v; auto|]. inversion H as [|? ? Hb Hl]; subst. destruct (IH Hl) as [I1 I2].
  cbn [flat_map map]. rewrite !filter_app, I1, I2, address_lines_full, Hb by auto. destruct (Hna x) as [A1 A2]. destruct (Hnl x) as [L1 L2].
  destruct v; cbn [filter app]; destruct (isnil (ad_label x)) eqn:En; cbn [negb app filter map]; rewrite ?A1, ?A2, ?L1, ?L2; auto.
Qed.
Lemma kind_reread E i v kvs u : In i known -> NoDup (map fst kvs) -> Forall plain_item kvs -> codes E v u ->
  line_kind (reread E (add_all (line_kvs v u ++ kvs) (vline_new i (QStr u)))) = kind_of kind_table (to_lower i).
Proof.
  intros Hi H1 H2 Hq. destruct (seen_coded E i [] i v kvs u (known_id i Hi) H1 H2 Hq) as (_ & _ & w & R & _). unfold text_line in R. rewrite R. unfold line_kind. cbn [vl_id vl_group isnil negb].
  destruct (kind_of kind_table (to_lower i)); reflexivity.
Qed.
Lemma combine_app' {A C} (k1 k2 : list A) (l1 l2 : list C) : length k1 = length l1 -> combine (k1 ++ k2) (l1 ++ l2) = combine k1 l1 ++ combine k2 l2.
Proof. revert l1. induction k1 as [|k k1 IH]; intros [|l l1] H; try discriminate; auto. injection H as H. cbn [app combine]. f_equal. apply IH. auto. Qed.
Lemma NoDup_app_inv {A} (l m : list A) : NoDup (l ++ m) -> NoDup l /\ NoDup m /\ (forall x, In x l -> In x m -> False).
Proof.
  induction l as [|x l IH]; intros H; [split; [constructor|split; [auto|intros ? []]]|]. inversion H as [|? ? Hx Hl]; subst. destruct (IH Hl) as (I1 & I2 & I3).
  split; [constructor; auto; intros Hin; apply Hx; apply in_or_app; auto|]. split; auto. intros y [->|Hy] Hm; [apply Hx; apply in_or_app; auto|eauto].
Qed.
Lemma Forall2_impl' {A C} (P Q : A -> C -> Prop) l m : (forall x y, P x y -> Q x y) -> Forall2 P l m -> Forall2 Q l m.
Proof. intros H. induction 1; constructor; auto. Qed.
Lemma adr_fold E T v (newid : nat -> ustring) (l : list address) (ks : list nat) : (forall i j, newid i = newid j -> i = j) -> NoDup ks -> length ks = length l ->
  Forall (fun x => codes E v (address_value x) /\ address_heads T v x /\ address_safe x /\ address_blank x = false) l ->
  let ys := fold_left (fun x p => adr_step T (newid (fst p)) (snd p) x) (combine ks (map (fun x => reread E (adr_full T v x)) l)) [] in
  Forall2 (fun x y => (address_back x y /\ ad_label y = shown_label v x) /\ exists id, parse_address T id (reread E (adr_full T v x)) = Some y) l ys /\ NoDup (map ad_id ys) /\ (forall y, In y ys -> exists k, In k ks /\ ad_id y = newid k).
Proof.
  intros Hinj Hn Hk Hl. rewrite Forall_forall in Hl. cbv zeta.
  assert (Hp : forall x id, In x l -> parse_address T id (reread E (adr_full T v x)) = Some (adr_of T id (reread E (adr_full T v x))) /\
    ad_id (adr_of T id (reread E (adr_full T v x))) = id /\ address_back x (adr_of T id (reread E (adr_full T v x))) /\ ad_label (adr_of T id (reread E (adr_full T v x))) = shown_label v x).
  { intros x id Hx. destruct (Hl x Hx) as (Hq & H1 & H2 & H3). destruct (adr_read E T v x id Hq H1 H2 H3) as (_ & y & Hy & H). unfold adr_of. rewrite Hy. auto. }
  assert (Hf : forall l' ks' init, (forall x, In x l' -> In x l) ->
    fold_left (fun x p => adr_step T (newid (fst p)) (snd p) x) (combine ks' (map (fun x => reread E (adr_full T v x)) l')) init
    = fold_left (fun x p => replace_or (fun q => leqb (ad_id q) (ad_id (adr_of T (newid (fst p)) (snd p)))) (adr_of T (newid (fst p)) (snd p)) true x) (combine ks' (map (fun x => reread E (adr_full T v x)) l')) init).
  { induction l' as [|x l' IH]; intros ks' init Hin; [destruct ks'; reflexivity|]. destruct ks' as [|k ks']; [reflexivity|]. cbn [map combine fold_left fst snd].
    rewrite IH by (intros; apply Hin; right; auto). apply f_equal. unfold adr_step. destruct (Hl x ltac:(apply Hin; left; auto)) as (Hq & H1 & _).
    destruct (address_kvs_plain T v x H1) as [K1 K2]. unfold adr_full at 1. rewrite kind_reread by (auto; in_known). change (kind_of kind_table (to_lower (B "ADR"))) with LAdr. cbv iota.
    destruct (Hp x (newid k) ltac:(apply Hin; left; auto)) as [-> _]. reflexivity. }
  rewrite Hf by auto.
  rewrite (fold_ids_in ad_id (adr_of T) (fun _ => true) newid (fun y => exists x, In x l /\ y = reread E (adr_full T v x))); auto.
  - cbn [app]. assert (Hft : forall z : list address, filter (fun _ => true) z = z) by (intros; apply filter_all; auto). rewrite Hft.
    split; [|split].
    + clear Hf. revert ks Hk Hn. induction l as [|x l IH]; intros ks Hk Hn; [destruct ks; [constructor|discriminate]|]. destruct ks as [|k ks]; [discriminate|].
      cbn [map combine fst snd]. constructor; [split; [apply Hp; left; auto|eexists; apply Hp; left; auto]|]. injection Hk as Hk. inversion Hn; subst. apply IH; auto; [intros; apply Hl; right; auto|intros; apply Hp; right; auto].
    + clear Hf. revert ks Hk Hn. induction l as [|x l IH]; intros ks Hk Hn; [destruct ks; [constructor|discriminate]|]. destruct ks as [|k ks]; [discriminate|].
      cbn [map combine fst snd]. injection Hk as Hk. inversion Hn as [|? ? Hnk Hn']; subst. constructor; [|apply IH; auto; [intros; apply Hl; right; auto|intros; apply Hp; right; auto]].
      destruct (Hp x (newid k) ltac:(left; auto)) as (_ & -> & _). rewrite in_map_iff. intros (y & Hy & Hin). apply in_map_iff in Hin as ([k' lx] & <- & Hin). cbn [fst snd] in Hy.
      pose proof (in_combine_l _ _ _ _ Hin) as Hkin. apply in_combine_r in Hin. apply in_map_iff in Hin as (x' & <- & Hin).
      destruct (Hp x' (newid k') ltac:(right; auto)) as (_ & Hid & _). rewrite Hid in Hy. apply Hinj in Hy. subst. contradiction.
    + intros y Hy. apply in_map_iff in Hy as ([k lx] & <- & Hin). cbn [fst snd]. exists k. split; [eapply in_combine_l; eauto|].
      apply in_combine_r in Hin. apply in_map_iff in Hin as (x & <- & Hin). apply Hp. auto.
  - intros id y (x & Hx & ->). apply Hp. auto.
  - apply Forall_forall. intros y Hy. apply in_map_iff in Hy as (x & <- & Hx). exists x. auto.
Qed.
Lemma field_addresses E T v export a b : fitting E T v a -> reads_as E T v export a b -> fresh_ids T ->
  Forall (fun x => address_safe x /\ address_blank x = false /\ (v <> V40 -> text_safe (ad_label x))) (a_addresses a) ->
  (v <> V40 -> labels_told_apart (a_addresses a)) ->
  Forall2 (fun x y => address_back x y /\ ad_label y = ad_label x /\ (v = V40 -> exists id, parse_address T id (reread E (adr_line T V40 x)) = Some y)) (a_addresses a) (a_addresses b).
Proof.
  intros Hf [card Hr] Hid Hs Hla. rewrite Forall_forall in Hs.
  destruct (read_lines_fold T a_addresses (fun k => match k with LAdr | LLabel => true | _ => false end) (adr_step T) card) with (4 := Hr) as (ks & Hl & Hn & _ & ->); text_side.
  { intros id l x. unfold adr_step. eff_cases l. }
  pose proof (seen_pair E T v export a (fun k => match k with LAdr | LLabel => true | _ => false end) (B "ADR") (B "LABEL") Hf ltac:(kinds) eq_refl ltac:(in_known) ltac:(in_known) eq_refl eq_refl) as Hsp.
  cbv beta in Hsp, Hl |- *. rewrite Hsp in Hl |- *. clear Hsp.
  change (flat_map (pick (B "ADR")) (chunks T v export a)) with (filter (named (B "ADR")) (flat_map (address_lines T v) (a_addresses a)) ++ []) in *.
  change (flat_map (pick (B "LABEL")) (chunks T v export a)) with (filter (named (B "LABEL")) (flat_map (address_lines T v) (a_addresses a)) ++ []) in *.
  assert (Hh : forall x, In x (a_addresses a) -> codes E v (address_value x) /\ codes E v (ad_label x) /\ address_heads T v x).
  { intros x Hx. assert (Hin : forall s, In s [address_value x; ad_label x] -> codes E v s).
    { intros s Hs' Hv. destruct (fq_21 _ _ _ _ Hf Hv) as [H _]. rewrite Forall_forall in H. apply H. apply in_or_app. left.
      unfold texts21. apply in_or_app. right. apply in_or_app. left. apply in_flat_map. exists x. auto. }
    split; [apply Hin; left; auto|]. split; [apply Hin; right; left; auto|].
    intros Hv. destruct (fq_40 _ _ _ _ Hf Hv) as [H _]. rewrite Forall_forall in H. apply H. auto. }
  destruct (adr_pick T v (a_addresses a)) as [P1 P2]; [apply Forall_forall; intros x Hx; apply Hs; auto|].
  rewrite P1, P2, !app_nil_r in *. cbn [a_addresses addressee_new].
  rewrite (readings_map E (adr_full T v) (fun x => reread E (adr_full T v x)) (fun _ => true)) in *.
  2,3: intros x Hx; destruct (adr_read E T v x [] (proj1 (Hh x Hx)) (proj2 (proj2 (Hh x Hx))) (proj1 (Hs x Hx)) (proj1 (proj2 (Hs x Hx)))) as [L _]; auto.
  rewrite (filter_all (fun _ => true)) in * by auto.
  set (L := match v with V40 => [] | _ => _ end) in *.
  rewrite app_length, map_length in Hl.
  rewrite <- (firstn_skipn (length (a_addresses a)) ks) in Hn |- *.
  set (k1 := firstn (length (a_addresses a)) ks) in *. set (k2 := skipn (length (a_addresses a)) ks) in *.
  assert (L1 : length k1 = length (a_addresses a)) by (unfold k1; rewrite firstn_length; lia).
  assert (L2 : length k2 = length (readings E L)) by (unfold k2; rewrite skipn_length; lia).
  rewrite combine_app' by (rewrite map_length; auto). rewrite fold_left_app.
  apply NoDup_app_inv in Hn as (N1 & N2 & N3).
  destruct (adr_fold E T v (t_newid T card) (a_addresses a) k1 (Hid card) N1 L1) as (F1 & F2 & F3); [apply Forall_forall; intros x Hx; split; [apply Hh; auto|]; split; [apply Hh; auto|split; apply Hs; auto]|].
  set (ys := fold_left _ (combine k1 _) []) in *. clearbody ys.
  assert (Hv : v <> V40 -> L = map (label_full v) (filter (fun x => negb (isnil (ad_label x))) (a_addresses a))) by (unfold L; destruct v; auto; congruence).
  assert (H40 : v = V40 \/ v <> V40) by (destruct v; auto; right; discriminate). destruct H40 as [->|Hv4].
  { cbn in L2. destruct k2; [|discriminate]. eapply Forall2_impl'; [|exact F1]. intros x y [[H1 H2] H3]. auto. }
  rewrite (Hv Hv4) in *. clear Hv L.
  assert (Hrl : readings E (map (label_full v) (filter (fun x => negb (isnil (ad_label x))) (a_addresses a))) =
    map (fun x => reread E (label_full v x)) (filter (fun x => negb (isnil (ad_label x))) (a_addresses a))).
  { rewrite (readings_map E (label_full v) (fun x => reread E (label_full v x)) (fun x => negb (isnil (ad_label x)))).
    - rewrite filter_all; auto. intros x Hx. apply filter_In in Hx. apply Hx.
    - intros x Hx. apply filter_In in Hx as [Hx _]. destruct (label_read E v x) as [L _]; [apply Hh; auto|apply Hs; auto|auto]. }
  rewrite Hrl in *. rewrite map_length in L2.
  assert (Hst : forall l ks init, (forall x, In x l -> codes E v (ad_label x)) -> (fold_left (fun x p => adr_step T (t_newid T card (fst p)) (snd p) x) (combine ks (map (fun x => reread E (label_full v x)) l)) init) =
    fold_left (fun x p => label_addresses (t_newid T card (fst p)) (snd p) x) (combine ks (map (fun x => reread E (label_full v x)) l)) init).
  { induction l as [|x l IH]; intros ks' init Hc; [destruct ks'; reflexivity|]. destruct ks' as [|k ks']; [reflexivity|]. cbn [map combine fold_left fst snd]. rewrite IH by (intros; apply Hc; right; auto).
    apply f_equal. unfold adr_step. destruct (address_types_ok (ad_type x)) as [Ht Hnt]. unfold label_full at 1.
    rewrite kind_reread; [reflexivity|in_known|apply type_kvs_nodup; auto|apply type_kvs_plain; auto; apply address_names_plain|apply Hc; left; auto]. }
  rewrite Hst by (intros x Hx; apply filter_In in Hx as [Hx _]; apply Hh; auto). assert (F1' : Forall2 (fun x y => address_back x y /\ ad_label y = []) (a_addresses a) ys).
  { eapply Forall2_impl'; [|exact F1]. intros x y [[H1 H2] _]. split; auto. rewrite H2. unfold shown_label. destruct v; auto. congruence. }
  eapply Forall2_impl'; [|apply (labels_fold E v (t_newid T card) (a_addresses a) [] [] ys k2); auto]; [intros x y [H1 H2]; split; [exact H1|]; split; [exact H2|congruence]|].
  intros x Hx. split; [apply Hh; auto|apply Hs; auto].
Qed.
