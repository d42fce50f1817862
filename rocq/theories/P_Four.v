(** Version 4.0: keys, the position of an address, relations and the sort string. *)
From Coq Require Import Permutation.
From Verif Require Import Base BaseFacts QtText Utf8 Utf8Facts M_ParamMap M_VCard M_VCardText
  S_Escape P_Escape S_Fold P_Fold S_CardText P_CardText S_Card P_Assoc P_Card S_Parse P_Parse P_Parse2
  S_RoundTrip P_RoundTrip P_RoundTrip2 P_RoundTrip3 P_ReadBack P_Items P_Order
  M_Split S_Split P_Split M_Values M_Date M_Addressee P_Addressee M_VCardTool S_Contact P_Seen P_ReadFields P_Lines P_Contact P_Chunks P_Lists P_Values
  P_Fields P_Fields2 P_Fields3 P_Fields4 P_Fields5 P_Fields6 P_Fields7 P_Types P_Addr P_Contact2 S_Four.

(** ** parameters whose name is written in upper case *)
Section Params.
Variables (i g : ustring) (kvs : list item) (val : qvariant) (bs : bytes).
Let l := mkVline i g (read_params (seen_ops kvs)) val bs.
Lemma param_upper k K x : NoDup (map fst kvs) -> In (K, x) kvs -> to_lower K = k -> x <> [] -> ~ In cDQ x -> ~ In cCOMMA x ->
  (forall y, In y kvs -> y <> (K, x) -> silent_key k y) -> contains k (vl_param_list l) = true /\ vl_parameter k l = x.
Proof.
  intros Hn Hin Hk Hx Hq Hc Hs.
  assert (Hf : find_param k (read_params (seen_ops kvs)) = Some [x]).
  { rewrite read_params_find, (seen_added_one k kvs (K, x)) by auto.
    assert (Ho : item_ops (K, x) = [(k, x)]).
    { unfold item_ops. cbn [fst snd]. destruct x as [|c r]; [congruence|]. destruct (N.eqb_spec c cDQ) as [->|_]; [exfalso; apply Hq; left; auto|].
      change (c :: r) with (join [cCOMMA] [c :: r]). rewrite split_join_comma; [|discriminate|constructor; auto]. rewrite Hk. reflexivity. }
    rewrite Ho. cbn [added map]. unfold added. cbn [filter map fst snd]. rewrite leqb_refl. reflexivity. }
  split; [apply (find_some_contains _ _ _ Hf)|]. unfold vl_parameter, vl_parameters, l. cbn [vl_params]. rewrite Hf. reflexivity.
Qed.
End Params.
Lemma upper_plain K x : Forall ikey_char K -> x <> [] -> ~ In (to_lower K) [B "encoding"; B "charset"] -> K <> B "encoding" -> K <> B "charset" -> Forall ivalue_char x -> plain_item (K, x).
Proof.
  intros HK Hne Hn H1 H2 Hx. split; [split; [exact HK|left; exact Hx]|]. split; [exact H1|]. split; [exact H2|].
  split; intros H; apply item_ops_keys in H; cbn [fst snd] in H; destruct H as [[H' _]|[_ H]]; try contradiction; apply Hn; rewrite <- H; [left|right; left]; reflexivity.
Qed.

(** ** keys *)
Definition media_name (k : key) : ustring :=
  match ke_type k with KX509 => B "application/x-x509-ca-cert" | KPGP => B "application/pgp-keys" | KCustom => ke_custom k end.
Lemma media_known k : ke_type k <> KCustom -> media_name k <> [] /\ ~ In cDQ (media_name k) /\ ~ In cCOMMA (media_name k) /\ Forall ivalue_char (media_name k).
Proof.
  intros H. unfold media_name. destruct (ke_type k); [| |congruence]; (split; [discriminate|]); (split; [apply BaseFacts.mem_false; reflexivity|]); (split; [apply BaseFacts.mem_false; reflexivity|]); apply ivalue_dec; reflexivity.
Qed.
Lemma key_read40 E k id : key_fits k -> ke_type k <> KCustom -> (ke_isbin k = false -> text_safe (ke_text k)) ->
  loud E (key_line V40 k) = key_full k /\ (key_full k = true -> key_back k (parse_key id (reread E (key_line V40 k)))).
Proof.
  intros Hfit Hty Hs. rewrite key_line_eq. assert (Hkv : key_kv V40 k = (B "MEDIATYPE", media_name k)) by reflexivity. rewrite Hkv.
  destruct (media_known k Hty) as (N1 & N2 & N3 & N4).
  assert (Hpl : plain_item (B "MEDIATYPE", media_name k)) by (apply upper_plain; auto; [apply ikey_dec; reflexivity|cbv; intuition discriminate|discriminate|discriminate]).
  assert (Hback : forall key0, ke_isbin key0 = ke_isbin k -> (if ke_isbin k then ke_bin key0 = ke_bin k else ke_text key0 = ke_text k) ->
    key_back k (if leqb (to_lower (media_name k)) (B "application/x-x509-ca-cert") then ke_set_type KX509 key0
                else if leqb (to_lower (media_name k)) (B "application/pgp-keys") then ke_set_type KPGP key0 else ke_set_custom [] (ke_set_type KCustom key0))).
  { intros key0 H1 H2. unfold media_name. destruct (ke_type k) eqn:Et; [| |congruence].
    - change (leqb (to_lower (B "application/x-x509-ca-cert")) (B "application/x-x509-ca-cert")) with true. cbv iota. split; [exact H1|]. rewrite Et. split; [reflexivity|]. split; [discriminate|exact H2].
    - change (leqb (to_lower (B "application/pgp-keys")) (B "application/x-x509-ca-cert")) with false. change (leqb (to_lower (B "application/pgp-keys")) (B "application/pgp-keys")) with true. cbv iota.
      split; [exact H1|]. rewrite Et. split; [reflexivity|]. split; [discriminate|exact H2]. }
  assert (Htype : silent_key (B "type") (B "MEDIATYPE", media_name k)).
  { intros H. apply item_ops_keys in H. cbn [fst snd] in H. destruct H as [[H _]|[_ H]]; [contradiction|cbv in H; discriminate]. }
  assert (Henc : silent_key (B "type") (B "encoding", B "b")) by (apply enc_silent; discriminate).
  unfold key_full. destruct (ke_isbin k) eqn:Eb.
  - destruct (ke_bin k) as [|c bs] eqn:Ek; [destruct (seen_silent E [(B "MEDIATYPE", media_name k)] (B "KEY")) as [_ L]; split; [exact L|discriminate]|].
    cbn [isnil negb]. rewrite enc_param_all. rewrite <- add_all_app. cbn [app]. set (kvs := [(B "encoding", B "b"); (B "MEDIATYPE", media_name k)]).
    assert (Hn : NoDup (map fst kvs)) by (apply nodup_b_spec; reflexivity).
    assert (Hall : Forall (fun kv => kv = (B "encoding", B "b") \/ plain_item kv) kvs) by (constructor; [left; auto|constructor; [right; exact Hpl|constructor]]).
    assert (Hbytes : is_bytes (c :: bs) = true) by (rewrite <- Ek; apply (proj1 Hfit Eb)).
    destruct (seen_bytes E (B "KEY") [] (B "KEY") kvs (c :: bs) (known_id (B "KEY") ltac:(in_known)) Hn (or_introl eq_refl) Hall Hbytes) as (_ & L & R).
    split; [exact L|]. intros _. change (key_back k (parse_key id (reread E (add_all kvs (vline_new (B "KEY") (QBytes (c :: bs))))))). cbv zeta in R. rewrite R.
    destruct (param_one (B "KEY") [] kvs (QBytes (c :: bs)) [] (B "encoding") (B "b") Hn (or_introl eq_refl) eq_refl ltac:(discriminate) ltac:(cbn; intuition discriminate) ltac:(cbn; intuition discriminate)) as [P1 _].
    { intros y [<-|[<-|[]]] Hy; [destruct (Hy eq_refl)|]. apply Hpl. }
    destruct (param_none (B "KEY") [] kvs (QBytes (c :: bs)) [] (B "type") Hn) as [P2 P5]. { constructor; [exact Henc|constructor; [exact Htype|constructor]]. }
    destruct (param_upper (B "KEY") [] kvs (QBytes (c :: bs)) [] (B "mediatype") (B "MEDIATYPE") (media_name k) Hn (or_intror (or_introl eq_refl)) eq_refl N1 N2 N3) as [P3 P4].
    { intros y [<-|[<-|[]]] Hy; [|destruct (Hy eq_refl)]. apply enc_silent. discriminate. }
    unfold parse_key. rewrite P1, P2, P3, P4, P5. apply Hback; [reflexivity|reflexivity].
  - destruct (isnil (ke_text k)) eqn:Ek; [destruct (seen_silent E [(B "MEDIATYPE", media_name k)] (B "KEY")) as [_ L]; split; [exact L|discriminate]|].
    set (kvs := [(B "MEDIATYPE", media_name k)]).
    assert (Hn : NoDup (map fst kvs)) by (apply nodup_b_spec; reflexivity).
    assert (Hall : Forall plain_item kvs) by (constructor; [exact Hpl|constructor]).
    destruct (seen_text E (B "KEY") [] (B "KEY") kvs (ke_text k) (known_id (B "KEY") ltac:(in_known)) Hn Hall) as (_ & L & R). cbv zeta in L, R.
    rewrite Ek in L. split; [exact L|]. intros _. change (key_back k (parse_key id (reread E (add_all kvs (vline_new (B "KEY") (QStr (ke_text k))))))). rewrite R. destruct (Hs eq_refl) as [S1 S2]. rewrite thru_id by auto.
    destruct (param_none (B "KEY") [] kvs (QStr (ke_text k)) [] (B "encoding") Hn) as [P1 _]. { constructor; [apply Hpl|constructor]. }
    destruct (param_none (B "KEY") [] kvs (QStr (ke_text k)) [] (B "type") Hn) as [P2 P5]. { constructor; [exact Htype|constructor]. }
    destruct (param_upper (B "KEY") [] kvs (QStr (ke_text k)) [] (B "mediatype") (B "MEDIATYPE") (media_name k) Hn (or_introl eq_refl) eq_refl N1 N2 N3) as [P3 P4].
    { intros y [<-|[]] Hy. destruct (Hy eq_refl). }
    unfold parse_key. rewrite P1, P2, P3, P4, P5. apply Hback; [reflexivity|reflexivity].
Qed.
Lemma field_keys40 E T export a b : fits T V40 a -> reads_as E T V40 export a b -> fresh_ids T ->
  Forall (fun k => ke_type k <> KCustom /\ (ke_isbin k = false -> text_safe (ke_text k))) (a_keys a) ->
  Forall2 key_back (filter key_full (a_keys a)) (a_keys b).
Proof.
  intros Hf Hr Hid Hs. rewrite Forall_forall in Hs. pose proof (fit_keys _ _ _ Hf) as Hk. rewrite Forall_forall in Hk.
  destruct (fold_id_field E T V40 export a b a_keys (fun k => match k with LKey => true | _ => false end) (B "KEY")
    (fun id l x => replace_or (fun q => leqb (ke_id q) (ke_id (parse_key id l))) (parse_key id l) true x) Hf Hr)
    as (card & ks & Hl & Hn & ->); text_side; try discriminate.
  change (flat_map (pick (B "KEY")) (chunks T V40 export a)) with (map (key_line V40) (a_keys a) ++ []) in *. rewrite app_nil_r in *.
  assert (Hrm : readings E (map (key_line V40) (a_keys a)) = map (fun k => reread E (key_line V40 k)) (filter key_full (a_keys a))).
  { apply readings_map. intros k Hin. destruct (key_read40 E k [] (Hk k Hin) (proj1 (Hs k Hin)) (proj2 (Hs k Hin))) as [L _]. auto. }
  rewrite Hrm in *.
  rewrite (fold_ids ke_id parse_key (fun _ => true) (t_newid T card)); [|apply parse_key_id|apply Hid|auto|constructor].
  cbn [a_keys addressee_new app].
  rewrite <- (filter_all (fun _ => true) (filter key_full (a_keys a))) at 1 by auto.
  apply ids_Forall2; [rewrite map_length in Hl; exact Hl|]. intros k id Hin. apply filter_In in Hin as [Hin Hfull].
  split; [reflexivity|]. apply (key_read40 E k id (Hk k Hin) (proj1 (Hs k Hin)) (proj2 (Hs k Hin))). exact Hfull.
Qed.

(** ** relations *)
Lemma not_related40 T export a : fits T V40 a -> special_free V40 a -> filter (named (B "RELATED")) (flat_map (custom_lines T V40 export) (customs_of a)) = [].
Proof.
  intros Hf Hsp. apply filter_none. intros l Hl. unfold customs_of in Hl. apply in_flat_map in Hl as (c & Hc & Hl).
  apply in_map_iff in Hc as (e & <- & He). pose proof (customs_text (E := Build_Ext (fun b => b) (fun b => b) (fun _ => None) (fun _ => None)) T V40 export a e Hf Hsp He) as Hct. change (custom_lines T V40 export (fst e ++ cCOLON :: snd e)) with (custom_lines T V40 export ((fun e : list N * list N => fst e ++ 58%N :: snd e) e)) in Hct. rewrite Hct in Hl. clear Hct.
  match type of Hl with In _ (if ?c then _ else _) => destruct c end; [destruct Hl|]. destruct Hl as [<-|[]]. unfold named. rewrite line21_id.
  match goal with |- leqb ?x ?y && _ = false => destruct (leqb_spec x y) as [Hx|_] end; [|reflexivity]. pose proof (custom_id_x export (fst e)) as Hi. assert (Hx2 : custom_id export (fst e) = B "RELATED") by exact Hx. rewrite Hx2 in Hi. discriminate.
Qed.
Lemma field_related40 E T export a b : fits T V40 a -> reads_as E T V40 export a b -> special_free V40 a ->
  Forall (fun t => text_safe (pt_text t)) (a_related a) -> NoDup (a_related a) -> a_related b = filter ptext_valid (a_related a).
Proof.
  intros Hf Hr Hsp Hs Hn. rewrite Forall_forall in Hs. destruct (params_facts a (fit_params _ _ _ Hf)) as (_ & _ & Hp & _).
  destruct (fold_field E T V40 export a b a_related (fun k => match k with LRelated => true | _ => false end) (B "RELATED")
    (fun l x => if existsb (fun y => ptext_eq y (line_ptext l)) x then x else x ++ [line_ptext l]) Hf Hr) as [card ->]; text_side; try discriminate.
  change (flat_map (pick (B "RELATED")) (chunks T V40 export a)) with
    (map (params_line (B "RELATED")) (a_related a) ++ filter (named (B "RELATED")) (flat_map (custom_lines T V40 export) (customs_of a)) ++ []).
  rewrite not_related40, !app_nil_r, readings_ptext; auto; [|in_known|intros t Ht; apply Hp; in_app].
  rewrite (fold_new _ (ptext_out (B "RELATED")) (fun t => t) (fun t acc => In t acc)).
  - rewrite map_id. reflexivity.
  - intros t acc Ht Ho. cbv beta. rewrite ptext_back. destruct (existsb _ acc) eqn:Ee; auto.
    exfalso. apply existsb_exists in Ee as (y & Hy & Ey). rewrite ptext_eq_eq in Ey. subst. auto.
  - intros l1 t l2 Hl. cbn [app a_related addressee_new]. rewrite map_id. apply (nodup_split (filter ptext_valid (a_related a)) l1 t l2); auto. apply NoDup_filter. auto.
Qed.

(** ** sort string *)
Lemma sort_chars T a : fits T V40 a -> value_chars (a_sortstring a).
Proof. intros Hf. apply (fit_40 _ _ _ Hf eq_refl). Qed.
Lemma field_sortstring40 E T export a b : fits T V40 a -> reads_as E T V40 export a b -> ~ In cCOMMA (a_sortstring a) ->
  Forall (fun o => parts_safe (org_parts (a_department a) o)) (a_orgs a) -> Forall (fun o => ~ In (B "sort-as") (map fst (pt_params o))) (a_orgs a) ->
  a_sortstring b = a_sortstring a.
Proof.
  intros Hf Hr Hs Ho Hp. destruct Hr as [card Hr]. pose proof (sort_chars T a Hf) as Hv.
  set (K := fun k => match k with LN | LOrg | LSortstring => true | _ => false end).
  set (Q := fun k => match k with LN => true | _ => false end).
  set (g := fun (l : vline) (x : ustring) => match line_kind l with LSortstring => lvalue l | _ => sort_as l x end).
  assert (H1 : forall id l x, K (line_kind l) = true -> a_sortstring (eff T id l x) = g l (a_sortstring x)).
  { intros id l x. unfold g, K. eff_cases l. }
  assert (H0 : forall id l x, K (line_kind l) = false -> a_sortstring (eff T id l x) = a_sortstring x).
  { intros id l x. unfold K. eff_cases l. }
  rewrite (read_lines_plain T a_sortstring K g card (fun e x => eq_refl) H1 H0 _ _ _ _ Hr).
  rewrite (fold_skip_lines g (fun l => Q (line_kind l))).
  - rewrite filter_sub by (intros x; unfold Q, K; destruct (line_kind x); auto).
    rewrite (seen_chunk E T V40 export a Q (B "N")) by first [exact Hf | kinds | discriminate].
    change (flat_map (pick (B "N")) (chunks T V40 export a)) with [n_line V40 a]. rewrite n_line_eq by discriminate. cbn [is40 andb].
    set (t := join_components cSEMI _).
    assert (Ht : t <> []). { intros H. apply join_nil in H. destruct H; discriminate. }
    destruct (isnil (a_sortstring a)) eqn:En; cbn [negb].
    + apply isnil_true in En. rewrite En. cbn [add_all fold_left]. destruct (seen_plain E (B "N") t (known_id (B "N") ltac:(in_known))) as (_ & L & R).
      unfold text_line, readings. cbn [filter]. rewrite L, (proj2 (isnil_false t) Ht). cbn [negb map fold_left]. rewrite R. unfold g.
      rewrite shaped_kind by (left; split; [reflexivity|left; in_known]). reflexivity.
    + apply isnil_false in En. set (kvs := [(B "SORT-AS", a_sortstring a)]).
      assert (Hn : NoDup (map fst kvs)) by (apply nodup_b_spec; reflexivity).
      assert (Hpl : Forall plain_item kvs).
      { constructor; [|constructor]. apply upper_plain; [apply ikey_dec; reflexivity|exact En|cbv; intuition discriminate|discriminate|discriminate|apply value_ivalue; exact Hv]. }
      destruct (seen_text E (B "N") [] (B "N") kvs t (known_id (B "N") ltac:(in_known)) Hn Hpl) as (_ & L & R). cbv zeta in L, R.
      unfold text_line, readings. cbn [filter]. rewrite L, (proj2 (isnil_false t) Ht). cbn [negb map fold_left]. rewrite R. unfold g.
      rewrite shaped_kind by (left; split; [reflexivity|left; in_known]).
      destruct (param_upper (B "N") [] kvs (QStr (thru (excl_of (add_all kvs (vline_new (B "N") (QStr t)))) t)) [] (B "sort-as") (B "SORT-AS") (a_sortstring a) Hn (or_introl eq_refl) eq_refl En) as [_ P].
      { apply (value_no 34 _ Hv). left. reflexivity. } { exact Hs. } { intros y [<-|[]] Hy. destruct (Hy eq_refl). }
      cbn [isnil vl_group vl_id]. change (kind_of kind_table (to_lower (B "N"))) with LN. cbv iota.
      unfold sort_as. rewrite P, (proj2 (isnil_false _) En). reflexivity.
  - intros l x Hin HQ. apply filter_In in Hin as [Hin HK]. unfold K in HK. unfold Q in HQ. unfold g, sort_as. destruct (line_kind l) eqn:Ek; try discriminate.
    + assert (Hl : In l (filter (fun l => match line_kind l with LOrg => true | _ => false end) (seen E T V40 export a))) by (apply filter_In; rewrite Ek; auto).
      rewrite (seen_chunk E T V40 export a (fun k => match k with LOrg => true | _ => false end) (B "ORG")) in Hl by first [exact Hf | kinds | discriminate].
      rewrite org_readings in Hl by auto. apply in_map_iff in Hl as (o & <- & Hl). apply filter_In in Hl as [Hl _].
      rewrite Forall_forall in Hp. specialize (Hp o Hl). unfold vl_parameter, vl_parameters. cbn [vl_params org_out].
      rewrite find_param_afind, (proj2 (afind_None _ _) Hp). reflexivity.
    + assert (Hl : In l (filter (fun l => match line_kind l with LSortstring => true | _ => false end) (seen E T V40 export a))) by (apply filter_In; rewrite Ek; auto).
      rewrite (seen_chunk E T V40 export a (fun k => match k with LSortstring => true | _ => false end) (B "SORT-STRING")) in Hl by first [exact Hf | kinds | discriminate].
      destruct Hl.
Qed.

(** ** the position of an address *)
Definition geo_place (T : Tool) (g : geo) : ustring := B "geo:" ++ t_fmt6 T (g_lat g) ++ [cCOMMA] ++ t_fmt6 T (g_lon g).
Lemma place_parts lat lon : number_text lat -> number_text lon ->
  remove_str (B "geo:") (B "geo:" ++ lat ++ [cCOMMA] ++ lon) = lat ++ [cCOMMA] ++ lon /\ split cCOMMA (lat ++ [cCOMMA] ++ lon) = [lat; lon].
Proof.
  intros H1 H2. split.
  - unfold remove_str. change (remove_sub (S (length (B "geo:" ++ lat ++ [cCOMMA] ++ lon))) (B "geo:") (B "geo:" ++ lat ++ [cCOMMA] ++ lon))
      with (remove_sub (S (S (S (S (length (lat ++ [cCOMMA] ++ lon)))))) (B "geo:") (lat ++ [cCOMMA] ++ lon)).
    refine (remove_sub_no _ 103%N (B "eo:") (lat ++ [cCOMMA] ++ lon) _ _); [|generalize (length (lat ++ [cCOMMA] ++ lon)); lia]. rewrite !in_app_iff. intros [H|[[H|[]]|H]]; [exact (number_no 103 lat H1 ltac:(lia) H)|discriminate|exact (number_no 103 lon H2 ltac:(lia) H)].
  - cbn [app]. rewrite split_app by (apply (number_no cCOMMA lat H1); unfold cCOMMA; lia). rewrite split_notin by (apply (number_no cCOMMA lon H2); unfold cCOMMA; lia). reflexivity.
Qed.
Lemma remove_ch_no c s : ~ In c s -> remove_ch c s = s.
Proof. intros H. unfold remove_ch. apply filter_all. intros x Hx. destruct (N.eqb_spec x c) as [->|_]; [contradiction|reflexivity]. Qed.
Lemma adr_position E T x id y : address_heads T V40 x -> (geo_valid (ad_geo x) = true -> geo_text_ok T (ad_geo x)) ->
  parse_address T id (reread E (adr_line T V40 x)) = Some y -> ad_geo y = address_geo T (ad_geo x).
Proof.
  intros Hh Hg. destruct (address_kvs_plain T V40 x Hh) as [K1 K2].
  destruct (seen_text E (B "ADR") [] (B "ADR") (address_kvs T V40 x) (address_value x) (known_id (B "ADR") ltac:(in_known)) K2 K1) as (_ & _ & R').
  fold (adr_line T V40 x) in R'.
  assert (Hpar : vl_parameter (B "geo") (reread E (adr_line T V40 x)) = if geo_valid (ad_geo x) then geo_place T (ad_geo x) else []).
  { rewrite R'. unfold vl_parameter, vl_parameters. cbn [vl_params].
    assert (Hin : forall s, In s (match find_param (B "geo") (read_params (seen_ops (address_kvs T V40 x))) with Some vs => vs | None => [] end) <-> geo_valid (ad_geo x) = true /\ s = geo_place T (ad_geo x)).
    { intros s. rewrite read_values_in, seen_ops_in by auto. split.
      - intros (kv & Hin & Hx). change (address_kvs T V40 x) with (head_kvs T V40 x ++ type_kvs V40 (type_names address_types (ad_type x))) in Hin.
        apply in_app_or in Hin as [Hin|Hin].
        + unfold head_kvs in Hin. apply in_app_or in Hin as [Hin|Hin].
          * destruct (isnil (ad_label x)); [destruct Hin|]. destruct Hin as [<-|[]]. rewrite quoted_ops in Hx by discriminate. destruct Hx as [Hx|[]]. discriminate.
          * destruct (geo_valid (ad_geo x)); [|destruct Hin]. destruct Hin as [<-|[]]. rewrite quoted_ops in Hx by discriminate. destruct Hx as [Hx|[]]. injection Hx as <-. auto.
        + exfalso. destruct (type_names address_types (ad_type x)) as [|n names] eqn:En.
          * unfold type_kvs in Hin. destruct Hin as [<-|[]]; destruct Hx as [Hx|[]]; discriminate.
          * destruct (address_types_ok (ad_type x)) as [Ht _]. rewrite En in Ht. destruct (type_kvs_ops V40 (n :: names) kv Ht ltac:(discriminate) Hin _ s Hx) as [H _]. discriminate.
      - intros (Hv & ->). exists (B "GEO", [cDQ] ++ geo_place T (ad_geo x) ++ [cDQ]). split.
        + change (address_kvs T V40 x) with (head_kvs T V40 x ++ type_kvs V40 (type_names address_types (ad_type x))). apply in_or_app. left. unfold head_kvs. apply in_or_app. right. rewrite Hv. left. reflexivity.
        + rewrite quoted_ops by discriminate. left. reflexivity. }
    destruct (match find_param (B "geo") (read_params (seen_ops (address_kvs T V40 x))) with Some vs => vs | None => [] end) as [|s r].
    - destruct (geo_valid (ad_geo x)); [|reflexivity]. exfalso. apply (proj2 (Hin (geo_place T (ad_geo x)))). auto.
    - destruct (proj1 (Hin s) ltac:(left; reflexivity)) as [-> ->]. reflexivity. }
  unfold parse_address. rewrite Hpar. clear Hpar R'. destruct (split_string cSEMI (lvalue (reread E (adr_line T V40 x)))) as [ps|]; [|discriminate]. cbv zeta.
  set (lb := vl_parameter (B "label") _). set (ty := address_type_of _). clearbody lb ty.
  match goal with |- context [if isnil lb then ?u else ad_set_label _ ?u] => set (y0 := u) end.
  assert (H0 : ad_geo y0 = geo_new).
  { unfold y0, set_part. repeat match goal with |- context [match nth_error ?p ?n with _ => _ end] => destruct (nth_error p n) end; reflexivity. }
  set (z := if isnil lb then y0 else ad_set_label (unquote lb) y0).
  assert (Hz : ad_geo z = geo_new) by (unfold z; destruct (isnil lb); exact H0). clearbody z. clear y0 H0. unfold address_geo.
  destruct (geo_valid (ad_geo x)) eqn:Ev; [|intros H; injection H as <-; exact Hz].
  destruct (Hg eq_refl) as [H1 H2]. unfold geo_place. rewrite remove_ch_no.
  - destruct (place_parts _ _ H1 H2) as [-> ->]. 
    replace (mem cCOMMA (t_fmt6 T (g_lat (ad_geo x)) ++ [cCOMMA] ++ t_fmt6 T (g_lon (ad_geo x)))) with true by (symmetry; apply BaseFacts.mem_In; apply in_or_app; right; left; reflexivity).
    change (isnil (B "geo:" ++ t_fmt6 T (g_lat (ad_geo x)) ++ [cCOMMA] ++ t_fmt6 T (g_lon (ad_geo x)))) with false. cbn [negb andb].
    intros H. injection H as <-. reflexivity.
  - rewrite !in_app_iff. intros [H|[H|[[H|[]]|H]]]; [cbn in H; intuition discriminate|exact (number_no cDQ _ H1 ltac:(unfold cDQ; lia) H)|discriminate|exact (number_no cDQ _ H2 ltac:(unfold cDQ; lia) H)].
Qed.
