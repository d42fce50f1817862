(** What a card says is what the contact says (C77). *)
From Coq Require Import Permutation.
From Verif Require Import Base BaseFacts QtText Utf8 Utf8Facts M_ParamMap M_VCard M_VCardText S_Card P_Assoc P_Card S_Escape P_Escape
  S_Parse P_Parse P_Parse2 S_Soft P_Soft P_SoftLoop M_Split S_Split P_Split M_Values M_Date M_Addressee M_VCardTool P_ReadBack S_Order P_CardOrder P_Unknown
  S_Case P_Case P_Foreign P_RoundTrip P_RoundTrip2 S_Coding P_Coding P_ReadFields P_Contact P_Lists P_Fields P_Types S_Contact S_DateText P_DateText S_Meaning.

(** ** One line *)
Definition types_in (l : vline) : list bytes := vl_parameters (B "type") l.
Lemma type_free q : stored_key q = B "type" -> about_coding q = false.
Proof. intros H. destruct (about_coding q) eqn:E; [|reflexivity]. exfalso. apply (not_free_of q E). rewrite H. apply free_type. Qed.
Lemma add_types k v t x : In x (types_in (line_of (add1 k v t))) <-> In x (types_in (line_of t)) \/ (k = B "type" /\ x = v).
Proof.
  destruct t as [[l e] c]. unfold line_of, types_in, vl_parameters. cbn [add1 fst]. cbn [vl_add_param vl_set_params vl_params]. rewrite find_pm_add.
  destruct (leqb_spec (B "type") k) as [<-|N].
  - destruct (find_param (B "type") (vl_params l)) as [vs|].
    + destruct (contains v vs) eqn:C.
      * apply contains_In in C. split; [auto|]. intros [H|[_ ->]]; auto.
      * rewrite in_app_iff. cbn [In]. intuition.
    + cbn [In]. intuition.
  - intuition. subst. congruence.
Qed.
Lemma eat_types q t x : In x (types_in (line_of (eat q t))) <-> In x (types_in (line_of t)) \/ (stored_key q = B "type" /\ In x (values q)).
Proof.
  rewrite eat_fold. generalize (values q) as vs. intros vs. revert t. induction vs as [|v vs IH]; intros t; cbn [fold_left In]; [tauto|].
  rewrite IH, add_types. intuition.
Qed.
Lemma eat_all_types qs : forall t x, In x (types_in (line_of (eat_all qs t))) <->
  In x (types_in (line_of t)) \/ exists q, In q qs /\ stored_key q = B "type" /\ In x (values q).
Proof.
  induction qs as [|q qs IH]; intros t x.
  - cbn. split; [auto|]. intros [H|(q & [] & _)]. exact H.
  - unfold eat_all in *. cbn [fold_left]. rewrite IH, eat_types. split.
    + intros [[H|H]|(r & H1 & H2)]; [auto|right; exists q; cbn; tauto|right; exists r; cbn; tauto].
    + intros [H|(r & [<-|H1] & H2)]; [auto|auto|right; exists r; auto].
Qed.
Lemma stored_type q x : param_form q -> stored_key q = B "type" /\ In x (values q) <->
  ((~ In 61%N q /\ to_lower q <> B "quoted-printable" /\ to_lower q <> B "base64" /\ x = q) \/
   (exists k r, q = k ++ 61%N :: r /\ ~ In 34%N r /\ to_lower k = B "type" /\ In x (split 44%N r)) \/
   exists k vs r, in_quotes k vs r q /\ to_lower k = B "type" /\ (In x vs \/ In x (split 44%N r))).
Proof.
  assert (Hty : forall k, to_lower k = B "type" -> ~ In 61%N k).
  { intros k H K. apply (in_lower 61%N k eq_refl) in K. rewrite H in K. cbv in K. intuition discriminate. }
  intros [Hq|(k & vs & w & Hq)].
  - destruct (index_of 61%N q) as [i|] eqn:I.
    + apply index_of_Some in I as (k & r & -> & Hk & <-). destruct (key_parts k r Hk) as [-> ->].
      assert (N34 : ~ In 34%N r) by (intros K; apply (proj2 (proj2 Hq)); apply in_app_iff; right; right; exact K).
      unfold items. rewrite (proj2 (index_of_None 34%N r)) by auto. split.
      * intros [H1 H2]. right. left. exists k, r. auto.
      * intros [(H & _)|[(k' & r' & H1 & _ & H2 & H3)|(k' & vs & r' & (H1 & _) & _)]].
        -- exfalso; apply H; apply in_app_iff; right; left; reflexivity.
        -- destruct (split_at_eq _ _ _ _ Hk (Hty k' H2) H1) as [-> ->]. auto.
        -- exfalso. apply (proj2 (proj2 Hq)). rewrite H1. rewrite !in_app_iff. cbn [In]. rewrite !in_app_iff. cbn [In]. tauto.
    + apply index_of_None in I. unfold stored_key, values. rewrite (proj2 (index_of_None 61%N q)) by auto. unfold bare_key. split.
      * intros [H1 [<-|[]]]. left. split; [exact I|]. destruct (leqb_spec (to_lower q) (B "quoted-printable")) as [_|N1]; [discriminate|].
        destruct (leqb_spec (to_lower q) (B "base64")) as [_|N2]; [discriminate|]. auto.
      * intros [(_ & H2 & H3 & ->)|[(k & r & -> & _)|(k & vs & r & (-> & _) & _)]]; [|exfalso; apply I; apply in_app_iff; right; left; reflexivity..].
        rewrite !(proj2 (leqb_neq _ _)) by auto. cbn. auto.
  - destruct (parts_quoted k vs w q Hq) as [-> ->]. pose proof Hq as (E & Hk & Hk61 & Hv & Hw). split.
    + intros [H1 H2]. rewrite H1 in H2. change (leqb (B "type") (B "type")) with true in H2. right. right. exists k, vs, w. split; [exact Hq|]. split; [exact H1|].
      apply in_app_iff in H2. exact H2.
    + intros [(H & _)|[(k' & r' & H1 & H0 & H2 & H3)|(k' & vs' & r' & H1 & H2 & H3)]].
      * exfalso. apply H. rewrite E. apply in_app_iff; right; left; reflexivity.
      * rewrite E in H1. destruct (split_at_eq _ _ _ _ Hk61 (Hty k' H2) H1) as [_ <-]. exfalso. apply H0. rewrite !in_app_iff. cbn [In]. tauto.
      * destruct (parts_quoted k' vs' r' q H1) as [K1 K2]. destruct (parts_quoted k vs w q Hq) as [K3 K4]. rewrite K1 in K3. rewrite <- K3. rewrite <- K3 in K4.
        split; [exact H2|]. rewrite <- K4, K2, H2. change (leqb (B "type") (B "type")) with true. apply in_app_iff. exact H3.
Qed.

(** the values of a parameter in their order *)
Definition params_in (k : bytes) (m : pmap) : list bytes := match find_param k m with Some vs => vs | None => [] end.
Definition once (r : list bytes) (v : bytes) : list bytes := if contains v r then r else r ++ [v].
Lemma fold_once vs : fold_left once vs [] = firsts vs.
Proof. induction vs as [|v vs IH] using rev_ind; [reflexivity|]. rewrite fold_left_app, IH, firsts_snoc. reflexivity. Qed.
Lemma add_params k k' v t : params_in k (vl_params (line_of (add1 k' v t))) =
  if leqb k k' then once (params_in k (vl_params (line_of t))) v else params_in k (vl_params (line_of t)).
Proof.
  destruct t as [[l e] c]. unfold line_of, params_in. cbn [add1 fst vl_add_param vl_set_params vl_params]. rewrite find_pm_add.
  destruct (leqb_spec k k') as [->|]; [|reflexivity]. unfold once. destruct (find_param k' (vl_params l)) as [vs|]; [|reflexivity]. destruct (contains v vs); reflexivity.
Qed.
Lemma eat_params_in k q t : params_in k (vl_params (line_of (eat q t))) =
  fold_left once (if leqb (stored_key q) k then values q else []) (params_in k (vl_params (line_of t))).
Proof.
  rewrite eat_fold. rewrite leqb_sym. generalize (values q) as vs. intros vs. revert t. induction vs as [|v vs IH]; intros t.
  - destruct (leqb k (stored_key q)); reflexivity.
  - cbn [fold_left]. rewrite IH, add_params. destruct (leqb k (stored_key q)); reflexivity.
Qed.
Lemma eat_all_params k qs : forall t, params_in k (vl_params (line_of (eat_all qs t))) =
  fold_left once (flat_map (fun q => if leqb (stored_key q) k then values q else []) qs) (params_in k (vl_params (line_of t))).
Proof.
  induction qs as [|q qs IH]; intros t; [reflexivity|]. unfold eat_all in *. cbn [fold_left flat_map]. rewrite IH, eat_params_in, fold_left_app. reflexivity.
Qed.
Lemma kept_params k qs : kept_key k -> flat_map (fun q => if leqb (stored_key q) k then values q else []) (others qs) =
  flat_map (fun q => if leqb (stored_key q) k then values q else []) qs.
Proof.
  intros Hk. induction qs as [|q qs IH]; [reflexivity|]. unfold others in *. cbn [filter flat_map]. destruct (about_coding q) eqn:A; cbn [negb flat_map]; rewrite IH; [|reflexivity].
  destruct (leqb_spec (stored_key q) k) as [E|]; [|reflexivity]. exfalso. apply (not_free_of q A). rewrite E. exact Hk.
Qed.
Lemma reads_values q kv : param_form q -> reads_param q kv -> kv = (stored_key q, values q).
Proof.
  intros Hf [[H1 ->]|[(k & r & -> & H2 & H3 & ->)|(k & vs & r & H2 & ->)]].
  - unfold stored_key, values. rewrite (proj2 (index_of_None 61%N q)) by auto. reflexivity.
  - destruct (key_parts k r H2) as [-> ->]. unfold items. rewrite (proj2 (index_of_None 34%N r)) by auto. reflexivity.
  - destruct (parts_quoted k vs r q H2) as [-> ->]. reflexivity.
Qed.
Lemma flat_params k qs kvs : (forall q, In q qs -> param_form q) -> Forall2 reads_param qs kvs ->
  flat_map (fun q => if leqb (stored_key q) k then values q else []) qs = flat_map (fun kv => if leqb (fst kv) k then snd kv else []) kvs.
Proof.
  intros Hf. induction 1 as [|q kv qs kvs Hq _ IH]; [reflexivity|]. cbn [flat_map]. rewrite IH by (intros; apply Hf; right; auto).
  rewrite (reads_values q kv (Hf q (or_introl eq_refl)) Hq). reflexivity.
Qed.

Definition meant (l : vline) (p : said) : Prop :=
  vl_id l = sd_name p /\ vl_group l = [] /\ lvalue l = sd_text p /\ (forall v, In v (line_types l) <-> type_value v p) /\
  (forall k vs, kept_key k -> parameter p k vs -> vl_parameters k l = vs) /\
  (forall k, kept_key k -> find_param k (vl_params l) <> Some []) /\ forall k, exists vs, parameter p k vs.
Lemma add_filled k' v t : (forall k, find_param k (vl_params (line_of t)) <> Some []) -> forall k, find_param k (vl_params (line_of (add1 k' v t))) <> Some [].
Proof.
  intros H k. destruct t as [[l e] c]. unfold line_of in *. cbn [add1 fst vl_add_param vl_set_params vl_params] in *. rewrite find_pm_add.
  destruct (leqb k k'); [|apply H]. destruct (find_param k' (vl_params l)) as [vs|] eqn:F; [|discriminate].
  destruct (contains v vs); [rewrite <- F; apply H|]. intros K. injection K as K. destruct vs; discriminate.
Qed.
Lemma eat_filled qs : forall t, (forall k, find_param k (vl_params (line_of t)) <> Some []) -> forall k, find_param k (vl_params (line_of (eat_all qs t))) <> Some [].
Proof.
  induction qs as [|q qs IH]; intros t H; [exact H|]. unfold eat_all in *. cbn [fold_left]. apply IH. rewrite eat_fold. generalize (values q) as vs. intros vs. revert t H.
  induction vs as [|v vs IHv]; intros t H; [exact H|]. cbn [fold_left]. apply IHv. apply add_filled. exact H.
Qed.
Lemma param_reads q : param_form q -> exists kv, reads_param q kv.
Proof.
  intros [Hq|(k & vs & w & Hq)].
  - destruct (index_of 61%N q) as [i|] eqn:I.
    + apply index_of_Some in I as (k & r & -> & Hk & <-). eexists. right. left. exists k, r. split; [reflexivity|]. split; [exact Hk|]. split; [|reflexivity].
      intros K. apply (proj2 (proj2 Hq)). apply in_app_iff. right. right. exact K.
    + apply index_of_None in I. eexists. left. split; [exact I|reflexivity].
  - eexists. right. right. exists k, vs, w. split; [exact Hq|reflexivity].
Qed.
Lemma eat_id qs : forall t, vl_id (line_of (eat_all qs t)) = vl_id (line_of t) /\ vl_group (line_of (eat_all qs t)) = vl_group (line_of t).
Proof.
  assert (H1 : forall k v t, vl_id (line_of (add1 k v t)) = vl_id (line_of t) /\ vl_group (line_of (add1 k v t)) = vl_group (line_of t)) by (intros k v [[l e] c]; auto).
  assert (H2 : forall q t, vl_id (line_of (eat q t)) = vl_id (line_of t) /\ vl_group (line_of (eat q t)) = vl_group (line_of t)).
  { intros q t. rewrite eat_fold. generalize (values q) as vs. intros vs. revert t. induction vs as [|v vs IH]; intros t; [auto|]. cbn [fold_left].
    destruct (IH (add1 (stored_key q) v t)) as [-> ->]. apply H1. }
  induction qs as [|q qs IH]; intros t; [auto|]. unfold eat_all in *. cbn [fold_left]. destruct (IH (eat q t)) as [-> ->]. apply H2.
Qed.
Lemma expressed_meant E b p : expressed E b p -> meant (parse_pure E (content b)) p /\ safe b.
Proof.
  intros [Hn Hs]. split; [|exact (says_safe E _ _ _ _ Hn Hs)]. destruct (says_parts E _ _ _ _ Hn Hs) as [[(A1 & A2 & A3) A4] _].
  destruct (eat_id (others (sd_params p)) (start (sd_name p))) as [I1 I2]. split; [rewrite A1, I1; reflexivity|].
  split; [rewrite A2, I2; reflexivity|]. split; [exact A4|].
  assert (Hf : forall q, In q (sd_params p) -> param_form q).
  { apply Forall_forall. destruct Hs as (_ & _ & _ & _ & c & k & w & u & _ & (F & _) & _). exact F. }
  split.
  2:{ split; [|split]; [|intros k Hk; rewrite (A3 k Hk); apply eat_filled; intros k'; discriminate|].
      2:{ intros k. assert (X : exists kvs, Forall2 reads_param (sd_params p) kvs); [|destruct X as (kvs & X); eexists; exists kvs; split; [exact X|reflexivity]].
          revert Hf. generalize (sd_params p) as qs. induction qs as [|q qs IH]; intros Hf; [exists []; constructor|].
          destruct (param_reads q (Hf q (or_introl eq_refl))) as (kv & H1). destruct (IH (fun x Hx => Hf x (or_intror Hx))) as (kvs & H2). exists (kv :: kvs). constructor; auto. }
      intros k vs Hk (kvs & K1 & ->). unfold vl_parameters. rewrite (A3 k Hk). change (match find_param k ?m with Some vs => vs | None => [] end) with (params_in k m).
      rewrite eat_all_params. change (params_in k (vl_params (line_of (start (sd_name p))))) with (@nil bytes). rewrite fold_once. f_equal.
      rewrite (kept_params k _ Hk). apply flat_params; auto. }
  intros v. unfold line_types, vl_parameters.
  rewrite (A3 (B "type") free_type). fold (vl_parameters (B "type") (line_of (eat_all (others (sd_params p)) (start (sd_name p))))).
  change (In v (types_in (line_of (eat_all (others (sd_params p)) (start (sd_name p))))) <-> type_value v p).
  rewrite eat_all_types. unfold type_value. split.
  - intros [[]|(q & H1 & H2)]. apply filter_In in H1 as [H1 _]. exists q. split; [exact H1|]. apply stored_type; auto.
  - intros (q & H1 & H2). right. exists q. apply stored_type in H2; [|auto]. split; [|exact H2]. apply filter_In. split; [exact H1|]. rewrite (type_free q) by tauto. reflexivity.
Qed.

(** ** All lines *)
Lemma meant_in {A C} (R : A -> C -> Prop) L ps l : Forall2 R L ps -> In l L -> exists p, In p ps /\ R l p.
Proof.
  induction 1 as [|x p L ps Hx _ IH]; intros Hl; [destruct Hl|]. destruct Hl as [<-|Hl]; [exists p; cbn; auto|].
  destruct (IH Hl) as (q & Q1 & Q2). exists q. cbn. auto.
Qed.
Lemma single E nl b bs e : newline nl -> plain_bytes b -> plain_bytes e -> begin_line b -> end_line e -> Forall safe bs ->
  parses_to E (card_in nl [] b bs e []) [card_of (map (fun c => parse_pure E (content c)) bs)].
Proof.
  intros H1 H2 H3 H4 H5 H6. destruct (safe_cut E nl [] b e [] H1) as (p & r & H); auto.
  { exact (Forall_cons _ H2 (Forall_cons _ H3 (Forall_nil _))). } { constructor. }
  assert (O : parses_to E (card_in nl [] b [] e []) [card_of []]) by (apply (one_card E nl b [] e); auto).
  pose proof (H [] (Forall_nil _)) as K. destruct O as (n & O), K as (m & K).
  specialize (O (n + m) ltac:(lia)). specialize (K (n + m) ltac:(lia)). rewrite O in K. injection K as K.
  assert (L := f_equal (@length _) K). rewrite app_length in L. cbn in L. destruct p; [|cbn in L; lia]. destruct r; [|cbn in L; lia]. apply H. exact H6.
Qed.
Definition read_from (T : Tool) (L : list vline) (a : addressee) : Prop :=
  read_lines T 0 1 (in_order (card_of L)) (addressee_new (t_newid T 0 0)) = Some a.
Lemma contact_read T E ps (P : addressee -> Prop) :
  (forall L a, Forall2 meant L ps -> read_from T L a -> P a) -> reads_as_contact T E ps P.
Proof.
  intros H nl b bs e H1 H2 H3 H4 H5 H6.
  assert (Hm : Forall2 meant (map (fun c => parse_pure E (content c)) bs) ps /\ Forall safe bs).
  { clear - H6. induction H6 as [|c p bs ps Hw _ IH]; [split; constructor|]. destruct IH as [I1 I2]. destruct (expressed_meant E c p Hw). split; constructor; auto. }
  destruct Hm as [Hm Hs]. destruct (single E nl b bs e H1 H2 H3 H4 H5 Hs) as (n & Hn). exists n. intros fuel Hf. specialize (Hn fuel Hf).
  unfold parse_text. rewrite Hn. cbn [read_cards]. set (L := map (fun c => parse_pure E (content c)) bs) in *.
  unfold read_card. change (flat_map (fun id => card_lines id (card_of L)) (identifiers (card_of L))) with (in_order (card_of L)).
  destruct (read_lines T 0 1 (in_order (card_of L)) (addressee_new (t_newid T 0 0))) as [a|] eqn:R.
  - right. exists a. split; [reflexivity|]. apply (H L a); auto.
  - left. split; [reflexivity|]. apply read_lines_none in R. apply Exists_exists in R as (l & Hl & Hd). apply (proj1 (in_order_in _ _)) in Hl. pose proof (proj1 (proj2 Hd)) as Hk.
    assert (Hp : exists p, In p ps /\ meant l p).
    { exact (meant_in _ _ _ l Hm Hl). }
    destruct Hp as (p & Hp & Hi & _). rewrite Hi in Hk. intros K. apply app_eq_nil in K as [K1 K2]. destruct Hk as [Hk|Hk].
    + assert (I : In p (of_name "photo" ps)) by (apply filter_In; split; [exact Hp|]; unfold called; rewrite Hk; reflexivity). rewrite K1 in I. destruct I.
    + assert (I : In p (of_name "logo" ps)) by (apply filter_In; split; [exact Hp|]; unfold called; rewrite Hk; reflexivity). rewrite K2 in I. destruct I.
Qed.

(** ** The lines of one name *)
Definition keyed (K : lkind -> bool) (f : string) : Prop := forall n, K (kind_of kind_table n) = leqb n (B f).
Ltac keyed := let n := fresh in intros n; cbn [kind_of kind_table];
  repeat (match goal with |- context [if leqb n ?x then _ else _] => destruct (leqb_spec n x) as [->|?]; [reflexivity|] end);
  destruct (starts_with (B "x-") n); reflexivity.
Lemma meant_kind K f l p : keyed K f -> meant l p -> K (line_kind l) = called f p.
Proof. intros HK (H1 & H2 & _). unfold line_kind. rewrite H1, H2. cbn [isnil negb andb]. apply HK. Qed.
Lemma filter_meant K f L ps : keyed K f -> Forall2 meant L ps -> Forall2 meant (filter (fun l => K (line_kind l)) L) (of_name f ps).
Proof.
  intros HK. induction 1 as [|l p L ps Hl _ IH]; [constructor|]. unfold of_name in *. cbn [filter]. rewrite (meant_kind K f l p HK Hl).
  destruct (called f p); [constructor; auto|auto].
Qed.
Lemma lines_of K f L ps : keyed K f -> alike_in_case f ps -> Forall2 meant L ps ->
  Forall2 meant (filter (fun l => K (line_kind l)) (in_order (card_of L))) (of_name f ps).
Proof.
  intros HK Ha HL. pose proof (filter_meant K f L ps HK HL) as HM.
  assert (HS : exists n, forall l, In l L -> K (line_kind l) = true -> vl_id l = n).
  { unfold alike_in_case in Ha. destruct (of_name f ps) as [|q qs] eqn:Eq.
    - exists []. intros l H1 H2. inversion HM as [HM0|]; subst. assert (I : In l (filter (fun l => K (line_kind l)) L)) by (apply filter_In; auto). rewrite <- HM0 in I. destruct I.
    - exists (sd_name q). intros l H1 H2. assert (I : In l (filter (fun l => K (line_kind l)) L)) by (apply filter_In; auto).
      assert (X : exists p, In p (q :: qs) /\ meant l p).
      { exact (meant_in _ _ _ l HM I). }
      destruct X as (p & P1 & P2). rewrite (proj1 P2). apply Ha; [exact P1|left; reflexivity]. }
  destruct HS as [n HS].
  assert (Hx : filter (fun l => K (line_kind l)) (in_order (card_of L)) = filter (fun l => K (line_kind l)) L).
  { rewrite (filter_ext_in' _ (fun l => K (line_kind l) && leqb (vl_id l) n) (in_order (card_of L))).
    - rewrite (select_in_order _ n) by (intros l H; apply andb_true_iff in H as [_ H]; apply leqb_eq in H; exact H).
      apply filter_ext_in'. intros l Hl. destruct (K (line_kind l)) eqn:Ek; [|reflexivity]. rewrite (HS l Hl Ek), leqb_refl. reflexivity.
    - intros l Hl. apply (proj1 (in_order_in _ _)) in Hl. destruct (K (line_kind l)) eqn:Ek; [|reflexivity]. rewrite (HS l Hl Ek), leqb_refl. reflexivity. }
  rewrite Hx. exact HM.
Qed.

(** ** One field *)
Lemma fold_said {X} T (get : addressee -> X) K f (step : vline -> X -> X) ps L a :
  keyed K f -> (forall e x, get (put_empty e x) = get x) ->
  (forall id l x, K (line_kind l) = true -> get (eff T id l x) = step l (get x)) ->
  (forall id l x, K (line_kind l) = false -> get (eff T id l x) = get x) ->
  alike_in_case f ps -> Forall2 meant L ps -> read_from T L a ->
  exists M, Forall2 meant M (of_name f ps) /\ get a = fold_left (fun x l => step l x) M (get (addressee_new (t_newid T 0 0))).
Proof.
  intros HK He H1 H0 Ha HL Hr. exists (filter (fun l => K (line_kind l)) (in_order (card_of L))). split; [apply lines_of; auto|].
  exact (read_lines_plain T get K step 0 He H1 H0 _ _ _ _ Hr).
Qed.
Lemma meant_map {X} (g : vline -> X) (h : said -> X) M qs : (forall l p, meant l p -> g l = h p) -> Forall2 meant M qs -> map g M = map h qs.
Proof. intros H. induction 1 as [|l p M qs Hl _ IH]; [reflexivity|]. cbn [map]. rewrite (H l p Hl), IH. reflexivity. Qed.
Lemma fold_last {X} (g : vline -> X) M : forall x, fold_left (fun _ l => g l) M x = last (map g M) x.
Proof.
  induction M as [|l M IH]; intros x; [reflexivity|]. cbn [fold_left map]. rewrite IH. destruct M as [|m M]; [reflexivity|].
  cbn [map]. clear. generalize (map g M) as r. intros r. generalize (g m) as y. induction r as [|z r IH]; intros y; [reflexivity|]. apply IH.
Qed.
Lemma last_default {X} (l : list X) x y : l <> [] -> last l x = last l y.
Proof. intros H. destruct l as [|z l]; [congruence|]. clear. revert z. induction l as [|w l IH]; intros z; [reflexivity|]. apply IH. Qed.
Lemma text_said T get K f ps L a :
  keyed K f -> (forall e x, get (put_empty e x) = get x) ->
  (forall id l x, K (line_kind l) = true -> get (eff T id l x) = lvalue l) ->
  (forall id l x, K (line_kind l) = false -> get (eff T id l x) = get x) ->
  Forall2 meant L ps -> read_from T L a -> (of_name f ps = [] -> forall id, get (addressee_new id) = []) ->
  alike_in_case f ps -> get a = last_text f ps.
Proof.
  intros HK He H1 H0 HL Hr Hd Ha. destruct (fold_said T get K f (fun l _ => lvalue l) ps L a HK He H1 H0 Ha HL Hr) as (M & HM & ->).
  rewrite (fold_last lvalue), (meant_map lvalue sd_text M _ (fun l p H => proj1 (proj2 (proj2 H))) HM). unfold last_text.
  destruct (of_name f ps) as [|q qs]; [cbn; auto|]. apply last_default. discriminate.
Qed.
Ltac side := match goal with
  | |- keyed _ _ => keyed
  | |- forall e x, _ = _ => intros; reflexivity
  | |- forall id l x, _ -> _ => let id := fresh in let l := fresh in let x := fresh in intros id l x; eff_cases l
  | _ => idtac
  end.
Definition isk (k k' : lkind) : bool :=
  match k, k' with
  | LFn, LFn | LNote, LNote | LMailer, LMailer | LName, LName | LProdid, LProdid | LKind, LKind | LUid, LUid | LN, LN | LOrg, LOrg
  | LAdr, LAdr | LTel, LTel | LEmail, LEmail | LNickname, LNickname | LRole, LRole | LTitle, LTitle | LClientpidmap, LClientpidmap
  | LRelated, LRelated | LLang, LLang | LMember, LMember | LCategories, LCategories | LBday, LBday | LRev, LRev | LDeathdate, LDeathdate
  | LClass, LClass | LGender, LGender | LTz, LTz | LUrl, LUrl | LSource, LSource | LFburl, LFburl | LCaluri, LCaluri | LCaladruri, LCaladruri => true
  | _, _ => false
  end.

Lemma texts_said T E ps : reads_as_contact T E ps (fun a =>
  (alike_in_case "fn" ps -> a_formatted a = last_text "fn" ps) /\
  (alike_in_case "note" ps -> a_note a = last_text "note" ps) /\
  (alike_in_case "mailer" ps -> a_mailer a = last_text "mailer" ps) /\
  (alike_in_case "name" ps -> a_name a = last_text "name" ps) /\
  (alike_in_case "prodid" ps -> a_prodid a = last_text "prodid" ps) /\
  (alike_in_case "kind" ps -> a_kind a = last_text "kind" ps) /\
  (alike_in_case "uid" ps -> of_name "uid" ps <> [] -> a_uid a = last_text "uid" ps)).
Proof.
  apply contact_read. intros L a HL Hr.
  split; [apply (text_said T a_formatted (isk LFn) "fn" ps L); auto; side|].
  split; [apply (text_said T a_note (isk LNote) "note" ps L); auto; side|].
  split; [apply (text_said T a_mailer (isk LMailer) "mailer" ps L); auto; side|].
  split; [apply (text_said T a_name (isk LName) "name" ps L); auto; side|].
  split; [apply (text_said T a_prodid (isk LProdid) "prodid" ps L); auto; side|].
  split; [apply (text_said T a_kind (isk LKind) "kind" ps L); auto; side|].
  intros Ha Hne. apply (text_said T a_uid (isk LUid) "uid" ps L); auto; side. congruence.
Qed.

(** ** Values with components *)
Lemma parts_read sep l s : sep <> 92%N -> in_parts sep l s -> split_string sep s = Some l.
Proof. intros Hs (H1 & H2 & ->). apply (split_join_iff sep l Hs H1). exact H2. Qed.
Lemma nth_error_skipn_head {A} i : forall l : list A, nth_error (skipn i l) 0 = nth_error l i.
Proof. induction i as [|i IH]; intros [|x l]; try reflexivity. apply IH. Qed.
Lemma fold_part i : forall M ls x, Forall2 (fun m l => parts_of cSEMI m = l) M ls ->
  fold_left (fun x l => part i (parts_of cSEMI l) x) M x = last (flat_map (fun l => firstn 1 (skipn i l)) ls) x.
Proof.
  intros M ls. revert M. induction ls as [|l ls IH] using rev_ind; intros M x H.
  - inversion H. reflexivity.
  - apply Forall2_app_inv_r in H as (M1 & M2 & H1 & H2 & ->). inversion H2 as [|m ? M3 ? Hm H3]; subst. inversion H3; subst.
    rewrite fold_left_app, flat_map_app. cbn [fold_left flat_map]. rewrite (IH M1 x H1), app_nil_r. unfold part.
    rewrite <- (nth_error_skipn_head i (parts_of cSEMI m)). destruct (skipn i (parts_of cSEMI m)) as [|y r]; cbn [firstn nth_error].
    + rewrite app_nil_r. reflexivity.
    + rewrite last_last. reflexivity.
Qed.

Lemma part_said T get K f i ps L a ls :
  keyed K f -> (forall e x, get (put_empty e x) = get x) ->
  (forall id l x, K (line_kind l) = true -> get (eff T id l x) = part i (parts_of cSEMI l) (get x)) ->
  (forall id l x, K (line_kind l) = false -> get (eff T id l x) = get x) -> (forall id, get (addressee_new id) = []) ->
  Forall2 meant L ps -> read_from T L a -> alike_in_case f ps -> Forall2 (fun p l => in_parts 59 l (sd_text p)) (of_name f ps) ls ->
  get a = last_at i ls.
Proof.
  intros HK He H1 H0 Hd HL Hr Ha Hp. destruct (fold_said T get K f (fun l x => part i (parts_of cSEMI l) x) ps L a HK He H1 H0 Ha HL Hr) as (M & HM & ->).
  rewrite Hd. apply fold_part. clear - HM Hp. revert M HM. induction Hp as [|p l qs ls Hp _ IH]; intros M HM; inversion HM as [|m ? M' ? Hm HM']; subst; constructor; auto.
  unfold parts_of. rewrite (proj1 (proj2 (proj2 Hm))), (parts_read cSEMI l) by (discriminate || auto). reflexivity.
Qed.
Lemma name_said T E ps ls : alike_in_case "n" ps -> Forall2 (fun p l => in_parts 59 l (sd_text p)) (of_name "n" ps) ls ->
  reads_as_contact T E ps (fun a =>
    a_family a = last_at 0 ls /\ a_given a = last_at 1 ls /\ a_additional a = last_at 2 ls /\ a_prefix a = last_at 3 ls /\ a_suffix a = last_at 4 ls).
Proof.
  intros Ha Hp. apply contact_read. intros L a HL Hr.
  split; [apply (part_said T a_family (isk LN) "n" 0 ps L); auto; side|].
  split; [apply (part_said T a_given (isk LN) "n" 1 ps L); auto; side|].
  split; [apply (part_said T a_additional (isk LN) "n" 2 ps L); auto; side|].
  split; [apply (part_said T a_prefix (isk LN) "n" 3 ps L); auto; side|].
  apply (part_said T a_suffix (isk LN) "n" 4 ps L); auto; side.
Qed.
Lemma org_said T E ps ls : alike_in_case "org" ps -> Forall2 (fun p l => in_parts 59 l (sd_text p)) (of_name "org" ps) ls ->
  reads_as_contact T E ps (fun a => map pt_text (a_orgs a) = filter not_empty (map (hd []) ls) /\ a_department a = last_at 1 ls).
Proof.
  intros Ha Hp. apply contact_read. intros L a HL Hr.
  split; [|apply (part_said T a_department (isk LOrg) "org" 1 ps L); auto; side].
  destruct (fold_said T a_orgs (isk LOrg) "org" (fun l x => match nth_error (parts_of cSEMI l) 0 with Some s => add_first (mkPtext (vl_params l) s) x | None => x end) ps L a)
    as (M & HM & ->); auto; side.
  cbn [a_orgs addressee_new]. change (filter not_empty (map (hd []) ls)) with (map pt_text [] ++ filter not_empty (map (hd []) ls)). generalize (@nil ptext) as init.
  clear - HM Hp. revert M HM. induction Hp as [|p l qs ls Hp _ IH]; intros M HM init; inversion HM as [|m ? M' ? Hm HM']; subst; [cbn; rewrite app_nil_r; reflexivity|].
  cbn [fold_left map filter]. rewrite (IH _ HM').
  unfold parts_of. rewrite (proj1 (proj2 (proj2 Hm))), (parts_read cSEMI l) by (discriminate || auto). destruct Hp as (Hl & _). destruct l as [|s l]; [congruence|].
  cbn [nth_error hd]. unfold add_first, ptext_valid, not_empty. cbn [pt_text]. destruct (isnil s) eqn:Es; cbn [negb]; [reflexivity|]. rewrite map_app, <- app_assoc. reflexivity.
Qed.

(** ** Lists of texts *)
Lemma list_said T get K f ps L a :
  keyed K f -> (forall e x, get (put_empty e x) = get x) ->
  (forall id l x, K (line_kind l) = true -> get (eff T id l x) = add_first (line_ptext l) (get x)) ->
  (forall id l x, K (line_kind l) = false -> get (eff T id l x) = get x) -> (forall id, get (addressee_new id) = []) ->
  Forall2 meant L ps -> read_from T L a -> alike_in_case f ps ->
  map pt_text (get a) = filter not_empty (map sd_text (of_name f ps)).
Proof.
  intros HK He H1 H0 Hd HL Hr Ha. destruct (fold_said T get K f (fun l x => add_first (line_ptext l) x) ps L a HK He H1 H0 Ha HL Hr) as (M & HM & ->).
  rewrite Hd. change (filter not_empty (map sd_text (of_name f ps))) with (map pt_text [] ++ filter not_empty (map sd_text (of_name f ps))). generalize (@nil ptext) as init.
  induction HM as [|m p M qs Hm _ IH]; intros init; [cbn; rewrite app_nil_r; reflexivity|]. cbn [fold_left map filter]. rewrite IH.
  unfold add_first, ptext_valid, not_empty, line_ptext. cbn [pt_text]. rewrite (proj1 (proj2 (proj2 Hm))).
  destruct (isnil (sd_text p)); cbn [negb]; [reflexivity|]. rewrite map_app, <- app_assoc. cbn [map pt_text app]. reflexivity.
Qed.
Lemma fold_only {X} T (get : addressee -> list X) K f (step : vline -> list X -> list X) (key : X -> ustring) (keep : ustring -> bool) ps L a :
  keyed K f -> (forall e x, get (put_empty e x) = get x) ->
  (forall id l x, K (line_kind l) = true -> get (eff T id l x) = step l (get x)) ->
  (forall id l x, K (line_kind l) = false -> get (eff T id l x) = get x) -> (forall id, get (addressee_new id) = []) ->
  (forall l x t, In t (map key (step l x)) <-> In t (map key x) \/ (keep (lvalue l) = true /\ t = lvalue l)) ->
  Forall2 meant L ps -> read_from T L a ->
  forall t, In t (map key (get a)) <-> In t (filter keep (map sd_text (of_name f ps))).
Proof.
  intros HK He H1 H0 Hd Hs HL Hr t. unfold read_from in Hr. rewrite (read_lines_plain T get K step 0 He H1 H0 _ _ _ _ Hr), Hd.
  set (M := filter (fun l => K (line_kind l)) (in_order (card_of L))).
  assert (HF : forall M x, In t (map key (fold_left (fun x l => step l x) M x)) <-> In t (map key x) \/ exists l, In l M /\ keep (lvalue l) = true /\ t = lvalue l).
  { clear M. induction M as [|m M IH]; intros x; cbn [fold_left].
    - split; [auto|]. intros [H|(l & [] & _)]. exact H.
    - rewrite IH, Hs. split.
      + intros [[H|H]|(l & H2 & H3)]; [auto|right; exists m; cbn; tauto|right; exists l; cbn; tauto].
      + intros [H|(l & [<-|H2] & H3)]; [auto|auto|right; exists l; auto]. }
  rewrite HF. cbn [map In]. rewrite filter_In, in_map_iff. pose proof (filter_meant K f L ps HK HL) as HM. split.
  - intros [[]|(l & Hl & Hk & ->)]. subst M. apply filter_In in Hl as [Hl Hl']. apply (proj1 (in_order_in _ _)) in Hl.
    destruct (meant_in _ _ _ l HM) as (p & P1 & P2); [apply filter_In; auto|]. split; [|exact Hk]. exists p. split; [symmetry; apply P2|exact P1].
  - intros ((p & <- & Hp) & Hk). right.
    assert (HX : exists l, In l (filter (fun l => K (line_kind l)) L) /\ meant l p).
    { clear - HM Hp. induction HM as [|x q M qs Hx _ IH]; [destruct Hp|]. destruct Hp as [<-|Hp]; [exists x; cbn; auto|]. destruct (IH Hp) as (l & L1 & L2). exists l. cbn. auto. }
    destruct HX as (l & Hl & Hm). exists l. rewrite (proj1 (proj2 (proj2 Hm))). split; [|auto]. apply filter_In in Hl as [Hl Hl']. apply filter_In. split; [apply in_order_in; exact Hl|exact Hl'].
Qed.
Lemma add_email_texts e l t : In t (map em_mail (add_email_list e l)) <-> In t (map em_mail l) \/ t = em_mail e.
Proof.
  unfold add_email_list. destruct (find_split (fun x => leqb (em_mail x) (em_mail e)) l) as [[[b x] r]|] eqn:F.
  - apply find_split_Some in F as (-> & Hx & _). apply leqb_eq in Hx. destruct (email_preferred e); rewrite ?map_cons, !map_app, ?map_cons; cbn [In]; rewrite !in_app_iff; cbn [In]; rewrite Hx; intuition.
  - destruct (email_preferred e); rewrite ?map_cons, ?map_app; cbn [In map]; rewrite ?in_app_iff; cbn [In]; intuition.
Qed.
Lemma insert_lang_texts x l t : In t (map pt_text (insert_lang_list x l)) <-> In t (map pt_text l) \/ t = pt_text x.
Proof.
  unfold insert_lang_list. destruct (find_split (fun y => leqb (pt_text y) (pt_text x)) l) as [[[b y] r]|] eqn:F.
  - apply find_split_Some in F as (-> & Hx & _). apply leqb_eq in Hx. rewrite !map_app, !map_cons, !in_app_iff. cbn [In pt_text]. rewrite Hx. intuition.
  - rewrite map_app, in_app_iff. cbn [map In]. intuition.
Qed.
Lemma lists_said T E ps : reads_as_contact T E ps (fun a =>
  (alike_in_case "nickname" ps -> map pt_text (a_nicks a) = filter not_empty (map sd_text (of_name "nickname" ps))) /\
  (alike_in_case "title" ps -> map pt_text (a_titles a) = filter not_empty (map sd_text (of_name "title" ps))) /\
  (alike_in_case "role" ps -> map pt_text (a_roles a) = filter not_empty (map sd_text (of_name "role" ps))) /\
  (alike_in_case "clientpidmap" ps -> map pt_text (a_pidmaps a) = filter not_empty (map sd_text (of_name "clientpidmap" ps))) /\
  (forall t, In t (map em_mail (a_emails a)) <-> In t (map sd_text (of_name "email" ps))) /\
  (forall t, In t (map pt_text (a_related a)) <-> In t (map sd_text (of_name "related" ps))) /\
  (forall t, In t (a_members a) <-> In t (map sd_text (of_name "member" ps))) /\
  (forall t, In t (map pt_text (a_langs a)) <-> In t (filter visible (map sd_text (of_name "lang" ps))))).
Proof.
  apply contact_read. intros L a HL Hr.
  assert (Hall : forall l : list ustring, filter (fun _ => true) l = l) by (induction l as [|x l IH]; [reflexivity|cbn; congruence]).
  split; [apply (list_said T a_nicks (isk LNickname) "nickname" ps L); auto; side|].
  split; [apply (list_said T a_titles (isk LTitle) "title" ps L); auto; side|].
  split; [apply (list_said T a_roles (isk LRole) "role" ps L); auto; side|].
  split; [apply (list_said T a_pidmaps (isk LClientpidmap) "clientpidmap" ps L); auto; side|].
  split; [|split; [|split]].
  - intros t. rewrite <- (Hall (map sd_text (of_name "email" ps))).
    apply (fold_only T a_emails (isk LEmail) "email" (fun l x => add_email_list (mkEmail (vl_params l) (lvalue l)) x) em_mail (fun _ => true) ps L); auto; side.
    intros l x u. rewrite add_email_texts. cbn [em_mail]. intuition.
  - intros t. rewrite <- (Hall (map sd_text (of_name "related" ps))).
    apply (fold_only T a_related (isk LRelated) "related" (fun l x => if existsb (fun y => ptext_eq y (line_ptext l)) x then x else x ++ [line_ptext l]) pt_text (fun _ => true) ps L); auto; side.
    intros l x u. destruct (existsb (fun y => ptext_eq y (line_ptext l)) x) eqn:Ex.
    + apply existsb_exists in Ex as (y & Hy & Ey). unfold ptext_eq in Ey. apply andb_true_iff in Ey as [_ Ey]. apply leqb_eq in Ey. cbn [pt_text line_ptext] in Ey.
      split; [auto|]. intros [H|[_ ->]]; [exact H|]. rewrite <- Ey. apply in_map. exact Hy.
    + rewrite map_app, in_app_iff. cbn [map In pt_text line_ptext]. intuition.
  - intros t. rewrite <- (Hall (map sd_text (of_name "member" ps))). rewrite <- (map_id (a_members a)).
    apply (fold_only T a_members (isk LMember) "member" (fun l x => if contains (lvalue l) x then x else x ++ [lvalue l]) (fun s => s) (fun _ => true) ps L); auto; side.
    intros l x u. rewrite !map_id. destruct (contains (lvalue l) x) eqn:Ex.
    + apply contains_In in Ex. split; [auto|]. intros [H|[_ ->]]; auto.
    + rewrite in_app_iff. cbn [In]. intuition.
  - apply (fold_only T a_langs (isk LLang) "lang" (fun l x => if isnil (simplified (lvalue l)) then x else insert_lang_list (line_ptext l) x) pt_text visible ps L); auto; side.
    intros l x u. unfold visible, not_empty. destruct (isnil (simplified (lvalue l))); cbn [negb]; [intuition discriminate|]. rewrite insert_lang_texts. cbn [pt_text line_ptext]. intuition.
Qed.
