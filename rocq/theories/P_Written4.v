(** The single values of a written card (C80): dates, positions, zones, classes. *)
From Coq Require Import Permutation.
From Verif Require Import Base BaseFacts QtText Utf8 Utf8Facts M_ParamMap M_VCard M_VCardText
  S_Escape P_Escape S_Fold P_Fold S_CardText P_CardText S_Card P_Assoc P_Card S_Parse P_Parse P_Parse2
  S_RoundTrip P_RoundTrip P_RoundTrip2 P_RoundTrip3 P_ReadBack P_Items P_Order
  M_Split S_Split P_Split M_Values M_Date M_Addressee M_VCardTool S_Contact P_Seen P_ReadFields P_Lines P_Contact P_Chunks
  P_Types P_Addr P_Contact2 P_Fields P_Fields2 S_Soft S_Order S_Coding S_Meaning S_Written P_Written P_Written2 P_Written3 S_DateText S_Date P_Date P_Values P_Fields4 P_Fields5 P_Four P_Own.
From Coq Require Import Lia ZArith.

Lemma zpad2_two z : (0 <= z < 100)%Z -> zpad 2 z = two z.
Proof.
  intros H. assert (Ha : forallb (fun n => leqb (zpad 2 (Z.of_nat n)) (two (Z.of_nat n))) (seq 0 100) = true) by (vm_compute; reflexivity).
  rewrite forallb_forall in Ha. specialize (Ha (Z.to_nat z)). rewrite Z2Nat.id in Ha by lia. apply leqb_eq, Ha. apply in_seq. lia.
Qed.
Lemma zpad4_four z : (0 <= z < 10000)%Z -> zpad 4 z = four z.
Proof.
  intros H. destruct (zpad_spec 4 z) as (L & D & V); [lia|exact H|].
  destruct (zpad 4 z) as [|a [|b [|c [|d [|]]]]] eqn:E; try discriminate.
  cbn [forallb] in D. rewrite !andb_true_iff in D. destruct D as (Da & Db & Dc & Dd & _). unfold is_digit in *. cbn [digits_value fold_left] in V. unfold digits_value in V. cbn [fold_left] in V.
  unfold four, two. cbn [app]. rewrite <- V. repeat f_equal; Z.div_mod_to_equations; lia.
Qed.

Lemma date_says d v (w : bool) : match dt_date d with None => True | Some x => storable_date x /\ (w = true -> (exists t, dt_time d = Some t /\ storable_time t) /\ storable_spec (dt_spec d)) end ->
  says_date d w (create_datetime d v w).
Proof.
  unfold says_date, create_datetime. destruct (dt_date d) as [x|]; [|reflexivity]. intros [[Hy Hd] Hw].
  assert (Hx : date_text x (create_date x v)).
  { unfold date_ok in Hd. rewrite !andb_true_iff in Hd. assert (Hm : (d_month x <= 12 /\ 1 <= d_month x /\ 1 <= d_day x <= 31)%Z).
    { assert (month_days (d_year x) (d_month x) <= 31)%Z by (unfold month_days; repeat match goal with |- context [if ?b then _ else _] => destruct b end; lia). lia. }
    unfold date_text, create_date. destruct (Z.ltb_spec 0 (d_year x)).
    - left. split; [lia|]. rewrite zpad4_four, !zpad2_two by lia. destruct v; cbn [app]; auto.
    - right. split; [lia|]. rewrite !zpad2_two by lia. destruct v; cbn [app]; auto. }
  exists (create_date x v). split; [exact Hx|]. destruct w; [|reflexivity]. cbn [negb]. destruct (Hw eq_refl) as [(t & Et & Ht) Hz].
  rewrite Et. destruct Ht as (T1 & T2 & T3 & T4). exists t. eexists. eexists. split; [reflexivity|].
  match goal with |- _ /\ _ /\ _ ++ create_time _ _ ++ ?z = _ => assert (HZ : zone_text (dt_spec d) z) end.
  { unfold zone_text. destruct (dt_spec d) as [| |o|]; [auto|auto| |destruct Hz]. right. right. destruct Hz as (Z0 & Z1 & (k & Zk)).
    exists (0 <=? o)%Z, (Z.abs o / 3600)%Z, ((Z.abs o / 60) mod 60)%Z. cbv zeta. rewrite (Z.mod_small (Z.abs o)) by lia.
    assert (Eo : (Z.abs o / 3600 * 3600 + (Z.abs o / 60) mod 60 * 60 = Z.abs o)%Z) by (Z.div_mod_to_equations; lia).
    assert (0 <= Z.abs o / 3600 < 100)%Z by (Z.div_mod_to_equations; lia). assert (0 <= (Z.abs o / 60) mod 60 < 60)%Z by (Z.div_mod_to_equations; lia).
    rewrite Eo, !zpad2_two by lia. split; [lia|]. split; [lia|]. split; [lia|]. split.
    - destruct (Z.eqb_spec (Z.abs o) 0); [lia|]. destruct (Z.leb_spec 0 o); f_equal; lia.
    - right. destruct (Z.leb_spec 0 o); destruct v; cbn [app]; auto. }
  split; [|split; [exact HZ|unfold create_time; reflexivity]].
  unfold time_text. split; [exact T4|]. right. right. rewrite !zpad2_two by lia. destruct v; cbn [app]; auto.
Qed.
Lemma offset_says o : (-6000 < o < 6000)%Z -> says_offset o (create_tz o).
Proof.
  intros H. unfold says_offset, create_tz. cbv zeta. exists (0 <=? o)%Z, (Z.abs o / 60)%Z, (Z.abs o mod 60)%Z.
  assert (0 <= Z.abs o / 60 < 100)%Z by (Z.div_mod_to_equations; lia). assert (0 <= Z.abs o mod 60 < 60)%Z by (Z.div_mod_to_equations; lia).
  assert (Eo : (Z.abs o / 60 * 60 + Z.abs o mod 60 = Z.abs o)%Z) by (Z.div_mod_to_equations; lia).
  split; [split; [lia|]; split; [lia|]; rewrite Eo; destruct (Z.leb_spec 0 o); lia|].
  assert (Q : (Z.quot o 60 * (if o <? 0 then -1 else 1) = Z.abs o / 60)%Z) by (destruct (Z.ltb_spec o 0); Z.quot_rem_to_equations; Z.div_mod_to_equations; lia).
  assert (R : (Z.rem o 60 * (if o <? 0 then -1 else 1) = Z.abs o mod 60)%Z) by (destruct (Z.ltb_spec o 0); Z.quot_rem_to_equations; Z.div_mod_to_equations; lia).
  rewrite Q, R, !zpad2_two by lia. destruct (Z.leb_spec 0 o); reflexivity.
Qed.
(** ** Single values *)
Lemma one_put {A C} (R : said -> A -> Prop) (S : said -> C -> Prop) l x y : Forall2 R l [x] -> (forall p, R p x -> S p y) -> Forall2 S l [y].
Proof. intros H HS. inversion H as [|p ? ps ? H1 H2]; subst. inversion H2; subst. constructor; auto. Qed.
Lemma part_put E i u l : In i known -> u = join_components 59 l -> i <> B "CATEGORIES" -> Forall (fun s => ~ In 59%N s) l ->
  Forall2 (fun p x => sd_params p = [] /\ holds_parts 59 p x) (puts E [text_line i u]) (if isnil u then [] else [l]).
Proof.
  intros Hi -> Hc Hl. assert (H : Forall2 (fun p x => sd_params p = [] /\ holds_parts 59 p x) (puts E (map (fun x => text_line i (join_components 59 x)) [l])) (filter (fun x => not_empty (join_components 59 x)) [l])).
  { apply puts_map. intros x [<-|[]]. change (text_line i (join_components 59 l)) with (add_all [] (text_line i (join_components 59 l))).
    split; [apply text_loud; [auto|constructor|constructor]|]. intros _. split; [rewrite text_put by constructor; reflexivity|].
    apply parts_held; [|auto|constructor|constructor]. rewrite (proj2 (leqb_neq _ _) Hc). reflexivity. }
  cbn [map filter] in H. unfold not_empty in H. destruct (isnil (join_components 59 l)); exact H.
Qed.
Lemma valued_put E i kvs f u : In i known -> NoDup (map fst kvs) -> Forall plain_item kvs -> map iput (items_of (read_params kvs)) = f ->
  Forall2 (fun p x => sd_params p = f /\ holds_text p x) (puts E [add_all kvs (text_line i u)]) (filter not_empty [u]).
Proof.
  intros Hi Hn Hp <-. apply (puts_map E (fun u => add_all kvs (text_line i u)) not_empty (fun p x => sd_params p = _ /\ holds_text p x) [u]). intros x _. split; [apply text_loud; auto|].
  intros _. split; [rewrite text_put by auto; reflexivity|apply text_held; auto].
Qed.
Lemma date_item : plain_item (B "VALUE", B "DATE").
Proof. apply upper_plain; [apply ikey_dec; reflexivity|discriminate|cbv; intuition discriminate|discriminate|discriminate|apply ivalue_dec; reflexivity]. Qed.
Lemma join_colon_nil sep l : isnil (join_components sep l) = match l with [] | [[]] => true | _ => false end.
Proof.
  destruct l as [|s [|t l]]; [reflexivity| |].
  - unfold join_components. cbn [map join]. destruct s as [|c s]; [reflexivity|]. unfold escape_sep, replace_ch. cbn [flat_map]. destruct (N.eqb c sep); reflexivity.
  - replace (match s with [] | _ => false end) with false by (destruct s; reflexivity). apply isnil_false. intros K. assert (H : In sep (join_components sep (s :: t :: l))); [|rewrite K in H; destruct H].
    unfold join_components. cbn [map join]. apply in_or_app. right. left. reflexivity.
Qed.
Lemma put_values T E v export a : fits T v a -> let ps := puts E (written (create_card T v export a)) in
  (Forall (fun s => ~ In 44%N s) (a_categories a) ->
     Forall2 (fun p l => sd_params p = [] /\ holds_parts 44 p l) (of_name "categories" ps) (match v, a_categories a with V21, _ | _, [] | _, [[]] => [] | _, l => [l] end)) /\
  only_texts "class" (match v, a_secrecy a with V30, SPublic => [B "PUBLIC"] | V30, SPrivate => [B "PRIVATE"] | V30, SConfidential => [B "CONFIDENTIAL"] | _, _ => [] end) ps /\
  (~ In 59%N (ge_gender (a_gender a)) -> ~ In 59%N (ge_comment (a_gender a)) ->
     Forall2 (fun p l => sd_params p = [] /\ holds_parts 59 p l) (of_name "gender" ps)
       (match v, ge_gender (a_gender a), ge_comment (a_gender a) with V40, [], [] => [] | V40, g, [] => [[g]] | V40, g, c => [[g; c]] | _, _, _ => [] end)) /\
  ((tz_valid (a_tz a) = true -> -6000 < tz_offset (a_tz a) < 6000)%Z ->
     Forall2 (fun p o => sd_params p = [] /\ exists s, says_offset o s /\ holds_text p s) (of_name "tz" ps) (if tz_valid (a_tz a) then [tz_offset (a_tz a)] else [])) /\
  (~ In 59%N (t_fmt6 T (g_lat (a_geo a))) -> ~ In 59%N (t_fmt6 T (g_lon (a_geo a))) ->
     Forall2 (fun p (x : ustring * ustring) => sd_params p = [] /\ match v with V40 => holds_text p (B "geo:" ++ fst x ++ [44%N] ++ snd x) | _ => holds_parts 59 p [fst x; snd x] end)
       (of_name "geo" ps) (if geo_valid (a_geo a) then [(t_fmt6 T (g_lat (a_geo a)), t_fmt6 T (g_lon (a_geo a)))] else [])).
Proof.
  intros Hf ps. unfold ps. assert (Hm : forall b i l, map (text_line i) (when b l) = when b (map (text_line i) l)) by (intros [] ? ?; reflexivity).
  repeat match goal with |- _ /\ _ => split end.
  - intros Hs. rewrite (of_name_puts T E v export a "categories" (B "CATEGORIES")); put_side; auto.
    change (flat_map (pick (B "CATEGORIES")) (chunks T v export a)) with (when (negb (is21 v)) [text_line (B "CATEGORIES") (join_components 44 (a_categories a))] ++ []). rewrite app_nil_r.
    assert (H : Forall2 (fun p x => sd_params p = [] /\ holds_parts 44 p x) (puts E (map (fun x => text_line (B "CATEGORIES") (join_components 44 x)) [a_categories a])) (filter (fun x => not_empty (join_components 44 x)) [a_categories a])).
    { apply puts_map. intros x [<-|[]]. change (text_line (B "CATEGORIES") ?z) with (add_all [] (text_line (B "CATEGORIES") z)).
      split; [apply text_loud; [in_known|constructor|constructor]|]. intros _. split; [rewrite text_put by constructor; reflexivity|].
      apply parts_held; [reflexivity|auto|constructor|constructor]. }
    cbn [map filter] in H. unfold not_empty in H. rewrite join_colon_nil in H. destruct v; cbn [is21 negb when]; [constructor| |];
      destruct (a_categories a) as [|[|c s] [|t l]]; exact H.
  - unfold only_texts. rewrite (of_name_puts T E v export a "class" (B "CLASS")); put_side; auto.
    change (flat_map (pick (B "CLASS")) (chunks T v export a)) with (when (is30 v) [secrecy_line (a_secrecy a)] ++ []). rewrite app_nil_r.
    destruct v; cbn [is30 when]; [constructor| |constructor]. destruct (a_secrecy a); [apply (texts_put E (B "CLASS") [_]); in_known..|constructor].
  - intros G1 G2. rewrite (of_name_puts T E v export a "gender" (B "GENDER")); put_side; auto.
    change (flat_map (pick (B "GENDER")) (chunks T v export a)) with (when (is40 v) (when (gender_valid (a_gender a)) [text_line (B "GENDER") (gender_text (a_gender a))]) ++ []). rewrite app_nil_r.
    destruct v; cbn [is40 when]; [constructor|constructor|]. unfold gender_valid, gender_text. destruct (ge_comment (a_gender a)) as [|c r].
    + rewrite app_nil_r, orb_false_r. destruct (ge_gender (a_gender a)) as [|d q]; cbn [isnil negb when]; [constructor|].
      apply (part_put E (B "GENDER") (d :: q) [d :: q]); [in_known| |discriminate|repeat constructor; auto].
      unfold join_components. cbn [map join]. rewrite escape_free by auto. reflexivity.
    + cbn [isnil negb]. rewrite orb_true_r. cbn [when].
      pose proof (part_put E (B "GENDER") (ge_gender (a_gender a) ++ [cSEMI] ++ c :: r) [ge_gender (a_gender a); c :: r] ltac:(in_known)) as H.
      rewrite (proj2 (isnil_false _)) in H by (destruct (ge_gender (a_gender a)); discriminate).
      replace (match ge_gender (a_gender a) with [] => [[ge_gender (a_gender a); c :: r]] | _ => [[ge_gender (a_gender a); c :: r]] end) with [[ge_gender (a_gender a); c :: r]] in * by (destruct (ge_gender (a_gender a)); reflexivity).
      assert (H' : Forall2 (fun p x => sd_params p = [] /\ holds_parts 59 p x) (puts E [text_line (B "GENDER") (ge_gender (a_gender a) ++ [cSEMI] ++ c :: r)]) [[ge_gender (a_gender a); c :: r]]).
      { apply H; [|discriminate|repeat constructor; auto]. unfold join_components. cbn [map join]. rewrite !escape_free by auto. reflexivity. }
      destruct (ge_gender (a_gender a)); exact H'.
  - intros Hz. rewrite (of_name_puts T E v export a "tz" (B "TZ")); put_side; auto.
    change (flat_map (pick (B "TZ")) (chunks T v export a)) with (when (tz_valid (a_tz a)) [text_line (B "TZ") (create_tz (tz_offset (a_tz a)))] ++ []). rewrite app_nil_r.
    destruct (tz_valid (a_tz a)); cbn [when]; [|constructor]. pose proof (offset_says _ (Hz eq_refl)) as Ho.
    pose proof (texts_put E (B "TZ") [create_tz (tz_offset (a_tz a))] ltac:(in_known)) as H. cbn [map filter] in H.
    replace (not_empty (create_tz (tz_offset (a_tz a)))) with true in H by (unfold create_tz; cbv zeta; destruct (0 <=? _)%Z; reflexivity).
    eapply one_put; [exact H|]. intros p [H1 H2]. split; [exact H1|]. eexists. split; [exact Ho|exact H2].
  - intros G1 G2. rewrite (of_name_puts T E v export a "geo" (B "GEO")); put_side; auto.
    change (flat_map (pick (B "GEO")) (chunks T v export a)) with (geo_lines T v (a_geo a) ++ []). rewrite app_nil_r. unfold geo_lines.
    destruct (geo_valid (a_geo a)); [|constructor].
    assert (H21 : Forall2 (fun p x => sd_params p = [] /\ holds_parts 59 p [fst x; snd x]) (puts E [text_line (B "GEO") (t_fmt6 T (g_lat (a_geo a)) ++ [cSEMI] ++ t_fmt6 T (g_lon (a_geo a)))])
       [(t_fmt6 T (g_lat (a_geo a)), t_fmt6 T (g_lon (a_geo a)))]).
    { pose proof (part_put E (B "GEO") (t_fmt6 T (g_lat (a_geo a)) ++ [cSEMI] ++ t_fmt6 T (g_lon (a_geo a))) [t_fmt6 T (g_lat (a_geo a)); t_fmt6 T (g_lon (a_geo a))] ltac:(in_known)) as H.
      rewrite (proj2 (isnil_false _)) in H by (destruct (t_fmt6 T (g_lat (a_geo a))); discriminate).
      assert (H' := H ltac:(unfold join_components; cbn [map join]; rewrite !escape_free by auto; reflexivity) ltac:(discriminate) ltac:(repeat constructor; auto)). clear H.
      eapply one_put; [exact H'|]. intros p Hp. exact Hp. }
    destruct v; [exact H21|exact H21|]. pose proof (texts_put E (B "GEO") [B "geo:" ++ t_fmt6 T (g_lat (a_geo a)) ++ [44%N] ++ t_fmt6 T (g_lon (a_geo a))] ltac:(in_known)) as H.
    cbn [map] in H. change (filter not_empty [B "geo:" ++ ?z]) with [B "geo:" ++ z] in H.
    eapply one_put; [exact H|]. intros p Hp. exact Hp.
Qed.
Definition date_fits (d : datetime) (w : bool) : Prop :=
  match dt_date d with
  | None => True
  | Some x => storable_date x /\ (w = true -> (exists t, dt_time d = Some t /\ storable_time t) /\ storable_spec (dt_spec d))
  end.
Lemma put_dates T E v export a : fits T v a -> let ps := puts E (written (create_card T v export a)) in
  (date_fits (a_birthday a) (a_bdaytime a) -> only_date "bday" (match v with V40 => [B "VALUE=DATE"] | _ => [] end) (a_birthday a) (a_bdaytime a) ps) /\
  (date_fits (a_revision a) true -> only_date "rev" [] (a_revision a) true ps) /\
  (date_fits (a_deathdate a) true -> only_date "deathdate" [] (match v with V40 => a_deathdate a | _ => dt_null end) true ps).
Proof.
  intros Hf ps. unfold ps. repeat match goal with |- _ /\ _ => split end; intros Hd.
  - exists (create_datetime (a_birthday a) v (a_bdaytime a)). split; [apply date_says; exact Hd|]. rewrite (of_name_puts T E v export a "bday" (B "BDAY")); put_side; auto.
    change (flat_map (pick (B "BDAY")) (chunks T v export a)) with [bday_line v a]. unfold bday_line. cbv zeta. destruct v; [apply (texts_put E (B "BDAY") [_]); in_known..|].
    change (vl_set_value (QStr ?u) (vl_add_param (B "VALUE") (B "DATE") (vline_new (B "BDAY") QInvalid))) with (add_all [(B "VALUE", B "DATE")] (text_line (B "BDAY") u)).
    apply valued_put; [in_known|apply nodup_b_spec; reflexivity|constructor; [apply date_item|constructor]|reflexivity].
  - exists (create_datetime (a_revision a) v true). split; [apply date_says; exact Hd|]. rewrite (of_name_puts T E v export a "rev" (B "REV")); put_side; auto.
    apply (texts_put E (B "REV") [_]); in_known.
  - exists (create_datetime (match v with V40 => a_deathdate a | _ => dt_null end) v true). split; [apply date_says; destruct v; [exact I|exact I|exact Hd]|].
    rewrite (of_name_puts T E v export a "deathdate" (B "DEATHDATE")); put_side; auto.
    change (flat_map (pick (B "DEATHDATE")) (chunks T v export a)) with (when (is40 v) [text_line (B "DEATHDATE") (create_datetime (a_deathdate a) v true)] ++ []).
    destruct v; [constructor|constructor|]. apply (texts_put E (B "DEATHDATE") [_]); in_known.
Qed.
