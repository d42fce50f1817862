(** Sort string, dates, time zone and position after writing and reading. *)
From Coq Require Import Permutation.
From Verif Require Import Base BaseFacts QtText Utf8 Utf8Facts M_ParamMap M_VCard M_VCardText
  S_Escape P_Escape S_Fold P_Fold S_CardText P_CardText S_Card P_Assoc P_Card S_Parse P_Parse P_Parse2
  S_RoundTrip P_RoundTrip P_RoundTrip2 P_RoundTrip3 P_ReadBack P_Items P_Order
  M_Split S_Split P_Split M_Values M_Date M_Addressee M_VCardTool S_Contact P_Seen P_ReadFields P_Lines P_Contact P_Chunks P_Lists P_Values P_Fields P_Fields2 P_Types P_Addr P_Fields3 P_Fields4 S_Date P_Date.
From Verif Require P_Email.


(** ** lines without effect *)
Lemma fold_skip_lines {X} (g : vline -> X -> X) (P : vline -> bool) ls : (forall l x, In l ls -> P l = false -> g l x = x) ->
  forall x, fold_left (fun x l => g l x) ls x = fold_left (fun x l => g l x) (filter P ls) x.
Proof.
  induction ls as [|l ls IH]; intros H x; [reflexivity|]. cbn [fold_left filter]. destruct (P l) eqn:Ep.
  - cbn [fold_left]. apply IH. intros; apply H; auto. right; auto.
  - rewrite (H l x) by (auto; left; auto). apply IH. intros; apply H; auto. right; auto.
Qed.
Lemma filter_sub {A} (P Q : A -> bool) l : (forall x, P x = true -> Q x = true) -> filter P (filter Q l) = filter P l.
Proof.
  intros H. rewrite filter_filter. apply filter_ext. intros x. destruct (P x) eqn:E; [rewrite (H x E); reflexivity|apply andb_false_r].
Qed.

(** ** texts of digits and signs *)
Lemma printed_safe u : Forall (fun c => (33 <= c < 127)%N /\ c <> 92%N) u -> text_safe u.
Proof.
  intros H. split.
  - unfold text_ok. apply andb_true_iff. split.
    + induction H as [|c u [H1 H2] _ IH]; [reflexivity|]. rewrite valid_sep by lia. exact IH.
    + destruct H as [|c u [H1 H2] _]; [reflexivity|]. cbn. apply negb_true_iff, N.eqb_neq. lia.
  - intros (p & t & c & -> & _). apply Forall_app in H as [_ H]. inversion H as [|x y [H1 H2] H3 E]. subst. apply H2. reflexivity.
Qed.
Definition plain_char (c : N) : Prop := (33 <= c < 127)%N /\ c <> 92%N.
Lemma zpad_plain w z : Forall plain_char (zpad w z).
Proof.
  unfold zpad, padded. apply Forall_app. split.
  - apply Forall_forall. intros c Hc. apply repeat_spec in Hc. subst. split; [lia|discriminate].
  - destruct (decimal_spec (Z.to_N z)) as [H _]. rewrite forallb_forall in H. apply Forall_forall. intros c Hc. specialize (H c Hc).
    unfold is_digit in H. unfold plain_char. lia.
Qed.
Ltac plain1 := cbv beta zeta iota; repeat first [apply zpad_plain | apply Forall_nil | apply Forall_app; split | apply Forall_cons; [unfold plain_char, cCOLON; lia|]].
Lemma datetime_plain x v w : Forall plain_char (create_datetime x v w).
Proof.
  unfold create_datetime. destruct (dt_date x) as [d|]; [|constructor].
  assert (Hd : Forall plain_char (create_date d v)) by (unfold create_date; destruct (_ <? _)%Z; destruct v; plain1).
  destruct w; cbn [negb]; [|exact Hd]. cbv zeta. apply Forall_app. split; [exact Hd|]. apply Forall_app. split.
  - unfold create_time. destruct (dt_time x); destruct v; plain1.
  - destruct (dt_spec x); [constructor| |destruct (_ <=? _)%Z; destruct v|constructor]; plain1.
Qed.
Lemma tz_plain o : Forall plain_char (create_tz o).
Proof. unfold create_tz. cbv zeta. destruct (0 <=? o)%Z; plain1. Qed.

(** ** dates *)
Lemma text_seen E i u : In i known -> text_safe u -> loud E (text_line i u) = negb (isnil u) /\ lvalue (reread E (text_line i u)) = u.
Proof.
  intros Hi [U1 U2]. destruct (seen_plain E i u (known_id i Hi)) as (_ & L & R). unfold text_line. rewrite L, R. split; [reflexivity|].
  unfold lvalue. cbn [vl_value variant_string]. apply thru_id; auto.
Qed.
Lemma create_nonnil d t z v w : create_datetime (mkDt (Some d) t z) v w <> [].
Proof.
  unfold create_datetime. cbn [dt_date]. cbv zeta.
  assert (Hd : create_date d v <> []).
  { unfold create_date. destruct (_ <? _)%Z; [|discriminate]. intros H. apply app_eq_nil in H as [H _]. unfold zpad, padded in H.
    apply app_eq_nil in H as [_ H]. destruct (decimal_spec (Z.to_N (d_year d))) as (_ & _ & Hl).
    destruct (Hl (N.to_nat (Z.to_N (d_year d)))) as [Hlen _]; [|rewrite H in Hlen; cbn in Hlen; lia].
    rewrite Nat2N.inj_succ, N2Nat.id. clear. generalize (Z.to_N (d_year d)) as n. intros n. apply N.lt_le_trans with (10 ^ n)%N; [apply N.pow_gt_lin_r; lia|]. apply N.pow_le_mono_r; lia. }
  destruct w; cbn [negb]; [|exact Hd]. intros H. apply app_eq_nil in H as [H _]. auto.
Qed.
Lemma dt_eq_null V d t z : dt_eq V (mkDt (Some d) (Some t) z) dt_null = false.
Proof. reflexivity. Qed.
Lemma datetime_read x v : datetime_safe x -> create_datetime x v true = [] /\ x = dt_null \/
  create_datetime x v true <> [] /\ parse_datetime (create_datetime x v true) = (x, true) /\ forall V, dt_eq V x dt_null = false.
Proof.
  intros [->|(d & t & z & -> & Hd & Ht & Hz)]; [left; split; reflexivity|]. right. split; [apply create_nonnil|]. split; [|reflexivity].
  apply datetime_roundtrip; auto.
Qed.
Lemma field_revision E T v export a b : fitting E T v a -> reads_as E T v export a b -> datetime_safe (a_revision a) -> a_revision b = a_revision a.
Proof.
  intros Hf Hr Hs.
  destruct (one_field E T v export a b a_revision (fun k => match k with LRev => true | _ => false end) (B "REV")
    (fun l x => let d := fst (parse_datetime (lvalue l)) in if dt_eq (t_env T) d x then x else d) (text_line (B "REV") (create_datetime (a_revision a) v true)) Hf Hr) as [card ->]; text_side; auto.
  destruct (text_seen E (B "REV") (create_datetime (a_revision a) v true) ltac:(in_known) (printed_safe _ (datetime_plain _ _ _))) as [-> ->].
  destruct (datetime_read _ v Hs) as [[-> ->]|(Hne & -> & He)]; [reflexivity|].
  rewrite (proj2 (isnil_false _) Hne). cbn [negb fst a_revision addressee_new]. cbv zeta. rewrite He. reflexivity.
Qed.
Lemma field_deathdate E T export a b : fits T V40 a -> reads_as E T V40 export a b -> datetime_safe (a_deathdate a) -> a_deathdate b = a_deathdate a.
Proof.
  intros Hf Hr Hs.
  destruct (one_field E T V40 export a b a_deathdate (fun k => match k with LDeathdate => true | _ => false end) (B "DEATHDATE")
    (fun l x => let d := fst (parse_datetime (lvalue l)) in if dt_eq (t_env T) d x then x else d) (text_line (B "DEATHDATE") (create_datetime (a_deathdate a) V40 true)) Hf Hr) as [card ->]; text_side; auto.
  destruct (text_seen E (B "DEATHDATE") (create_datetime (a_deathdate a) V40 true) ltac:(in_known) (printed_safe _ (datetime_plain _ _ _))) as [-> ->].
  destruct (datetime_read _ V40 Hs) as [[-> ->]|(Hne & -> & He)]; [reflexivity|].
  rewrite (proj2 (isnil_false _) Hne). cbn [negb fst a_deathdate addressee_new]. cbv zeta. rewrite He. reflexivity.
Qed.
Lemma bday_seen E v a : loud E (bday_line v a) = negb (isnil (create_datetime (a_birthday a) v (a_bdaytime a))) /\
  lvalue (reread E (bday_line v a)) = create_datetime (a_birthday a) v (a_bdaytime a).
Proof.
  assert (Hs := printed_safe _ (datetime_plain (a_birthday a) v (a_bdaytime a))).
  unfold bday_line. cbv zeta. destruct v; [apply text_seen; [in_known|exact Hs]..|].
  set (u := create_datetime (a_birthday a) V40 (a_bdaytime a)) in *. set (kvs := [(B "VALUE", B "DATE")] : list item).
  change (vl_set_value (QStr u) (vl_add_param (B "VALUE") (B "DATE") (vline_new (B "BDAY") QInvalid))) with (add_all kvs (vline_new (B "BDAY") (QStr u))).
  assert (Hp : plain_item (B "VALUE", B "DATE")).
  { split; [split; [apply ikey_dec; reflexivity|left; apply ivalue_dec; reflexivity]|]. split; [discriminate|]. split; [discriminate|].
    split; intros H; apply item_ops_keys in H; cbn [fst snd] in H; destruct H as [[_ H]|[_ H]]; discriminate. }
  destruct (seen_text E (B "BDAY") [] (B "BDAY") kvs u (known_id (B "BDAY") ltac:(in_known)) ltac:(apply nodup_b_spec; reflexivity) (Forall_cons _ Hp (Forall_nil _))) as (_ & L & R).
  cbv zeta in L, R. rewrite L, R. split; [reflexivity|]. destruct Hs as [U1 U2]. unfold lvalue. cbn [vl_value variant_string]. apply thru_id; auto.
Qed.
Lemma field_birthday E T v export a b : fitting E T v a -> reads_as E T v export a b -> birthday_safe (a_birthday a) (a_bdaytime a) ->
  a_birthday b = a_birthday a /\ a_bdaytime b = a_bdaytime a.
Proof.
  intros Hf Hr Hs.
  destruct (one_field E T v export a b (fun x => (a_birthday x, a_bdaytime x)) (fun k => match k with LBday => true | _ => false end) (B "BDAY")
    (fun l x => let b := fst (parse_datetime (lvalue l)) in let t := snd (parse_datetime (lvalue l)) in
                let same := dt_eq (t_env T) b (fst x) && Bool.eqb (snd x) t in
                (if same then fst x else if t then b else dt_set_time None b, if same then snd x else t))
    (bday_line v a) Hf Hr ltac:(kinds) eq_refl) as [card Hb]; auto.
  { intros id l x. cbn [fst snd]. cbv zeta. eff_cases l. }
  { intros id l x. eff_cases l. }
  destruct (bday_seen E v a) as [L R]. rewrite L, R in Hb. cbn [a_birthday a_bdaytime addressee_new fst snd] in Hb.
  assert (Hgoal : (a_birthday b, a_bdaytime b) = (a_birthday a, a_bdaytime a)); [|injection Hgoal; auto]. rewrite Hb. clear Hb L R.
  unfold birthday_safe in Hs. destruct (a_bdaytime a).
  - destruct Hs as (d & t & z & -> & Hd & Ht & Hz). rewrite (proj2 (isnil_false _) (create_nonnil d (Some t) z v true)).
    rewrite (datetime_roundtrip d t z v Hd Ht Hz). reflexivity.
  - destruct Hs as [->|(d & -> & Hd)]; [reflexivity|]. rewrite (proj2 (isnil_false _) (create_nonnil d (Some midnight) TLocal v false)).
    rewrite (date_roundtrip d (Some midnight) TLocal v Hd). reflexivity.
Qed.

(** ** time zone and position *)
Lemma field_tz E T v export a b : fitting E T v a -> reads_as E T v export a b -> tz_safe (a_tz a) -> a_tz b = a_tz a.
Proof.
  intros Hf Hr Hs.
  destruct (fold_field E T v export a b a_tz (fun k => match k with LTz => true | _ => false end) (B "TZ")
    (fun l x => match parse_tz (lvalue l) with Some o => if tz_eq (tz_set o) x then x else tz_set o | None => x end) Hf Hr) as [card ->]; text_side; try discriminate.
  change (flat_map (pick (B "TZ")) (chunks T v export a)) with (when (tz_valid (a_tz a)) [text_line (B "TZ") (create_tz (tz_offset (a_tz a)))] ++ []).
  unfold tz_safe in Hs. destruct (a_tz a) as [o []]; cbn [tz_valid tz_offset when app] in *; [|injection Hs as ->; reflexivity].
  destruct (text_seen E (B "TZ") (create_tz o) ltac:(in_known) (printed_safe _ (tz_plain o))) as [L R].
  pose proof (tz_roundtrip o Hs) as Ho. unfold readings. cbn [filter]. rewrite L. destruct (isnil (create_tz o)) eqn:En; [apply isnil_true in En; rewrite En in Ho; discriminate|].
  cbn [negb map fold_left]. rewrite R, Ho. reflexivity.
Qed.
Lemma number_safe s : number_text s -> Forall plain_char s.
Proof. intros H. eapply Forall_impl; [|exact H]. intros c Hc. cbn beta in Hc. unfold plain_char. lia. Qed.
Lemma number_no c s : number_text s -> ~ ((48 <= c <= 57)%N \/ c = 45%N \/ c = 46%N) -> ~ In c s.
Proof. intros H Hc Hin. unfold number_text in H. rewrite Forall_forall in H. exact (Hc (H c Hin)). Qed.
Lemma remove_sub_no fuel c p s : ~ In c s -> length s <= fuel -> remove_sub fuel (c :: p) s = s.
Proof.
  revert s. induction fuel as [|f IH]; intros s Hn Hl; [destruct s; [reflexivity|cbn in Hl; lia]|]. destruct s as [|x s]; [reflexivity|].
  cbn [remove_sub starts_with]. destruct (N.eqb_spec c x) as [->|Hx]; [exfalso; apply Hn; left; auto|]. cbn [andb]. f_equal. apply IH; [intros Hin; apply Hn; right; auto|cbn in Hl; lia].
Qed.
Lemma starts_geo_app s t : number_text s -> t = [] \/ (exists r, t = cSEMI :: r) -> starts_with (B "geo:") (s ++ t) = false.
Proof.
  intros H Ht. destruct H as [|c s Hc _].
  - destruct Ht as [->|[r ->]]; reflexivity.
  - change (N.eqb 103 c && starts_with (B "eo:") (s ++ t) = false). destruct (N.eqb_spec 103 c) as [<-|_]; [lia|reflexivity].
Qed.
Lemma field_geo E T v export a b : fitting E T v a -> reads_as E T v export a b -> geo_text_ok T (a_geo a) ->
  a_geo b = if geo_valid (geo_rounded T (a_geo a)) then geo_rounded T (a_geo a) else geo_new.
Proof.
  intros Hf Hr [H1 H2].
  destruct (fold_field E T v export a b a_geo (fun k => match k with LGeo => true | _ => false end) (B "GEO")
    (fun l x => match geo_parts l with
                | lat :: lon :: _ => let g := geo_set_lon (t_float T lon) (geo_set_lat (t_float T lat) geo_new) in if geo_eq g x then x else g
                | _ => x end) Hf Hr) as [card ->]; text_side; try discriminate.
  change (flat_map (pick (B "GEO")) (chunks T v export a)) with (geo_lines T v (a_geo a) ++ []). rewrite app_nil_r.
  unfold geo_lines, geo_rounded. destruct (geo_valid (a_geo a)); [|reflexivity].
  set (lat := t_fmt6 T (g_lat (a_geo a))) in *. set (lon := t_fmt6 T (g_lon (a_geo a))) in *.
  match goal with |- context [text_line (B "GEO") ?u] => set (txt := u) end.
  assert (Hs : text_safe txt).
  { apply printed_safe. fold plain_char. unfold txt. destruct v.
    - apply Forall_app. split; [apply number_safe; auto|]. apply Forall_app. split; [constructor; [unfold plain_char, cSEMI; lia|constructor]|apply number_safe; auto].
    - apply Forall_app. split; [apply number_safe; auto|]. apply Forall_app. split; [constructor; [unfold plain_char, cSEMI; lia|constructor]|apply number_safe; auto].
    - apply Forall_app. split; [change (Forall plain_char [103; 101; 111; 58]%N); plain1|]. apply Forall_app. split; [apply number_safe; auto|]. apply Forall_app. split; [constructor; [unfold plain_char, cCOMMA; lia|constructor]|apply number_safe; auto]. }
  destruct (text_seen E (B "GEO") txt ltac:(in_known) Hs) as [L R].
  assert (Hne : isnil txt = false).
  { apply isnil_false. unfold txt. destruct v; [| |discriminate]; destruct lat; discriminate. }
  unfold readings. cbn [filter]. rewrite L, Hne. cbn [negb map fold_left].
  assert (Hp : geo_parts (reread E (text_line (B "GEO") txt)) = [lat; lon]).
  { unfold geo_parts. rewrite R. cbv zeta. unfold txt.
    assert (Hc1 : forall c, In c [cCOMMA; cSEMI] -> ~ In c lat) by (intros c Hc; apply number_no; auto; destruct Hc as [<-|[<-|[]]]; unfold cCOMMA, cSEMI; lia).
    assert (Hc2 : forall c, In c [cCOMMA; cSEMI] -> ~ In c lon) by (intros c Hc; apply number_no; auto; destruct Hc as [<-|[<-|[]]]; unfold cCOMMA, cSEMI; lia).
    destruct v.
    - rewrite starts_geo_app by (auto; right; eexists; reflexivity). cbn [app]. rewrite split_app by (apply Hc1; right; left; auto). rewrite split_notin by (apply Hc2; right; left; auto). reflexivity.
    - rewrite starts_geo_app by (auto; right; eexists; reflexivity). cbn [app]. rewrite split_app by (apply Hc1; right; left; auto). rewrite split_notin by (apply Hc2; right; left; auto). reflexivity.
    - change (starts_with (B "geo:") (B "geo:" ++ lat ++ [cCOMMA] ++ lon)) with true. cbv iota.
      replace (remove_str (B "geo:") (B "geo:" ++ lat ++ [cCOMMA] ++ lon)) with (lat ++ cCOMMA :: lon).
      + rewrite split_app by (apply Hc1; left; auto). rewrite split_notin by (apply Hc2; left; auto). reflexivity.
      + unfold remove_str. change (remove_sub (S (length (B "geo:" ++ lat ++ [cCOMMA] ++ lon))) (B "geo:") (B "geo:" ++ lat ++ [cCOMMA] ++ lon))
          with (remove_sub (S (S (S (S (length (lat ++ [cCOMMA] ++ lon)))))) (B "geo:") (lat ++ [cCOMMA] ++ lon)).
        symmetry. refine (remove_sub_no _ 103%N (B "eo:") (lat ++ [cCOMMA] ++ lon) _ _); [|generalize (length (lat ++ [cCOMMA] ++ lon)); lia]. rewrite !in_app_iff. intros [H|[[H|[]]|H]]; [exact (number_no 103 lat H1 ltac:(lia) H)|discriminate|exact (number_no 103 lon H2 ltac:(lia) H)]. }
  rewrite Hp. cbn [a_geo addressee_new]. fold (geo_of (t_float T lat) (t_float T lon)). cbv zeta.
  set (g := geo_of (t_float T lat) (t_float T lon)). unfold geo_eq. cbn [geo_new geo_valid g_vlat g_vlon andb negb].
  destruct (geo_valid g); reflexivity.
Qed.

(** ** sort string *)
Lemma field_sortstring E T export a b : fits T V30 a -> reads_as E T V30 export a b -> text_safe (a_sortstring a) ->
  Forall (fun o => parts_safe (org_parts (a_department a) o)) (a_orgs a) -> Forall (fun o => ~ In (B "sort-as") (map fst (pt_params o))) (a_orgs a) ->
  a_sortstring b = a_sortstring a.
Proof.
  intros Hf Hr Hs Ho Hp. destruct Hr as [card Hr].
  set (K := fun k => match k with LN | LOrg | LSortstring => true | _ => false end).
  set (Q := fun k => match k with LSortstring => true | _ => false end).
  set (g := fun (l : vline) (x : ustring) => match line_kind l with LSortstring => lvalue l | _ => sort_as l x end).
  assert (H1 : forall id l x, K (line_kind l) = true -> a_sortstring (eff T id l x) = g l (a_sortstring x)).
  { intros id l x. unfold g, K. eff_cases l. }
  assert (H0 : forall id l x, K (line_kind l) = false -> a_sortstring (eff T id l x) = a_sortstring x).
  { intros id l x. unfold K. eff_cases l. }
  rewrite (read_lines_plain T a_sortstring K g card (fun e x => eq_refl) H1 H0 _ _ _ _ Hr).
  rewrite (fold_skip_lines g (fun l => Q (line_kind l))).
  - rewrite filter_sub by (intros x; unfold Q, K; destruct (line_kind x); auto).
    rewrite (seen_chunk E T V30 export a Q (B "SORT-STRING")) by first [exact Hf | kinds | discriminate].
    change (flat_map (pick (B "SORT-STRING")) (chunks T V30 export a)) with [text_line (B "SORT-STRING") (a_sortstring a)].
    destruct (text_seen E (B "SORT-STRING") (a_sortstring a) ltac:(in_known) Hs) as [L R]. unfold readings. cbn [filter]. rewrite L.
    destruct (isnil (a_sortstring a)) eqn:En; cbn [negb map fold_left a_sortstring addressee_new]; [symmetry; apply isnil_true; exact En|].
    unfold g. rewrite R. destruct (seen_plain E (B "SORT-STRING") (a_sortstring a) (known_id (B "SORT-STRING") ltac:(in_known))) as (_ & _ & R'). unfold text_line. rewrite R'. reflexivity.
  - intros l x Hin HQ. apply filter_In in Hin as [Hin HK]. unfold K in HK. unfold Q in HQ.
    assert (Hsa : sort_as l x = x); [|unfold g; destruct (line_kind l); try discriminate; exact Hsa].
    unfold sort_as. destruct (line_kind l) eqn:Ek; try discriminate.
    + assert (Hl : In l (filter (fun l => match line_kind l with LN => true | _ => false end) (seen E T V30 export a))) by (apply filter_In; rewrite Ek; auto).
      rewrite (seen_chunk E T V30 export a (fun k => match k with LN => true | _ => false end) (B "N")) in Hl by first [exact Hf | kinds | discriminate].
      change (flat_map (pick (B "N")) (chunks T V30 export a)) with [n_line V30 a] in Hl. unfold readings in Hl. apply in_map_iff in Hl as (y & <- & Hy).
      apply filter_In in Hy as [[<-|[]] _]. rewrite n_line_eq by discriminate. cbn [is40 andb].
      match goal with |- context [text_line (B "N") ?u] => destruct (seen_plain E (B "N") u (known_id (B "N") ltac:(in_known))) as (_ & _ & R) end.
      cbn [add_all fold_left]. unfold text_line. rewrite R. reflexivity.
    + assert (Hl : In l (filter (fun l => match line_kind l with LOrg => true | _ => false end) (seen E T V30 export a))) by (apply filter_In; rewrite Ek; auto).
      rewrite (seen_chunk E T V30 export a (fun k => match k with LOrg => true | _ => false end) (B "ORG")) in Hl by first [exact Hf | kinds | discriminate].
      rewrite org_readings in Hl by auto. apply in_map_iff in Hl as (o & <- & Hl). apply filter_In in Hl as [Hl _].
      rewrite Forall_forall in Hp. specialize (Hp o Hl). unfold vl_parameter, vl_parameters. cbn [vl_params org_out].
      rewrite find_param_afind, (proj2 (afind_None _ _) Hp). reflexivity.
Qed.
