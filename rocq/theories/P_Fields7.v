(** Messaging addresses, calendar addresses and field groups after writing and reading. *)
From Coq Require Import Permutation.
From Verif Require Import Base BaseFacts QtText Utf8 Utf8Facts M_ParamMap M_VCard M_VCardText
  S_Escape P_Escape S_Fold P_Fold S_CardText P_CardText S_Card P_Assoc P_Card S_Parse P_Parse P_Parse2
  S_RoundTrip P_RoundTrip P_RoundTrip2 P_RoundTrip3 P_ReadBack P_Items P_Order
  M_Split S_Split P_Split M_Values M_Date M_Addressee M_VCardTool S_Contact P_Seen P_ReadFields P_Lines P_Contact P_Chunks P_Lists P_Values P_Fields P_Fields2 P_Types P_Addr P_Fields3 P_Fields4 P_Fields5 P_Addressee P_Fields6.

Lemma key_lower p : Forall key_char p -> to_lower p = p.
Proof. induction 1 as [|c p Hc _ IH]; [reflexivity|]. cbn [to_lower map]. f_equal; [apply key_char_ikey; exact Hc|exact IH]. Qed.
(** ** field groups *)
Lemma field_fgroups E T v export a b : fitting E T v a -> reads_as E T v export a b -> Forall (fun f => text_safe (fg_value f)) (a_fgroups a) ->
  Permutation (a_fgroups b) (filter (fun f => negb (isnil (fg_value f))) (a_fgroups a)).
Proof.
  intros Hf [card Hr] Hs. rewrite Forall_forall in Hs.
  set (K := fun k => match k with LGroup => true | _ => false end).
  set (out := fun l => mkFgroup (vl_params l) (vl_group l ++ [cDOT] ++ vl_id l) (lvalue l)).
  set (g := fun (l : vline) (x : list fgroup) => x ++ [out l]).
  assert (H1 : forall id l x, K (line_kind l) = true -> a_fgroups (eff T id l x) = g l (a_fgroups x)).
  { intros id l x. unfold g, K, eff. cbv zeta. destruct (line_kind l); intros H; try discriminate; reflexivity. }
  assert (H0 : forall id l x, K (line_kind l) = false -> a_fgroups (eff T id l x) = a_fgroups x).
  { intros id l x. unfold K. eff_cases l. }
  rewrite (read_lines_plain T a_fgroups K g card (fun e x => eq_refl) H1 H0 _ _ _ _ Hr). cbn [a_fgroups addressee_new].
  assert (Hfold : forall ls x, fold_left (fun x l => g l x) ls x = x ++ map out ls).
  { induction ls as [|l ls IH]; intros x; [symmetry; apply app_nil_r|]. cbn [fold_left map]. rewrite IH. unfold g. rewrite <- app_assoc. reflexivity. }
  rewrite Hfold. cbn [app]. change (filter (fun l => K (line_kind l)) (seen E T v export a)) with (filter is_group (seen E T v export a)).
  etransitivity; [apply Permutation_map, group_perm; exact Hf|]. unfold fgroup_lines, readings.
  assert (Hl : forall l, (forall f, In f l -> In f (a_fgroups a)) ->
    map out (map (reread E) (filter (loud E) (map (fun f => vl_add_params (fg_params f) (text_line (fg_name f) (fg_value f))) l))) = filter (fun f => negb (isnil (fg_value f))) l).
  { induction l as [|f l IH]; intros Hl; [reflexivity|]. cbn [map filter]. assert (Hin := Hl f ltac:(left; auto)).
    destruct (fgroup_seen E T v a f Hf Hin) as (L & gr & n & val & Hn & Hg & Ha & Hv & R). rewrite L. destruct (negb (isnil (fg_value f))); [|apply IH; intros; apply Hl; right; auto].
    cbn [map]. rewrite R, IH by (intros; apply Hl; right; auto). f_equal. unfold out. cbn [vl_params vl_group vl_id]. change (lvalue (mkVline n gr (fg_params f) (QStr val) [])) with val.
    rewrite (Hv (Hs f Hin)), <- Hn. destruct f; reflexivity. }
  rewrite Hl by auto. reflexivity.
Qed.

(** ** messaging addresses *)
Lemma messaging_service n s : messaging_name n s -> starts_with (B "messaging/") n = true /\
  match index_of 45%N n with Some d => mid_len 10 (d - 10) n | None => mid 10 n end = s.
Proof.
  intros (rest & -> & Hs). split; [reflexivity|].
  replace (B "messaging/" ++ s ++ [45%N] ++ rest) with ((B "messaging/" ++ s) ++ 45%N :: rest) by (rewrite <- app_assoc; reflexivity).
  rewrite index_of_app_notin.
  - rewrite app_length. change (length (B "messaging/")) with 10. replace (10 + length s - 10) with (length s) by lia.
    unfold mid_len. rewrite <- app_assoc. change (skipn 10 (B "messaging/" ++ s ++ 45%N :: rest)) with (s ++ 45%N :: rest). rewrite firstn_app, Nat.sub_diag, firstn_all. cbn [firstn]. apply app_nil_r.
  - intros Hi. apply in_app_or in Hi as [Hi|Hi]; [|auto]. cbn in Hi. intuition discriminate.
Qed.
Lemma messaging_fold T m u vs : paths_replace T -> forall is u', (forall p, t_set_path T p u' = t_set_path T p u) ->
  fst (fold_left (fun (acc : list impp * qurl) value => let url := t_set_path T value (snd acc) in (add_impp (t_env T) (mkImpp m url) (fst acc), url)) vs (is, u'))
  = is ++ filter (impp_valid (env_url (t_env T))) (map (fun p => mkImpp m (t_set_path T p u)) vs).
Proof.
  intros HT. induction vs as [|p vs IH]; intros is u' Hu; cbn [fold_left map filter fst snd]; [symmetry; apply app_nil_r|].
  rewrite Hu. rewrite IH by (intros q; apply (HT q p u)). unfold add_impp. destruct (impp_valid (env_url (t_env T)) (mkImpp m (t_set_path T p u))); [rewrite <- app_assoc; reflexivity|reflexivity].
Qed.
Lemma impp_id i : vl_id (impp_line i) = B "IMPP".
Proof. rewrite impp_line_all, add_params_id. reflexivity. Qed.
Lemma field_impps E T v export a b : fits T v a -> reads_as E T v export a b -> special_free v a -> paths_replace T ->
  Forall (fun e => text_safe (snd e) /\ (is_messaging e = true -> exists s, messaging_name (fst e) s) /\ (is_messaging e = false -> custom_name (fst e))) (a_customs a) ->
  Forall (fun i => text_safe (im_address i) /\ impp_valid (env_url (t_env T)) i = true /\ url_parse (env_url (t_env T)) (im_address i) = im_address i) (a_impps a) ->
  exists news, a_impps b = map impp_written (a_impps a) ++ concat news /\
    exists es, Permutation es (filter is_messaging (filter full_custom (a_customs a))) /\ Forall2 (fun e us => exists s, messaging_name (fst e) s /\ us = messaging_urls T s (snd e)) es news.
Proof.
  intros Hf [card Hr] Hsp HT Hs Hi.
  assert (Hts : Forall (fun e => text_safe (snd e)) (a_customs a)) by (eapply Forall_impl; [|exact Hs]; intros e He; apply He).
  rewrite Forall_forall in Hs, Hi.
  set (K := fun k => match k with LX | LImpp => true | _ => false end).
  set (gi := fun (l : vline) (x : list impp) =>
      let url := url_parse (env_url (t_env T)) (lvalue l) in
      let service := vl_parameter (B "x-service-type") l in
      let url := if negb (isnil service) && isnil (url_scheme (env_url (t_env T)) url)
                 then t_set_scheme T (normalize_impp (to_lower service)) url else url in
      add_impp (t_env T) (mkImpp (vl_params l) url) x).
  set (g := fun (l : vline) (x : list impp) => match line_kind l with LX => custom_impps T l x | _ => gi l x end).
  assert (H1 : forall id l x, K (line_kind l) = true -> a_impps (eff T id l x) = g l (a_impps x)).
  { intros id l x. unfold g, gi, K. unfold eff. cbv zeta. destruct (line_kind l); intros H; try discriminate; reflexivity. }
  assert (H0 : forall id l x, K (line_kind l) = false -> a_impps (eff T id l x) = a_impps x).
  { intros id l x. unfold K. eff_cases l. }
  rewrite (read_lines_plain T a_impps K g card (fun e x => eq_refl) H1 H0 _ _ _ _ Hr). cbn [a_impps addressee_new].
  pose proof (fit_customs _ _ _ Hf) as Hw. rewrite Forall_forall in Hw.
  pose proof (lx_perm E T v export a Hf Hsp Hts) as Hp.
  assert (Hsplit : filter (fun l => K (line_kind l)) (seen E T v export a) = filter (named (B "IMPP")) (seen E T v export a) ++ filter is_x (seen E T v export a)).
  { rewrite <- sorted_filter_app.
    - apply filter_ext_in'. intros l Hl.
      assert (Hk : (match line_kind l with LImpp => true | _ => false end) = named (B "IMPP") l).
      { pose proof (shaped_kinds (fun k => match k with LImpp => true | _ => false end) [B "IMPP"] l ltac:(kinds) ltac:(eapply seen_shaped; eauto)) as Hk. cbv beta in Hk. rewrite Hk. unfold named. cbn [contains].
        rewrite (leqb_sym (B "IMPP")). destruct (leqb (vl_id l) (B "IMPP")), (isnil (vl_group l)); reflexivity. }
      rewrite <- Hk. unfold is_x, K. destruct (line_kind l); reflexivity.
    - apply seen_sorted.
    - intros x y _ Hy Hx Hxy. rewrite (named_id _ _ Hx). assert (Hyin : In y (filter is_x (seen E T v export a))) by (apply filter_In; auto).
      apply (Permutation_in _ Hp) in Hyin. apply in_map_iff in Hyin as (e & <- & He). cbn [custom_out vl_id]. pose proof (custom_id_x export (fst e)) as Hx2. rewrite starts_with_spec in Hx2.
      destruct Hx2 as [q Hq]. rewrite Hq. reflexivity. }
  rewrite Hsplit, fold_left_app. clear Hsplit.
  rewrite seen_named by first [exact Hf | in_known | discriminate]. rewrite (named_lines E) by first [exact Hf | in_known].
  change (flat_map (pick (B "IMPP")) (chunks T v export a)) with (map impp_line (a_impps a) ++ []).
  rewrite app_nil_r. destruct (params_facts a (fit_params _ _ _ Hf)) as (_ & _ & _ & _ & _ & _ & Hpar).
  rewrite (readings_map E impp_line (fun i => mkVline (B "IMPP") [] (im_params (impp_written i)) (QStr (im_address i)) []) (fun _ => true)).
  2: { intros i Hin. destruct (Hi i Hin) as (Ht & Hv & _). rewrite impp_line_all.
       assert (Hm : filter (fun pv => negb (leqb (to_lower (fst pv)) (B "x-service-type"))) (im_params i) = im_params (impp_written i)).
       { cbn [impp_written im_params]. apply filter_ext_in'. intros pv Hpv. destruct (Hpar i Hin) as ([_ Hk] & _). rewrite Forall_forall in Hk. destruct (Hk pv Hpv) as (Hk' & _).
         rewrite key_lower by exact Hk'. reflexivity. }
       rewrite Hm. destruct (seen_params_safe E (B "IMPP") (im_params (impp_written i)) (im_address i) ltac:(in_known) ltac:(apply plain_filter; apply Hpar; exact Hin) Ht) as [L R].
       rewrite L, R. split; [|auto]. unfold impp_valid in Hv. apply andb_true_iff in Hv as [Hv _]. exact Hv. }
  rewrite (filter_all (fun _ => true)) by auto.
  rewrite (fold_append g _ impp_written).
  2: { intros i acc Hin. destruct (Hi i Hin) as (_ & Hv & Hu).
       assert (Hk : line_kind (mkVline (B "IMPP") [] (im_params (impp_written i)) (QStr (im_address i)) []) = LImpp) by (rewrite shaped_kind by (left; split; [reflexivity|left; in_known]); reflexivity).
       unfold g. rewrite Hk. unfold gi. change (lvalue (mkVline (B "IMPP") [] (im_params (impp_written i)) (QStr (im_address i)) [])) with (im_address i). rewrite Hu.
       assert (Hpm : vl_parameter (B "x-service-type") (mkVline (B "IMPP") [] (im_params (impp_written i)) (QStr (im_address i)) []) = []).
       { unfold vl_parameter, vl_parameters. cbn [vl_params]. rewrite find_param_afind, (proj2 (afind_None _ _)); [reflexivity|].
         intros Hin2. apply in_map_iff in Hin2 as (pv & Hpv & Hin2). cbn [impp_written im_params] in Hin2. apply filter_In in Hin2 as [_ Hin2]. apply negb_true_iff, (proj1 (leqb_neq _ _)) in Hin2. exact (Hin2 Hpv). }
       rewrite Hpm. cbn [isnil negb andb vl_params]. unfold add_impp. change (impp_valid (env_url (t_env T)) (mkImpp (im_params (impp_written i)) (im_address i))) with (impp_valid (env_url (t_env T)) i). rewrite Hv. reflexivity. }
  cbn [app].
  apply Permutation_map_inv in Hp as (es & -> & Hp).
  assert (Hin : forall e, In e es -> In e (a_customs a) /\ full_custom e = true) by (intros e He; apply filter_In; apply (Permutation_in _ (Permutation_sym Hp) He)).
  assert (Hfold : forall l is, (forall e, In e l -> In e es) -> exists news, fold_left (fun x l => g l x) (map (custom_out v export) l) is = is ++ concat news /\
     Forall2 (fun e us => exists s, messaging_name (fst e) s /\ us = messaging_urls T s (snd e)) (filter is_messaging l) news).
  { induction l as [|e l IH]; intros is Hl; [exists []; split; [symmetry; apply app_nil_r|constructor]|]. cbn [map fold_left filter].
    destruct (IH (g (custom_out v export e) is) ltac:(intros; apply Hl; right; auto)) as (news & -> & Hn).
    destruct (Hin e (Hl e ltac:(left; auto))) as [He Hfull]. destruct (custom_out_x v export e (Hw e He)) as [Hx _].
    assert (Hg : g (custom_out v export e) is = custom_impps T (custom_out v export e) is) by (unfold g; unfold is_x in Hx; destruct (line_kind (custom_out v export e)); try discriminate; reflexivity).
    destruct (Hs e He) as (_ & Hm1 & Hm2).
    assert (Hkey : custom_key (custom_out v export e) = fst e).
    { destruct e as [n value]. apply custom_key_back. destruct (is_messaging (n, value)) eqn:Em; [apply messaging_import; exact Em|]. destruct (Hm2 eq_refl) as (_ & _ & Hi2). exact Hi2. }
    rewrite Hg. unfold custom_impps. rewrite Hkey. destruct (is_messaging e) eqn:Em.
    - destruct (Hm1 eq_refl) as [s Hns]. destruct (messaging_service _ _ Hns) as [H2 H3]. cbv zeta. rewrite H2, H3. exists (messaging_urls T s (snd e) :: news). split.
      + assert (Hpm : vl_params (custom_out v export e) = []).
        { unfold custom_out. cbn [vl_params]. rewrite line_kvs_plain; [reflexivity|]. intros Hv. apply (custom_plain T v a (fst e) (snd e) Hf); [destruct e; exact He|exact Hv]. }
        rewrite Hpm, (messaging_fold T _ (t_set_scheme T (normalize_impp s) []) _ HT) by auto. cbn [concat]. rewrite app_assoc. reflexivity.
      + constructor; [exists s; auto|exact Hn].
    - cbv zeta. unfold is_messaging in Em. rewrite Em. exists news. auto. }
  destruct (Hfold es (map impp_written (a_impps a)) ltac:(auto)) as (news & -> & Hn). exists news. split; [reflexivity|].
  exists (filter is_messaging es). split; [|exact Hn]. apply perm_filter, Permutation_sym. exact Hp.
Qed.

(** ** calendar addresses, version 4.0: in the order of their property names *)
Definition cal_name (t : caltype) : ustring :=
  match t with CalFBUrl => B "FBURL" | CalCALUri => B "CALURI" | CalCALADRUri => B "CALADRURI" | _ => [] end.
Lemma add_params_group m l : vl_group (vl_add_params m l) = vl_group l.
Proof.
  unfold vl_add_params. revert l. induction m as [|x m IH]; intros l; [reflexivity|]. cbn [fold_left]. rewrite IH. reflexivity.
Qed.
Definition of_type (t : caltype) (c : calurl) : bool := caltype_eq (cu_type c) t.
Lemma cal_lines_named E T a t : In t [CalFBUrl; CalCALUri; CalCALADRUri] -> fits T V40 a ->
  Forall (fun c => text_safe (t_display T (cu_url c)) /\ t_display T (cu_url c) <> [] /\ calurl_valid (env_url (t_env T)) c = true) (a_calurls a) ->
  readings E (filter (named (cal_name t)) (flat_map (calurl_lines T) (a_calurls a))) =
  map (fun c => mkVline (cal_name t) [] (cu_params c) (QStr (t_display T (cu_url c))) []) (filter (of_type t) (a_calurls a)).
Proof.
  intros Ht Hf Hs. rewrite Forall_forall in Hs. destruct (params_facts a (fit_params _ _ _ Hf)) as (_ & _ & _ & _ & Hpar & _).
  assert (H : forall l, (forall c, In c l -> In c (a_calurls a)) -> filter (named (cal_name t)) (flat_map (calurl_lines T) l) =
    map (fun c => vl_add_params (cu_params c) (text_line (cal_name t) (t_display T (cu_url c)))) (filter (of_type t) l)).
  { induction l as [|c l IH]; intros Hl; [reflexivity|]. cbn [flat_map filter]. rewrite filter_app, IH by (intros; apply Hl; right; auto).
    destruct (Hs c (Hl c ltac:(left; auto))) as (_ & _ & Hv). unfold calurl_lines. rewrite Hv. unfold of_type at 2.
    assert (Hn : forall i, named (cal_name t) (vl_add_params (cu_params c) (text_line i (t_display T (cu_url c)))) = leqb i (cal_name t)).
    { intros i. unfold named. rewrite add_params_id, add_params_group. apply andb_true_r. }
    destruct Ht as [<-|[<-|[<-|[]]]]; destruct (cu_type c); cbv zeta; cbn [filter caltype_eq map app]; rewrite ?Hn; reflexivity. }
  rewrite H by auto. rewrite (readings_map E _ (fun c => mkVline (cal_name t) [] (cu_params c) (QStr (t_display T (cu_url c))) []) (fun _ => true)).
  - rewrite (filter_all (fun _ => true)) by auto. reflexivity.
  - intros c Hc. apply filter_In in Hc as [Hc _]. destruct (Hs c Hc) as (H1 & H2 & _).
    destruct (seen_params_safe E (cal_name t) (cu_params c) (t_display T (cu_url c)) ltac:(destruct Ht as [<-|[<-|[<-|[]]]]; in_known) (Hpar c Hc) H1) as [L R].
    rewrite L, R. split; auto. apply negb_true_iff, isnil_false. exact H2.
Qed.
Lemma field_calurls E T export a b : fits T V40 a -> reads_as E T V40 export a b ->
  Forall (fun c => text_safe (t_display T (cu_url c)) /\ t_display T (cu_url c) <> [] /\ calurl_valid (env_url (t_env T)) c = true /\
                   url_parse (env_url (t_env T)) (t_display T (cu_url c)) = cu_url c) (a_calurls a) ->
  a_calurls b = filter (of_type CalCALADRUri) (a_calurls a) ++ filter (of_type CalCALUri) (a_calurls a) ++ filter (of_type CalFBUrl) (a_calurls a).
Proof.
  intros Hf [card Hr] Hs.
  assert (Hs' : Forall (fun c => text_safe (t_display T (cu_url c)) /\ t_display T (cu_url c) <> [] /\ calurl_valid (env_url (t_env T)) c = true) (a_calurls a))
    by (eapply Forall_impl; [|exact Hs]; intros c Hc; cbv beta in *; tauto).
  rewrite Forall_forall in Hs.
  set (K := fun k => match k with LFburl | LCaladruri | LCaluri => true | _ => false end).
  set (g := fun (l : vline) (x : list calurl) => let c := mkCalurl (vl_params l) (match line_kind l with LFburl => CalFBUrl | LCaladruri => CalCALADRUri | _ => CalCALUri end) (url_parse (env_url (t_env T)) (lvalue l)) in
               if calurl_valid (env_url (t_env T)) c then x ++ [c] else x).
  assert (H1 : forall id l x, K (line_kind l) = true -> a_calurls (eff T id l x) = g l (a_calurls x)).
  { intros id l x. unfold g, K. unfold eff. cbv zeta. destruct (line_kind l); intros H; try discriminate; reflexivity. }
  assert (H0 : forall id l x, K (line_kind l) = false -> a_calurls (eff T id l x) = a_calurls x).
  { intros id l x. unfold K. eff_cases l. }
  rewrite (read_lines_plain T a_calurls K g card (fun e x => eq_refl) H1 H0 _ _ _ _ Hr). cbn [a_calurls addressee_new].
  set (n1 := B "CALADRURI"). set (n2 := B "CALURI"). set (n3 := B "FBURL").
  assert (Hsplit : filter (fun l => K (line_kind l)) (seen E T V40 export a) =
     filter (named n1) (seen E T V40 export a) ++ filter (named n2) (seen E T V40 export a) ++ filter (named n3) (seen E T V40 export a)).
  { rewrite <- (sorted_filter_app (named n2) (named n3)), <- (sorted_filter_app (named n1) (fun l => named n2 l || named n3 l)).
    - apply filter_ext_in'. intros l Hl. pose proof (shaped_kinds K [n1; n2; n3] l ltac:(kinds) ltac:(eapply seen_shaped; eauto)) as Hk. rewrite Hk.
      unfold named. cbn [contains]. rewrite (leqb_sym n1), (leqb_sym n2), (leqb_sym n3). destruct (leqb (vl_id l) n1), (leqb (vl_id l) n2), (leqb (vl_id l) n3), (isnil (vl_group l)); reflexivity.
    - apply seen_sorted.
    - intros x y _ _ Hx Hy. rewrite (named_id _ _ Hx). apply orb_true_iff in Hy as [Hy|Hy]; rewrite (named_id _ _ Hy); reflexivity.
    - apply seen_sorted.
    - intros x y _ _ Hx Hy. rewrite (named_id _ _ Hx), (named_id _ _ Hy); reflexivity. }
  rewrite Hsplit. clear Hsplit.
  assert (Hnm : forall t, In t [CalFBUrl; CalCALUri; CalCALADRUri] -> filter (named (cal_name t)) (seen E T V40 export a) =
     map (fun c => mkVline (cal_name t) [] (cu_params c) (QStr (t_display T (cu_url c))) []) (filter (of_type t) (a_calurls a))).
  { intros t Ht. rewrite <- (cal_lines_named E T a t Ht Hf Hs'). destruct Ht as [<-|[<-|[<-|[]]]].
    all: rewrite seen_named by first [exact Hf | in_known | discriminate]; rewrite (named_lines E) by first [exact Hf | in_known].
    1: change (flat_map (pick (cal_name CalFBUrl)) (chunks T V40 export a)) with (filter (named (B "FBURL")) (flat_map (calurl_lines T) (a_calurls a)) ++ []).
    2: change (flat_map (pick (cal_name CalCALUri)) (chunks T V40 export a)) with (filter (named (B "CALURI")) (flat_map (calurl_lines T) (a_calurls a)) ++ []).
    3: change (flat_map (pick (cal_name CalCALADRUri)) (chunks T V40 export a)) with (filter (named (B "CALADRURI")) (flat_map (calurl_lines T) (a_calurls a)) ++ []).
    all: rewrite app_nil_r; reflexivity. }
  change n1 with (cal_name CalCALADRUri). change n2 with (cal_name CalCALUri). change n3 with (cal_name CalFBUrl).
  rewrite !Hnm by (cbn; auto). rewrite !fold_left_app.
  assert (Hfold : forall t x, In t [CalFBUrl; CalCALUri; CalCALADRUri] ->
     fold_left (fun x l => g l x) (map (fun c => mkVline (cal_name t) [] (cu_params c) (QStr (t_display T (cu_url c))) []) (filter (of_type t) (a_calurls a))) x = x ++ filter (of_type t) (a_calurls a)).
  { intros t x Ht. rewrite (fold_append g _ (fun c => c)); [rewrite map_id; reflexivity|]. intros c acc Hc. apply filter_In in Hc as [Hc Hty]. destruct (Hs c Hc) as (_ & _ & Hv & Hu).
    unfold g. cbv zeta. change (lvalue (mkVline (cal_name t) [] (cu_params c) (QStr (t_display T (cu_url c))) [])) with (t_display T (cu_url c)). rewrite Hu. cbn [vl_params].
    assert (Hk : match line_kind (mkVline (cal_name t) [] (cu_params c) (QStr (t_display T (cu_url c))) []) with LFburl => CalFBUrl | LCaladruri => CalCALADRUri | _ => CalCALUri end = cu_type c).
    { rewrite shaped_kind by (left; split; [reflexivity|left; destruct Ht as [<-|[<-|[<-|[]]]]; in_known]). cbn [vl_group vl_id isnil]. unfold of_type in Hty.
      destruct Ht as [<-|[<-|[<-|[]]]]; destruct (cu_type c); try discriminate; reflexivity. }
    rewrite Hk. destruct c as [m ty u]. cbn [cu_params cu_type cu_url] in *. rewrite Hv. reflexivity. }
  rewrite !Hfold by (cbn; auto). cbn [app]. rewrite app_assoc. reflexivity.
Qed.
