(** Relations, calendars, anniversaries, keys and sounds in a written card (C80). *)
From Coq Require Import Permutation.
From Verif Require Import Base BaseFacts QtText Utf8 Utf8Facts M_ParamMap M_VCard M_VCardText
  S_Escape P_Escape S_Fold P_Fold S_CardText P_CardText S_Card P_Assoc P_Card S_Parse P_Parse P_Parse2
  S_RoundTrip P_RoundTrip P_RoundTrip2 P_RoundTrip3 P_ReadBack P_Items P_Order
  M_Split S_Split P_Split M_Values M_Date M_Addressee M_VCardTool S_Contact P_Seen P_ReadFields P_Lines P_Contact P_Chunks
  P_Types P_Addr P_Contact2 P_Fields P_Fields2 S_Soft S_Order S_Coding S_Meaning S_Written P_Written P_Written2 P_Written3 S_DateText S_Date P_Date P_Values P_Fields4 P_Fields5 P_Four P_Own P_Fields6 P_Fields7 S_Four P_Written4.
From Coq Require Import Lia ZArith.


Lemma put_calurls T E v export a : fits T v a -> let ps := puts E (written (create_card T v export a)) in
  forall f t, In (f, t) [("fburl"%string, CalFBUrl); ("caluri"%string, CalCALUri); ("caladruri"%string, CalCALADRUri)] ->
  only_entries f (fun c => t_display T (cu_url c)) cu_params
    (match v with V40 => filter (fun c => caltype_eq (cu_type c) t && calurl_valid (env_url (t_env T)) c) (a_calurls a) | _ => [] end) ps.
Proof.
  intros Hf ps f t Ht. unfold ps. destruct (params_facts a (fit_params _ _ _ Hf)) as (_ & _ & _ & _ & Hpar & _).
  assert (H : forall l, filter (P_Contact.named (cal_name t)) (flat_map (calurl_lines T) l) =
    map (fun c => vl_add_params (cu_params c) (text_line (cal_name t) (t_display T (cu_url c)))) (filter (fun c => caltype_eq (cu_type c) t && calurl_valid (env_url (t_env T)) c) l)).
  { induction l as [|c l IH]; [reflexivity|]. cbn [flat_map filter]. rewrite filter_app, IH. unfold calurl_lines.
    destruct (calurl_valid (env_url (t_env T)) c); [|rewrite andb_false_r; reflexivity]. rewrite andb_true_r.
    assert (Hn : forall i, P_Contact.named (cal_name t) (vl_add_params (cu_params c) (text_line i (t_display T (cu_url c)))) = leqb i (cal_name t)).
    { intros i. unfold P_Contact.named. rewrite add_params_id, add_params_group. apply andb_true_r. }
    destruct Ht as [Ht|[Ht|[Ht|[]]]]; injection Ht as <- <-; destruct (cu_type c); cbv zeta; cbn [filter caltype_eq map app]; rewrite ?Hn; reflexivity. }
  apply (entries_from T E v export a f (cal_name t) (fun c => vl_add_params (cu_params c) (text_line (cal_name t) (t_display T (cu_url c))))).
  - exact Hf.
  - destruct Ht as [Ht|[Ht|[Ht|[]]]]; injection Ht as <- <-; in_known.
  - destruct Ht as [Ht|[Ht|[Ht|[]]]]; injection Ht as <- <-; reflexivity.
  - destruct Ht as [Ht|[Ht|[Ht|[]]]]; injection Ht as <- <-; reflexivity.
  - transitivity (filter (P_Contact.named (cal_name t)) (when (is40 v) (flat_map (calurl_lines T) (a_calurls a))) ++ []).
    + destruct Ht as [Ht|[Ht|[Ht|[]]]]; injection Ht as <- <-; reflexivity.
    + rewrite app_nil_r. destruct v; cbn [is40 when]; [reflexivity|reflexivity|]. apply H.
  - intros x Hx. split; [reflexivity|]. apply Hpar. destruct v; [destruct Hx|destruct Hx|]. apply filter_In in Hx. apply Hx.
Qed.

(** ** Relations and anniversaries *)
Lemma customs_named T v export a i (p : ustring * ustring -> bool) (mk : ustring * ustring -> vline) :
  (forall e, In e (a_customs a) -> filter (P_Contact.named i) (custom_lines T v export (fst e ++ 58%N :: snd e)) = if p e then [mk e] else []) ->
  filter (P_Contact.named i) (flat_map (custom_lines T v export) (customs_of a)) = map mk (filter p (a_customs a)).
Proof.
  unfold customs_of. generalize (a_customs a) as l. induction l as [|e l IH]; intros H; [reflexivity|]. cbn [map flat_map filter]. rewrite filter_app, H by (left; reflexivity).
  rewrite IH by (intros; apply H; right; auto). destruct (p e); reflexivity.
Qed.
Lemma named_custom export n s i : starts_with (B "X-") i = false -> P_Contact.named i (text_line (custom_id export n) s) = false.
Proof. intros H. unfold P_Contact.named, text_line. cbn [vline_new vl_id]. change (leqb (custom_id export n) i && true = false). rewrite custom_id_not by auto. reflexivity. Qed.
Lemma own_named T export a e : fits T V40 a -> In e (a_customs a) ->
  filter (P_Contact.named (B "ANNIVERSARY")) (custom_lines T V40 export (fst e ++ 58%N :: snd e)) = (if not_empty (snd e) && is_anniversary e then [ann_line T e] else []) /\
  filter (P_Contact.named (B "RELATED")) (custom_lines T V40 export (fst e ++ 58%N :: snd e)) = (if not_empty (snd e) && is_spouse e then [spouse_line e] else []).
Proof.
  intros Hf He. change (fst e ++ 58%N :: snd e) with (fst e ++ cCOLON :: snd e). rewrite (own_lines T export a e Hf He). unfold not_empty. destruct (isnil (snd e)); [split; reflexivity|]. cbn [negb andb].
  destruct (is_anniversary e) eqn:Ea; [|destruct (is_spouse e) eqn:Es].
  - assert (Hs : is_spouse e = false) by (unfold is_spouse, is_anniversary in *; apply leqb_eq in Ea; rewrite Ea; reflexivity). rewrite Hs. split; reflexivity.
  - split; reflexivity.
  - cbn [filter]. rewrite !named_custom by reflexivity. split; reflexivity.
Qed.
Lemma forall2_mapped {A C} (R : said -> A -> Prop) (S : said -> C -> Prop) (f : A -> C) l ls : Forall2 R ls l -> (forall p x, R p x -> S p (f x)) -> Forall2 S ls (map f l).
Proof. intros H HS. induction H; cbn [map]; constructor; auto. Qed.
Lemma put_related T E v export a : fits T v a -> let ps := puts E (written (create_card T v export a)) in
  only_entries "related" pt_text pt_params
    (a_related a ++ match v with
                    | V40 => map (fun e => mkPtext [(B "TYPE", [B "spouse"]); (B "VALUE", [snd e])] (B ";")) (filter (fun e => not_empty (snd e) && leqb (to_lower (fst e)) (B "kaddressbook-x-spousesname")) (a_customs a))
                    | _ => []
                    end) ps.
Proof.
  intros Hf ps. unfold ps, only_entries. rewrite (of_name_puts T E v export a "related" (B "RELATED")); put_side; auto.
  destruct (params_facts a (fit_params _ _ _ Hf)) as (_ & _ & P3 & _).
  change (flat_map (pick (B "RELATED")) (chunks T v export a)) with (map (params_line (B "RELATED")) (a_related a) ++ filter (P_Contact.named (B "RELATED")) (flat_map (custom_lines T v export) (customs_of a)) ++ []).
  rewrite app_nil_r. unfold puts. rewrite filter_app, map_app, filter_app. apply Forall2_app.
  - apply (entries_put E (B "RELATED") (params_line (B "RELATED")) pt_text pt_params); [in_known|]. intros x Hx. split; [reflexivity|]. apply P3. in_app.
  - destruct v; [rewrite (not_related (E := E)) by (auto; discriminate); constructor..|].
    rewrite (customs_named T V40 export a (B "RELATED") (fun e => not_empty (snd e) && is_spouse e) spouse_line) by (intros e He; apply (own_named T export a e Hf He)).
    rewrite (P_Fields2.filter_all (fun x => not_empty (pt_text x))) by (intros x Hx; apply in_map_iff in Hx as (e & <- & _); reflexivity).
    change (map (put_of E) (filter (loud E) ?l)) with (puts E l).
    assert (H : Forall2 (fun p e => sd_params p = [B "TYPE=spouse"; B "VALUE=" ++ snd e] /\ holds_text p (B ";"))
      (puts E (map spouse_line (filter (fun e => not_empty (snd e) && is_spouse e) (a_customs a)))) (filter (fun _ => true) (filter (fun e => not_empty (snd e) && is_spouse e) (a_customs a)))).
    { apply puts_map. intros e He. apply filter_In in He as [He Hs]. apply andb_true_iff in Hs as [Hne Hs]. pose proof (spouse_chars T a e Hf He Hs) as Hv.
      assert (Hn : snd e <> []) by (destruct e as [n0 [|c0 w0]]; [discriminate Hne|discriminate]). unfold spouse_line. fold (text_line (B "RELATED") (B ";")).
      assert (Hpl : Forall plain_item [(B "TYPE", B "spouse"); (B "VALUE", snd e)]).
      { constructor; [|constructor; [|constructor]]; apply upper_plain; auto; try discriminate; try (apply ikey_dec; reflexivity); try (apply ivalue_dec; reflexivity); cbv; intuition discriminate. }
      assert (Hnd : NoDup (map fst [(B "TYPE", B "spouse"); (B "VALUE", snd e)])) by (apply nodup_b_spec; reflexivity).
      split; [rewrite text_loud by (auto; in_known); reflexivity|]. intros _. split; [|apply text_held; auto]. rewrite text_put by auto. cbn [sd_params].
      change (map iput (items_of (read_params [(B "TYPE", B "spouse"); (B "VALUE", snd e)]))) with [iput (B "TYPE", B "spouse"); iput (B "VALUE", snd e)].
      unfold iput. cbn [fst snd]. rewrite (proj2 (isnil_false _) Hn), (latin1_of (snd e)) by (eapply Forall_impl; [|exact Hv]; cbn; intros; lia). reflexivity. }
    rewrite (P_Fields2.filter_all (fun _ : ustring * ustring => true)) in H by auto.
    eapply forall2_mapped; [exact H|]. intros p e [H1 H2]. split; [rewrite H1; reflexivity|exact H2].
Qed.
Lemma put_anniversary T E v export a : fits T v a -> let ps := puts E (written (create_card T v export a)) in
  Forall (fun e : ustring * ustring => to_lower (fst e) = B "kaddressbook-x-anniversary" -> exists d, t_iso_date T (snd e) = Some d /\ storable_date d) (a_customs a) ->
  Forall2 (fun p (e : ustring * ustring) => exists d s, t_iso_date T (snd e) = Some d /\ says_date (mkDt (Some d) (Some midnight) TLocal) true s /\ sd_params p = [B "VALUE=DATE"] /\ holds_text p s)
    (of_name "anniversary" ps) (match v with V40 => filter (fun e : ustring * ustring => not_empty (snd e) && leqb (to_lower (fst e)) (B "kaddressbook-x-anniversary")) (a_customs a) | _ => [] end).
Proof.
  intros Hf ps Hi. unfold ps. rewrite (of_name_puts T E v export a "anniversary" (B "ANNIVERSARY")); put_side; auto.
  change (flat_map (pick (B "ANNIVERSARY")) (chunks T v export a)) with (filter (P_Contact.named (B "ANNIVERSARY")) (flat_map (custom_lines T v export) (customs_of a)) ++ []). rewrite app_nil_r.
  assert (Hno : v <> V40 -> filter (P_Contact.named (B "ANNIVERSARY")) (flat_map (custom_lines T v export) (customs_of a)) = []).
  { intros Hv. rewrite (customs_named T v export a (B "ANNIVERSARY") (fun _ => false) (ann_line T)); [rewrite P_Fields2.filter_none by auto; reflexivity|]. intros e He.
    pose proof (fit_customs _ _ _ Hf) as Hw. rewrite Forall_forall in Hw. change (fst e ++ 58%N :: snd e) with (fst e ++ cCOLON :: snd e).
    rewrite custom_lines_eq; [|apply Hw; auto|intros K; destruct e; eapply custom_plain; eauto]. destruct (isnil (snd e)); [reflexivity|]. cbv zeta.
    replace (is40 v) with false by (destruct v; auto; congruence). cbn [andb]. fold (custom_id export (fst e)). cbn [filter]. rewrite named_custom by reflexivity. reflexivity. }
  destruct v; [rewrite Hno by discriminate; constructor..|].
  rewrite (customs_named T V40 export a (B "ANNIVERSARY") (fun e => not_empty (snd e) && is_anniversary e) (ann_line T)) by (intros e He; apply (own_named T export a e Hf He)).
  change (fun e : ustring * ustring => not_empty (snd e) && leqb (to_lower (fst e)) (B "kaddressbook-x-anniversary")) with (fun e => not_empty (snd e) && is_anniversary e).
  rewrite <- (P_Fields2.filter_all (fun _ : ustring * ustring => true) (filter (fun e => not_empty (snd e) && is_anniversary e) (a_customs a))) at 2 by auto.
  apply puts_map. intros e He. apply filter_In in He as [He Hs]. apply andb_true_iff in Hs as [_ Hs]. rewrite Forall_forall in Hi. destruct (Hi e He ltac:(apply leqb_eq; exact Hs)) as (d & Hd & Hst).
  unfold ann_line. fold (text_line (B "ANNIVERSARY") (ann_text T e)).
  assert (Hpl : Forall plain_item [(B "VALUE", B "DATE")]) by (constructor; [apply date_item|constructor]).
  assert (Hnd : NoDup (map fst [(B "VALUE", B "DATE")])) by (apply nodup_b_spec; reflexivity).
  split.
  - rewrite text_loud by (auto; in_known). unfold not_empty. rewrite (proj2 (isnil_false _)); [reflexivity|]. unfold ann_text. rewrite Hd. apply create_nonnil.
  - intros _. exists d, (ann_text T e). split; [exact Hd|]. split; [|split; [rewrite text_put by auto; reflexivity|apply text_held; auto]].
    unfold ann_text. rewrite Hd. apply (date_says (mkDt (Some d) (Some midnight) TLocal)). cbn [dt_date dt_time dt_spec]. split; [exact Hst|]. intros _. split; [|exact I]. exists midnight. split; [reflexivity|cbv; intuition discriminate].
Qed.
