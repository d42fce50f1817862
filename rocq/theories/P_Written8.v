(** Pictures, custom fields and field groups in a written card (C80). *)
From Coq Require Import Permutation.
From Verif Require Import Base BaseFacts QtText Utf8 Utf8Facts M_ParamMap M_VCard M_VCardText
  S_Escape P_Escape S_Fold P_Fold S_CardText P_CardText S_Card P_Assoc P_Card S_Parse P_Parse P_Parse2
  S_RoundTrip P_RoundTrip P_RoundTrip2 P_RoundTrip3 P_ReadBack P_Items P_Order
  M_Split S_Split P_Split M_Values M_Date M_Addressee M_VCardTool S_Contact P_Seen P_ReadFields P_Lines P_Contact P_Chunks
  P_Types P_Addr P_Contact2 P_Fields P_Fields2 S_Soft S_Order S_Coding S_Meaning S_Written P_Written P_Written2 P_Written3 S_DateText S_Date P_Date P_Values P_Fields4 P_Fields5 P_Four P_Own P_Fields6 P_Fields7 S_Four P_Written4 P_Written5 P_Written6 P_Written7.
From Coq Require Import Lia ZArith.

(** ** Pictures *)
Lemma picture_put E T v i p : In i [B "PHOTO"; B "LOGO"] -> picture_fits T v p -> (v = V21 -> pi_intern p = false) ->
  loud E (picture_line T v i p) = not_empty (if pi_intern p then pi_raw_of (env_img (t_env T)) p else pi_url p) /\
  (not_empty (if pi_intern p then pi_raw_of (env_img (t_env T)) p else pi_url p) = true -> holds_picture v (env_img (t_env T)) (put_of E (picture_line T v i p)) p).
Proof.
  intros Hi [Hf Hu] H21. assert (Hk : In i known) by (destruct Hi as [<-|[<-|[]]]; in_known). unfold holds_picture, picture_line.
  assert (Hpe : picture_empty p = true -> (if pi_intern p then pi_raw_of (env_img (t_env T)) p else pi_url p) = []).
  { unfold picture_empty. destruct (pi_intern p); cbn [negb andb orb]; intros H.
    - apply andb_true_iff in H as [H1 H2]. unfold pi_raw_of. destruct (pi_raw p); [|discriminate]. destruct (pi_data p); [discriminate|reflexivity].
    - rewrite orb_false_r in H. destruct (pi_url p); [reflexivity|discriminate]. }
  assert (Hsil : loud E (vline_new i QInvalid) = false) by (destruct (seen_silent E [] i) as [_ L]; exact L).
  assert (Huri : pi_intern p = false -> let l := vl_add_param (B "value") (B "URI") (text_line i (pi_url p)) in
     loud E l = not_empty (pi_url p) /\ (not_empty (pi_url p) = true -> sd_params (put_of E l) = [B "VALUE=URI"] /\ holds_text (put_of E l) (pi_url p))).
  { intros _. destruct (uri_put E i (pi_url p) Hk) as (U1 & U2 & U3). cbv zeta in *. auto. }
  destruct v.
  - specialize (H21 eq_refl). rewrite H21 in *. cbn iota in *. destruct (picture_empty p); [rewrite (Hpe eq_refl), Hsil; split; [reflexivity|discriminate]|]. apply Huri; auto.
  - destruct (pi_intern p) eqn:Ei; cbn iota in *.
    2: { destruct (picture_empty p); [rewrite (Hpe eq_refl), Hsil; split; [reflexivity|discriminate]|]. apply Huri; auto. }
    destruct (picture_empty p).
    { assert (Hz := Hpe eq_refl). rewrite Hsil. split; [symmetry; unfold not_empty; apply negb_false_iff; rewrite Hz; reflexivity|]. intros K. exfalso. rewrite Hz in K. discriminate K. }
    destruct (Hf eq_refl) as [Hb Ht]. set (b := pi_raw_of (env_img (t_env T)) p) in *.
    change (vl_add_param (B "type") (pi_type p) (vl_add_param (B "encoding") (B "b") (vline_new i (QBytes b)))) with (add_all [(B "encoding", B "b"); (B "type", pi_type p)] (vline_new i (QBytes b))).
    set (kvs := [(B "encoding", B "b"); (B "type", pi_type p)]).
    assert (Hn : NoDup (map fst kvs)) by (apply nodup_b_spec; reflexivity).
    assert (Hall : Forall (fun kv => kv = (B "encoding", B "b") \/ plain_item kv) kvs).
    { constructor; [left; reflexivity|]. constructor; [|constructor]. right. apply type_plain. exact Ht. }
    destruct (seen_bytes E i [] i kvs b (known_id i Hk) Hn (or_introl eq_refl) Hall Hb) as (_ & L & _). cbv zeta in L. split; [exact L|]. intros _.
    destruct (bytes_held E i kvs b Hn (or_introl eq_refl) Hall Hb) as [B1 B2]. cbv zeta in B1, B2. split; [exact B1|]. intros Hne.
    specialize (B2 (B "type", pi_type p) (or_intror (or_introl eq_refl))). unfold iput in B2. cbn [fst snd] in B2. rewrite (proj2 (isnil_false _) Hne) in B2.
    rewrite (latin1_of (pi_type p)) in B2; [exact B2|]. eapply Forall_impl; [|exact Ht]. cbn. intros; lia.
  - unfold picture_line4. destruct (pi_intern p) eqn:Ei.
    + destruct (Hf eq_refl) as [Hb Ht]. destruct (seen_data E i (pi_type p) (pi_raw_of (env_img (t_env T)) p) Hi Ht Hb) as (_ & L & _). cbv zeta in L. split; [exact L|]. intros _.
      destruct Hi as [<-|[<-|[]]]; (split; [reflexivity|]);
        (change (B "data:image/" ++ pi_type p ++ B ";base64," ++ to_base64 (pi_raw_of (env_img (t_env T)) p)) with ((B "data:image/" ++ pi_type p) ++ B ";base64," ++ to_base64 (pi_raw_of (env_img (t_env T)) p)) || idtac); reflexivity || (rewrite app_assoc; reflexivity).
    + change (text_line i (pi_url p)) with (add_all [] (text_line i (pi_url p))). split; [apply text_loud; [exact Hk|constructor|constructor]|]. intros _.
      split; [rewrite text_put by constructor; reflexivity|apply text_held; constructor].
Qed.
Lemma put_pictures T E v export a i : fits T v a -> In i [B "PHOTO"; B "LOGO"] ->
  let l := if leqb i (B "PHOTO") then a_photo a :: a_xphotos a else a_logo a :: a_xlogos a in
  (v = V21 -> Forall (fun x => pi_intern x = false) l) ->
  exists m, Permutation m (filter (fun x => not_empty (if pi_intern x then pi_raw_of (env_img (t_env T)) x else pi_url x)) l) /\
    Forall2 (holds_picture v (env_img (t_env T))) (filter (fun p => leqb (to_lower (sd_name p)) (to_lower i)) (puts E (written (create_card T v export a)))) m.
Proof.
  intros Hf Hi l H21.
  assert (Hp : Permutation (filter (fun p => leqb (to_lower (sd_name p)) (to_lower i)) (puts E (written (create_card T v export a)))) (puts E (map (picture_line T v i) l))).
  { unfold l. rewrite <- (pic_lines T v export a i Hf Hi). apply puts_select; [exact Hf|]. intros x _ Hc Hl. apply pic_called; auto. }
  eapply perm_forall2; [exact Hp|]. apply puts_map. intros x Hx. apply picture_put; [exact Hi| |].
  - pose proof (fit_pictures _ _ _ Hf) as Hfp. rewrite Forall_forall in Hfp. apply Hfp. unfold l in Hx. destruct (leqb i (B "PHOTO")).
    + destruct Hx as [<-|Hx]; [right; left; reflexivity|]. right. right. apply in_or_app. right. exact Hx.
    + destruct Hx as [<-|Hx]; [left; reflexivity|]. right. right. apply in_or_app. left. exact Hx.
  - intros Hv. specialize (H21 Hv). rewrite Forall_forall in H21. auto.
Qed.

(** ** Custom fields *)
Lemma custom_named export n : custom_name export n (custom_id export n).
Proof.
  unfold custom_name. assert (Hx : custom_id export n = if export then renamed export_names (B "X-" ++ n) else B "X-" ++ n) by reflexivity. rewrite Hx. clear Hx.
  destruct export; [|right; split; [reflexivity|discriminate]].
  assert (He : export_names = map (fun e => (B "X-" ++ B "messaging/" ++ B (fst e) ++ B "-All", B (snd e))) messengers) by reflexivity.
  rewrite He. unfold messenger. generalize messengers. clear He. intros tab.
  enough (H : (exists f s, In (s, f) tab /\ n = B "messaging/" ++ B s ++ B "-All" /\ renamed (map (fun e => (B "X-" ++ B "messaging/" ++ B (fst e) ++ B "-All", B (snd e))) tab) (B "X-" ++ n) = B f) \/
     (renamed (map (fun e => (B "X-" ++ B "messaging/" ++ B (fst e) ++ B "-All", B (snd e))) tab) (B "X-" ++ n) = B "X-" ++ n /\ ~ exists f s, In (s, f) tab /\ n = B "messaging/" ++ B s ++ B "-All")).
  { destruct H as [(f & s & H1 & H2 & H3)|[H1 H2]]; [left|right].
    - split; [reflexivity|]. exists f. split; [exists s; auto|exact H3].
    - split; [exact H1|]. intros _ (f & s & H). apply H2. exists f, s. exact H. }
  induction tab as [|[s f] tab IH]; [right; split; [reflexivity|intros (? & ? & [] & _)]|]. cbn [map renamed fst snd].
  destruct (leqb_spec (B "X-" ++ n) (B "X-" ++ B "messaging/" ++ B s ++ B "-All")) as [Hq|Hq].
  - left. exists f, s. split; [left; reflexivity|]. split; [apply app_inv_head in Hq; exact Hq|reflexivity].
  - destruct IH as [(f' & s' & H1 & H2 & H3)|[H1 H2]]; [left; exists f', s'; split; [right; exact H1|auto]|right]. split; [exact H1|].
    intros (f' & s' & [H|H] & Hn); [|apply H2; exists f', s'; auto]. injection H as <- <-. apply Hq. rewrite Hn. reflexivity.
Qed.
Definition x_line (l : vline) : bool := starts_with (B "X-") (vl_id l) && negb (mem 46 (vl_id l)).
Definition dot_line (l : vline) : bool := mem 46 (vl_id l) && negb (mem 58 (vl_id l)).
Lemma pic_id j : pictured j = true -> j = B "PHOTO" \/ j = B "LOGO".
Proof. unfold pictured. intros Hj. apply orb_true_iff in Hj as [Hj|Hj]; apply leqb_eq in Hj; auto. Qed.
Lemma put_x E l : classed E l -> loud E l = true -> starts_with (B "X-") (sd_name (put_of E l)) && negb (mem 46 (sd_name (put_of E l))) = x_line l.
Proof.
  intros Hc Hl. unfold x_line. destruct (put_name E l Hc Hl) as [(Hv & ->)|(Hv & j & t & Hj & Hid & ->)]; [reflexivity|].
  rewrite Hid. destruct (pic_id j Hj) as [->| ->]; reflexivity.
Qed.
Lemma put_dot E l : classed E l -> loud E l = true -> mem 46 (sd_name (put_of E l)) = dot_line l.
Proof.
  intros Hc Hl. unfold dot_line. destruct (put_name E l Hc Hl) as [(Hv & ->)|(Hv & j & t & Hj & Hid & ->)].
  - assert (H58 : mem 58 (vl_id l) = false).
    { apply mem_false. pose proof (cl_head _ _ Hc Hl) as Hd. destruct (vl_value l); [congruence| |];
        (destruct Hd as (g & i' & ops & [_ Hi' _ _]); destruct (id_reads_chars _ _ _ Hi') as [Hch _]; rewrite Forall_forall in Hch; intros H58; destruct (Hch _ H58) as [_ K]; apply K; reflexivity). }
    rewrite H58. rewrite andb_true_r. reflexivity.
  - rewrite Hid. replace (mem 58 (j ++ B ":data:image/" ++ t)) with true.
    + rewrite andb_false_r. destruct (pic_id j Hj) as [->| ->]; reflexivity.
    + symmetry. apply mem_In. apply in_or_app. right. left. reflexivity.
Qed.
Lemma quiet_lines l : quiet (vl_id l) -> x_line l = false /\ dot_line l = false.
Proof.
  intros [H1 H2]. unfold x_line, dot_line. rewrite H1. split; [reflexivity|]. destruct (mem 46 (vl_id l)) eqn:E1; [|reflexivity].
  apply mem_In in E1. specialize (H2 E1). apply mem_In in H2. cbn [andb]. apply negb_false_iff. exact H2.
Qed.
Definition kept_custom (v : version) (e : ustring * ustring) : bool :=
  not_empty (snd e) && match v with V40 => negb (leqb (to_lower (fst e)) (B "kaddressbook-x-anniversary")) && negb (leqb (to_lower (fst e)) (B "kaddressbook-x-spousesname")) | _ => true end.
Lemma customs_lines T v export a : fits T v a ->
  filter x_line (custom_part T v export a) = map (fun e => text_line (custom_id export (fst e)) (snd e)) (filter (kept_custom v) (a_customs a)) /\
  filter dot_line (custom_part T v export a) = [].
Proof.
  intros Hf. unfold custom_part, customs_of. rewrite flat_map_concat_map, map_map, <- flat_map_concat_map. rewrite !filter_flat_map.
  assert (Hone : forall e, In e (a_customs a) ->
     filter x_line (custom_lines T v export (fst e ++ cCOLON :: snd e)) = map (fun e => text_line (custom_id export (fst e)) (snd e)) (filter (kept_custom v) [e]) /\
     filter dot_line (custom_lines T v export (fst e ++ cCOLON :: snd e)) = []).
  { intros e He. pose proof (fit_customs _ _ _ Hf) as Hw. rewrite Forall_forall in Hw. specialize (Hw e He). destruct (custom_id_reads export _ Hw) as (q & Hq & Hqc).
    assert (Hx : x_line (text_line (custom_id export (fst e)) (snd e)) = true /\ dot_line (text_line (custom_id export (fst e)) (snd e)) = false).
    { unfold x_line, dot_line, text_line. cbn [vline_new vl_id]. rewrite Hq. assert (Hd : mem 46 (B "X-" ++ q) = false).
      { apply mem_false. intros K. apply in_app_or in K as [K|K]; [cbv in K; intuition discriminate|]. rewrite Forall_forall in Hqc. destruct (Hqc _ K) as [_ K']. apply K'. left. reflexivity. }
      rewrite Hd. split; reflexivity. }
    destruct Hx as [X1 X2].
    assert (Hplain : kept_custom v e = not_empty (snd e) -> custom_lines T v export (fst e ++ cCOLON :: snd e) = (if isnil (snd e) then [] else [text_line (custom_id export (fst e)) (snd e)]) ->
       filter x_line (custom_lines T v export (fst e ++ cCOLON :: snd e)) = map (fun e => text_line (custom_id export (fst e)) (snd e)) (filter (kept_custom v) [e]) /\
       filter dot_line (custom_lines T v export (fst e ++ cCOLON :: snd e)) = []).
    { intros Hke ->. cbn [filter]. rewrite Hke. unfold not_empty. destruct (isnil (snd e)); cbn [negb filter map]; [split; reflexivity|]. rewrite X1, X2. split; reflexivity. }
    destruct v.
    - apply Hplain; [apply andb_true_r|]. rewrite custom_lines_eq; [|exact Hw|intros Hv; eapply custom_plain; eauto; rewrite <- surjective_pairing; exact He]. reflexivity.
    - apply Hplain; [apply andb_true_r|]. rewrite custom_lines_eq; [|exact Hw|discriminate]. reflexivity.
    - rewrite (own_lines T export a e Hf He). unfold kept_custom. cbn [filter]. unfold is_anniversary, is_spouse in *. unfold not_empty. destruct (isnil (snd e)) eqn:En; cbn [negb andb]; [split; reflexivity|].
      destruct (leqb (to_lower (fst e)) (B "kaddressbook-x-anniversary")); [split; reflexivity|]. destruct (leqb (to_lower (fst e)) (B "kaddressbook-x-spousesname")); [split; reflexivity|].
      cbn [negb andb filter map]. rewrite X1, X2. split; reflexivity. }
  clear Hf. induction (a_customs a) as [|e l IH]; [split; reflexivity|]. destruct (Hone e (or_introl eq_refl)) as [O1 O2].
  destruct IH as [I1 I2]; [intros; apply Hone; right; auto|]. cbn [flat_map]. change (filter (kept_custom v) (e :: l)) with (filter (kept_custom v) ([e] ++ l)). rewrite filter_app, map_app, <- O1, <- I1.
  split; [reflexivity|]. change (filter dot_line (custom_lines T v export (fst e ++ 58%N :: snd e))) with (filter dot_line (custom_lines T v export (fst e ++ cCOLON :: snd e))). rewrite O2. exact I2.
Qed.
Lemma x_lines T v export a : fits T v a ->
  filter x_line (contact_lines T v export a) = map (fun e => text_line (custom_id export (fst e)) (snd e)) (filter (kept_custom v) (a_customs a)) /\
  filter dot_line (contact_lines T v export a) = fgroup_lines a.
Proof.
  intros Hf. rewrite lines_split, !filter_app. destruct (customs_lines T v export a Hf) as [-> ->].
  rewrite (P_Fields2.filter_none x_line (flat_map snd (main_chunks T v export a))) by (intros l Hl; apply quiet_lines; eapply (main_quiet (E := Build_Ext (fun b => b) (fun b => b) (fun _ => None) (fun _ => None))); eauto).
  rewrite (P_Fields2.filter_none dot_line (flat_map snd (main_chunks T v export a))) by (intros l Hl; apply quiet_lines; eapply (main_quiet (E := Build_Ext (fun b => b) (fun b => b) (fun _ => None) (fun _ => None))); eauto).
  assert (Hi : forall l, In l (map impp_line (a_impps a)) -> vl_id l = B "IMPP").
  { intros l Hl. apply in_map_iff in Hl as (x & <- & _). unfold impp_line. rewrite (fold_skip (fun pv => leqb (to_lower (fst pv)) (B "x-service-type"))). apply add_params_id. }
  rewrite (P_Fields2.filter_none x_line (map impp_line (a_impps a))) by (intros l Hl; unfold x_line; rewrite (Hi l Hl); reflexivity).
  rewrite (P_Fields2.filter_none dot_line (map impp_line (a_impps a))) by (intros l Hl; unfold dot_line; rewrite (Hi l Hl); reflexivity).
  assert (Hg : forall l, In l (fgroup_lines a) -> x_line l = false /\ dot_line l = true).
  { intros l Hl. unfold fgroup_lines in Hl. apply in_map_iff in Hl as (f & <- & Hin). pose proof (fit_groups _ _ _ Hf) as Hg. rewrite Forall_forall in Hg.
    destruct (Hg f Hin) as (g & n & Hn & Wg & Wn & Ha). unfold x_line, dot_line. rewrite add_params_id. unfold text_line. cbn [vline_new vl_id]. rewrite Hn.
    assert (Hd : mem 46 (g ++ [cDOT] ++ n) = true) by (apply mem_In; apply in_or_app; right; left; reflexivity).
    assert (Hcol : mem 58 (g ++ [cDOT] ++ n) = false).
    { apply mem_false. intros K. destruct Wg as [_ Wg]. destruct Wn as [_ Wn]. rewrite Forall_forall in Wg, Wn. rewrite !in_app_iff in K. destruct K as [K|[[K|[]]|K]]; [destruct (Wg _ K) as [_ K']|discriminate K|destruct (Wn _ K) as [_ K']]; apply K'; cbn; auto. }
    rewrite Hd, Hcol. rewrite andb_false_r. split; reflexivity. }
  rewrite (P_Fields2.filter_none x_line (fgroup_lines a)) by (intros l Hl; apply Hg; auto).
  rewrite (P_Fields2.filter_all dot_line (fgroup_lines a)) by (intros l Hl; apply Hg; auto).
  cbn [app]. rewrite app_nil_r. split; reflexivity.
Qed.
Lemma put_customs T E v export a : fits T v a ->
  exists m, Permutation m (filter (kept_custom v) (a_customs a)) /\
    Forall2 (fun p e => custom_name export (fst e) (sd_name p) /\ sd_params p = [] /\ holds_text p (snd e))
      (filter (fun p => starts_with (B "X-") (sd_name p) && negb (mem 46 (sd_name p))) (puts E (written (create_card T v export a)))) m.
Proof.
  intros Hf. eapply perm_forall2.
  - apply (puts_select T E v export a (fun p => starts_with (B "X-") (sd_name p) && negb (mem 46 (sd_name p))) x_line Hf). intros l _ Hc Hl. apply put_x; auto.
  - destruct (x_lines T v export a Hf) as [-> _].
    rewrite <- (P_Fields2.filter_all (fun e => not_empty (snd e)) (filter (kept_custom v) (a_customs a))) at 2 by (intros e He; apply filter_In in He as [_ He]; unfold kept_custom in He; apply andb_true_iff in He; apply He).
    apply puts_map. intros e He. apply filter_In in He as [He _]. pose proof (fit_customs _ _ _ Hf) as Hw. rewrite Forall_forall in Hw. specialize (Hw e He).
    change (text_line (custom_id export (fst e)) (snd e)) with (add_all [] (text_line (custom_id export (fst e)) (snd e))).
    destruct (custom_id_reads export _ Hw) as (q & Hq & Hqc).
    split.
    + destruct (seen_text E (custom_id export (fst e)) [] (custom_id export (fst e)) [] (snd e)) as (_ & L & _); [rewrite Hq; apply x_id; exact Hqc|constructor|constructor|]. exact L.
    + intros _. rewrite text_put by constructor. cbn [sd_name sd_params]. split; [apply custom_named|]. split; [reflexivity|].
      rewrite <- (text_put E (custom_id export (fst e)) [] (snd e)) by constructor. apply text_held; constructor.
Qed.
Lemma put_groups T E v export a : fits T v a ->
  exists m, Permutation m (filter (fun f => not_empty (fg_value f)) (a_fgroups a)) /\
    Forall2 (fun p f => sd_name p = fg_name f /\ sd_params p = map param_of (fg_params f) /\ holds_text p (fg_value f))
      (filter (fun p => mem 46 (sd_name p)) (puts E (written (create_card T v export a)))) m.
Proof.
  intros Hf. eapply perm_forall2.
  - apply (puts_select T E v export a (fun p => mem 46 (sd_name p)) dot_line Hf). intros l _ Hc Hl. apply put_dot; auto.
  - destruct (x_lines T v export a Hf) as [_ ->]. unfold fgroup_lines. apply puts_map. intros f Hin. split; [apply (fgroup_seen E T v a f Hf Hin)|]. intros _.
    destruct (params_facts a (fit_params _ _ _ Hf)) as (_ & _ & _ & _ & _ & Hp & _). specialize (Hp f Hin).
    split; [|apply params_put; exact Hp]. destruct (joined_plain _ Hp) as [J1 J2]. rewrite vl_add_params_all. rewrite text_put by auto. reflexivity.
Qed.
