(** Version 4.0: the custom fields that have a property of their own. *)
From Coq Require Import Permutation.
From Verif Require Import Base BaseFacts QtText Utf8 Utf8Facts M_ParamMap M_VCard M_VCardText
  S_Escape P_Escape S_Fold P_Fold S_CardText P_CardText S_Card P_Assoc P_Card S_Parse P_Parse P_Parse2
  S_RoundTrip P_RoundTrip P_RoundTrip2 P_RoundTrip3 P_ReadBack P_Items P_Order
  M_Split S_Split P_Split M_Values M_Date S_Date P_Date M_Addressee P_Addressee M_VCardTool S_Contact P_Seen P_ReadFields P_Lines P_Contact P_Chunks P_Lists P_Values
  P_Fields P_Fields2 P_Fields3 P_Fields4 P_Fields5 P_Fields6 P_Fields7 P_Types P_Addr P_Contact2 S_Four P_Four.

Lemma own_id export n t : In t [B "kaddressbook-x-anniversary"; B "kaddressbook-x-spousesname"] ->
  leqb (to_lower (custom_id export n)) (B "x-" ++ t) = leqb (to_lower n) t.
Proof.
  intros Ht. destruct (custom_id_cases export n) as [->|Hin].
  - change (to_lower (B "X-" ++ n)) with (B "x-" ++ to_lower n). reflexivity.
  - assert (Hall : forallb (fun e => negb (leqb (to_lower (snd e)) (B "x-kaddressbook-x-anniversary")) && negb (leqb (to_lower (snd e)) (B "x-kaddressbook-x-spousesname")) &&
       negb (leqb (to_lower (skipn 2 (fst e))) (B "kaddressbook-x-anniversary")) && negb (leqb (to_lower (skipn 2 (fst e))) (B "kaddressbook-x-spousesname"))) export_names = true) by (vm_compute; reflexivity).
    rewrite forallb_forall in Hall. specialize (Hall _ Hin). cbn [fst snd] in Hall. change (skipn 2 (B "X-" ++ n)) with n in Hall. rewrite !andb_true_iff, !negb_true_iff in Hall. destruct Hall as (((H1 & H2) & H3) & H4).
    destruct Ht as [<-|[<-|[]]]; [change (B "x-" ++ B "kaddressbook-x-anniversary") with (B "x-kaddressbook-x-anniversary")|change (B "x-" ++ B "kaddressbook-x-spousesname") with (B "x-kaddressbook-x-spousesname")]; congruence.
Qed.
Definition ann_text (T : Tool) (e : ustring * ustring) : ustring := create_datetime (mk_dt (t_iso_date T (snd e)) None TLocal) V40 true.
Definition ann_line (T : Tool) (e : ustring * ustring) : vline := add_all [(B "VALUE", B "DATE")] (vline_new (B "ANNIVERSARY") (QStr (ann_text T e))).
Definition spouse_line (e : ustring * ustring) : vline := add_all [(B "TYPE", B "spouse"); (B "VALUE", snd e)] (vline_new (B "RELATED") (QStr (B ";"))).
Lemma own_lines T export a e : fits T V40 a -> In e (a_customs a) ->
  custom_lines T V40 export (fst e ++ cCOLON :: snd e) =
    if isnil (snd e) then [] else if is_anniversary e then [ann_line T e] else if is_spouse e then [spouse_line e] else [text_line (custom_id export (fst e)) (snd e)].
Proof.
  intros Hf Hin. pose proof (fit_customs _ _ _ Hf) as Hw. rewrite Forall_forall in Hw. specialize (Hw e Hin).
  rewrite custom_lines_eq; [|exact Hw|discriminate]. destruct (isnil (snd e)); [reflexivity|]. cbv zeta. fold (custom_id export (fst e)). cbn [is40 andb].
  change (B "x-kaddressbook-x-anniversary") with (B "x-" ++ B "kaddressbook-x-anniversary"). change (B "x-kaddressbook-x-spousesname") with (B "x-" ++ B "kaddressbook-x-spousesname").
  rewrite !own_id by (cbn; auto). reflexivity.
Qed.
(** the line of an anniversary *)
Lemma ann_seen E T e : loud E (ann_line T e) = negb (isnil (ann_text T e)) /\
  exists ps, reread E (ann_line T e) = mkVline (B "ANNIVERSARY") [] ps (QStr (ann_text T e)) [].
Proof.
  assert (Hs := printed_safe _ (datetime_plain (mk_dt (t_iso_date T (snd e)) None TLocal) V40 true)). fold (ann_text T e) in Hs.
  unfold ann_line. set (kvs := [(B "VALUE", B "DATE")] : list item).
  assert (Hp : plain_item (B "VALUE", B "DATE")).
  { split; [split; [apply ikey_dec; reflexivity|left; apply ivalue_dec; reflexivity]|]. split; [discriminate|]. split; [discriminate|].
    split; intros H; apply item_ops_keys in H; cbn [fst snd] in H; destruct H as [[_ H]|[_ H]]; discriminate. }
  destruct (seen_text E (B "ANNIVERSARY") [] (B "ANNIVERSARY") kvs (ann_text T e) (known_id (B "ANNIVERSARY") ltac:(in_known)) ltac:(apply nodup_b_spec; reflexivity) (Forall_cons _ Hp (Forall_nil _))) as (_ & L & R).
  cbv zeta in L, R. split; [exact L|]. destruct Hs as [U1 U2]. rewrite thru_id in R by auto. eexists. exact R.
Qed.
Definition ann_out (T : Tool) (e : ustring * ustring) (l : vline) : Prop := exists ps, l = mkVline (B "ANNIVERSARY") [] ps (QStr (ann_text T e)) [].
Definition is_ann (l : vline) : bool := match line_kind l with LAnniversary => true | _ => false end.
Definition own_ann (e : ustring * ustring) : bool := full_custom e && is_anniversary e.
Definition plain_custom (e : ustring * ustring) : bool := full_custom e && negb (is_anniversary e) && negb (is_spouse e).

Definition each_custom (T : Tool) (export : bool) (l : list (ustring * ustring)) : list vline := flat_map (custom_lines T V40 export) (map (fun e => fst e ++ 58%N :: snd e) l).
Lemma custom_id_not export n i : starts_with (B "X-") i = false -> leqb (custom_id export n) i = false.
Proof. intros H. apply leqb_neq. intros E. pose proof (custom_id_x export n) as Hx. rewrite E in Hx. congruence. Qed.
(** the line of a spouse *)
Lemma spouse_chars T a e : fits T V40 a -> In e (a_customs a) -> is_spouse e = true -> value_chars (snd e).
Proof. intros Hf Hin Hs. destruct (fit_40 _ _ _ Hf eq_refl) as (_ & _ & H). rewrite Forall_forall in H. apply (H e Hin). apply leqb_eq. exact Hs. Qed.
Lemma spouse_seen E T a e : fits T V40 a -> In e (a_customs a) -> is_spouse e = true -> snd e <> [] ->
  loud E (spouse_line e) = true /\ exists ps, reread E (spouse_line e) = mkVline (B "RELATED") [] ps (QStr (B ";")) [] /\
    (~ In cCOMMA (snd e) -> ps = pt_params (spouse_related e)).
Proof.
  intros Hf Hin Hs Hne. pose proof (spouse_chars T a e Hf Hin Hs) as Hv. unfold spouse_line. set (kvs := [(B "TYPE", B "spouse"); (B "VALUE", snd e)] : list item).
  assert (Hpl : Forall plain_item kvs).
  { apply Forall_cons; [|apply Forall_cons; [|apply Forall_nil]].
    - apply upper_plain; [apply ikey_dec; reflexivity|discriminate|cbv; intuition discriminate|discriminate|discriminate|apply ivalue_dec; reflexivity].
    - apply upper_plain; [apply ikey_dec; reflexivity|exact Hne|cbv; intuition discriminate|discriminate|discriminate|apply value_ivalue; exact Hv]. }
  destruct (seen_text E (B "RELATED") [] (B "RELATED") kvs (B ";") (known_id (B "RELATED") ltac:(in_known)) ltac:(apply nodup_b_spec; reflexivity) Hpl) as (_ & L & R).
  cbv zeta in L, R. split; [exact L|]. destruct (text_safe_spec (B ";") eq_refl) as [U1 U2]. rewrite thru_id in R by auto. eexists. split; [exact R|]. intros Hc.
  assert (Ho : item_ops (B "VALUE", snd e) = [(B "value", snd e)]).
  { unfold item_ops. cbn [fst snd]. destruct (snd e) as [|c r] eqn:Ee; [congruence|]. destruct (N.eqb_spec c cDQ) as [->|_]; [exfalso; apply (value_no 34 _ Hv); left; reflexivity|].
    change (c :: r) with (join [cCOMMA] [c :: r]). rewrite split_join_comma; [|discriminate|constructor; auto]. reflexivity. }
  assert (Hi : items_of (read_params kvs) = [(B "TYPE", B "spouse"); (B "VALUE", snd e)]) by reflexivity.
  unfold seen_ops. rewrite Hi. cbn [flat_map]. rewrite Ho. reflexivity.
Qed.
(** the lines called ANNIVERSARY and the X- lines, as they are read *)
Lemma anns_named E T export a l : fits T V40 a -> (forall e, In e l -> In e (a_customs a)) -> Forall (fun e => own_ann e = true -> iso_custom T e) l ->
  Forall2 (ann_out T) (filter own_ann l) (readings E (filter (named (B "ANNIVERSARY")) (each_custom T export l))).
Proof.
  intros Hf. induction l as [|e l IH]; intros Hl Hi; [constructor|].
  specialize (IH (fun x H => Hl x (or_intror H)) (Forall_inv_tail Hi)). apply Forall_inv in Hi.
  unfold each_custom. cbn [map flat_map]. fold (each_custom T export l). rewrite filter_app, readings_app.
  change (fst e ++ 58%N :: snd e) with (fst e ++ cCOLON :: snd e). rewrite (own_lines T export a e Hf (Hl e (or_introl eq_refl))).
  cbn [filter]. unfold own_ann, full_custom in *. destruct (isnil (snd e)) eqn:En; cbn [negb andb] in *; [exact IH|].
  destruct (is_anniversary e) eqn:Ea.
  - destruct (ann_seen E T e) as [L [ps R]]. unfold readings at 1. cbn [filter]. change (named (B "ANNIVERSARY") (ann_line T e)) with true. cbn [filter].
    rewrite L. destruct (Hi eq_refl) as (d & Hd & _). assert (Hne : ann_text T e <> []) by (unfold ann_text; rewrite Hd; apply create_nonnil).
    rewrite (proj2 (isnil_false _) Hne). cbn [negb map app]. constructor; [exists ps; exact R|exact IH].
  - assert (Hn : filter (named (B "ANNIVERSARY")) (if is_spouse e then [spouse_line e] else [text_line (custom_id export (fst e)) (snd e)]) = []).
    { destruct (is_spouse e); [reflexivity|]. cbn [filter]. unfold named, text_line. cbn [vline_new vl_id].
      match goal with |- context [leqb ?x ?y] => replace (leqb x y) with false end; [reflexivity|]. symmetry. apply custom_id_not. reflexivity. }
    rewrite Hn. exact IH.
Qed.
Lemma plains_seen E T export a l : fits T V40 a -> (forall e, In e l -> In e (a_customs a)) -> Forall (fun e => text_safe (snd e)) l ->
  filter is_x (readings E (each_custom T export l)) = map (custom_out V40 export) (filter plain_custom l).
Proof.
  intros Hf. induction l as [|e l IH]; intros Hl Hs; [reflexivity|].
  specialize (IH (fun x H => Hl x (or_intror H)) (Forall_inv_tail Hs)). apply Forall_inv in Hs.
  unfold each_custom. cbn [map flat_map]. fold (each_custom T export l). rewrite readings_app, filter_app, IH.
  change (fst e ++ 58%N :: snd e) with (fst e ++ cCOLON :: snd e). rewrite (own_lines T export a e Hf (Hl e (or_introl eq_refl))).
  cbn [filter]. unfold plain_custom at 2, full_custom. destruct (isnil (snd e)) eqn:En; cbn [negb andb]; [reflexivity|].
  destruct (is_anniversary e) eqn:Ea; cbn [negb andb].
  - destruct (ann_seen E T e) as [_ [ps R]]. unfold readings. cbn [filter]. destruct (loud E (ann_line T e)); [|reflexivity]. cbn [map filter]. rewrite R.
    unfold is_x. rewrite shaped_kind by (left; split; [reflexivity|left; in_known]). reflexivity.
  - destruct (is_spouse e) eqn:Es; cbn [negb].
    + unfold readings. cbn [filter]. destruct (loud E (spouse_line e)) eqn:Ll; [|reflexivity]. cbn [map filter].
      assert (Hx : is_x (reread E (spouse_line e)) = false); [|rewrite Hx; reflexivity].
      destruct (spouse_seen E T a e Hf (Hl e (or_introl eq_refl)) Es ltac:(apply isnil_false; exact En)) as (_ & ps & -> & _).
      unfold is_x. rewrite shaped_kind by (left; split; [reflexivity|left; in_known]). reflexivity.
    + pose proof (fit_customs _ _ _ Hf) as Hw. rewrite Forall_forall in Hw. destruct (custom_text_seen E export e (Hw e (Hl e (or_introl eq_refl))) Hs) as [L R].
      unfold readings. cbn [filter]. rewrite L. unfold full_custom. rewrite En. cbn [negb map filter]. rewrite R.
      destruct (custom_out_x V40 export e (Hw e (Hl e (or_introl eq_refl)))) as [-> _]. reflexivity.
Qed.

Lemma lx_perm40 E T export a : fits T V40 a -> Forall (fun e => text_safe (snd e)) (a_customs a) ->
  Permutation (filter is_x (seen E T V40 export a)) (map (custom_out V40 export) (filter plain_custom (a_customs a))).
Proof.
  intros Hf Hs. etransitivity; [apply perm_filter, seen_perm|]. rewrite lines_split, !readings_app, !filter_app.
  rewrite (filter_none is_x (readings E (flat_map snd (main_chunks T V40 export a)))) by (intros l Hl; apply (quiet_parts E T V40 export a l Hf); auto).
  rewrite (filter_none is_x (readings E (fgroup_lines a))) by (intros l Hl; apply (fgroup_kind E T V40 a l Hf Hl)).
  rewrite (filter_none is_x (readings E (map impp_line (a_impps a)))) by (intros l Hl; apply (quiet_parts E T V40 export a l Hf); auto).
  cbn [app]. change (custom_part T V40 export a) with (each_custom T export (a_customs a)). rewrite (plains_seen E T export a) by auto. reflexivity.
Qed.
Lemma perm_two {X} (P Q : X -> bool) l : (forall x, P x = true -> Q x = true -> False) -> Permutation (filter (fun x => P x || Q x) l) (filter P l ++ filter Q l).
Proof.
  intros H. induction l as [|x l IH]; [constructor|]. cbn [filter]. destruct (P x) eqn:Ep; cbn [orb].
  - destruct (Q x) eqn:Eq; [destruct (H x Ep Eq)|]. cbn [app]. constructor. exact IH.
  - destruct (Q x); [|exact IH]. eapply Permutation_trans; [constructor; exact IH|]. apply Permutation_middle.
Qed.
Lemma forall2_map_in {X Y} (R : X -> Y -> Prop) (f : Y -> X) l m : Forall2 R l m -> (forall x y, In x l -> R x y -> f y = x) -> map f m = l.
Proof. induction 1 as [|x y l m H _ IH]; intros Hf; [reflexivity|]. cbn [map]. rewrite IH by (intros; apply Hf; [right|]; auto). f_equal. apply Hf; [left|]; auto. Qed.

(** what is read as a custom field *)
Definition kept_own (e : ustring * ustring) : bool := kept_custom e && negb (is_spouse e).
Lemma ann_name e : custom_name (fst e) -> is_anniversary e = true -> fst e = qualified vendor_id x_anniversary.
Proof.
  intros (_ & _ & H) Ha. apply leqb_eq in Ha. assert (Hl : to_lower (B "X-" ++ fst e) = B "x-kaddressbook-x-anniversary") by (change (to_lower (B "X-" ++ fst e)) with (B "x-" ++ to_lower (fst e)); rewrite Ha; reflexivity).
  specialize (H (B "X-KADDRESSBOOK-X-Anniversary")). rewrite Hl in H. assert (Hin : In (B "x-kaddressbook-x-anniversary", B "X-KADDRESSBOOK-X-Anniversary") import_names) by (unfold import_names; repeat first [left; reflexivity|right]).
  specialize (H Hin). apply (f_equal (skipn 2)) in H. symmetry. exact H.
Qed.

Lemma field_customs40 E T export a b : fits T V40 a -> reads_as E T V40 export a b ->
  increasing (map fst (a_customs a)) -> Forall (fun e => text_safe (snd e) /\ (is_messaging e = true \/ custom_name (fst e))) (a_customs a) ->
  Forall (fun e => own_ann e = true -> iso_custom T e) (a_customs a) ->
  a_customs b = filter kept_own (a_customs a).
Proof.
  intros Hf [card Hr] Hinc Hs Hiso.
  assert (Hts : Forall (fun e => text_safe (snd e)) (a_customs a)) by (eapply Forall_impl; [|exact Hs]; intros e He; apply He).
  rewrite Forall_forall in Hs.
  set (K := fun k => match k with LX | LAnniversary => true | _ => false end).
  set (g := fun (l : vline) (x : list (ustring * ustring)) => match line_kind l with LX => custom_customs l x
              | _ => ins_custom vendor_id x_anniversary (t_date_iso T (dt_date (fst (parse_datetime (lvalue l))))) x end).
  assert (H1 : forall id l x, K (line_kind l) = true -> a_customs (eff T id l x) = g l (a_customs x)).
  { intros id l x. unfold g, K. unfold eff. cbv zeta. destruct (line_kind l); intros H; try discriminate; reflexivity. }
  assert (H0 : forall id l x, K (line_kind l) = false -> a_customs (eff T id l x) = a_customs x).
  { intros id l x. unfold K. eff_cases l. }
  rewrite (read_lines_plain T a_customs K g card (fun e x => eq_refl) H1 H0 _ _ _ _ Hr). cbn [a_customs addressee_new]. clear H1 H0.
  pose proof (lx_perm40 E T export a Hf Hts) as Hp.
  assert (Han : Forall2 (ann_out T) (filter own_ann (a_customs a)) (filter is_ann (seen E T V40 export a))).
  { pose proof (anns_named E T export a (a_customs a) Hf (fun e H => H) Hiso) as H.
    unfold is_ann. rewrite (seen_chunk E T V40 export a (fun k => match k with LAnniversary => true | _ => false end) (B "ANNIVERSARY")) by first [exact Hf | kinds | discriminate].
    change (flat_map (pick (B "ANNIVERSARY")) (chunks T V40 export a)) with (filter (named (B "ANNIVERSARY")) (each_custom T export (a_customs a)) ++ []). rewrite app_nil_r. exact H. }
  (** every line puts one entry *)
  set (entry := fun l : vline => if is_ann l then (qualified vendor_id x_anniversary, t_date_iso T (dt_date (fst (parse_datetime (lvalue l))))) else (custom_key l, lvalue l)).
  assert (Hmap1 : map entry (filter is_ann (seen E T V40 export a)) = filter own_ann (a_customs a)).
  { apply (forall2_map_in _ entry _ _ Han). intros e l He [ps ->]. apply filter_In in He as [He Ho]. rewrite Forall_forall in Hiso. destruct (Hiso e He Ho) as (d & D1 & D2 & D3).
    unfold entry, is_ann. rewrite shaped_kind by (left; split; [reflexivity|left; in_known]).
    change (isnil (vl_group (mkVline (B "ANNIVERSARY") [] ps (QStr (ann_text T e)) []))) with true. change (kind_of kind_table (to_lower (vl_id (mkVline (B "ANNIVERSARY") [] ps (QStr (ann_text T e)) [])))) with LAnniversary. cbv iota.
    unfold lvalue. cbn [vl_value variant_string]. unfold ann_text. rewrite D1. unfold mk_dt.
    assert (Hann : is_anniversary e = true) by (unfold own_ann in Ho; apply andb_true_iff in Ho; apply Ho).
    rewrite (datetime_roundtrip d midnight TLocal V40 D2 ltac:(cbv; intuition discriminate) I). cbn [fst dt_date]. rewrite D3.
    destruct (Hs e He) as [_ [Hm|Hn]]; [exfalso; unfold is_messaging in Hm; unfold is_anniversary in Hann; apply leqb_eq in Hann; destruct e as [n w]; cbn [fst] in *; apply starts_with_spec in Hm as [r ->]; discriminate|].
    rewrite <- (ann_name e Hn Hann). destruct e; reflexivity. }
  assert (Hmap2 : Permutation (map entry (filter is_x (seen E T V40 export a))) (filter plain_custom (a_customs a))).
  { eapply Permutation_trans; [apply Permutation_map; exact Hp|]. rewrite map_map. rewrite <- (map_id (filter plain_custom (a_customs a))) at 2. apply Permutation_refl'.
    apply map_ext_in. intros e He. apply filter_In in He as [He _]. pose proof (fit_customs _ _ _ Hf) as Hw. rewrite Forall_forall in Hw. destruct (custom_out_x V40 export e (Hw e He)) as [Hx _].
    unfold entry, is_ann. unfold is_x in Hx. destruct (line_kind (custom_out V40 export e)); try discriminate. destruct (Hs e He) as [_ Hname].
    assert (Hkey : custom_key (custom_out V40 export e) = fst e).
    { destruct e as [n value]. apply custom_key_back. cbn [fst] in Hname. destruct Hname as [Hm|(_ & _ & Hi)]; [apply messaging_import; exact Hm|exact Hi]. }
    rewrite Hkey. destruct e; reflexivity. }
  set (L := filter (fun l => K (line_kind l)) (seen E T V40 export a)).
  set (own := fun e => own_ann e || plain_custom e).
  assert (Hall : Permutation (map entry L) (filter own (a_customs a))).
  { unfold L. replace (filter (fun l => K (line_kind l)) (seen E T V40 export a)) with (filter (fun l => is_ann l || is_x l) (seen E T V40 export a)).
    - eapply Permutation_trans; [apply Permutation_map, perm_two; intros l; unfold is_ann, is_x; destruct (line_kind l); discriminate|].
      rewrite map_app, Hmap1. eapply Permutation_trans; [apply Permutation_app_head; exact Hmap2|]. apply Permutation_sym, perm_two.
      intros e. unfold own_ann, plain_custom. destruct (full_custom e), (is_anniversary e); discriminate.
    - apply filter_ext. intros l. unfold is_ann, is_x, K. destruct (line_kind l); reflexivity. }
  assert (HL : forall l, In l L -> In (entry l) (a_customs a) /\ full_custom (entry l) = true /\ (is_ann l = true -> is_messaging (entry l) = false) /\ (is_ann l = false -> line_kind l = LX)).
  { intros l Hl. assert (Hin : In (entry l) (filter own (a_customs a))) by (eapply Permutation_in; [exact Hall|apply in_map; exact Hl]).
    apply filter_In in Hin as [Hin Ho]. split; [exact Hin|]. split; [unfold own, own_ann, plain_custom in Ho; destruct (full_custom (entry l)); [reflexivity|discriminate]|].
    apply filter_In in Hl as [_ Hk]. unfold K in Hk. split; [|unfold is_ann; destruct (line_kind l); congruence]. intros Hla. unfold entry. rewrite Hla. reflexivity. }
  assert (Hstep : forall l cs, In l L -> g l cs = if is_messaging (entry l) then cs else put_entry (entry l) cs).
  { intros l cs Hl. destruct (HL l Hl) as (Hin & Hfull & Hm & Hx). unfold g. destruct (is_ann l) eqn:Ela.
    - rewrite (Hm eq_refl). unfold full_custom, entry in Hfull. rewrite Ela in Hfull. unfold entry. rewrite Ela. unfold is_ann in Ela. destruct (line_kind l); try discriminate. cbn [snd] in Hfull. apply negb_true_iff in Hfull.
      unfold ins_custom. rewrite Hfull. reflexivity.
    - rewrite (Hx eq_refl). destruct (Hs (entry l) Hin) as [_ Hname]. unfold entry in *. rewrite Ela in *. cbn [fst snd] in *. unfold custom_customs. unfold is_messaging in *. cbn [fst] in *.
      destruct (starts_with (B "messaging/") (custom_key l)) eqn:Em; [reflexivity|].
      destruct Hname as [Hc|((app & name & Hn & Ha & Hna & Hd) & _ & _)]; [congruence|].
      rewrite Hn. change (app ++ [45%N] ++ name) with (app ++ 45%N :: name). rewrite index_of_app_notin by exact Hd.
      rewrite firstn_app, Nat.sub_diag, firstn_all. cbn [firstn]. rewrite app_nil_r.
      replace (skipn (S (length app)) (app ++ 45%N :: name)) with name.
      2: { rewrite skipn_app. rewrite skipn_all2 by lia. replace (S (length app) - length app) with 1 by lia. reflexivity. }
      unfold ins_custom. unfold full_custom in Hfull. cbn [snd] in Hfull. apply negb_true_iff in Hfull.
      rewrite Hfull, (proj2 (isnil_false _) Hna), (proj2 (isnil_false _) Ha). reflexivity. }
  set (es := filter (fun e => negb (is_messaging e)) (map entry L)).
  assert (Hfold : forall l cs, (forall x, In x l -> In x L) -> fold_left (fun x l => g l x) l cs = fold_left (fun cs e => put_entry e cs) (filter (fun e => negb (is_messaging e)) (map entry l)) cs).
  { induction l as [|x l IH]; intros cs Hl; [reflexivity|]. cbn [map fold_left filter]. rewrite Hstep by (apply Hl; left; auto). rewrite IH by (intros; apply Hl; right; auto).
    destruct (is_messaging (entry x)); reflexivity. }
  rewrite (Hfold L) by auto. fold es.
  assert (Hperm : Permutation (filter kept_own (a_customs a)) es).
  { unfold es. eapply Permutation_trans; [|apply perm_filter, Permutation_sym; exact Hall]. rewrite filter_filter. apply Permutation_refl'. apply filter_ext_in'.
    intros e He. unfold kept_own, kept_custom, own, own_ann, plain_custom. destruct (full_custom e); cbn [andb orb]; [|reflexivity].
    destruct (is_anniversary e) eqn:Ea, (is_spouse e) eqn:Es, (is_messaging e); cbn [andb orb negb]; try reflexivity.
    all: unfold is_anniversary in Ea; unfold is_spouse in Es; apply leqb_eq in Ea; rewrite Ea in Es; discriminate. }
  assert (Hk : asorted (filter kept_own (a_customs a))) by (unfold asorted; apply increasing_filtered'; exact Hinc).
  assert (Hnd : NoDup (map fst es)) by (eapply Permutation_NoDup; [apply Permutation_map; exact Hperm|apply asorted_nodup; exact Hk]).
  destruct (put_entries es [] Hnd ltac:(constructor) ltac:(intros q _ Hq; exact Hq)) as [M1 M2]. cbv zeta in M1, M2.
  apply asorted_ext; [exact M1|exact Hk|]. intros q. rewrite M2.
  destruct (afind q (filter kept_own (a_customs a))) as [w|] eqn:Eq.
  - apply afind_In in Eq. apply (Permutation_in _ Hperm) in Eq. rewrite (afind_nodup q w _ Hnd Eq). reflexivity.
  - apply afind_None in Eq. rewrite (proj2 (afind_None _ _)); [reflexivity|]. intros Hq. apply Eq. eapply Permutation_in; [apply Permutation_map, Permutation_sym; exact Hperm|exact Hq].
Qed.
(** ** relations *)
Definition own_spouse (e : ustring * ustring) : bool := full_custom e && is_spouse e.
Lemma spouses_named E T export a l : fits T V40 a -> (forall e, In e l -> In e (a_customs a)) -> Forall (fun e => own_spouse e = true -> ~ In cCOMMA (snd e)) l ->
  readings E (filter (named (B "RELATED")) (each_custom T export l)) = map (ptext_out (B "RELATED")) (map spouse_related (filter own_spouse l)).
Proof.
  intros Hf. induction l as [|e l IH]; intros Hl Hi; [reflexivity|].
  specialize (IH (fun x H => Hl x (or_intror H)) (Forall_inv_tail Hi)). apply Forall_inv in Hi.
  unfold each_custom. cbn [map flat_map]. fold (each_custom T export l). rewrite filter_app, readings_app, IH.
  change (fst e ++ 58%N :: snd e) with (fst e ++ cCOLON :: snd e). rewrite (own_lines T export a e Hf (Hl e (or_introl eq_refl))).
  cbn [filter]. unfold own_spouse at 2. unfold own_spouse, full_custom in Hi. unfold full_custom. destruct (isnil (snd e)) eqn:En; cbn [negb andb] in *; [reflexivity|].
  destruct (is_anniversary e) eqn:Ea.
  - replace (is_spouse e) with false; [reflexivity|]. symmetry. unfold is_spouse. unfold is_anniversary in Ea. apply leqb_eq in Ea. rewrite Ea. reflexivity.
  - destruct (is_spouse e) eqn:Es.
    + destruct (spouse_seen E T a e Hf (Hl e (or_introl eq_refl)) Es ltac:(apply isnil_false; exact En)) as (L & ps & R & Hps). specialize (Hps (Hi eq_refl)). subst ps.
      unfold readings at 1. cbn [filter]. change (named (B "RELATED") (spouse_line e)) with true. cbn [filter]. rewrite L. cbn [map app]. rewrite R. reflexivity.
    + assert (Hn : filter (named (B "RELATED")) [text_line (custom_id export (fst e)) (snd e)] = []).
      { cbn [filter]. unfold named, text_line. cbn [vline_new vl_id].
        match goal with |- context [leqb ?x ?y] => replace (leqb x y) with false end; [reflexivity|]. symmetry. apply custom_id_not. reflexivity. }
      rewrite Hn. reflexivity.
Qed.
Lemma field_related_own E T export a b : fits T V40 a -> reads_as E T V40 export a b ->
  Forall (fun t => text_safe (pt_text t)) (a_related a) -> Forall (fun e => own_spouse e = true -> ~ In cCOMMA (snd e)) (a_customs a) ->
  NoDup (a_related a ++ map spouse_related (filter own_spouse (a_customs a))) ->
  a_related b = filter ptext_valid (a_related a) ++ map spouse_related (filter own_spouse (a_customs a)).
Proof.
  intros Hf Hr Hs Hc Hn. rewrite Forall_forall in Hs. destruct (params_facts a (fit_params _ _ _ Hf)) as (_ & _ & Hp & _).
  destruct (fold_field E T V40 export a b a_related (fun k => match k with LRelated => true | _ => false end) (B "RELATED")
    (fun l x => if existsb (fun y => ptext_eq y (line_ptext l)) x then x else x ++ [line_ptext l]) Hf Hr) as [card ->]; text_side; try discriminate.
  change (flat_map (pick (B "RELATED")) (chunks T V40 export a)) with
    (map (params_line (B "RELATED")) (a_related a) ++ filter (named (B "RELATED")) (each_custom T export (a_customs a)) ++ []).
  rewrite app_nil_r, readings_app, (spouses_named E T export a) by auto. rewrite readings_ptext; auto; [|in_known|intros t Ht; apply Hp; in_app].
  rewrite <- map_app.
  rewrite (fold_new _ (ptext_out (B "RELATED")) (fun t => t) (fun t acc => In t acc)).
  - rewrite map_id. reflexivity.
  - intros t acc Ht Ho. cbv beta. rewrite ptext_back. destruct (existsb _ acc) eqn:Ee; auto.
    exfalso. apply existsb_exists in Ee as (y & Hy & Ey). rewrite ptext_eq_eq in Ey. subst. auto.
  - intros l1 t l2 Hl. cbn [app a_related addressee_new]. rewrite map_id.
    apply (nodup_split (filter ptext_valid (a_related a) ++ map spouse_related (filter own_spouse (a_customs a))) l1 t l2); auto.
    apply NoDup_app_inv in Hn as (N1 & N2 & N3). apply NoDup_app; [apply NoDup_filter; exact N1|exact N2|].
    intros x Hx. apply filter_In in Hx as [Hx _]. exact (N3 x Hx).
Qed.
