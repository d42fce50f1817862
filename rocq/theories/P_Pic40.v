(** A picture with its data in version 4.0. *)
From Coq Require Import Permutation.
From Verif Require Import Base BaseFacts QtText Utf8 Utf8Facts M_ParamMap M_VCard M_VCardText
  S_Escape P_Escape S_Fold P_Fold S_CardText P_CardText S_Card P_Assoc P_Card S_Parse P_Parse P_Parse2
  S_RoundTrip P_RoundTrip P_RoundTrip2 P_RoundTrip3 P_ReadBack P_Items P_Order
  M_Split S_Split P_Split M_Values M_Date M_Addressee M_VCardTool S_Contact P_Seen P_ReadFields P_Lines P_Contact P_Chunks
  P_Fields P_Fields2 P_Fields3 P_Fields4 P_Fields5 P_Fields6 P_Fields7.

Definition pic_chunk (T : Tool) (i : ustring) (a : addressee) : list vline :=
  map (picture_line T V40 i) (if leqb i (B "PHOTO") then a_photo a :: a_xphotos a else a_logo a :: a_xlogos a).

Lemma pic_lines E T export a i : fits T V40 a -> In i [B "PHOTO"; B "LOGO"] ->
  filter (named i) (readings E (contact_lines T V40 export a)) = filter (named i) (readings E (pic_chunk T i a)).
Proof.
  intros Hf Hi. assert (Hi' : i = B "PHOTO" \/ i = B "LOGO") by (cbn in Hi; intuition).
  assert (Hpic : pictured i = true) by (destruct Hi' as [->| ->]; reflexivity).
  pose proof (chunks_ok (E := E) T V40 export a Hf) as Hc.
  assert (Hk : Forall (classed E) (contact_lines T V40 export a)) by (apply all_classed; auto).
  rewrite chunks_lines in *.
  assert (Hnone : forall ls (t : tag), ~ tag_ok t i -> (forall s, ~ tag_ok t (i ++ B ":data:image/" ++ s)) ->
     (forall l, In l ls -> tag_ok t (vl_id l)) -> Forall (classed E) ls -> filter (named i) (readings E ls) = []).
  { intros ls t H1 H2 H3 H4. apply filter_none. intros l Hl. unfold readings in Hl. apply in_map_iff in Hl as (x & <- & Hx). apply filter_In in Hx as [Hx Hloud].
    rewrite Forall_forall in H4. specialize (H3 x Hx). destruct (cl_seen _ _ (H4 x Hx) Hloud) as [(G & D & _)|[(G & _)|(G & _ & s & D)]].
    - unfold named. destruct (leqb_spec (vl_id (reread E x)) i) as [Heq|]; [|reflexivity]. exfalso. apply H1. rewrite <- Heq, D. exact H3.
    - unfold named. apply isnil_false in G. rewrite G. apply andb_false_r.
    - unfold named. destruct (leqb_spec (vl_id (reread E x)) i) as [Heq|]; [|reflexivity]. exfalso. apply (H2 s). rewrite <- Heq, <- D. exact H3. }
  assert (Hskip : forall c cs, ~ tag_ok (fst c) i -> (forall s, ~ tag_ok (fst c) (i ++ B ":data:image/" ++ s)) ->
     Forall (fun c => forall l, In l (snd c) -> tag_ok (fst c) (vl_id l)) (c :: cs) -> Forall (classed E) (flat_map snd (c :: cs)) ->
     filter (named i) (readings E (flat_map snd (c :: cs))) = filter (named i) (readings E (flat_map snd cs)) /\
     Forall (fun c => forall l, In l (snd c) -> tag_ok (fst c) (vl_id l)) cs /\ Forall (classed E) (flat_map snd cs)).
  { intros c cs H1 H2 H3 H4. inversion H3; subst. cbn [flat_map] in H4. apply Forall_app in H4 as [K1 K2]. split; [|auto].
    cbn [flat_map]. rewrite readings_app, filter_app, (Hnone _ (fst c)) by auto. reflexivity. }
  assert (Hkeep : forall c cs, Forall (fun c => forall l, In l (snd c) -> tag_ok (fst c) (vl_id l)) (c :: cs) -> Forall (classed E) (flat_map snd (c :: cs)) ->
     filter (named i) (readings E (flat_map snd (c :: cs))) = filter (named i) (readings E (snd c)) ++ filter (named i) (readings E (flat_map snd cs)) /\
     Forall (fun c => forall l, In l (snd c) -> tag_ok (fst c) (vl_id l)) cs /\ Forall (classed E) (flat_map snd cs)).
  { intros c cs H3 H4. inversion H3; subst. cbn [flat_map] in H4. apply Forall_app in H4 as [K1 K2]. split; [|auto].
    cbn [flat_map]. rewrite readings_app, filter_app. reflexivity. }
  revert Hc Hk. unfold chunks, pic_chunk. change (is40 V40) with true. clear Hf Hi Hnone.
  destruct Hi' as [->| ->].
  all: repeat (lazymatch goal with |- Forall _ (?c :: ?cs) -> _ -> _ =>
    let Hc := fresh in let Hk := fresh in intros Hc Hk;
    first [ destruct (Hskip c cs) as (Hq & Hc' & Hk');
              [ cbn [fst tag_ok]; first [discriminate | intros [Hz|(_ & s & Hz)]; cbv in Hz; discriminate Hz | cbv; discriminate]
              | intros s; cbn [fst tag_ok]; first [discriminate | intros [Hz|(_ & s' & Hz)]; cbv in Hz; discriminate Hz | rewrite andb_false_r; discriminate | cbv; discriminate]
              | exact Hc | exact Hk | rewrite Hq; clear Hq Hc Hk; revert Hc' Hk' ]
          | destruct (Hkeep c cs Hc Hk) as (Hq & Hc' & Hk'); rewrite Hq; clear Hq Hc Hk; revert Hc' Hk'] end).
  all: intros _ _; cbn [flat_map readings filter map app snd]; rewrite app_nil_r; reflexivity.
Qed.

(** what is read for a picture whose type has three letters *)
Definition pic40 (T : Tool) (p : picture) : picture :=
  if pi_intern p then mkPicture [] (B "image/" ++ pi_type p ++ B ";") None (pi_raw_of (env_img (t_env T)) p) true
  else mkPicture (pi_url p) [] None [] false.
Lemma pic40_read E T i p : In i [B "PHOTO"; B "LOGO"] -> picture_fits T V40 p ->
  (pi_intern p = true -> length (pi_type p) = 3 /\ ~ In cSEMI (pi_type p)) ->
  loud E (picture_line T V40 i p) = picture_full T p /\ named i (reread E (picture_line T V40 i p)) = true /\
  (picture_full T p = true -> parse_picture (reread E (picture_line T V40 i p)) = Some (pic40 T p)).
Proof.
  intros Hi [F1 F2] Ht. unfold picture_line, picture_line4, picture_full, pic40. destruct (pi_intern p) eqn:Ei.
  - destruct (F1 eq_refl) as [Hb Hty]. destruct (Ht eq_refl) as [Hlen Hsemi]. set (raw := pi_raw_of (env_img (t_env T)) p) in *. clearbody raw.
    destruct (seen_data E i (pi_type p) raw Hi Hty Hb) as (_ & L & R). cbv zeta in L, R. split; [exact L|].
    assert (Hn : named i (mkVline i [] [] (QStr (data_text (pi_type p) (to_base64 raw))) []) = true) by (unfold named; cbn [vl_id vl_group isnil]; rewrite leqb_refl; reflexivity).
    split; [rewrite R; exact Hn|]. intros _. rewrite R. unfold parse_picture. cbn [vl_param_list vl_params map isnil vl_value variant_bytes].
    assert (Hu : to_utf8 (data_text (pi_type p) (to_base64 raw)) = data_text (pi_type p) (to_base64 raw)).
    { apply to_utf8_ascii. apply Forall_forall. intros c Hc. pose proof (data_printed _ _ Hty Hb) as Hp. rewrite forallb_forall in Hp. specialize (Hp c Hc). lia. }
    rewrite Hu. destruct (pi_type p) as [|x [|y [|z [|]]]]; try discriminate Hlen. clear Hu R L Hn.
    assert (Hx : x <> cSEMI /\ y <> cSEMI /\ z <> cSEMI) by (cbn in Hsemi; intuition).
    destruct Hx as (X & Y & Z). apply N.eqb_neq in X, Y, Z. rewrite N.eqb_sym in X, Y, Z.
    assert (Hf : find_sub (B ";base64,") (data_text [x; y; z] (to_base64 raw)) = Some 14).
    { assert (Hskip : forall c t, (cSEMI =? c)%N = false -> find_sub (B ";base64,") (c :: t) = option_map S (find_sub (B ";base64,") t)).
      { intros c t Hc. change (B ";base64,") with (cSEMI :: B "base64,"). cbn [find_sub starts_with]. rewrite Hc. reflexivity. }
      unfold data_text. change (B "data:image/") with [100;97;116;97;58;105;109;97;103;101;47]%N. cbn [app]. rewrite !Hskip by first [exact X|exact Y|exact Z|reflexivity].
      reflexivity. }
    rewrite Hf. change (find_sub (B "data:") (data_text [x; y; z] (to_base64 raw))) with (Some 0).
    change (data_text [x; y; z] (to_base64 raw)) with (B "data:image/" ++ [x; y; z] ++ B ";base64," ++ to_base64 raw).
    replace (length _ <? 22) with false by (symmetry; apply Nat.ltb_ge; rewrite !app_length; cbn; lia).
    change (skipn 22 _) with (to_base64 raw). rewrite base64_roundtrip by auto. reflexivity.
  - destruct (F2 eq_refl eq_refl) as (U1 & U2 & U3). assert (Hk : In i known) by (destruct Hi as [<-|[<-|[]]]; in_known).
    destruct (seen_plain E i (pi_url p) (known_id i Hk)) as (_ & L & R). unfold text_line. split; [exact L|].
    rewrite R. split; [unfold named; cbn [vl_id vl_group isnil]; rewrite leqb_refl; reflexivity|]. intros _.
    unfold parse_picture. cbn [vl_param_list vl_params map isnil vl_value variant_bytes]. rewrite thru_id by auto. rewrite U3. reflexivity.
Qed.
Lemma one_picture E T export a b i (f : addressee -> picture * list picture) K :
  In i [B "PHOTO"; B "LOGO"] -> fits T V40 a -> reads_as E T V40 export a b -> of_kinds K [i] ->
  (forall e x, f (put_empty e x) = f x) ->
  (forall id l x, K (line_kind l) = true -> f (eff T id l x) = media_step picture_empty (picture_eq (env_img (t_env T))) parse_picture l (f x)) ->
  (forall id l x, K (line_kind l) = false -> f (eff T id l x) = f x) ->
  (forall u, f (addressee_new u) = (picture_new, [])) ->
  forall p, pic_chunk T i a = [picture_line T V40 i p] -> picture_fits T V40 p ->
  (pi_intern p = true -> length (pi_type p) = 3 /\ ~ In cSEMI (pi_type p)) ->
  f b = (if picture_full T p then pic40 T p else picture_new, []).
Proof.
  intros Hi Hf [card Hr] Hk He H1 H0 Hnew p Hp Hfit Ht.
  rewrite (read_lines_plain T f K _ card He H1 H0 _ _ _ _ Hr), Hnew, (seen_kind E T V40 export a K i) by auto.
  destruct (pic40_read E T i p Hi Hfit Ht) as (L & N & P).
  pose proof (perm_filter (named i) _ _ (seen_perm E T V40 export a)) as Hperm. rewrite (pic_lines E T export a i Hf Hi), Hp in Hperm.
  unfold readings in Hperm. cbn [filter map] in Hperm. rewrite L in Hperm. destruct (picture_full T p) eqn:Ef.
  - cbn [map filter] in Hperm. rewrite N in Hperm. apply Permutation_sym, Permutation_length_1_inv in Hperm. rewrite Hperm. cbn [fold_left].
    unfold media_step. rewrite (P eq_refl). cbn [fst snd].
    assert (Hq : picture_empty picture_new = true) by reflexivity. rewrite Hq.
    replace (picture_eq (env_img (t_env T)) (pic40 T p) picture_new) with false; [reflexivity|]. symmetry.
    unfold pic40, picture_full in *. unfold picture_eq, pi_raw_of in *. destruct (pi_intern p); cbn [pi_intern pi_url pi_type pi_raw pi_data picture_new negb andb orb Bool.eqb].
    + rewrite ?andb_false_r; reflexivity.
    + destruct (pi_url p); [discriminate|]. reflexivity.
  - cbn [map filter] in Hperm. apply Permutation_sym, Permutation_nil in Hperm. rewrite Hperm. reflexivity.
Qed.
Lemma field_photo40 E T export a b : fits T V40 a -> reads_as E T V40 export a b -> a_xphotos a = [] ->
  (pi_intern (a_photo a) = true -> length (pi_type (a_photo a)) = 3 /\ ~ In cSEMI (pi_type (a_photo a))) ->
  (a_photo b, a_xphotos b) = (if picture_full T (a_photo a) then pic40 T (a_photo a) else picture_new, []).
Proof.
  intros Hf Hr Hx Ht. pose proof (fit_pictures _ _ _ Hf) as Hp. rewrite Forall_forall in Hp.
  apply (one_picture E T export a b (B "PHOTO") (fun x => (a_photo x, a_xphotos x)) (fun k => match k with LPhoto => true | _ => false end)); auto.
  - left; reflexivity.
  - kinds.
  - intros id l x. unfold media_step. cbn [fst snd]. eff_cases l.
  - intros id l x. eff_cases l.
  - unfold pic_chunk. rewrite leqb_refl, Hx. reflexivity.
  - apply Hp. right; left; reflexivity.
Qed.
Lemma field_logo40 E T export a b : fits T V40 a -> reads_as E T V40 export a b -> a_xlogos a = [] ->
  (pi_intern (a_logo a) = true -> length (pi_type (a_logo a)) = 3 /\ ~ In cSEMI (pi_type (a_logo a))) ->
  (a_logo b, a_xlogos b) = (if picture_full T (a_logo a) then pic40 T (a_logo a) else picture_new, []).
Proof.
  intros Hf Hr Hx Ht. pose proof (fit_pictures _ _ _ Hf) as Hp. rewrite Forall_forall in Hp.
  apply (one_picture E T export a b (B "LOGO") (fun x => (a_logo x, a_xlogos x)) (fun k => match k with LLogo => true | _ => false end)); auto.
  - right; left; reflexivity.
  - kinds.
  - intros id l x. unfold media_step. cbn [fst snd]. eff_cases l.
  - intros id l x. eff_cases l.
  - unfold pic_chunk. rewrite Hx. reflexivity.
  - apply Hp. left; reflexivity.
Qed.

(** every calendar address has one of the three types *)
Lemma calurl_sorted (U : UrlExt) l : Forall (fun c => calurl_valid U c = true /\ cu_type c <> CalEnd) l ->
  Permutation (filter (of_type CalCALADRUri) l ++ filter (of_type CalCALUri) l ++ filter (of_type CalFBUrl) l) l.
Proof.
  induction l as [|c l IH]; intros H; [constructor|]. inversion H as [|? ? H1 H2]; subst. specialize (IH H2). cbn [filter].
  assert (Ht : cu_type c = CalFBUrl \/ cu_type c = CalCALUri \/ cu_type c = CalCALADRUri) by (destruct H1 as [H1 H3]; unfold calurl_valid in H1; destruct (cu_type c); auto; [discriminate|congruence]).
  assert (He : forall t, of_type t c = caltype_eq (cu_type c) t) by reflexivity. rewrite !He. clear He.
  destruct Ht as [->|[->| ->]]; cbn [caltype_eq app].
  - rewrite app_assoc. apply Permutation_sym, Permutation_cons_app. rewrite <- app_assoc. apply Permutation_sym, IH.
  - apply Permutation_sym, Permutation_cons_app. apply Permutation_sym, IH.
  - constructor. exact IH.
Qed.
Lemma calurl_stable (U : UrlExt) l t : Forall (fun c => calurl_valid U c = true /\ cu_type c <> CalEnd) l ->
  filter (of_type t) (filter (of_type CalCALADRUri) l ++ filter (of_type CalCALUri) l ++ filter (of_type CalFBUrl) l) = filter (of_type t) l.
Proof.
  intros H. rewrite !filter_app.
  assert (Hff : forall s, filter (of_type t) (filter (of_type s) l) = if caltype_eq s t then filter (of_type t) l else []).
  { intros s. clear H. induction l as [|c l IH]; [destruct (caltype_eq s t); reflexivity|]. cbn [filter].
    assert (He : forall t, of_type t c = caltype_eq (cu_type c) t) by reflexivity. rewrite (He s), (He t).
    destruct (cu_type c) eqn:Ec, s, t; cbn [caltype_eq filter] in *; rewrite ?He, ?Ec; cbn [caltype_eq]; rewrite ?IH; reflexivity. }
  rewrite !Hff. destruct t; cbn [caltype_eq app]; rewrite ?app_nil_r; try reflexivity.
  all: symmetry; apply filter_none; intros c Hc; rewrite Forall_forall in H; destruct (H c Hc) as [H1 H2]; unfold calurl_valid in H1; unfold of_type; destruct (cu_type c); try reflexivity; first [discriminate|congruence].
Qed.
