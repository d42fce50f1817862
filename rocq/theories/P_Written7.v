(** Pictures, custom fields and field groups in a written card; the names of the properties (C80). *)
From Coq Require Import Permutation.
From Verif Require Import Base BaseFacts QtText Utf8 Utf8Facts M_ParamMap M_VCard M_VCardText
  S_Escape P_Escape S_Fold P_Fold S_CardText P_CardText S_Card P_Assoc P_Card S_Parse P_Parse P_Parse2
  S_RoundTrip P_RoundTrip P_RoundTrip2 P_RoundTrip3 P_ReadBack P_Items P_Order
  M_Split S_Split P_Split M_Values M_Date M_Addressee M_VCardTool S_Contact P_Seen P_ReadFields P_Lines P_Contact P_Chunks
  P_Types P_Addr P_Contact2 P_Fields P_Fields2 S_Soft S_Order S_Coding S_Meaning S_Written P_Written P_Written2 P_Written3 S_DateText S_Date P_Date P_Values P_Fields4 P_Fields5 P_Four P_Own P_Fields6 P_Fields7 S_Four P_Written4 P_Written5 P_Written6.
From Coq Require Import Lia ZArith.


Lemma all_puts T E v export a : Permutation (puts E (written (create_card T v export a))) (puts E (contact_lines T v export a)).
Proof. unfold puts, create_card. fold (card_of (contact_lines T v export a)). apply Permutation_map. apply perm_filter. apply written_perm. Qed.
Lemma perm_forall2 {A C} (R : A -> C -> Prop) l m : Permutation l m -> forall y, Forall2 R m y -> exists x, Permutation x y /\ Forall2 R l x.
Proof.
  induction 1 as [|x l m H IH|x z l|l m n H1 IH1 H2 IH2]; intros y Hy.
  - exists y. split; [reflexivity|exact Hy].
  - inversion Hy as [|? b ? bs Hb Hbs]; subst. destruct (IH bs Hbs) as (xs & Hp & Hf). exists (b :: xs). split; [constructor; exact Hp|constructor; auto].
  - inversion Hy as [|? b ? bs Hb Hbs]; subst. inversion Hbs as [|? b' ? bs' Hb' Hbs']; subst. exists (b' :: b :: bs'). split; [apply perm_swap|constructor; [exact Hb'|constructor; auto]].
  - destruct (IH2 y Hy) as (xs & Hp & Hf). destruct (IH1 xs Hf) as (ys & Hp' & Hf'). exists ys. split; [etransitivity; eauto|exact Hf'].
Qed.
Lemma lines_classed E T v export a l : fits T v a -> In l (contact_lines T v export a) -> classed E l.
Proof. intros Hf Hl. pose proof (all_classed E T v export a Hf) as Hc. rewrite Forall_forall in Hc. auto. Qed.
Lemma puts_select T E v export a (P : said -> bool) (Q : vline -> bool) : fits T v a ->
  (forall l, In l (contact_lines T v export a) -> classed E l -> loud E l = true -> P (put_of E l) = Q l) ->
  Permutation (filter P (puts E (written (create_card T v export a)))) (puts E (filter Q (contact_lines T v export a))).
Proof.
  intros Hf H. etransitivity; [apply perm_filter, all_puts|]. unfold puts. rewrite filter_map'. apply Permutation_map.
  enough (Hx : filter (fun x => P (put_of E x)) (filter (loud E) (contact_lines T v export a)) = filter (loud E) (filter Q (contact_lines T v export a))) by (rewrite Hx; reflexivity).
  rewrite !P_ReadBack.filter_filter. apply filter_ext_in'. intros l Hl. destruct (loud E l) eqn:El; [|rewrite andb_false_r; reflexivity].
  cbn [andb]. rewrite andb_true_r. apply H; auto. eapply lines_classed; eauto.
Qed.

(** ** Names *)
Lemma put_kinds T E v export a p : fits T v a -> In p (puts E (written (create_card T v export a))) ->
  In (sd_name p) known \/ (exists q, sd_name p = B "X-" ++ q) \/ In 46%N (sd_name p).
Proof.
  intros Hf Hp. unfold puts in Hp. apply in_map_iff in Hp as (l & <- & Hl). apply filter_In in Hl as [Hl Hloud].
  unfold create_card in Hl. fold (card_of (contact_lines T v export a)) in Hl. rewrite written_in in Hl.
  pose proof (lines_classed E T v export a l Hf Hl) as Hc. destruct (put_name E l Hc Hloud) as [(Hv & ->)|(Hv & j & t & Hj & Hid & ->)].
  - destruct (cl_seen _ _ Hc Hloud) as [(_ & _ & [Hk|Hq])|[(_ & _ & Hid)|(_ & Hpi & t & Hid)]].
    + auto.
    + auto.
    + right. right. rewrite Hid. apply in_or_app. right. left. reflexivity.
    + exfalso. pose proof (cl_head _ _ Hc Hloud) as Hd. destruct (vl_value l); [congruence| |];
        (destruct Hd as (g & i & ops & [_ Hi _ _]); destruct (id_reads_chars _ _ _ Hi) as [Hch _]; rewrite Forall_forall in Hch;
         assert (H58 : In 58%N (vl_id l)) by (rewrite Hid; apply in_or_app; right; left; reflexivity); destruct (Hch _ H58) as [_ K]; apply K; reflexivity).
  - left. apply pictured_known. exact Hj.
Qed.

(** ** Pictures *)
Definition pic_line (i : ustring) (l : vline) : bool := leqb (vl_id l) i || starts_with (i ++ B ":data:image/") (vl_id l).
Definition chosen (i : ustring) (t : tag) : bool := match t with TPic _ j => leqb j i | _ => false end.
Lemma tags_out T v export a i : In i [B "PHOTO"; B "LOGO"] ->
  Forall (fun c : tag * list vline => chosen i (fst c) = true \/ (chosen i (fst c) = false /\ forall j, tag_ok (fst c) j -> leqb j i || starts_with (i ++ B ":data:image/") j = false)) (chunks T v export a).
Proof.
  intros Hi. unfold chunks.
  repeat (apply Forall_cons; [cbn [fst chosen]; destruct Hi as [<-|[<-|[]]]; first [left; reflexivity|right; split; [reflexivity|]; cbn [tag_ok]; intros j Hj]|]); [..|constructor].
  all: try (rewrite Hj; reflexivity).
  all: try (destruct Hj as [->|(_ & s & ->)]; reflexivity).
  all: try (repeat (apply orb_true_iff in Hj as [Hj|Hj]); apply leqb_eq in Hj; rewrite Hj; reflexivity).
  all: try (repeat (apply orb_true_iff in Hj as [Hj|Hj]); [apply starts_with_spec in Hj as [r ->]; reflexivity| |]; apply leqb_eq in Hj; rewrite Hj; reflexivity).
  all: apply andb_true_iff in Hj as [H1 H2]; apply negb_true_iff in H2; apply mem_false in H2; apply orb_false_iff; split;
    [apply leqb_neq; intros ->; discriminate H1|]; apply not_true_iff_false; intros K; apply starts_with_spec in K as [r ->]; apply H2; apply in_or_app; left; apply mem_In; reflexivity.
Qed.
Lemma pic_lines T v export a i : fits T v a -> In i [B "PHOTO"; B "LOGO"] ->
  filter (pic_line i) (contact_lines T v export a) = map (picture_line T v i) (if leqb i (B "PHOTO") then a_photo a :: a_xphotos a else a_logo a :: a_xlogos a).
Proof.
  intros Hf Hi. rewrite chunks_lines, filter_flat_map. pose proof (chunks_ok (E := Build_Ext (fun b => b) (fun b => b) (fun _ => None) (fun _ => None)) T v export a Hf) as Ht. pose proof (tags_out T v export a i Hi) as Ho. rewrite Forall_forall in Ht, Ho.
  assert (Hpl : forall p, pic_line i (picture_line T v i p) = true).
  { intros p. unfold pic_line. assert (H : vl_id (picture_line T v i p) = i \/ exists t, vl_id (picture_line T v i p) = i ++ B ":data:image/" ++ t).
    { unfold picture_line, picture_line4. destruct v; [left; destruct (picture_empty p), (pi_intern p); rewrite ?vl_add_param_id; reflexivity..|]. destruct (pi_intern p); [right; exists (pi_type p); reflexivity|left; reflexivity]. }
    destruct H as [->|[t ->]]; [rewrite leqb_refl; reflexivity|]. apply orb_true_iff. right. apply starts_with_spec. exists t. rewrite <- app_assoc. reflexivity. }
  transitivity (flat_map (fun c : tag * list vline => if chosen i (fst c) then filter (pic_line i) (snd c) else []) (chunks T v export a)).
  - rewrite !flat_map_concat_map. f_equal. apply map_ext_in. intros c Hc. destruct (Ho c Hc) as [H|[H1 H2]]; [rewrite H; reflexivity|]. rewrite H1. apply P_Fields2.filter_none. intros l Hl. apply H2. apply Ht; auto.
  - assert (Hall : forall l, filter (pic_line i) (map (picture_line T v i) l) = map (picture_line T v i) l) by (intros l; apply P_Fields2.filter_all; intros x Hx; apply in_map_iff in Hx as (p & <- & _); apply Hpl).
    unfold chunks. cbn [flat_map fst snd]. destruct Hi as [<-|[<-|[]]].
    + change (filter (pic_line (B "PHOTO")) (map (picture_line T v (B "PHOTO")) (a_photo a :: a_xphotos a)) ++ [] = map (picture_line T v (B "PHOTO")) (a_photo a :: a_xphotos a)).
      rewrite app_nil_r. apply Hall.
    + change (filter (pic_line (B "LOGO")) (map (picture_line T v (B "LOGO")) (a_logo a :: a_xlogos a)) ++ [] = map (picture_line T v (B "LOGO")) (a_logo a :: a_xlogos a)).
      rewrite app_nil_r. apply Hall.
Qed.
Lemma pic_called E l i : classed E l -> loud E l = true -> In i [B "PHOTO"; B "LOGO"] ->
  leqb (to_lower (sd_name (put_of E l))) (to_lower i) = pic_line i l.
Proof.
  intros Hc Hl Hi. assert (Hk : In i known) by (destruct Hi as [<-|[<-|[]]]; in_known). destruct (P_Written.known_plain i Hk) as (K1 & K2 & K3). unfold pic_line.
  destruct (put_name E l Hc Hl) as [(Hv & ->)|(Hv & j & t & Hj & Hid & ->)].
  - assert (H58 : ~ In 58%N (vl_id l)).
    { pose proof (cl_head _ _ Hc Hl) as Hd. destruct (vl_value l); [congruence| |];
        (destruct Hd as (g & i' & ops & [_ Hi' _ _]); destruct (id_reads_chars _ _ _ Hi') as [Hch _]; rewrite Forall_forall in Hch; intros H58; destruct (Hch _ H58) as [_ K]; apply K; reflexivity). }
    replace (starts_with (i ++ B ":data:image/") (vl_id l)) with false.
    2: { symmetry. apply not_true_iff_false. intros K. apply starts_with_spec in K as [r Hr]. apply H58. rewrite Hr. rewrite <- app_assoc. apply in_or_app. right. left. reflexivity. }
    rewrite orb_false_r. destruct (leqb_spec (vl_id l) i) as [->|Hne]; [apply leqb_refl|]. apply leqb_neq. intros K.
    destruct (cl_seen _ _ Hc Hl) as [(_ & _ & [Hk'|(q & Hq)])|[(_ & _ & Hid)|(_ & Hpi & t & Hid)]].
    + apply Hne. apply lower_known; auto.
    + rewrite <- K, Hq in K3. discriminate K3.
    + apply K2. rewrite <- K. apply to_lower_in; [lia|]. rewrite Hid. apply in_or_app. right. left. reflexivity.
    + apply H58. rewrite Hid. apply in_or_app. right. left. reflexivity.
  - rewrite Hid. assert (Hj' : In j [B "PHOTO"; B "LOGO"]) by (unfold pictured in Hj; apply orb_true_iff in Hj as [Hj|Hj]; apply leqb_eq in Hj; cbn; auto).
    destruct Hi as [<-|[<-|[]]], Hj' as [<-|[<-|[]]]; reflexivity.
Qed.
