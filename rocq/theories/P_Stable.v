(** The text of a card depends only on what its lines say under each name; contacts
    that have been read are written in the same way again. *)
From Coq Require Import Permutation.
From Verif Require Import Base BaseFacts QtText Utf8 Utf8Facts M_ParamMap M_VCard M_VCardText
  S_Escape P_Escape S_Fold P_Fold S_CardText P_CardText S_Card P_Assoc P_Card S_Parse P_Parse P_Parse2
  S_RoundTrip P_RoundTrip P_RoundTrip2 P_RoundTrip3 P_ReadBack P_Items P_Order
  M_Split S_Split P_Split M_Values M_Date M_Addressee P_Addressee M_VCardTool S_Contact P_Seen P_ReadFields P_Lines P_Contact P_Chunks.

Definition said (E : Ext) (id : ustring) (ls : list vline) : bytes := flat_map (line_text E) (of_id id ls).
Definition agree (E : Ext) (ls ls' : list vline) : Prop := forall id, said E id ls = said E id ls'.

Lemma of_id_app id l m : of_id id (l ++ m) = of_id id l ++ of_id id m.
Proof. unfold of_id. apply filter_app. Qed.
Lemma said_app E id l m : said E id (l ++ m) = said E id l ++ said E id m.
Proof. unfold said. rewrite of_id_app. apply flat_map_app. Qed.
Lemma agree_refl E l : agree E l l.
Proof. intros id. reflexivity. Qed.
Lemma agree_eq E l m : l = m -> agree E l m.
Proof. intros ->. apply agree_refl. Qed.
Lemma agree_sym E l m : agree E l m -> agree E m l.
Proof. intros H id. symmetry. apply H. Qed.
Lemma agree_trans E l m n : agree E l m -> agree E m n -> agree E l n.
Proof. intros H1 H2 id. rewrite H1. apply H2. Qed.
Lemma agree_app E l m l' m' : agree E l l' -> agree E m m' -> agree E (l ++ m) (l' ++ m').
Proof. intros H1 H2 id. rewrite !said_app, H1, H2. reflexivity. Qed.
(** lines that are not written do not count *)
Lemma agree_loud E l : agree E l (filter (loud E) l).
Proof.
  intros id. induction l as [|x l IH]; [reflexivity|]. change (x :: l) with ([x] ++ l) at 1. rewrite said_app, IH. cbn [filter].
  unfold loud at 2. destruct (isnil (line_text E x)) eqn:Ex; cbn [negb].
  - unfold said, of_id. cbn [filter]. destruct (leqb (vl_id x) id); [|reflexivity]. cbn [flat_map]. apply isnil_true in Ex. rewrite Ex. reflexivity.
  - change (x :: filter (loud E) l) with ([x] ++ filter (loud E) l). rewrite said_app. reflexivity.
Qed.
Lemma agree_chunks {X} E (f g : X -> list vline) cs : (forall c, In c cs -> agree E (f c) (g c)) -> agree E (flat_map f cs) (flat_map g cs).
Proof.
  induction cs as [|c cs IH]; intros H; [apply agree_refl|]. cbn [flat_map]. apply agree_app; [apply H; left; auto|apply IH; intros; apply H; right; auto].
Qed.
Lemma agree_all E (cs ds : list (tag * list vline)) : Forall2 (fun c d => agree E (snd c) (snd d)) cs ds -> agree E (flat_map snd cs) (flat_map snd ds).
Proof. induction 1 as [|c d cs ds H _ IH]; [apply agree_refl|]. cbn [flat_map]. apply agree_app; auto. Qed.

(** ** from agreement to equal texts *)
Lemma increasing_same l1 l2 : increasing l1 -> increasing l2 -> (forall x, In x l1 <-> In x l2) -> l1 = l2.
Proof.
  revert l2. induction l1 as [|x l1 IH]; intros [|y l2] H1 H2 H; auto.
  - destruct (proj2 (H y) (or_introl eq_refl)).
  - destruct (proj1 (H x) (or_introl eq_refl)).
  - inversion H1 as [|? ? S1 F1]; inversion H2 as [|? ? S2 F2]; subst. rewrite Forall_forall in F1, F2.
    assert (Hxy : x = y).
    { destruct (proj1 (H x) (or_introl eq_refl)) as [E|E]; auto. destruct (proj2 (H y) (or_introl eq_refl)) as [E'|E']; auto.
      specialize (F2 x E). specialize (F1 y E'). rewrite (lltb_asym _ _ F1) in F2. discriminate. }
    subst y. f_equal. apply IH; auto. intros z. split; intros Hz.
    + destruct (proj1 (H z) (or_intror Hz)) as [<-|]; auto. specialize (F1 x Hz). rewrite lltb_irrefl in F1. discriminate.
    + destruct (proj2 (H z) (or_intror Hz)) as [<-|]; auto. specialize (F2 x Hz). rewrite lltb_irrefl in F2. discriminate.
Qed.
Lemma flat_map_filled {A B} (g : A -> list B) l : flat_map g l = flat_map g (filter (fun x => negb (isnil (g x))) l).
Proof.
  induction l as [|x l IH]; [reflexivity|]. cbn [flat_map filter]. destruct (g x) eqn:Ex; cbn [isnil negb]; [exact IH|]. cbn [flat_map]. rewrite Ex, IH. reflexivity.
Qed.
Lemma sorted_flat {B} (g : ustring -> list B) l1 l2 : increasing l1 -> increasing l2 ->
  (forall x, g x <> [] -> (In x l1 <-> In x l2)) -> flat_map g l1 = flat_map g l2.
Proof.
  intros H1 H2 H. rewrite (flat_map_filled g l1), (flat_map_filled g l2). f_equal. apply increasing_same; [apply increasing_filter; auto..|].
  intros x. rewrite !filter_In. split; intros [Hx Hg]; (split; [|exact Hg]); apply (H x); auto; intros E; rewrite E in Hg; discriminate.
Qed.
Lemma remove_first_filter v l : NoDup l -> remove_first v l = filter (fun x => negb (leqb x v)) l.
Proof.
  induction 1 as [|x l Hx Hl IH]; [reflexivity|]. cbn [remove_first filter]. destruct (leqb_spec x v) as [->|N]; cbn [negb]; [|rewrite IH; reflexivity].
  symmetry. apply filter_all. intros y Hy. apply negb_true_iff, leqb_neq. intros ->. auto.
Qed.
Lemma said_in E id ls : said E id ls <> [] -> exists l, In l ls /\ vl_id l = id.
Proof.
  intros H. unfold said in H. destruct (of_id id ls) as [|l r] eqn:Eo; [destruct (H eq_refl)|]. assert (Hl : In l (of_id id ls)) by (rewrite Eo; left; auto).
  apply filter_In in Hl as [H1 H2]. exists l. split; auto. apply leqb_eq. exact H2.
Qed.
Theorem card_text_agree E ls ls' : agree E ls ls' -> (exists l, In l ls /\ vl_id l = B "VERSION") -> (exists l, In l ls' /\ vl_id l = B "VERSION") ->
  card_text E (card_of ls) = card_text E (card_of ls').
Proof.
  intros Ha Hv Hv'. unfold card_text. do 2 f_equal. f_equal. unfold ordered_idents.
  destruct (identifiers_spec ls) as [S1 I1]. destruct (identifiers_spec ls') as [S2 I2].
  rewrite (proj2 (contains_In _ _) (proj2 (I1 _) Hv)), (proj2 (contains_In _ _) (proj2 (I2 _) Hv')).
  rewrite !remove_first_filter by (apply increasing_NoDup; auto). cbn [flat_map].
  assert (Hg : forall l id, flat_map (line_text E) (card_lines id (card_of l)) = said E id l) by (intros; rewrite card_lines_spec; reflexivity).
  rewrite !Hg, Ha. f_equal. rewrite (flat_map_ext _ (fun id => said E id ls) (fun id => Hg ls id)), (flat_map_ext _ (fun id => said E id ls') (fun id => Hg ls' id)).
  rewrite (flat_map_ext (fun id => said E id ls) (fun id => said E id ls') (fun id => Ha id)).
  apply sorted_flat; [apply increasing_filter; auto..|]. intros x Hx. rewrite !filter_In, I1, I2.
  pose proof (said_in E x ls') as H2. pose proof (said_in E x ls) as H1. rewrite Ha in H1. intuition.
Qed.
Theorem written_agree E T v export a b : Forall2 (fun c d => agree E (snd c) (snd d)) (chunks T v export a) (chunks T v export b) ->
  card_text E (create_card T v export a) = card_text E (create_card T v export b).
Proof.
  intros H. unfold create_card. fold (card_of (contact_lines T v export a)) (card_of (contact_lines T v export b)). apply card_text_agree.
  - rewrite !chunks_lines. apply agree_all. exact H.
  - exists (text_line (B "VERSION") (version_text v)). split; [left; reflexivity|reflexivity].
  - exists (text_line (B "VERSION") (version_text v)). split; [left; reflexivity|reflexivity].
Qed.
