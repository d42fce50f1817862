(** What a written card says (C80): the lines of a contact as properties. *)
From Coq Require Import Permutation.
From Verif Require Import Base BaseFacts QtText Utf8 Utf8Facts M_ParamMap M_VCard M_VCardText
  S_Escape P_Escape S_Fold P_Fold S_CardText P_CardText S_Card P_Assoc P_Card S_Parse P_Parse P_Parse2
  S_RoundTrip P_RoundTrip P_RoundTrip2 P_RoundTrip3 P_ReadBack P_Items P_Order
  M_Split S_Split P_Split M_Values M_Date M_Addressee M_VCardTool S_Contact P_Seen P_ReadFields P_Lines P_Contact P_Chunks
  S_Soft S_Order S_Coding S_Meaning S_Written.

(** ** Escapes *)
Lemma decodes_tok e s : decodes (flat_map (tok true true e) s) s.
Proof.
  induction s as [|c s IH]; [constructor|]. cbn [flat_map]. unfold tok at 1.
  destruct (N.eqb_spec c 92) as [->|N1]; [cbn [app]; apply de_escape; [cbn; auto 10|exact IH]|].
  destruct (N.eqb_spec c 44) as [->|N2]; [destruct e; cbn [app]; [apply de_char; [discriminate|exact IH]|apply de_escape; [cbn; auto 10|exact IH]]|].
  destruct (N.eqb_spec c 13) as [->|N3]; [cbn [app]; apply de_escape; [cbn; auto 10|exact IH]|].
  destruct (N.eqb_spec c 10) as [->|N4]; [cbn [app]; apply de_escape; [cbn; auto 10|exact IH]|].
  cbn [app]. apply de_char; assumption.
Qed.
Lemma decodes_escapes e s : decodes (add_escapes e s) s.
Proof. rewrite add_escapes_tok. apply decodes_tok. Qed.

(** ** A line as a property *)
Definition iput (i : item) : bytes := to_upper (to_latin1 (fst i)) ++ (if isnil (snd i) then [] else [cEQ] ++ to_latin1 (snd i)).
Definition put_of (E : Ext) (l : vline) : said :=
  match vl_value l with
  | QInvalid =>
      match index_of 58 (vl_id l) with
      | Some k => mkSaid (firstn k (vl_id l)) [] (skipn (S k) (vl_id l) ++ B ";base64," ++ vl_b64 l)
      | None => mkSaid (vl_id l) [] []
      end
  | _ => mkSaid (vl_id l) (map iput (items_of (vl_params l))) (fst (value_text E l))
  end.
Lemma item_shape i ops : item_reads i ops -> param_shape (iput i).
Proof.
  assert (Hk : forall p, Forall ikey_char p -> Forall (fun c => ~ In c [58; 59; 61]%N) (to_upper (to_latin1 p))).
  { intros p Hp. rewrite ikey_latin1 by auto. apply Forall_map. eapply Forall_impl; [|exact Hp]. intros d [H1 H2]. cbn [In] in *. unfold upper1, is_lower.
    destruct ((97 <=? d)%N && (d <=? 122)%N) eqn:E; lia. }
  unfold iput. intros [p Hp | p v Hp Hn Hv | p v Hp Hv]; cbn [fst snd].
  - left. rewrite app_nil_r. apply Hk; auto.
  - right. rewrite (proj2 (isnil_false v) Hn). exists (to_upper (to_latin1 p)), v. cbn [app].
    assert (Ev : to_latin1 v = v) by (apply latin1_of; eapply Forall_impl; [|exact Hv]; unfold ivalue_char; cbn [In]; intros; lia).
    rewrite Ev. split; [reflexivity|]. split; [apply Hk; auto|]. left. eapply Forall_impl; [|exact Hv]. unfold ivalue_char. intros a Ha. apply Ha.
  - right. cbn [app isnil]. exists (to_upper (to_latin1 p)), (cDQ :: v ++ [cDQ]). split; [|split; [apply Hk; auto|]].
    + do 2 f_equal. apply latin1_of. constructor; [unfold cDQ; lia|]. apply Forall_app. split; [|repeat constructor; unfold cDQ; lia].
      eapply Forall_impl; [|exact Hv]. unfold iquoted_char. intros; lia.
    + right. exists v. split; [reflexivity|]. intros H. rewrite Forall_forall in Hv. destruct (Hv _ H) as [_ K]. apply K. reflexivity.
Qed.

Lemma id_semi s g i : id_reads s g i -> ~ In 59%N s.
Proof.
  intros [s' [Hn Hs] _ _ | g' s' [Hg1 Hg2] [Hs1 Hs2]]; rewrite ?in_app_iff; rewrite ?Forall_forall in *.
  - intros K. destruct (Hs _ K) as [_ K']. apply K'. cbn. auto.
  - intros [K|[[K|[]]|K]]; [destruct (Hg2 _ K) as [_ K']|discriminate K|destruct (Hs2 _ K) as [_ K']]; apply K'; cbn; auto.
Qed.
Lemma line_laid E l : classed E l -> loud E l = true ->
  exists b, line_text E l = text_of [13%N; 10%N] (block_lines b) /\ laid_out b (put_of E l).
Proof.
  intros Hc Hl. destruct (cl_good _ _ Hc Hl) as (Hcl & Hst & _).
  destruct (wline_chunks E l Hl Hcl Hst) as (c0 & cs & Ht & Hw & (h & r & Eh & Hh)).
  exists (c0, cs). split; [exact Ht|]. unfold laid_out, block_lines, content. cbn [fst snd].
  split.
  { assert (Hno : forall c x, (c = 13 \/ c = 10)%N -> In x (c0 :: cs) -> ~ In c x).
    { intros c x Hc' Hx H. assert (In c (wline E l)) by (rewrite <- Hw; eapply in_concat_chunk; eauto).
      destruct Hcl as [H1 H2]. destruct Hc' as [->| ->]; auto. }
    constructor; [split; apply Hno; auto; left; auto|]. apply Forall_forall. intros x Hx.
    apply in_map_iff in Hx as (y & <- & Hy). split; (intros [H|H]; [discriminate|]); [apply (Hno 10%N y)|apply (Hno 13%N y)]; auto; right; auto. }
  split; [exists h, r; auto|].
  change (c0 ++ List.concat cs) with (List.concat (c0 :: cs)). rewrite Hw.
  pose proof (cl_head _ _ Hc Hl) as Hd.
  assert (Hv : (exists g i ops, header_reads l g i ops) -> vl_value l <> QInvalid ->
     let p := mkSaid (vl_id l) (map iput (items_of (vl_params l))) (fst (value_text E l)) in
     sd_name p <> [] /\ ~ In 58%N (sd_name p) /\ ~ In 59%N (sd_name p) /\ Forall param_shape (sd_params p) /\
     logical E l = sd_name p ++ flat_map (fun q => 59%N :: q) (sd_params p) ++ 58%N :: sd_text p).
  { intros (g & i & ops & Hhd) Hv. destruct (header_text_items l g i ops Hhd) as (Eht & _ & _). destruct Hhd as [Hg Hid Hs (os & Ho & _)].
    destruct (id_reads_chars _ _ _ Hid) as [Hch Hne]. cbn [sd_name sd_params sd_text].
    split; [exact Hne|]. split; [intros K; rewrite Forall_forall in Hch; destruct (Hch _ K) as [_ K']; apply K'; reflexivity|].
    split; [apply (id_semi _ _ _ Hid)|]. split.
    { apply Forall_map. clear -Ho. induction Ho; constructor; auto. eapply item_shape; eauto. }
    unfold logical. rewrite Eht, <- app_assoc. f_equal. f_equal. rewrite !flat_map_concat_map, map_map. f_equal. }
  destruct (vl_value l) eqn:Ev.
  - (* the data of a picture in version 4.0 *)
    clear Ht. destruct Hd as (i & t & Hid & Hp & Ht).
    assert (Hi : i = B "PHOTO" \/ i = B "LOGO").
    { unfold pictured in Hp. apply orb_true_iff in Hp as [Hp|Hp]; apply leqb_eq in Hp; auto. }
    assert (Hn : ~ In 58%N i) by (destruct Hi as [->| ->]; intros K; apply mem_In in K; discriminate K).
    assert (Hs : ~ In 59%N i) by (destruct Hi as [->| ->]; intros K; apply mem_In in K; discriminate K).
    assert (He : i <> []) by (destruct Hi as [->| ->]; discriminate).
    change (i ++ B ":data:image/" ++ t) with (i ++ 58%N :: (B "data:image/" ++ t)) in Hid.
    unfold put_of, wline. rewrite Ev, Hid, (index_of_app_notin 58 i (B "data:image/" ++ t) Hn). cbn [sd_name sd_params sd_text].
    replace (firstn (length i) (i ++ 58%N :: B "data:image/" ++ t)) with i by (rewrite firstn_app, firstn_all, Nat.sub_diag; cbn; rewrite app_nil_r; reflexivity).
    split; [exact He|]. split; [exact Hn|]. split; [exact Hs|]. split; [constructor|]. cbn [flat_map app].
    replace (skipn (S (length i)) (i ++ 58%N :: B "data:image/" ++ t)) with (B "data:image/" ++ t).
    2: { rewrite skipn_app, skipn_all2 by lia. replace (S (length i) - length i) with 1 by lia. reflexivity. }
    assert (El : to_latin1 (i ++ 58%N :: B "data:image/" ++ t) = i ++ 58%N :: B "data:image/" ++ t).
    { apply latin1_of. apply Forall_app. split; [destruct Hi as [->| ->]; repeat constructor|]. constructor; [lia|]. apply Forall_app. split; [repeat constructor|].
      eapply Forall_impl; [|exact Ht]. cbn. intros; lia. }
    rewrite El, <- app_assoc. cbn [app]. rewrite <- app_assoc. reflexivity.
  - unfold put_of, wline. rewrite Ev. apply Hv; [exact Hd|discriminate].
  - unfold put_of, wline. rewrite Ev. apply Hv; [exact Hd|discriminate].
Qed.

(** ** The card *)
Definition puts (E : Ext) (ls : list vline) : list said := map (put_of E) (filter (loud E) ls).
Lemma lines_laid E ls : Forall (classed E) ls ->
  exists bs, flat_map (line_text E) ls = text_of [13%N; 10%N] (flat_map block_lines bs) /\ Forall2 laid_out bs (puts E ls).
Proof.
  induction ls as [|l ls IH]; intros Hc; [exists []; split; [reflexivity|constructor]|].
  inversion Hc as [|? ? H1 H2]; subst. destruct (IH H2) as (bs & Hb & Hf). unfold puts. cbn [flat_map filter].
  destruct (loud E l) eqn:El.
  - destruct (line_laid E l H1 El) as (b & Eb & Lb). exists (b :: bs). cbn [flat_map map]. rewrite Hb, Eb. unfold text_of. rewrite flat_map_app.
    split; [reflexivity|]. constructor; assumption.
  - exists bs. unfold loud in El. apply negb_false_iff in El. destruct (line_text E l); [|discriminate]. split; assumption.
Qed.
Lemma card_laid T E v export a : fits T v a ->
  exists bs, create_text T E v export [a] = card_in [13%N; 10%N] [] (B "BEGIN:VCARD") bs (B "END:VCARD") [[]] /\
    Forall2 laid_out bs (puts E (written (create_card T v export a))).
Proof.
  intros Hf. destruct (lines_laid E (written (create_card T v export a))) as (bs & Hb & Hl).
  { apply Forall_forall. intros x Hx. unfold create_card in Hx. fold (card_of (contact_lines T v export a)) in Hx. rewrite written_in in Hx.
    pose proof (all_classed E T v export a Hf) as Hc. rewrite Forall_forall in Hc. auto. }
  exists bs. split; [|exact Hl]. unfold create_text, create_vcards. cbn [map flat_map]. rewrite app_nil_r. unfold card_text.
  assert (Ew : flat_map (fun id => flat_map (line_text E) (card_lines id (create_card T v export a))) (ordered_idents (create_card T v export a))
             = flat_map (line_text E) (written (create_card T v export a))).
  { unfold written. generalize (ordered_idents (create_card T v export a)). intros ids. induction ids as [|x ids IH]; [reflexivity|]. cbn [flat_map]. rewrite flat_map_app, IH. reflexivity. }
  rewrite Ew, Hb. unfold card_in, text_of. cbn [app flat_map]. rewrite flat_map_app. cbn [flat_map app]. rewrite <- !app_assoc. reflexivity.
Qed.
Lemma writes_from T E v export a (P : list said -> Prop) : fits T v a -> P (puts E (written (create_card T v export a))) -> writes_as T E v export a P.
Proof. intros Hf HP. destruct (card_laid T E v export a Hf) as (bs & H1 & H2). exists bs, (puts E (written (create_card T v export a))). auto. Qed.

(** ** The properties of one name *)
Lemma lower_known i j : In i known -> In j known -> to_lower i = to_lower j -> i = j.
Proof.
  intros Hi Hj H. assert (Hk : forallb (fun i => leqb (to_upper (to_lower i)) i) known = true) by (vm_compute; reflexivity).
  rewrite forallb_forall in Hk. pose proof (Hk i Hi) as K1. pose proof (Hk j Hj) as K2. apply leqb_eq in K1, K2. congruence.
Qed.
Lemma known_plain i : In i known -> ~ In 58%N i /\ ~ In 46%N (to_lower i) /\ starts_with (B "x-") (to_lower i) = false.
Proof.
  intros Hi. assert (Hk : forallb (fun i => negb (mem 58 i) && negb (mem 46 (to_lower i)) && negb (starts_with (B "x-") (to_lower i))) known = true) by (vm_compute; reflexivity).
  rewrite forallb_forall in Hk. specialize (Hk i Hi). rewrite !andb_true_iff, !negb_true_iff in Hk. destruct Hk as ((K1 & K2) & K3).
  split; [apply mem_false; auto|split; [apply mem_false; auto|auto]].
Qed.
Lemma put_name E l : classed E l -> loud E l = true ->
  (vl_value l <> QInvalid /\ sd_name (put_of E l) = vl_id l) \/
  (vl_value l = QInvalid /\ exists i t, pictured i = true /\ vl_id l = i ++ B ":data:image/" ++ t /\ sd_name (put_of E l) = i).
Proof.
  intros Hc Hl. pose proof (cl_head _ _ Hc Hl) as Hd. unfold put_of. destruct (vl_value l); [|left; split; [discriminate|reflexivity]|left; split; [discriminate|reflexivity]].
  right. split; [reflexivity|]. destruct Hd as (i & t & Hid & Hp & _). exists i, t. split; [exact Hp|]. split; [exact Hid|].
  assert (Hi : i = B "PHOTO" \/ i = B "LOGO") by (unfold pictured in Hp; apply orb_true_iff in Hp as [Hp|Hp]; apply leqb_eq in Hp; auto).
  assert (Hn : ~ In 58%N i) by (destruct Hi as [->| ->]; intros K; apply mem_In in K; discriminate K).
  change (i ++ B ":data:image/" ++ t) with (i ++ 58%N :: (B "data:image/" ++ t)) in Hid. rewrite Hid, (index_of_app_notin 58 i _ Hn). cbn [sd_name].
  rewrite firstn_app, firstn_all, Nat.sub_diag. cbn. rewrite app_nil_r. reflexivity.
Qed.
Lemma to_lower_in c s : ~ (65 <= c <= 90)%N -> In c s -> In c (to_lower s).
Proof.
  intros H Hi. unfold to_lower. apply in_map_iff. exists c. split; [|exact Hi]. unfold lower1, is_upper.
  destruct ((65 <=? c)%N && (c <=? 90)%N) eqn:E; lia.
Qed.
Lemma put_called E l i : classed E l -> loud E l = true -> In i known -> pictured i = false ->
  leqb (to_lower (sd_name (put_of E l))) (to_lower i) = P_Contact.named i l.
Proof.
  intros Hc Hl Hi Hp. unfold P_Contact.named. rewrite (cl_group _ _ Hc). cbn [isnil]. rewrite andb_true_r.
  destruct (known_plain i Hi) as (K1 & K2 & K3).
  destruct (put_name E l Hc Hl) as [(Hv & ->)|(Hv & j & t & Hj & Hid & ->)].
  - destruct (leqb_spec (vl_id l) i) as [->|Hne]; [apply leqb_refl|]. apply leqb_neq. intros K.
    destruct (cl_seen _ _ Hc Hl) as [(_ & _ & [Hk|(q & Hq)])|[(_ & _ & Hid)|(_ & Hpi & t & Hid)]].
    + apply Hne. apply lower_known; auto.
    + rewrite <- K, Hq in K3. discriminate K3.
    + apply K2. rewrite <- K. apply to_lower_in; [lia|]. rewrite Hid. apply in_or_app. right. left. reflexivity.
    + assert (H58 : In 58%N (to_lower (vl_id l))).
      { apply to_lower_in; [lia|]. rewrite Hid. apply in_or_app. right. left. reflexivity. }
      rewrite K in H58. apply K1. unfold to_lower in H58. apply in_map_iff in H58 as (x & Hx & Hxi). unfold lower1, is_upper in Hx.
      destruct ((65 <=? x)%N && (x <=? 90)%N) eqn:E0; [lia|]. subst x. exact Hxi.
  - transitivity false; [|symmetry]; apply leqb_neq.
    + intros K. assert (Hjk : In j known) by (unfold pictured in Hj; apply orb_true_iff in Hj as [Hj|Hj]; apply leqb_eq in Hj; subst j; in_known).
      rewrite (lower_known j i Hjk Hi K) in Hj. congruence.
    + intros K. apply K1. rewrite <- K, Hid. apply in_or_app. right. left. reflexivity.
Qed.
Lemma of_name_puts T E v export a (f : string) i : fits T v a -> In i known -> pictured i = false -> to_lower i = B f ->
  of_name f (puts E (written (create_card T v export a))) = puts E (flat_map (pick i) (chunks T v export a)).
Proof.
  intros Hf Hi Hp Ef. unfold of_name, puts. rewrite filter_map'. f_equal.
  rewrite <- (named_lines E T v export a i Hf Hi).
  transitivity (filter (loud E) (filter (P_Contact.named i) (written (create_card T v export a)))).
  - rewrite !filter_filter. apply filter_ext_in'. intros x Hx. destruct (loud E x) eqn:El; [|rewrite andb_false_r; reflexivity].
    cbn [andb]. rewrite andb_true_r. unfold called. rewrite <- Ef. apply put_called; auto.
    unfold create_card in Hx. fold (card_of (contact_lines T v export a)) in Hx. rewrite written_in in Hx.
    pose proof (all_classed E T v export a Hf) as Hc. rewrite Forall_forall in Hc. auto.
  - f_equal. unfold create_card. fold (card_of (contact_lines T v export a)). apply (select_written _ i).
    intros l Hl. unfold P_Contact.named in Hl. apply andb_true_iff in Hl as [Hl _]. apply leqb_eq in Hl. exact Hl.
Qed.

(** ** Values *)
Lemma first_eq (s m r t : bytes) : ~ In 61%N s -> ~ In 61%N m -> s ++ 61%N :: r = m ++ 61%N :: t -> s = m.
Proof.
  revert m. induction s as [|c s IH]; intros [|d m] Hs Hm H; cbn [app] in H; auto.
  - injection H as <- _. exfalso. apply Hm. left; auto.
  - injection H as -> _. exfalso. apply Hs. left; auto.
  - injection H as -> H. f_equal. apply IH; auto; intros K; [apply Hs|apply Hm]; right; exact K.
Qed.
Lemma split_nonnil c s : split c s <> [].
Proof. destruct s as [|d s]; cbn [split]; [discriminate|]. destruct (N.eqb d c); [discriminate|]. destruct (split c s); discriminate. Qed.
Lemma coding_item kv : plain_item kv -> about_coding (iput kv) = false.
Proof.
  destruct kv as [k x]. intros ([Hk Hx] & _ & _ & Hs1 & Hs2). cbn [fst snd] in *. unfold silent_key, item_ops in *. unfold iput. cbn [fst snd] in *.
  rewrite ikey_latin1 by auto.
  assert (Hl : forall r, to_lower (to_upper k ++ r) = to_lower k ++ to_lower r).
  { intros r. unfold to_lower at 1. rewrite map_app. fold (to_lower (to_upper k)). rewrite lower_upper_ikey by auto. reflexivity. }
  assert (Hne : ~ In 61%N (to_lower k)).
  { intros K. unfold to_lower in K. apply in_map_iff in K as (d & Hd & Hi). rewrite Forall_forall in Hk. destruct (Hk _ Hi) as [H1 H2]. cbn [In] in H2.
    unfold lower1, is_upper in Hd. destruct ((65 <=? d)%N && (d <=? 90)%N) eqn:E0; lia. }
  unfold about_coding. rewrite Hl. rewrite !orb_false_iff.
  destruct x as [|c x]; cbn [isnil].
  - change (to_lower []) with (@nil N). rewrite app_nil_r.
    assert (Hp : forall m, starts_with (m ++ [61%N]) (to_lower k) = false).
    { intros m. destruct (starts_with _ _) eqn:Es; auto. exfalso. apply starts_with_spec in Es as (t & Ht). apply Hne. rewrite Ht, !in_app_iff. left. right. left. reflexivity. }
    assert (Hb : bare_key (to_upper k) <> B "encoding") by (intros K; apply Hs1; left; exact K).
    unfold bare_key in Hb. rewrite lower_upper_ikey in Hb by auto.
    pose proof (Hp (B "encoding")) as P1. pose proof (Hp (B "charset")) as P2. repeat split; auto.
    + destruct (leqb (to_lower k) (B "quoted-printable")) eqn:Eq; auto. exfalso. apply Hb. reflexivity.
    + destruct (leqb (to_lower k) (B "base64")) eqn:Eq; auto. exfalso. apply Hb. rewrite orb_true_r. reflexivity.
  - assert (Hin : In (to_lower k) (map fst (if (c =? cDQ)%N then map (pair (to_lower k)) (qsplit (to_lower k) (removelast x)) else map (pair (to_lower k)) (split cCOMMA (c :: x))))).
    { assert (Hm : forall l : list bytes, l <> [] -> In (to_lower k) (map fst (map (pair (to_lower k)) l))) by (intros [|y l] H; [congruence|left; reflexivity]).
      destruct (c =? cDQ)%N; apply Hm; [|apply split_nonnil]. unfold qsplit. destruct (leqb _ _); [apply split_nonnil|discriminate]. }
    change (to_lower ([cEQ] ++ to_latin1 (c :: x))) with (61%N :: to_lower (to_latin1 (c :: x))).
    assert (Hp : forall m, ~ In 61%N m -> to_lower k <> m -> starts_with (m ++ [61%N]) (to_lower k ++ 61%N :: to_lower (to_latin1 (c :: x))) = false).
    { intros m Hm Hd. destruct (starts_with _ _) eqn:Es; auto. exfalso. apply starts_with_spec in Es as (t & Ht). rewrite <- app_assoc in Ht. cbn [app] in Ht.
      apply Hd. eapply first_eq; eauto. }
    assert (Hq : forall m, mem 61 m = false -> leqb (to_lower k ++ 61%N :: to_lower (to_latin1 (c :: x))) m = false).
    { intros m Hm. apply leqb_neq. intros <-. apply mem_false in Hm. apply Hm. apply in_or_app. right. left. reflexivity. }
    repeat split; try (apply Hq; reflexivity).
    + apply (Hp (B "encoding")); [apply mem_false; reflexivity|]. intros K. apply Hs1. rewrite <- K at 1. exact Hin.
    + apply (Hp (B "charset")); [apply mem_false; reflexivity|]. intros K. apply Hs2. rewrite <- K at 1. exact Hin.
Qed.

Lemma text_put E i kvs u : NoDup (map fst kvs) -> Forall plain_item kvs ->
  put_of E (add_all kvs (text_line i u)) = mkSaid i (map iput (items_of (read_params kvs))) (add_escapes (leqb i (B "CATEGORIES") || leqb i (B "GEO")) (to_utf8 u)).
Proof.
  intros Hn Hp. rewrite Forall_forall in Hp. unfold text_line, vline_new. rewrite add_all_new. unfold put_of. cbn [vl_value vl_id vl_params].
  rewrite (plain_text_mb E u).
  - reflexivity.
  - split; [reflexivity|]. cbn [vl_params]. split; apply read_params_none; intros H; apply in_map_iff in H as (x & Hx & Hin); destruct (Hp x Hin) as (_ & P1 & P2 & _); auto.
Qed.
Lemma coding_items kvs : NoDup (map fst kvs) -> Forall plain_item kvs -> Forall (fun q => about_coding q = false) (map iput (items_of (read_params kvs))).
Proof.
  intros Hn Hp. apply Forall_map. rewrite Forall_forall in *. intros x Hx. apply coding_item. apply Hp. eapply Permutation_in; [apply items_perm; auto|exact Hx].
Qed.
Lemma text_held E i kvs u : NoDup (map fst kvs) -> Forall plain_item kvs -> holds_text (put_of E (add_all kvs (text_line i u))) u.
Proof. intros Hn Hp. rewrite text_put by auto. split; cbn [sd_params sd_text]; [apply coding_items; auto|apply decodes_escapes]. Qed.
Lemma text_loud E i kvs u : In i known -> NoDup (map fst kvs) -> Forall plain_item kvs -> loud E (add_all kvs (text_line i u)) = not_empty u.
Proof. intros Hi Hn Hp. destruct (seen_text E i [] i kvs u (known_id i Hi) Hn Hp) as (_ & L & _). exact L. Qed.

(** parameters kept as they are *)
Lemma joined_plain m : plain_params m -> NoDup (map fst (joined m)) /\ Forall plain_item (joined m).
Proof.
  intros ((Hi & Hm) & He & Hc). rewrite joined_keys. split; [apply increasing_NoDup; auto|]. apply Forall_forall. intros kv Hkv.
  unfold joined in Hkv. apply in_map_iff in Hkv as ([k vs] & <- & Hin). cbn [fst snd] in *. rewrite Forall_forall in Hm. destruct (Hm _ Hin) as (H1 & H2 & H3 & H4). cbn [fst snd] in *.
  destruct (joined_item k vs H1 H2 H4) as [J1 J2].
  assert (Hk : forall n, ~ In n (map fst m) -> k <> n) by (intros n Hn <-; apply Hn; apply (in_map fst) in Hin; exact Hin).
  assert (Hs : forall n, ~ In n (map fst m) -> silent_key n (k, join [cCOMMA] vs)).
  { intros n Hn K. assert (K' : In n (map fst (map (pair k) vs))) by (exact (eq_ind _ (fun z => In n (map fst z)) K _ J2)). rewrite map_map in K'. cbn [fst] in K'. clear K. rename K' into K. apply in_map_iff in K as (w & <- & _). exact (Hk k Hn eq_refl). }
  repeat split; auto; apply J1.
Qed.
Lemma joined_put m : wf_params m -> map iput (joined m) = map param_of m.
Proof.
  intros (_ & Hm). unfold joined. rewrite map_map. apply map_ext_in. intros [k vs] Hin. rewrite Forall_forall in Hm. destruct (Hm _ Hin) as (H1 & H2 & _ & H4). cbn [fst snd] in *.
  unfold iput, param_of. cbn [fst snd]. rewrite latin1_of by (eapply Forall_impl; [|exact H1]; unfold key_char, printable; intros; lia).
  rewrite (proj2 (isnil_false _) (join_nonnil vs H2 ltac:(eapply Forall_impl; [|exact H4]; intros ? []; auto))).
  change ([cEQ] ++ ?x) with (61%N :: x). rewrite latin1_of; [reflexivity|]. apply Forall_join; [unfold cCOMMA; lia|].
  eapply Forall_impl; [|exact H4]. intros w [_ Hw]. eapply Forall_impl; [|exact Hw]. unfold pvalue_char. intros; lia.
Qed.
Lemma params_put E i m u : plain_params m ->
  sd_params (put_of E (vl_add_params m (text_line i u))) = map param_of m /\ holds_text (put_of E (vl_add_params m (text_line i u))) u.
Proof.
  intros Hm. destruct (joined_plain m Hm) as [J1 J2]. rewrite vl_add_params_all. split; [|apply text_held; auto].
  rewrite text_put by auto. cbn [sd_params]. rewrite asorted_read; [apply joined_put; apply Hm|]. rewrite joined_keys. apply Hm.
Qed.
Lemma puts_map {A} E (mk : A -> vline) (keep : A -> bool) (R : said -> A -> Prop) l :
  (forall x, In x l -> loud E (mk x) = keep x /\ (keep x = true -> R (put_of E (mk x)) x)) -> Forall2 R (puts E (map mk l)) (filter keep l).
Proof.
  unfold puts. induction l as [|x l IH]; intros H; [constructor|]. cbn [map filter]. destruct (H x ltac:(left; auto)) as [L R']. rewrite L.
  destruct (keep x); [|apply IH; intros; apply H; right; auto]. cbn [map]. constructor; auto. apply IH; intros; apply H; right; auto.
Qed.
Lemma entries_put {A} E i (mk : A -> vline) (text : A -> ustring) (params : A -> pmap) l : In i known ->
  (forall x, In x l -> mk x = vl_add_params (params x) (text_line i (text x)) /\ plain_params (params x)) ->
  Forall2 (fun p x => sd_params p = map param_of (params x) /\ holds_text p (text x)) (puts E (map mk l)) (filter (fun x => not_empty (text x)) l).
Proof.
  intros Hi H. apply puts_map. intros x Hx. destruct (H x Hx) as [-> Hm]. destruct (joined_plain _ Hm) as [J1 J2]. split.
  - rewrite vl_add_params_all. apply text_loud; auto.
  - intros _. apply params_put; auto.
Qed.
Lemma texts_put E i l : In i known ->
  Forall2 (fun p s => sd_params p = [] /\ holds_text p s) (puts E (map (text_line i) l)) (filter not_empty l).
Proof.
  intros Hi. apply (entries_put E i (text_line i) (fun s => s) (fun _ => []) l Hi). intros x _. split; [reflexivity|]. repeat split; cbn; auto. constructor.
Qed.
