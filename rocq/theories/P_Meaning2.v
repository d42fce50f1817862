(** What a card says is what the contact says (C77): telephone numbers, addresses, dates and others. *)
From Coq Require Import Permutation.
From Verif Require Import Base BaseFacts QtText Utf8 Utf8Facts M_ParamMap M_VCard M_VCardText S_Card P_Assoc P_Card S_Escape P_Escape
  S_Parse P_Parse P_Parse2 S_Soft P_Soft P_SoftLoop M_Split S_Split P_Split M_Values M_Date M_Addressee M_VCardTool P_ReadBack S_Order P_CardOrder P_Unknown
  S_Case P_Case P_Foreign P_RoundTrip P_RoundTrip2 S_Coding P_Coding P_ReadFields P_Contact P_Lists P_Fields P_Types P_Addr S_Contact S_DateText P_DateText S_Meaning P_Meaning.

(** ** Flags *)
Lemma join_types_bit (g : ustring -> N) vs : forall t i, N.testbit (fold_left (fun t s => N.lor t (g s)) vs t) i = true <->
  N.testbit t i = true \/ exists v, In v vs /\ N.testbit (g v) i = true.
Proof.
  induction vs as [|v vs IH]; intros t i; cbn [fold_left].
  - split; [auto|]. intros [H|(v & [] & _)]. exact H.
  - rewrite IH, N.lor_spec, orb_true_iff. split.
    + intros [[H|H]|(w & W1 & W2)]; [auto|right; exists v; cbn; auto|right; exists w; cbn; auto].
    + intros [H|(w & [<-|W1] & W2)]; [auto|auto|right; exists w; auto].
Qed.
Lemma lookup_bit (norm : ustring -> ustring) (tab : list (ustring * N)) (flags : list (string * N)) :
  Forall2 (fun e f => snd e = (2 ^ snd f)%N /\ forall s, norm s = fst e <-> to_lower s = B (fst f)) tab flags ->
  NoDup (map fst tab) ->
  forall s i, N.testbit (lookup_type (fun n => leqb (norm s) n) tab) i = true <-> exists w, In (w, i) flags /\ to_lower s = B w.
Proof.
  induction 1 as [|[n f] [w j] tab flags [H1 H2] HF IH]; intros Hn s i; cbn [lookup_type].
  - rewrite N.bits_0. split; [discriminate|]. intros (w & [] & _).
  - cbn [fst snd map] in *. inversion Hn as [|? ? Hnot Hn']; subst. specialize (H2 s). destruct (leqb_spec (norm s) n) as [En|En].
    + rewrite N.pow2_bits_eqb, N.eqb_eq. split.
      * intros ->. exists w. split; [left; reflexivity|tauto].
      * intros (w' & [Hw|Hw] & Hs); [congruence|]. exfalso. apply Hnot. clear - HF Hw Hs En H2.
        induction HF as [|[n' f'] [w'' j'] tab flags [K1 K2] _ IH]; [destruct Hw|]. cbn [fst snd map] in *. destruct Hw as [Hw|Hw]; [|right; auto].
        left. injection Hw as -> ->. rewrite <- En. symmetry. apply K2. exact Hs.
    + rewrite IH by auto. split.
      * intros (w' & Hw & Hs). exists w'. split; [right; exact Hw|exact Hs].
      * intros (w' & [Hw|Hw] & Hs); [|eauto]. injection Hw as -> ->. exfalso. apply En. apply H2. exact Hs.
Qed.
Lemma upper_of_lower s t : to_lower s = to_lower t -> to_upper s = to_upper t.
Proof.
  unfold to_lower, to_upper. revert t. induction s as [|c s IH]; intros [|d l] H; try discriminate; [reflexivity|].
  cbn [map] in *. injection H as H1 H2. f_equal; [|auto]. clear - H1. unfold lower1, upper1, is_upper, is_lower in *.
  repeat match goal with H : context [if ?b then _ else _] |- _ => destruct b eqn:? end; repeat match goal with |- context [if ?b then _ else _] => destruct b eqn:? end; lia.
Qed.
Lemma upper_iff s n w : to_upper (B w) = n -> to_lower (B w) = B w -> to_upper s = n <-> to_lower s = B w.
Proof.
  intros H1 H2. split; intros H.
  - rewrite <- H2. rewrite <- (upper_lower s), <- (upper_lower (B w)). congruence.
  - rewrite <- H1. apply upper_of_lower. congruence.
Qed.
Lemma perm_flags (t f : list (string * N)) p x : Permutation t f -> flags_of t p x -> flags_of f p x.
Proof.
  intros HP H i. rewrite (H i). split; intros (w & v & H1 & H2); exists w, v; split; auto; [apply (Permutation_in _ HP)|apply (Permutation_in _ (Permutation_sym HP))]; exact H1.
Qed.
Definition phone_flags' : list (string * N) :=
  [("bbs", 8); ("car", 10); ("cell", 6); ("fax", 5); ("home", 0); ("isdn", 11); ("modem", 9); ("msg", 2); ("pager", 13); ("pcs", 12);
   ("pref", 3); ("video", 7); ("voice", 4); ("work", 1)]%string%N.
Definition address_flags' : list (string * N) :=
  [("dom", 0); ("home", 4); ("intl", 1); ("parcel", 3); ("postal", 2); ("pref", 6); ("work", 5)]%string%N.
Lemma phone_flags_perm : forall e, In e phone_flags <-> In e phone_flags'.
Proof. intros e. unfold phone_flags, phone_flags'. cbn [In]. tauto. Qed.
Lemma address_flags_perm : forall e, In e address_flags <-> In e address_flags'.
Proof. intros e. unfold address_flags, address_flags'. cbn [In]. tauto. Qed.
Lemma phone_bit s i : N.testbit (phone_type (to_upper s)) i = true <-> exists w, In (w, i) phone_flags /\ to_lower s = B w.
Proof.
  unfold phone_type. rewrite (lookup_bit to_upper phone_types phone_flags').
  - split; intros (w & H1 & H2); exists w; split; auto; apply phone_flags_perm; exact H1.
  - unfold phone_types, phone_flags'. repeat (apply Forall2_cons; [split; [reflexivity|intros x; apply upper_iff; reflexivity]|]). constructor.
  - cbn. repeat (apply NoDup_cons; [intros H; cbv in H; intuition discriminate|]). constructor.
Qed.
Lemma address_bit s i : N.testbit (address_type (to_lower s)) i = true <-> exists w, In (w, i) address_flags /\ to_lower s = B w.
Proof.
  unfold address_type. rewrite (lookup_bit to_lower address_types address_flags').
  - split; intros (w & H1 & H2); exists w; split; auto; apply address_flags_perm; exact H1.
  - unfold address_types, address_flags'. repeat (apply Forall2_cons; [split; [reflexivity|intros x; reflexivity]|]). constructor.
  - cbn. repeat (apply NoDup_cons; [intros H; cbv in H; intuition discriminate|]). constructor.
Qed.
Lemma flags_said (g : ustring -> N) table l p : meant l p -> (forall s i, N.testbit (g s) i = true <-> exists w, In (w, i) table /\ to_lower s = B w) ->
  flags_of table p (join_types g (line_types l)).
Proof.
  intros (_ & _ & _ & H & _) Hg i. unfold join_types. rewrite join_types_bit, N.bits_0. split.
  - intros [K|(v & V1 & V2)]; [discriminate|]. apply Hg in V2 as (w & W1 & W2). exists w, v. split; [exact W1|]. split; [apply H; exact V1|exact W2].
  - intros (w & v & W1 & V1 & V2). right. exists v. split; [apply H; exact V1|]. apply Hg. eauto.
Qed.

(** ** Entries with identifiers *)
Lemma read_lines_fold_in {X} T (f : addressee -> X) (K : lkind -> bool) (step : ustring -> vline -> X -> X) card :
  (forall e a, f (put_empty e a) = f a) ->
  (forall id l a, K (line_kind l) = true -> f (eff T id l a) = step id l (f a)) ->
  forall ls k a b, (forall l, In l ls -> K (line_kind l) = false -> forall id a, f (eff T id l a) = f a) -> read_lines T card k ls a = Some b ->
  exists ks, length ks = length (filter (fun l => K (line_kind l)) ls) /\ NoDup ks /\ Forall (fun i => k <= i) ks /\
    f b = fold_left (fun x p => step (t_newid T card (fst p)) (snd p) x) (combine ks (filter (fun l => K (line_kind l)) ls)) (f a).
Proof.
  intros He H1. induction ls as [|l ls IH]; intros k a b H0 H.
  - injection H as <-. exists []. repeat split; constructor.
  - cbn [read_lines] in H. destruct (read_line T (t_newid T card k) l a) as [a'|] eqn:El; [|discriminate].
    destruct (IH _ _ _ (fun m Hm => H0 m (or_intror Hm)) H) as (ks & Hlen & Hn & Hge & Hf). apply read_line_eff in El as [e ->]. rewrite He in Hf.
    cbn [filter]. destruct (K (line_kind l)) eqn:Ek.
    + exists (k :: ks). rewrite H1 in Hf by auto. split; [cbn; auto|]. split; [constructor; auto; intros Hin; rewrite Forall_forall in Hge; specialize (Hge _ Hin); lia|].
      split; [constructor; auto; eapply Forall_impl; [|exact Hge]; cbn; lia|]. exact Hf.
    + exists ks. rewrite (H0 l (or_introl eq_refl) Ek) in Hf. split; auto. split; auto. split; [eapply Forall_impl; [|exact Hge]; cbn; lia|]. exact Hf.
Qed.
Lemma fold_ids_said {X} T (get : addressee -> list X) K f (mk : ustring -> vline -> X) (key : X -> ustring) (keep : X -> bool) (R : said -> X -> Prop) (want : said -> bool) ps L a :
  keyed K f -> (forall e x, get (put_empty e x) = get x) ->
  (forall id l x, K (line_kind l) = true -> get (eff T id l x) = replace_or (fun q => leqb (key q) (key (mk id l))) (mk id l) (keep (mk id l)) (get x)) ->
  (forall l, In l (in_order (card_of L)) -> K (line_kind l) = false -> forall id x, get (eff T id l x) = get x) -> (forall id, get (addressee_new id) = []) ->
  (forall id l, key (mk id l) = id) -> fresh_ids T ->
  (forall id l p, meant l p -> K (line_kind l) = true -> keep (mk id l) = want p /\ R p (mk id l)) ->
  Forall2 meant L ps -> read_from T L a -> alike_in_case f ps -> Forall2 R (filter want (of_name f ps)) (get a).
Proof.
  intros HK He H1 H0 Hd Hkey Hid Hmk HL Hr Ha. unfold read_from in Hr.
  destruct (read_lines_fold_in T get K (fun id l x => replace_or (fun q => leqb (key q) (key (mk id l))) (mk id l) (keep (mk id l)) x) 0 He H1 _ _ _ _ H0 Hr)
    as (ks & Hlen & Hn & _ & ->).
  pose proof (lines_of K f L ps HK Ha HL) as HM.
  assert (HKM : Forall (fun l => K (line_kind l) = true) (filter (fun l => K (line_kind l)) (in_order (card_of L)))) by (apply Forall_forall; intros l Hl; apply filter_In in Hl; tauto).
  revert Hlen HM HKM. generalize (filter (fun l => K (line_kind l)) (in_order (card_of L))) as M. intros M Hlen HM HKM. rewrite Hd.
  rewrite (fold_ids key mk keep (t_newid T 0) Hkey (Hid 0) ks M [] Hn (Forall_nil _)). cbn [app]. clear Hn. revert ks Hlen.
  induction HM as [|m p M qs Hm _ IH]; intros ks Hlen; destruct ks as [|k ks]; try discriminate; [constructor|].
  pose proof (Forall_inv HKM) as Hkm. apply Forall_inv_tail in HKM. cbn [combine map filter fst snd]. destruct (Hmk (t_newid T 0 k) m p Hm Hkm) as [E1 E2]. rewrite E1.
  injection Hlen as Hlen. destruct (want p); [constructor; auto|auto].
Qed.
Lemma phones_said T E ps : fresh_ids T -> alike_in_case "tel" ps -> reads_as_contact T E ps (fun a =>
  Forall2 (fun p x => ph_number x = simplified (sd_text p) /\ (untyped p -> ph_type x = tUndefined) /\ (~ untyped p -> flags_of phone_flags p (ph_type x)))
    (filter (fun p => visible (sd_text p)) (of_name "tel" ps)) (a_phones a)).
Proof.
  intros Hid Ha. apply contact_read. intros L a HL Hr.
  apply (fold_ids_said T a_phones (isk LTel) "tel" parse_phone ph_id (fun p => negb (isnil (simplified (ph_number p)))) _ _ ps L); auto; side.
  - intros l _. revert l. intros l Hl id x. revert Hl. eff_cases l.
  - intros id l p Hm _. cbn [parse_phone ph_number]. rewrite (proj1 (proj2 (proj2 Hm))), simplified_idem. split; [reflexivity|]. split; [reflexivity|].
    assert (Hu : line_types l = [] <-> untyped p).
    { destruct Hm as (_ & _ & _ & Ht & _). unfold untyped. split.
      - intros Hn v Hv. apply Ht in Hv. rewrite Hn in Hv. destruct Hv.
      - intros Hv. destruct (line_types l) as [|v vs]; [reflexivity|]. exfalso. apply (Hv v). apply Ht. left. reflexivity. }
    unfold parse_phone. cbn [ph_type]. destruct (line_types l) as [|v vs] eqn:El; cbn [isnil].
    + split; [auto|]. intros Hn. exfalso. apply Hn. apply Hu. reflexivity.
    + split; [intros K; apply Hu in K; discriminate|]. intros _. rewrite <- El. apply (flags_said (fun s => phone_type (to_upper s)) phone_flags l p Hm). apply phone_bit.
Qed.
Definition adr_rest (T : Tool) (l : vline) (x : address) : address :=
  let label := vl_parameter (B "label") l in
  let x := if isnil label then x else ad_set_label (unquote label) x in
  let geo := remove_str (B "geo:") (remove_ch cDQ (vl_parameter (B "geo") l)) in
  if negb (isnil (vl_parameter (B "geo") l)) && mem cCOMMA geo
  then match split cCOMMA geo with
       | lat :: lon :: _ => ad_set_geo (geo_set_lon (t_double T lon) (geo_set_lat (t_double T lat) geo_new)) x
       | _ => x
       end
  else x.
Lemma adr_rest_same T l x : let y := adr_rest T l x in ad_id y = ad_id x /\ ad_type y = ad_type x /\
  [ad_pobox y; ad_extended y; ad_street y; ad_locality y; ad_region y; ad_postal y; ad_country y] =
  [ad_pobox x; ad_extended x; ad_street x; ad_locality x; ad_region x; ad_postal x; ad_country x].
Proof.
  cbv zeta. unfold adr_rest. cbv zeta. destruct (isnil (vl_parameter (B "label") l)); destruct (negb (isnil (vl_parameter (B "geo") l)) && _);
    try destruct (split cCOMMA _) as [|? [|? ?]]; repeat split.
Qed.
Definition adr_first (id : ustring) (l : vline) (parts : list ustring) : address :=
  ad_set_type (address_type_of l) (set_part 6 ad_set_country parts (set_part 5 ad_set_postal parts (set_part 4 ad_set_region parts
    (set_part 3 ad_set_locality parts (set_part 2 ad_set_street parts (set_part 1 ad_set_extended parts (set_part 0 ad_set_pobox parts (address_new id 0)))))))).
Lemma adr_shape T id l : exists parts, split_string cSEMI (lvalue l) = Some parts /\ parse_address T id l = Some (adr_of T id l) /\ adr_of T id l = adr_rest T l (adr_first id l parts).
Proof.
  unfold adr_of, parse_address.
  destruct (split_string cSEMI (lvalue l)) as [parts|] eqn:Es; [|rewrite split_string_sp in Es by discriminate; discriminate].
  exists parts. split; [reflexivity|]. split; reflexivity.
Qed.
Lemma adr_first_id id l parts : ad_id (adr_first id l parts) = id.
Proof. unfold adr_first, set_part. repeat match goal with |- context [nth_error parts ?i] => destruct (nth_error parts i) end; reflexivity. Qed.
Lemma adr_of_said T id l p : meant l p ->
  flags_of address_flags p (ad_type (adr_of T id l)) /\
  forall ls, in_parts 59 ls (sd_text p) ->
    let x := adr_of T id l in
    [ad_pobox x; ad_extended x; ad_street x; ad_locality x; ad_region x; ad_postal x; ad_country x] = firstn 7 (ls ++ repeat [] 7).
Proof.
  intros Hm. pose proof (flags_said (fun s => address_type (to_lower s)) address_flags l p Hm address_bit) as Hf. fold (address_type_of l) in Hf.
  destruct (adr_shape T id l) as (parts & Es & _ & ->). rewrite (proj1 (proj2 (proj2 Hm))) in Es.
  destruct (adr_rest_same T l (adr_first id l parts)) as (B1 & B2 & B3). split.
  - rewrite B2. exact Hf.
  - intros ls Hls. cbv zeta. rewrite B3. rewrite (parts_read cSEMI ls) in Es by (discriminate || auto). injection Es as <-. clear.
    do 7 (destruct ls as [|? ls]; [reflexivity|]). reflexivity.
Qed.
Lemma addresses_said T E ps : fresh_ids T -> alike_in_case "adr" ps -> of_name "label" ps = [] -> reads_as_contact T E ps (fun a =>
  Forall2 (fun p x => flags_of address_flags p (ad_type x) /\
      forall l, in_parts 59 l (sd_text p) ->
        [ad_pobox x; ad_extended x; ad_street x; ad_locality x; ad_region x; ad_postal x; ad_country x] = firstn 7 (l ++ repeat [] 7))
    (of_name "adr" ps) (a_addresses a)).
Proof.
  intros Hid Ha Hlab. apply contact_read. intros L a HL Hr.
  replace (of_name "adr" ps) with (filter (fun _ : said => true) (of_name "adr" ps)) by (generalize (of_name "adr" ps); induction l as [|x l IH]; [reflexivity|cbn; congruence]).
  apply (fold_ids_said T a_addresses (isk LAdr) "adr" (adr_of T) ad_id (fun _ => true) _ _ ps L); auto; side.
  - intros id l x Hk. destruct (adr_shape T id l) as (parts & _ & Ea & _). unfold eff. destruct (line_kind l) eqn:Ek; try discriminate. rewrite Ea. reflexivity.
  - intros l Hl Hk id x. assert (Hnl : line_kind l <> LLabel).
    { intros Ek. apply (proj1 (in_order_in _ _)) in Hl. destruct (meant_in _ _ _ l HL Hl) as (p & Hp & Hm).
      assert (I : In p (of_name "label" ps)); [|rewrite Hlab in I; destruct I]. apply filter_In. split; [exact Hp|].
      rewrite <- (meant_kind (fun k => match k with LLabel => true | _ => false end) "label" l p); [rewrite Ek; reflexivity|keyed|exact Hm]. }
    revert Hk Hnl. unfold eff. cbv zeta. destruct (line_kind l); intros; try discriminate; try congruence; try reflexivity;
    repeat match goal with
      | |- context [match ?x with _ => _ end] => destruct x
      | |- context [if ?x then _ else _] => destruct x
    end; reflexivity.
  - intros id l. destruct (adr_shape T id l) as (parts & _ & _ & ->). destruct (adr_rest_same T l (adr_first id l parts)) as (-> & _). apply adr_first_id.
  - intros id l p Hm _. split; [reflexivity|]. apply adr_of_said. exact Hm.
Qed.

(** ** Single values *)
Lemma last_said {X} T (get : addressee -> X) K f (step : vline -> X -> X) ps L a qs p (v : X) :
  keyed K f -> (forall e x, get (put_empty e x) = get x) ->
  (forall id l x, K (line_kind l) = true -> get (eff T id l x) = step l (get x)) ->
  (forall id l x, K (line_kind l) = false -> get (eff T id l x) = get x) ->
  alike_in_case f ps -> Forall2 meant L ps -> read_from T L a -> of_name f ps = qs ++ [p] ->
  (forall l x, meant l p -> step l x = v) -> get a = v.
Proof.
  intros HK He H1 H0 Ha HL Hr Hq Hs. destruct (fold_said T get K f step ps L a HK He H1 H0 Ha HL Hr) as (M & HM & ->). rewrite Hq in HM.
  apply Forall2_app_inv_r in HM as (M1 & M2 & _ & H2 & ->). inversion H2 as [|m ? M3 ? Hm H3]; subst. rewrite fold_left_app. inversion H3; subst. cbn [fold_left]. auto.
Qed.
Lemma one_said {X} T (get : addressee -> X) K f (step : vline -> X -> X) ps L a p (v : X) :
  keyed K f -> (forall e x, get (put_empty e x) = get x) ->
  (forall id l x, K (line_kind l) = true -> get (eff T id l x) = step l (get x)) ->
  (forall id l x, K (line_kind l) = false -> get (eff T id l x) = get x) ->
  Forall2 meant L ps -> read_from T L a -> of_name f ps = [p] ->
  (forall l id, meant l p -> step l (get (addressee_new id)) = v) -> get a = v.
Proof.
  intros HK He H1 H0 HL Hr Hq Hs.
  assert (Ha : alike_in_case f ps) by (intros x y; rewrite Hq; intros [<-|[]] [<-|[]]; reflexivity).
  destruct (fold_said T get K f step ps L a HK He H1 H0 Ha HL Hr) as (M & HM & ->). rewrite Hq in HM.
  inversion HM as [|m ? M3 ? Hm H3]; subst. inversion H3; subst. cbn [fold_left]. auto.
Qed.
Lemma plain_said T E ps : reads_as_contact T E ps (fun a =>
  (forall qs p l, alike_in_case "categories" ps -> of_name "categories" ps = qs ++ [p] -> in_parts 44 l (sd_text p) -> a_categories a = l) /\
  (forall qs p, alike_in_case "class" ps -> of_name "class" ps = qs ++ [p] ->
     (forall w s, In (w, s) classes -> to_lower (sd_text p) = B w -> a_secrecy a = s) /\
     ((forall w s, In (w, s) classes -> to_lower (sd_text p) <> B w) -> a_secrecy a = SInvalid)) /\
  (forall qs p c r, alike_in_case "gender" ps -> of_name "gender" ps = qs ++ [p] -> c <> 59%N ->
     (sd_text p = [c] -> a_gender a = mkGender [c] []) /\ (sd_text p = c :: 59%N :: r -> a_gender a = mkGender [c] r) /\
     (sd_text p = 59%N :: r -> a_gender a = mkGender [] r)) /\
  (forall p (east : bool) h m rest, of_name "tz" ps = [p] -> (0 <= h < 100)%Z -> (0 <= m < 100)%Z ->
     sd_text p = (if east then 43%N else 45%N) :: two h ++ [58%N] ++ two m ++ rest ->
     a_tz a = mkTz (if east then h * 60 + m else - (h * 60 + m)) true)%Z).
Proof.
  apply contact_read. intros L a HL Hr. split; [|split; [|split]].
  - intros qs p l Ha Hq Hp.
    apply (last_said T a_categories (isk LCategories) "categories" (fun l x => match split_string cCOMMA (lvalue l) with Some p => p | None => x end) ps L a qs p); auto; side.
    intros m x Hm. rewrite (proj1 (proj2 (proj2 Hm))), (parts_read cCOMMA l) by (discriminate || auto). reflexivity.
  - intros qs p Ha Hq. split; [intros w s Hw Hp|intros Hp]; apply (last_said T a_secrecy (isk LClass) "class" (fun l _ => parse_secrecy l) ps L a qs p); auto; side;
      intros m x Hm; unfold parse_secrecy; rewrite (proj1 (proj2 (proj2 Hm))).
    + rewrite Hp. cbn [In classes] in Hw. destruct Hw as [Hw|[Hw|[Hw|[]]]]; injection Hw as <- <-; reflexivity.
    + rewrite (proj2 (leqb_neq _ _) (Hp _ _ (or_introl eq_refl))), (proj2 (leqb_neq _ _) (Hp _ _ (or_intror (or_introl eq_refl)))),
        (proj2 (leqb_neq _ _) (Hp _ _ (or_intror (or_intror (or_introl eq_refl))))). reflexivity.
  - intros qs p c r Ha Hq Hc.
    assert (HG : forall g, parse_gender (sd_text p) = Some g -> a_gender a = g).
    { intros g Hg. apply (last_said T a_gender (isk LGender) "gender" (fun l x => match parse_gender (lvalue l) with Some g => g | None => x end) ps L a qs p); auto; side.
      intros m x Hm. rewrite (proj1 (proj2 (proj2 Hm))), Hg. reflexivity. }
    unfold parse_gender in HG. split; [|split]; intros Ht; apply HG; rewrite Ht.
    + rewrite (proj2 (N.eqb_neq c cSEMI)) by auto. reflexivity.
    + rewrite (proj2 (N.eqb_neq c cSEMI)) by auto. destruct r; reflexivity.
    + reflexivity.
  - intros p east h m rest Hq Hh Hm Ht.
    apply (one_said T a_tz (isk LTz) "tz" (fun l x => match parse_tz (lvalue l) with Some o => if tz_eq (tz_set o) x then x else tz_set o | None => x end) ps L a p); auto; side.
    intros l id Hl. rewrite (proj1 (proj2 (proj2 Hl))), Ht. cbn [a_tz addressee_new].
    destruct (two_spec h Hh) as (a1 & b1 & -> & _ & _ & E1). destruct (two_spec m Hm) as (a2 & b2 & -> & _ & _ & E2).
    unfold parse_tz. cbn [app]. cbv [mid_len skipn firstn]. rewrite E1, E2. destruct east; cbn [N.eqb Pos.eqb]; cbn; unfold tz_set; f_equal; lia.
Qed.
Lemma dt_new V d t z : dt_eq V (mkDt (Some d) (Some t) z) dt_null = false.
Proof. reflexivity. Qed.
Lemma dates_said T E ps : reads_as_contact T E ps (fun a =>
  forall p d ds, real_date d -> date_text d ds ->
    (sd_text p = ds ->
       (of_name "bday" ps = [p] -> dt_date (a_birthday a) = Some d /\ a_bdaytime a = false) /\
       (of_name "deathdate" ps = [p] -> dt_date (a_deathdate a) = Some d) /\
       (of_name "rev" ps = [p] -> dt_date (a_revision a) = Some d)) /\
    (forall t z ts zs, real_time t -> time_text t ts -> zone_text z zs -> sd_text p = ds ++ 84%N :: ts ++ zs ->
       (of_name "bday" ps = [p] -> a_birthday a = mkDt (Some d) (Some t) z /\ a_bdaytime a = true) /\
       (of_name "deathdate" ps = [p] -> a_deathdate a = mkDt (Some d) (Some t) z) /\
       (of_name "rev" ps = [p] -> a_revision a = mkDt (Some d) (Some t) z))).
Proof.
  apply contact_read. intros L a HL Hr p d ds Rd Dd.
  assert (HB : forall x b, parse_datetime (sd_text p) = (x, b) -> dt_valid x = true -> of_name "bday" ps = [p] ->
    (a_birthday a, a_bdaytime a) = (if b then x else dt_set_time None x, b)).
  { intros x b Hx Hv Hq.
    apply (one_said T (fun a => (a_birthday a, a_bdaytime a)) (isk LBday) "bday"
      (fun l o => let x := parse_datetime (lvalue l) in
                  if dt_eq (t_env T) (fst x) (fst o) && Bool.eqb (snd o) (snd x) then o else (if snd x then fst x else dt_set_time None (fst x), snd x)) ps L a p); auto; side.
    - intros id l y. unfold eff. destruct (line_kind l); intros; try discriminate. cbv zeta. cbn [fst snd].
      cbn [put_bdaytime put_birthday a_birthday a_bdaytime]. destruct (dt_eq _ _ _ && _); reflexivity.
    - intros l id Hm. rewrite (proj1 (proj2 (proj2 Hm))), Hx. cbn [fst snd addressee_new a_birthday a_bdaytime]. unfold dt_eq. rewrite Hv. reflexivity. }
  assert (HD : forall x, fst (parse_datetime (sd_text p)) = x -> dt_valid x = true -> of_name "deathdate" ps = [p] -> a_deathdate a = x).
  { intros x Hx Hv Hq. apply (one_said T a_deathdate (isk LDeathdate) "deathdate" (fun l o => let d := fst (parse_datetime (lvalue l)) in if dt_eq (t_env T) d o then o else d) ps L a p); auto; side.
    intros l id Hm. rewrite (proj1 (proj2 (proj2 Hm))), Hx. cbn [addressee_new a_deathdate]. unfold dt_eq. rewrite Hv. reflexivity. }
  assert (HR : forall x, fst (parse_datetime (sd_text p)) = x -> dt_valid x = true -> of_name "rev" ps = [p] -> a_revision a = x).
  { intros x Hx Hv Hq. apply (one_said T a_revision (isk LRev) "rev" (fun l o => let d := fst (parse_datetime (lvalue l)) in if dt_eq (t_env T) d o then o else d) ps L a p); auto; side.
    intros l id Hm. rewrite (proj1 (proj2 (proj2 Hm))), Hx. cbn [addressee_new a_revision]. unfold dt_eq. rewrite Hv. reflexivity. }
  split.
  - intros Ht. assert (Hx := read_date_forms d ds Rd Dd). rewrite <- Ht in Hx. split; [|split]; intros Hq.
    + specialize (HB _ _ Hx eq_refl Hq). injection HB as -> ->. auto.
    + rewrite (HD _ eq_refl) by (rewrite ?Hx; auto). rewrite Hx. reflexivity.
    + rewrite (HR _ eq_refl) by (rewrite ?Hx; auto). rewrite Hx. reflexivity.
  - intros t z ts zs Rt Tt Zz Ht. assert (Hx := read_forms d t z ds ts zs Rd Dd Rt Tt Zz). rewrite <- Ht in Hx. split; [|split]; intros Hq.
    + specialize (HB _ _ Hx eq_refl Hq). injection HB as -> ->. auto.
    + rewrite (HD _ eq_refl) by (rewrite ?Hx; auto). rewrite Hx. reflexivity.
    + rewrite (HR _ eq_refl) by (rewrite ?Hx; auto). rewrite Hx. reflexivity.
Qed.

(** ** Addresses on the web *)
Lemma append_said {X Y} T (get : addressee -> list X) K f (mk : vline -> X) (ok : X -> bool) (key : X -> Y) (h : said -> Y) (keep : Y -> bool) ps L a :
  keyed K f -> (forall e x, get (put_empty e x) = get x) ->
  (forall id l x, K (line_kind l) = true -> get (eff T id l x) = if ok (mk l) then get x ++ [mk l] else get x) ->
  (forall id l x, K (line_kind l) = false -> get (eff T id l x) = get x) -> (forall id, get (addressee_new id) = []) ->
  (forall l p, meant l p -> key (mk l) = h p /\ ok (mk l) = keep (h p)) ->
  Forall2 meant L ps -> read_from T L a -> alike_in_case f ps -> map key (get a) = filter keep (map h (of_name f ps)).
Proof.
  intros HK He H1 H0 Hd Hm HL Hr Ha. destruct (fold_said T get K f (fun l x => if ok (mk l) then x ++ [mk l] else x) ps L a HK He H1 H0 Ha HL Hr) as (M & HM & ->).
  rewrite Hd.
  assert (HF : forall init, map key (fold_left (fun x l => if ok (mk l) then x ++ [mk l] else x) M init) = map key init ++ filter keep (map h (of_name f ps))); [|apply HF].
  induction HM as [|m p M qs Hp _ IH]; intros init; [cbn; rewrite app_nil_r; reflexivity|]. cbn [fold_left map filter]. rewrite IH.
  destruct (Hm m p Hp) as [K1 K2]. rewrite K2. destruct (keep (h p)); [|reflexivity]. rewrite map_app, <- app_assoc. cbn [map app]. rewrite K1. reflexivity.
Qed.
Definition typed_urls (t : caltype) (a : addressee) : list calurl := filter (fun c => caltype_eq (cu_type c) t) (a_calurls a).
Ltac cal := let id := fresh in let l := fresh in let x := fresh in intros id l x; unfold eff, typed_urls; cbv zeta; destruct (line_kind l); intros; try discriminate; try reflexivity;
  cbn [put_calurls a_calurls];
  repeat match goal with
    | |- context [if calurl_valid ?u ?c then _ else _] => destruct (calurl_valid u c)
    | |- context [match ?x with _ => _ end] => destruct x
    | |- context [if ?x then _ else _] => destruct x
  end; rewrite ?filter_app; cbn [filter cu_type caltype_eq]; rewrite ?app_nil_r; reflexivity.
Lemma urls_said T E ps : reads_as_contact T E ps (fun a =>
  let U := env_url (t_env T) in
  let urls f := map (fun p => url_parse U (sd_text p)) (of_name f ps) in
  (alike_in_case "url" ps -> map ru_url (a_urls a) = filter (url_valid U) (urls "url"%string)) /\
  (alike_in_case "source" ps -> a_sources a = urls "source"%string) /\
  (alike_in_case "fburl" ps -> map cu_url (filter (fun c => caltype_eq (cu_type c) CalFBUrl) (a_calurls a)) = filter (url_valid U) (urls "fburl"%string)) /\
  (alike_in_case "caluri" ps -> map cu_url (filter (fun c => caltype_eq (cu_type c) CalCALUri) (a_calurls a)) = filter (url_valid U) (urls "caluri"%string)) /\
  (alike_in_case "caladruri" ps -> map cu_url (filter (fun c => caltype_eq (cu_type c) CalCALADRUri) (a_calurls a)) = filter (url_valid U) (urls "caladruri"%string))).
Proof.
  apply contact_read. intros L a HL Hr. cbv zeta.
  assert (HC : forall t K f, keyed K f -> t <> CalUnknown ->
    (forall id l x, K (line_kind l) = true -> typed_urls t (eff T id l x) =
       if calurl_valid (env_url (t_env T)) (mkCalurl (vl_params l) t (url_parse (env_url (t_env T)) (lvalue l)))
       then typed_urls t x ++ [mkCalurl (vl_params l) t (url_parse (env_url (t_env T)) (lvalue l))] else typed_urls t x) ->
    (forall id l x, K (line_kind l) = false -> typed_urls t (eff T id l x) = typed_urls t x) ->
    alike_in_case f ps -> map cu_url (typed_urls t a) = filter (url_valid (env_url (t_env T))) (map (fun p => url_parse (env_url (t_env T)) (sd_text p)) (of_name f ps))).
  { intros t K f HK Ht H1 H0 Ha.
    apply (append_said T (typed_urls t) K f (fun l => mkCalurl (vl_params l) t (url_parse (env_url (t_env T)) (lvalue l))) (calurl_valid (env_url (t_env T))) cu_url
      (fun p => url_parse (env_url (t_env T)) (sd_text p)) (url_valid (env_url (t_env T))) ps L a); auto.
    - intros l p Hm. cbn [cu_url]. rewrite (proj1 (proj2 (proj2 Hm))). split; [reflexivity|]. unfold calurl_valid. cbn [cu_type cu_url]. destruct t; try reflexivity. congruence. }
  split; [|split; [|split; [|split]]].
  - intros Ha. apply (append_said T a_urls (isk LUrl) "url" (fun l => mkRurl (vl_params l) (url_parse (env_url (t_env T)) (lvalue l))) (rurl_valid (env_url (t_env T))) ru_url
      (fun p => url_parse (env_url (t_env T)) (sd_text p)) (url_valid (env_url (t_env T))) ps L a); auto; side.
    intros l p Hm. rewrite (proj1 (proj2 (proj2 Hm))). split; reflexivity.
  - intros Ha. rewrite <- (map_id (a_sources a)).
    assert (Hall : forall l : list qurl, filter (fun _ => true) l = l) by (induction l as [|x l IH]; [reflexivity|cbn; congruence]).
    rewrite <- (Hall (map (fun p => url_parse (env_url (t_env T)) (sd_text p)) (of_name "source" ps))).
    apply (append_said T a_sources (isk LSource) "source" (fun l => url_parse (env_url (t_env T)) (lvalue l)) (fun _ => true) (fun x => x)
      (fun p => url_parse (env_url (t_env T)) (sd_text p)) (fun _ => true) ps L a); auto; side.
    intros l p Hm. rewrite (proj1 (proj2 (proj2 Hm))). split; reflexivity.
  - apply (HC CalFBUrl (isk LFburl) "fburl"%string); [keyed|discriminate|cal..].
  - apply (HC CalCALUri (isk LCaluri) "caluri"%string); [keyed|discriminate|cal..].
  - apply (HC CalCALADRUri (isk LCaladruri) "caladruri"%string); [keyed|discriminate|cal..].
Qed.
