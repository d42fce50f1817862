(** What a card says is what the contact says (C77): extensions, positions and others. *)
From Verif Require Import Base BaseFacts QtText Utf8 Utf8Facts M_ParamMap M_VCard M_VCardText S_Card P_Assoc P_Card S_Escape P_Escape
  S_Parse P_Parse P_Parse2 S_Soft P_Soft P_SoftLoop M_Split S_Split P_Split M_Values M_Date M_Addressee M_VCardTool P_ReadBack S_Order P_CardOrder P_Unknown
  S_Case P_Case S_Foreign P_Foreign P_RoundTrip P_RoundTrip2 S_Coding P_Coding P_ReadFields P_Contact P_Lists P_Fields P_Types P_Addr S_Contact S_DateText P_DateText
  S_Meaning P_Meaning P_Meaning2 P_Addressee.

(** ** Extensions *)
Lemma dash_split (p q r s : list N) : ~ In 45%N p -> ~ In 45%N q -> p ++ 45%N :: r = q ++ 45%N :: s -> p = q /\ r = s.
Proof.
  revert q. induction p as [|x p IH]; intros [|y q] Hp Hq H; cbn in H.
  - injection H as ->. auto.
  - injection H as <- _. exfalso. apply Hq. left. reflexivity.
  - injection H as -> _. exfalso. apply Hp. left. reflexivity.
  - injection H as -> H. apply IH in H as [-> ->]; [auto|intros K; apply Hp; right; exact K|intros K; apply Hq; right; exact K].
Qed.
Definition targets_ok : bool :=
  forallb (fun e => let key := skipn 2 (snd e) in
    starts_with (B "messaging/") key ||
    (leqb (firstn 13 key) (B "KADDRESSBOOK-") && contains (B "x-" ++ to_lower key) (flat_map snd extensions) && negb (leqb (skipn 13 key) (B "KADDRESSBOOK")))) import_names.
Lemma targets : targets_ok = true. Proof. vm_compute. reflexivity. Qed.
Lemma target low b app name : In (low, b) import_names -> starts_with (B "messaging/") (skipn 2 b) = false ->
  ~ In 45%N app -> skipn 2 b = app ++ 45%N :: name -> In (B "x-" ++ to_lower (app ++ 45%N :: name)) (flat_map snd extensions) /\ app <> name.
Proof.
  intros Hin Hm Ha He. pose proof targets as Ht. unfold targets_ok in Ht. rewrite forallb_forall in Ht. specialize (Ht _ Hin). cbn [snd] in Ht. rewrite Hm in Ht.
  cbn [orb] in Ht. rewrite !andb_true_iff in Ht. destruct Ht as ((T1 & T2) & T3). rewrite He in *. split; [apply contains_In; exact T2|].
  apply leqb_eq in T1. assert (E : app ++ 45%N :: name = B "KADDRESSBOOK" ++ 45%N :: skipn 13 (app ++ 45%N :: name)).
  { rewrite <- (firstn_skipn 13 (app ++ 45%N :: name)) at 1. rewrite T1. reflexivity. }
  apply dash_split in E as [E1 E2]; [|exact Ha|intros K; cbv in K; intuition discriminate]. intros Hn. rewrite <- E2, <- Hn, E1 in T3. rewrite leqb_refl in T3. discriminate.
Qed.
Lemma targets_named low b : In (low, b) import_names -> In low (flat_map snd extensions ++ map fst messengers ++ [B "x-gadugadu"]).
Proof.
  intros H. assert (K : forallb (fun e => contains (fst e) (flat_map snd extensions ++ map fst messengers ++ [B "x-gadugadu"])) import_names = true) by (vm_compute; reflexivity).
  rewrite forallb_forall in K. specialize (K _ H). apply contains_In. exact K.
Qed.

Definition entry_of (app name : bytes) (a : addressee) := afind (app ++ 45%N :: name) (a_customs a).
Lemma entry_custom app name a : custom app name a = match entry_of app name a with Some v => v | None => [] end.
Proof. unfold custom, entry_of. rewrite find_custom_afind. reflexivity. Qed.
Lemma x_name n : starts_with (B "x-") (to_lower n) = true -> exists x r, (x = 88 \/ x = 120)%N /\ n = x :: 45%N :: r.
Proof.
  intros H. apply starts_with_spec in H as [r H]. destruct n as [|x [|y n]]; try discriminate. cbn in H. injection H as H1 H2 _.
  unfold lower1, is_upper in *. exists x, n. destruct (_ && _) eqn:E1 in H1; destruct (_ && _) eqn:E2 in H2.
  - lia.
  - split; [lia|]. f_equal. f_equal. exact H2.
  - lia.
  - split; [lia|]. f_equal. f_equal. exact H2.
Qed.
(** what one property does to the entry *)
Lemma entry_change T id app name l q a b : app <> [] -> name <> [] -> ~ In 45%N app ->
  ~ In (B "x-" ++ to_lower (app ++ 45%N :: name)) (flat_map snd extensions) \/ app = name ->
  meant l q -> read_line T id l a = Some b ->
  entry_of app name b = entry_of app name a \/ (names_entry (sd_name q) app name /\ entry_of app name b = Some (sd_text q)).
Proof.
  intros Ha Hn H45 Hx (M1 & M2 & M3 & _) Hr. apply read_line_eff in Hr. unfold entry_of. rewrite (upto_customs _ _ Hr). unfold eff. cbv zeta.
  destruct (line_kind l) eqn:K; try (left; reflexivity); try (left; destruct (parse_picture l) as [p|]; [|reflexivity]).
  - left. cbn [a_customs put_customs]. rewrite ins_custom_find. destruct (_ || _ || _); [reflexivity|].
    destruct (leqb_spec (app ++ 45%N :: name) (qualified vendor_id x_anniversary)) as [E|]; [|reflexivity]. exfalso.
    change (qualified vendor_id x_anniversary) with (vendor_id ++ 45%N :: x_anniversary) in E. destruct Hx as [Hx|Hx].
    + rewrite E in Hx. apply Hx. apply contains_In. vm_compute. reflexivity.
    + apply dash_split in E as [E1 E2]; [|exact H45|intros X; cbv in X; intuition discriminate]. rewrite E1, E2 in Hx. discriminate.
  - destruct (geo_parts l) as [|? [|? ?]]; left; reflexivity.
  - destruct (picture_empty (a_logo a)); reflexivity.
  - destruct (picture_empty (a_photo a)); reflexivity.
  - destruct (sound_empty (a_sound a)); left; reflexivity.
  - apply line_x in K as [Hg Hs]. change (a_customs (put_impps ?x ?y)) with (a_customs y). cbn [a_customs put_customs]. unfold custom_customs. cbv zeta.
    destruct (starts_with (B "messaging/") (custom_key l)) eqn:Hm; [left; reflexivity|].
    destruct (index_of 45 (custom_key l)) as [d|] eqn:D; rewrite ins_custom_find; (destruct (_ || _ || _) eqn:Nil; [left; reflexivity|]).
    + apply dash_key in D as [-> _]. destruct (leqb_spec (app ++ 45%N :: name) (custom_key l)) as [E|]; [|left; reflexivity].
      unfold custom_key in E, Hm. destruct (spelled_cases import_names (to_lower (vl_id l)) (vl_id l)) as [(c & C1 & C2)|[C1 C2]]; rewrite C2 in *.
      * exfalso. destruct (target _ _ app name C1 Hm H45 (eq_sym E)) as [T1 T2]. destruct Hx; contradiction.
      * right. rewrite M3. split; [|reflexivity]. rewrite <- M1. destruct (x_name _ Hs) as (x & r & X1 & X2). rewrite X2 in *. cbn [skipn] in E. subst r.
        exists x. auto.
    + apply index_of_None in D. destruct (leqb_spec (app ++ 45%N :: name) (qualified (custom_key l) (custom_key l))) as [E|]; [|left; reflexivity].
      change (qualified (custom_key l) (custom_key l)) with (custom_key l ++ 45%N :: custom_key l) in E. apply dash_split in E as [E1 E2]; [|exact H45|exact D].
      unfold custom_key in D, E1, E2, Hm. destruct (spelled_cases import_names (to_lower (vl_id l)) (vl_id l)) as [(c & C1 & C2)|[C1 C2]]; rewrite C2 in *.
      * exfalso. pose proof targets as Ht. unfold targets_ok in Ht. rewrite forallb_forall in Ht. specialize (Ht _ C1). cbn [snd] in Ht. rewrite Hm in Ht. cbn [orb] in Ht.
        rewrite !andb_true_iff in Ht. destruct Ht as ((T1 & _) & _). apply leqb_eq in T1. apply D. rewrite <- (firstn_skipn 13 (skipn 2 c)), T1. apply in_app_iff. left. cbv. tauto.
      * right. rewrite M3. split; [|reflexivity]. rewrite <- M1. destruct (x_name _ Hs) as (x & r & X1 & X2). rewrite X2 in *. cbn [skipn] in E1, E2. subst r. exists x. subst. auto.
Qed.
Lemma not_special n app name : names_entry n app name -> ~ own_meaning n ->
  ~ In (B "x-" ++ to_lower (app ++ 45%N :: name)) (flat_map snd extensions) \/ app = name.
Proof.
  intros (x & Hx & [->|[-> _]]) Ho; [left|auto]. intros K. apply Ho. left. apply in_app_iff. left.
  replace (to_lower (x :: 45%N :: app ++ 45%N :: name)) with (B "x-" ++ to_lower (app ++ 45%N :: name)); [exact K|]. destruct Hx as [->| ->]; reflexivity.
Qed.
Lemma entry_set T id app name l p a b : extension app name p -> sd_text p <> [] -> meant l p -> read_line T id l a = Some b -> entry_of app name b = Some (sd_text p).
Proof.
  intros ((x & Hx & Hn) & N1 & N2 & N3 & No) Ht (M1 & M2 & M3 & _) Hr. apply read_line_eff in Hr. unfold entry_of. rewrite (upto_customs _ _ Hr). unfold eff. cbv zeta.
  assert (Hxs : exists r, sd_name p = x :: 45%N :: r) by (destruct Hn as [->|[_ ->]]; eauto). destruct Hxs as (r & Er).
  assert (Hs : starts_with (B "x-") (to_lower (vl_id l)) = true) by (rewrite M1, Er; destruct Hx as [->| ->]; reflexivity).
  rewrite (x_line l M2 Hs). change (a_customs (put_impps ?u ?v)) with (a_customs v). cbn [a_customs put_customs]. unfold custom_customs. cbv zeta.
  assert (Hk : custom_key l = r).
  { unfold custom_key. destruct (spelled_cases import_names (to_lower (vl_id l)) (vl_id l)) as [(c & C1 & C2)|[C1 C2]].
    - exfalso. apply No. left. rewrite <- M1. exact (targets_named _ _ C1).
    - rewrite C2, M1, Er. reflexivity. }
  rewrite Hk. destruct (starts_with (B "messaging/") r) eqn:Hm.
  { exfalso. apply No. right. apply starts_with_spec in Hm as [s ->]. exists (to_lower s). rewrite Er. destruct Hx as [->| ->]; cbn; unfold to_lower; rewrite ?map_app; reflexivity. }
  rewrite Er in Hn. destruct Hn as [Hn|[-> Hn]]; injection Hn as ->.
  - rewrite index_of_app_notin by auto. destruct (cut_at 45%N app name) as [-> ->]. rewrite ins_custom_find, M3.
    destruct (sd_text p); [congruence|]. destruct name; [congruence|]. destruct app; [congruence|]. cbn [isnil orb]. change (qualified ?u ?v) with (u ++ 45%N :: v). rewrite leqb_refl. reflexivity.
  - rewrite (proj2 (index_of_None 45%N name)) by auto. rewrite ins_custom_find, M3.
    destruct (sd_text p); [congruence|]. destruct name; [congruence|]. cbn [isnil orb]. change (qualified ?u ?v) with (u ++ 45%N :: v). rewrite leqb_refl. reflexivity.
Qed.
Lemma entry_lines T card app name p : extension app name p -> sd_text p <> [] -> forall ls k a b,
  Forall (fun l => exists q, meant l q /\ (names_entry (sd_name q) app name -> sd_text q = sd_text p)) ls ->
  (entry_of app name a = Some (sd_text p) \/ Exists (fun l => meant l p) ls) ->
  read_lines T card k ls a = Some b -> entry_of app name b = Some (sd_text p).
Proof.
  intros He Ht. induction ls as [|l ls IH]; intros k a b Hl Hx Hr; cbn [read_lines] in Hr.
  - injection Hr as <-. destruct Hx as [Hx|Hx]; [exact Hx|inversion Hx].
  - destruct (read_line T (t_newid T card k) l a) as [a'|] eqn:E; [|discriminate]. apply Forall_cons_iff in Hl as [(q & Hq1 & Hq2) Hl].
    apply (IH (S k) a' b); auto. destruct Hx as [Hx|Hx].
    + left. destruct He as (N0 & N1 & N2 & N3 & N4). destruct (entry_change T _ app name l q a a' N1 N2 N3 (not_special _ _ _ N0 N4) Hq1 E) as [->|[Q ->]]; [exact Hx|].
      f_equal. auto.
    + inversion Hx as [? ? Hp|]; subst; [left; exact (entry_set T _ app name l p a a' He Ht Hp E)|right; assumption].
Qed.
Lemma extensions_said T E ps : reads_as_contact T E ps (fun a =>
  forall app name p, In p ps -> extension app name p -> sd_text p <> [] ->
    (forall q, In q ps -> names_entry (sd_name q) app name -> sd_text q = sd_text p) -> custom app name a = sd_text p).
Proof.
  apply contact_read. intros L a HL Hr app name p Hp He Ht Hu. rewrite entry_custom.
  rewrite (entry_lines T 0 app name p He Ht (in_order (card_of L)) 1 (addressee_new (t_newid T 0 0)) a); [reflexivity| | |exact Hr].
  - apply Forall_forall. intros l Hl. apply (proj1 (in_order_in _ _)) in Hl. destruct (meant_in _ _ _ l HL Hl) as (q & Q1 & Q2). exists q. auto.
  - right. apply Exists_exists. clear - HL Hp. 
    assert (X : exists l, In l L /\ meant l p).
    { induction HL as [|l q L ps Hq _ IH]; [destruct Hp|]. destruct Hp as [->|Hp]; [exists l; cbn; auto|]. destruct (IH Hp) as (m & M1 & M2). exists m. cbn. auto. }
    destruct X as (l & L1 & L2). exists l. split; [apply in_order_in; exact L1|exact L2].
Qed.
