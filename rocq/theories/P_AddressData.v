From Verif Require Import Base BaseFacts M_Values M_AddressFormat S_AddressFormat P_AddressFormat M_AddressData S_AddressData.
Import ListNotations.

Definition mem (c : ustring) (l : list ustring) : bool := existsb (leqb c) l.
Lemma mem_In c l : mem c l = true <-> In c l.
Proof.
  unfold mem. rewrite existsb_exists. split; [intros (x & Hx & E); apply leqb_eq in E; subst; exact Hx|]. intros H. exists c. split; [exact H|apply leqb_refl].
Qed.
Lemma entry_in {A} k (l : list (ustring * A)) v : entry k l = Some v -> In (k, v) l.
Proof.
  induction l as [|[q w] l IH]; [discriminate|]. cbn [entry]. destruct (leqb q k) eqn:E; [|intros H; right; auto]. intros H. injection H as ->.
  apply leqb_eq in E. subst. left. reflexivity.
Qed.
Lemma entry_none {A} k (l : list (ustring * A)) : entry k l = None -> ~ In k (map fst l).
Proof.
  induction l as [|[q w] l IH]; intros H K; [exact K|]. cbn [entry] in H. destruct (leqb q k) eqn:E; [discriminate H|]. cbn [map fst] in K.
  destruct K as [->|K]; [rewrite leqb_refl in E; discriminate E|exact (IH H K)].
Qed.

(** values of the keys that start with one of the letters *)
Definition values (letters : list N) (es : list (ustring * ustring)) : list ustring :=
  map snd (filter (fun kv => match fst kv with c :: _ => existsb (N.eqb c) letters | [] => false end) es).
Lemma values_in letters es k v c r : k = c :: r -> existsb (N.eqb c) letters = true -> entry k es = Some v -> In v (values letters es).
Proof.
  intros -> Hc H. apply entry_in in H. unfold values. apply in_map_iff. exists (c :: r, v). split; [reflexivity|]. apply filter_In. split; [exact H|exact Hc].
Qed.
(** the format and the required fields of a country that has an entry *)
Lemma section_formats X c es sp fp lang : (forall c k, fx_config X c k = shipped_config lang c k) -> entry c shipped = Some es ->
  entry (B "AddressFormat") es <> None ->
  In (format_string X c sp fp) (values [65; 66; 76]%N es).
Proof.
  intros Hc He Ha.
  assert (K : forall k, existsb (fun x => leqb k x) (map B ["LatinBusinessAddressFormat"; "LatinAddressFormat"; "BusinessAddressFormat"; "AddressFormat"]%string) = true ->
    forall d, read_entry X c k d = d \/ In (read_entry X c k d) (values [65; 66; 76]%N es)).
  { intros k Hk d. unfold read_entry. rewrite Hc. unfold shipped_config. rewrite He.
    assert (L : exists x r, k = x :: r /\ existsb (N.eqb x) [65; 66; 76]%N = true).
    { cbn [map existsb] in Hk. repeat (apply orb_true_iff in Hk as [Hk|Hk]; [apply leqb_eq in Hk; subst k; eexists; eexists; split; reflexivity|]). discriminate Hk. }
    destruct L as (x & r & -> & Hx). destruct (entry ((x :: r) ++ B "[" ++ lang ++ B "]") es) as [w|] eqn:E1.
    - right. exact (values_in _ _ _ _ _ _ eq_refl Hx E1).
    - destruct (entry (x :: r) es) as [w|] eqn:E2; [right; exact (values_in _ _ _ _ _ _ eq_refl Hx E2)|left; reflexivity]. }
  assert (T : forall d, In (read_entry X c (B "AddressFormat") d) (values [65; 66; 76]%N es)).
  { intros d. unfold read_entry. rewrite Hc. unfold shipped_config. rewrite He. destruct (entry (B "AddressFormat" ++ B "[" ++ lang ++ B "]") es) as [w|] eqn:E1.
    - refine (values_in _ _ _ _ _ _ _ _ E1); reflexivity.
    - destruct (entry (B "AddressFormat") es) as [w|] eqn:E2; [|congruence]. refine (values_in _ _ _ _ _ _ _ _ E2); reflexivity. }
  unfold format_string. cbv zeta.
  match goal with |- In (if isnil ?s then _ else _) _ => assert (S : s = [] \/ In s (values [65; 66; 76]%N es)) end.
  { destruct sp, fp; cbn [andb isnil]; rewrite ?andb_false_r, ?andb_true_r.
    - left; reflexivity.
    - exact (K (B "BusinessAddressFormat") eq_refl []).
    - exact (K (B "LatinAddressFormat") eq_refl []).
    - destruct (isnil (read_entry X c (B "LatinBusinessAddressFormat") [])) eqn:E1; [|right]; cycle 1.
      { cbn [andb]. rewrite ?E1. destruct (K (B "LatinBusinessAddressFormat") eq_refl []) as [H|H]; [|exact H]. rewrite H in E1. discriminate E1. }
      cbn [andb]. destruct (isnil (read_entry X c (B "LatinAddressFormat") [])) eqn:E2.
      + exact (K (B "BusinessAddressFormat") eq_refl []).
      + exact (K (B "LatinAddressFormat") eq_refl []). }
  match goal with |- In (if isnil ?s then _ else _) _ => destruct (isnil s) eqn:E end; [apply T|].
  destruct S as [S|S]; [rewrite S in E; discriminate E|exact S].
Qed.
Lemma section_required X c es lang : (forall c k, fx_config X c k = shipped_config lang c k) -> entry c shipped = Some es ->
  In (read_entry X c (B "Required") []) ([] :: values [82]%N es).
Proof.
  intros Hc He. unfold read_entry. rewrite Hc. unfold shipped_config. rewrite He.
  destruct (entry (B "Required" ++ B "[" ++ lang ++ B "]") es) as [w|] eqn:E1; [right; refine (values_in _ _ _ _ _ _ _ _ E1); reflexivity|].
  destruct (entry (B "Required") es) as [w|] eqn:E2; [right; refine (values_in _ _ _ _ _ _ _ _ E2); reflexivity|left; reflexivity].
Qed.
Lemma no_section X c sp fp : uses_shipped X -> entry c shipped = None ->
  format_string X c sp fp = default_format /\ read_entry X c (B "Required") [] = [].
Proof.
  intros [lang Hc] He. assert (K : forall k d, read_entry X c k d = d) by (intros k d; unfold read_entry; rewrite Hc; unfold shipped_config; rewrite He; reflexivity).
  unfold format_string. rewrite !K. destruct sp, fp; auto.
Qed.
(** a check of every entry holds for the format of every country *)
Lemma formats_all (chk : ustring -> ustring -> ustring -> bool) X c sp fp : uses_shipped X ->
  forallb (fun s => forallb (fun f => forallb (chk (fst s) f) ([] :: values [82]%N (snd s))) (values [65; 66; 76]%N (snd s))) shipped = true ->
  (~ In c countries -> chk c default_format [] = true) ->
  chk c (format_string X c sp fp) (read_entry X c (B "Required") []) = true.
Proof.
  intros Hx Hs Hd. destruct (entry c shipped) as [es|] eqn:E.
  - destruct Hx as [lang Hc].
    assert (A : forallb (fun s => match entry (B "AddressFormat") (snd s) with Some _ => true | None => false end) shipped = true) by (vm_compute; reflexivity).
    pose proof (entry_in _ _ _ E) as Hi. rewrite forallb_forall in A, Hs. specialize (A _ Hi). specialize (Hs _ Hi). cbn [fst snd] in A, Hs.
    rewrite forallb_forall in Hs. assert (Ha : entry (B "AddressFormat") es <> None) by (destruct (entry (B "AddressFormat") es); congruence).
    specialize (Hs _ (section_formats X c es sp fp lang Hc E Ha)). rewrite forallb_forall in Hs. apply Hs. exact (section_required X c es lang Hc E).
  - destruct (no_section X c sp fp Hx E) as [-> ->]. apply Hd. exact (entry_none _ _ E).
Qed.

Definition has_field (f : N) (s : ustring) : bool := existsb (fun e => N.eqb (e_field e) f) (parse_elements s).
Lemma mentions_has X c sp fp f : mentions (format_for_country X c sp fp) f <-> has_field f (format_string X c sp fp) = true.
Proof.
  unfold mentions, has_field, format_for_country. cbn [af_elements]. rewrite existsb_exists. split; intros (e & H & E); exists e; split; auto.
  - apply N.eqb_eq. exact E.
  - apply N.eqb_eq in E. exact E.
Qed.
Definition chk_fields (c s r : ustring) : bool :=
  has_field fName s && has_field fOrg s && has_field fStreet s
  && Bool.eqb (has_field fLocality s) (negb (mem c no_locality)) && Bool.eqb (has_field fPostal s) (negb (mem c no_postal_code))
  && Bool.eqb (has_field fRegion s) (mem c with_region || negb (mem c countries))
  && Bool.eqb (has_field fPobox s) (mem c with_pobox || negb (mem c countries)).
Lemma mem_sub c l : forallb (fun x => mem x countries) l = true -> ~ In c countries -> mem c l = false.
Proof.
  intros H N. destruct (mem c l) eqn:E; [|reflexivity]. apply mem_In in E. rewrite forallb_forall in H. specialize (H c E). apply mem_In in H. contradiction.
Qed.
Lemma fields_checked X c sp fp : uses_shipped X -> chk_fields c (format_string X c sp fp) (read_entry X c (B "Required") []) = true.
Proof.
  intros Hx. apply (formats_all chk_fields X c sp fp Hx); [vm_compute; reflexivity|].
  intros N. unfold chk_fields.
  rewrite (mem_sub c no_locality), (mem_sub c no_postal_code), (mem_sub c with_region), (mem_sub c with_pobox) by (exact N || (vm_compute; reflexivity)).
  assert (E : mem c countries = false) by (destruct (mem c countries) eqn:E; [apply mem_In in E; contradiction|reflexivity]). rewrite E. vm_compute. reflexivity.
Qed.
Definition chk_required (c s r : ustring) : bool :=
  forallb (fun f => negb (has (parse_fields r) f) || has_field f s) (map snd field_map).
Lemma required_checked X c sp fp : uses_shipped X -> chk_required c (format_string X c sp fp) (read_entry X c (B "Required") []) = true.
Proof. intros Hx. apply (formats_all chk_required X c sp fp Hx); [vm_compute; reflexivity|]. intros _. vm_compute. reflexivity. Qed.
Definition chk_lean (c s r : ustring) : bool :=
  mem c (fixed_lines ++ blank_lines) || forallb lean_line (segments (parse_elements s)).
Lemma lean_checked X c sp fp : uses_shipped X -> chk_lean c (format_string X c sp fp) (read_entry X c (B "Required") []) = true.
Proof.
  intros Hx. apply (formats_all chk_lean X c sp fp Hx); [vm_compute; reflexivity|]. intros _. unfold chk_lean.
  assert (E : forallb lean_line (segments (parse_elements default_format)) = true) by (vm_compute; reflexivity). rewrite E. apply orb_true_r.
Qed.
Definition chk_blank (c s r : ustring) : bool :=
  mem c blank_lines || forallb (fun g => negb (isnil g)) (segments (parse_elements s)).
Lemma blank_checked X c sp fp : uses_shipped X -> chk_blank c (format_string X c sp fp) (read_entry X c (B "Required") []) = true.
Proof.
  intros Hx. apply (formats_all chk_blank X c sp fp Hx); [vm_compute; reflexivity|]. intros _. unfold chk_blank.
  assert (E : forallb (fun g => negb (isnil g)) (segments (parse_elements default_format)) = true) by (vm_compute; reflexivity). rewrite E. apply orb_true_r.
Qed.
