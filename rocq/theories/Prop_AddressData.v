(** C64: the address formats that come with the library.

    [shipped] (M_AddressData) is the data; [uses_shipped], [countries], [mentions], and the
    lists of countries (S_AddressData); [occurs] (S_AddressFormat). *)
From Verif Require Import Base BaseFacts QtText M_Values M_AddressFormat S_AddressFormat P_AddressFormat Prop_AddressFormat
  M_AddressData S_AddressData P_AddressData.
Import ListNotations.

(** Which parts of an address the format of a country mentions, for every country code,
    language and preference: name, organisation and street always; the locality and the postal
    code with a few exceptions; region and PO box only in some countries and in the format of
    countries without an entry. *)
Theorem C64_mentions :
  forall (X : FmtExt) (c : ustring) (sp : scriptpref) (fp : formatpref), uses_shipped X ->
    let fmt := format_for_country X c sp fp in
    (mentions fmt fName /\ mentions fmt fOrg /\ mentions fmt fStreet) /\
    (mentions fmt fLocality <-> ~ In c no_locality) /\
    (mentions fmt fPostal <-> ~ In c no_postal_code) /\
    (mentions fmt fRegion <-> In c with_region \/ ~ In c countries) /\
    (mentions fmt fPobox <-> In c with_pobox \/ ~ In c countries).
Proof.
  intros X c sp fp Hx fmt. unfold fmt. rewrite !mentions_has. pose proof (fields_checked X c sp fp Hx) as H. unfold chk_fields in H.
  repeat rewrite andb_true_iff in H. destruct H as ((((((H1 & H2) & H3) & H4) & H5) & H6) & H7). apply eqb_prop in H4, H5, H6, H7. rewrite H4, H5, H6, H7.
  rewrite <- !mem_In. destruct (mem c no_locality), (mem c no_postal_code), (mem c with_region), (mem c with_pobox), (mem c countries); cbn [negb orb]; intuition congruence.
Qed.
Print Assumptions C64_mentions.

(** Every field a country requires occurs in its format. *)
Theorem C64_required :
  forall (X : FmtExt) (c : ustring) (sp : scriptpref) (fp : formatpref) (f : N), uses_shipped X ->
    let fmt := format_for_country X c sp fp in
    In f (map snd field_map) -> N.land (af_required fmt) f <> 0%N -> mentions fmt f.
Proof.
  intros X c sp fp f Hx fmt Hf Hr. unfold fmt in *. apply mentions_has. pose proof (required_checked X c sp fp Hx) as H. unfold chk_required in H.
  rewrite forallb_forall in H. specialize (H f Hf). cbn [format_for_country af_required] in Hr. apply orb_true_iff in H as [H|H]; [|exact H].
  unfold has in H. rewrite negb_involutive in H. apply N.eqb_eq in H. contradiction.
Qed.
Print Assumptions C64_required.

Ltac pick := first [left; reflexivity | right; pick].
(** So a formatted address contains the name, the organisation and the street; the locality
    and the postal code, with the exceptions; the country, if it is known and the style is
    international. *)
Theorem C64_text :
  forall (X : FmtExt) (a : address) (name org s : ustring) (style : fstyle),
    uses_shipped X -> (forall s, fx_upper X s = [] -> s = []) -> formatted X a style name org = Some s ->
    let c := country_of_address X a in
    let found v := occurs v s \/ (style = Postal \/ style = GeoQuery) /\ occurs (fx_upper X v) s in
    (name <> [] -> style <> GeoQuery -> found name) /\
    (org <> [] -> style <> GeoQuery -> found org) /\
    (ad_street a <> [] -> found (ad_street a)) /\
    (ad_locality a <> [] -> ~ In c no_locality -> found (ad_locality a)) /\
    (ad_postal a <> [] -> ~ In c no_postal_code -> found (ad_postal a)) /\
    (ad_region a <> [] -> In c with_region -> found (ad_region a)) /\
    (ad_pobox a <> [] -> In c with_pobox -> style <> GeoQuery -> found (ad_pobox a)).
Proof.
  intros X a name org s style Hx Hu Hs c found. unfold formatted in Hs.
  set (fp := match style with Postal => if isnil org then Generic else Business | _ => Generic end) in Hs.
  pose proof (C33_repository X a fp) as Hp. unfold format_for_address in Hs, Hp. fold c in Hs, Hp.
  set (sp := match detect (fx_script X) a with O => Latin | S _ => Local end) in Hs, Hp.
  destruct (C64_mentions X c sp fp Hx) as ((M1 & M2 & M3) & M4 & M5 & M6 & M7). set (fmt := format_for_country X c sp fp) in *.
  clearbody fmt. clear Hx. clearbody c.
  assert (K : forall f v, In (f, v) (components a name org) -> v <> [] -> mentions fmt f -> has (st_fields style) f = true -> found v).
  { intros f v Hc Hv (e & He1 & He2) Hh. pose proof (C33_contains X a name org fmt style s f v Hu Hp Hs Hc Hv) as T.
    assert (Sh : shows style fmt f = true). { unfold shows. rewrite Hh. apply existsb_exists. exists e. split; [exact He1|]. apply N.eqb_eq. exact He2. }
    specialize (T Sh). unfold found. destruct (st_upper style && has (af_upper fmt) f) eqn:E; [|left; exact T]. apply andb_true_iff in E as [E _].
    right. split; [|exact T]. destruct style; try discriminate E; auto. }
  unfold components in K. cbn [In] in K.
  repeat split; intros.
  - apply (K fName name); [pick|assumption|exact M1|]. destruct style; try reflexivity; congruence.
  - apply (K fOrg org); [pick|assumption|exact M2|]. destruct style; try reflexivity; congruence.
  - apply (K fStreet (ad_street a)); [pick|assumption|exact M3|]. destruct style; reflexivity.
  - apply (K fLocality (ad_locality a)); [pick|assumption|apply M4; assumption|]. destruct style; reflexivity.
  - apply (K fPostal (ad_postal a)); [pick|assumption|apply M5; assumption|]. destruct style; reflexivity.
  - apply (K fRegion (ad_region a)); [pick|assumption|apply M6; left; assumption|]. destruct style; reflexivity.
  - apply (K fPobox (ad_pobox a)); [pick|assumption|apply M7; left; assumption|]. destruct style; try reflexivity; congruence.
Qed.
Print Assumptions C64_text.

(** Refuted for the other parts: in a country whose format does not mention it, a locality, a
    postal code, a region or a PO box makes no difference to the text. *)
Lemma without X a b style name org : uses_shipped X -> (forall s, fx_upper X s = [] -> s = []) ->
  detect (fx_script X) a = detect (fx_script X) b -> ad_country a = ad_country b ->
  (forall fp, same_shown style (format_for_address X a fp) a b name name org org) ->
  formatted X a style name org = formatted X b style name org.
Proof.
  intros Hx Hu Hd Hc Hs. unfold formatted.
  set (fp := match style with Postal => if isnil org then Generic else Business | _ => Generic end).
  assert (E : format_for_address X b fp = format_for_address X a fp) by (unfold format_for_address, country_of_address; rewrite Hd, Hc; reflexivity).
  rewrite E. apply C33_shown_only; [exact Hu|apply C33_repository|apply Hs|]. intros _. exact Hd.
Qed.
Lemma not_shown X a fp style f : ~ mentions (format_for_address X a fp) f -> shows style (format_for_address X a fp) f = true -> False.
Proof.
  intros H K. unfold shows in K. apply andb_true_iff in K as [_ K]. apply existsb_exists in K as (e & H1 & H2). apply H. exists e. split; [exact H1|]. apply N.eqb_eq. exact H2.
Qed.
Theorem C64_lost_refuted :
  forall (X : FmtExt) (a : address) (v name org : ustring) (style : fstyle),
    uses_shipped X -> (forall s, fx_upper X s = [] -> s = []) ->
    let c := country_of_address X a in
    let same b := formatted X b style name org = formatted X a style name org in
    (In c no_locality -> detect (fx_script X) (ad_set_locality v a) = detect (fx_script X) a -> same (ad_set_locality v a)) /\
    (In c no_postal_code -> same (ad_set_postal v a)) /\
    (In c countries -> ~ In c with_region -> same (ad_set_region v a)) /\
    (In c countries -> ~ In c with_pobox -> same (ad_set_pobox v a)).
Proof.
  intros X a v name org style Hx Hu c same.
  assert (M : forall fp, let fmt := format_for_address X a fp in
    (In c no_locality -> ~ mentions fmt fLocality) /\ (In c no_postal_code -> ~ mentions fmt fPostal) /\
    (In c countries -> ~ In c with_region -> ~ mentions fmt fRegion) /\ (In c countries -> ~ In c with_pobox -> ~ mentions fmt fPobox)).
  { intros fp fmt. unfold fmt, format_for_address. fold c. destruct (C64_mentions X c (match detect (fx_script X) a with O => Latin | S _ => Local end) fp Hx) as (_ & M4 & M5 & M6 & M7).
    repeat split; intros; [rewrite M4|rewrite M5|rewrite M6|rewrite M7]; intros K; [exact (K H)|exact (K H)|destruct K; auto|destruct K; auto]. }
  unfold same.
  split; [|split; [|split]]; intros; symmetry; (apply without; [exact Hx|exact Hu|try reflexivity; symmetry; assumption|reflexivity|]);
    intros fp; specialize (M fp); cbv zeta in M; destruct M as (M1 & M2 & M3 & M4);
    unfold same_shown; repeat split; try reflexivity; intros Sh; exfalso; (eapply not_shown; [|exact Sh]); auto.
Qed.
Print Assumptions C64_lost_refuted.

(** An address without content has no text, for a user in any country with three exceptions
    (and two with a blank line in the format). *)
Theorem C64_nothing :
  forall (X : FmtExt) (a : address) (style : fstyle),
    uses_shipped X -> (forall c, (fx_script X c < 4)%nat) -> (forall s, fx_upper X s = [] -> s = []) -> fx_upper X [] = [] ->
    ad_pobox a = [] -> ad_street a = [] -> ad_extended a = [] -> ad_postal a = [] -> ad_locality a = [] -> ad_region a = [] -> ad_country a = [] ->
    ~ In (country_of_address X a) (fixed_lines ++ blank_lines) ->
    formatted X a style [] [] = Some [].
Proof.
  intros X a style Hx Hs Hu H0 A1 A2 A3 A4 A5 A6 A7 Hc. unfold formatted. cbn [isnil].
  assert (E : forall fp, forallb lean_line (segments (af_elements (format_for_address X a fp))) = true).
  { intros fp. pose proof (lean_checked X (country_of_address X a) (match detect (fx_script X) a with O => Latin | S _ => Local end) fp Hx) as H. unfold chk_lean in H.
    apply orb_true_iff in H as [H|H]; [apply mem_In in H; contradiction|exact H]. }
  apply C33_nothing; auto. apply C33_repository.
Qed.
Print Assumptions C64_nothing.

(** No blank line, except in two countries and, in postal addresses, before the country. *)
Theorem C64_blank :
  forall (X : FmtExt) (a : address) (name org : ustring) (style : fstyle) (fp : formatpref),
    uses_shipped X -> (forall s, fx_upper X s = [] -> s = []) -> fx_name X (country_of_address X a) <> [] -> country_of_address X a <> [] ->
    style <> Postal -> ~ In (country_of_address X a) blank_lines ->
    exists lines, format_lines X a name org (format_for_address X a fp) style = Some lines /\ Forall (fun l => l <> []) lines.
Proof.
  intros X a name org style fp Hx Hu Hn Hc Hst Hb. pose proof (C33_repository X a fp) as Hp.
  eexists. split; [apply C33_lines; [exact Hu|exact Hp]|].
  pose proof (blank_checked X (country_of_address X a) (match detect (fx_script X) a with O => Latin | S _ => Local end) fp Hx) as H. unfold chk_blank in H.
  apply orb_true_iff in H as [H|H]; [apply mem_In in H; contradiction|].
  change (parse_elements _) with (af_elements (format_for_address X a fp)) in H. set (fmt := format_for_address X a fp) in *.
  assert (L : forall b g, isnil g = false -> Forall (fun l => l <> []) (seg_lines X a name org fmt style b g)).
  { intros b g Hg. unfold seg_lines. rewrite Hg, andb_false_r.
    assert (T : Forall (fun l : ustring => l <> []) (if isnil (seg_text X a name org fmt style g) then [] else [seg_text X a name org fmt style g])).
    { destruct (seg_text X a name org fmt style g); cbn [isnil]; [constructor|]. constructor; [discriminate|constructor]. }
    assert (Ex : Forall (fun l : ustring => l <> []) (extended_line a style)).
    { unfold extended_line. destruct (negb (isnil (ad_street a)) && negb (isnil (ad_extended a)) && negb (is_geo style) && has (st_fields style) fStreet) eqn:Ee; [|constructor].
      constructor; [|constructor]. intros K. rewrite K in Ee. cbn [isnil negb] in Ee. rewrite andb_false_r in Ee. discriminate Ee. }
    destruct (reverse_order (af_elements fmt)).
    - apply Forall_app. split; [exact T|]. destruct (existsb is_street g); [exact Ex|constructor].
    - apply Forall_app. split; [|exact T]. apply Forall_flat_map. rewrite Forall_forall. intros e _. destruct (is_street e); [exact Ex|constructor]. }
  rewrite forallb_forall in H. assert (H' : forall g, In g (segments (af_elements fmt)) -> isnil g = false) by (intros g Hg; apply negb_true_iff, H, Hg). clear H.
  assert (R : forall gs, (forall g, In g gs -> isnil g = false) -> Forall (fun l => l <> []) (rest_lines X a name org fmt style gs)).
  { induction gs as [|g gs IH]; intros Hg; [constructor|]. destruct gs as [|h gs]; [apply L; apply Hg; left; reflexivity|].
    change (rest_lines X a name org fmt style (g :: h :: gs)) with (seg_lines X a name org fmt style (is_newline style) g ++ rest_lines X a name org fmt style (h :: gs)).
    apply Forall_app. split; [apply L, Hg; left; reflexivity|]. apply IH. intros k Hk. apply Hg. right. exact Hk. }
  assert (E : Forall (fun l => l <> []) (expected_lines X a name org fmt style (segments (af_elements fmt)))).
  { destruct (segments (af_elements fmt)) as [|g gs]; [constructor|]. cbn [expected_lines]. apply Forall_app. split; [apply L, H'; left; reflexivity|].
    apply R. intros k Hk. apply H'. right. exact Hk. }
  unfold force_country. destruct (st_force style && _ && negb (isnil (ad_country a))) eqn:F; [|exact E].
  assert (C : country_name X a fmt style <> []).
  { unfold country_name. apply andb_true_iff in F as [_ F]. apply negb_true_iff in F. rewrite F. destruct (is_geo style); [exact Hc|exact Hn]. }
  assert (C' : cased X fmt style fCountry (country_name X a fmt style) <> []). { unfold cased. destruct (st_upper style && has (af_upper fmt) fCountry); [|exact C]. intros K. apply Hu in K. contradiction. }
  destruct style; try congruence; apply Forall_app; (split; [exact E|constructor; [exact C'|constructor]]).
Qed.
Print Assumptions C64_blank.

(** ** The exceptions, and cases *)
Definition in_country (c lang : ustring) : FmtExt := {|
  fx_config := shipped_config lang; fx_alpha2 := fun s => s; fx_byname := fun _ => []; fx_own := c;
  fx_name := fun s => B "Country " ++ s; fx_upper := to_upper; fx_script := fun _ => 0%nat |}.
Lemma in_country_shipped c lang : uses_shipped (in_country c lang).
Proof. exists lang. reflexivity. Qed.
(** an address without content of a user in Gibraltar has a text *)
Theorem C64_gibraltar_refuted :
  formatted (in_country (B "GI") []) (address_new [] 0) MultiDomestic [] [] = Some (B "GIBRALTAR").
Proof. vm_compute. reflexivity. Qed.
Print Assumptions C64_gibraltar_refuted.
(** an address in Israel has a blank line *)
Theorem C64_israel_refuted :
  formatted (in_country (B "IL") []) (ad_set_street (B "Herzl 1") (address_new [] 0)) MultiDomestic (B "Dan") (B "Org") = Some (B "Dan" ++ [cLF] ++ B "Org" ++ [cLF; cLF] ++ B "Herzl 1").
Proof. vm_compute. reflexivity. Qed.
Print Assumptions C64_israel_refuted.
Example C64_case :
  let a := ad_set_pobox (B "99") (ad_set_region (B "Bayern") (ad_set_country (B "DE") (ad_set_postal (B "80331") (ad_set_locality (B "Town") (ad_set_street (B "Weg 1") (address_new [] 0)))))) in
  let b := ad_set_country (B "SG") a in
  formatted (in_country (B "US") (B "en")) a MultiInternational (B "Eva") (B "Org") =
    Some (B "Eva" ++ [cLF] ++ B "Org" ++ [cLF] ++ B "Postfach 99" ++ [cLF] ++ B "Weg 1" ++ [cLF] ++ B "80331 Town" ++ [cLF] ++ B "Country DE") /\
  formatted (in_country (B "US") (B "en")) b MultiInternational (B "Eva") (B "Org") =
    Some (B "Eva" ++ [cLF] ++ B "Org" ++ [cLF] ++ B "Weg 1" ++ [cLF] ++ B "SINGAPORE 80331" ++ [cLF] ++ B "Country SG") /\
  uses_shipped (in_country (B "US") (B "en")) /\ (forall s, to_upper s = [] -> s = []).
Proof.
  intros a b. split; [vm_compute; reflexivity|]. split; [vm_compute; reflexivity|]. split; [apply in_country_shipped|]. intros s H. destruct s; [reflexivity|discriminate H].
Qed.
