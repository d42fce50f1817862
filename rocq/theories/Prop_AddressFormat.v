(** C32, C33: address formats and formatted addresses. *)
From Verif Require Import Base BaseFacts M_Values M_AddressFormat S_AddressFormat
  P_AddressFormat P_AddressFormat2 P_AddressFormat3 P_AddressFormat4.
Open Scope N_scope.

(** ** C32: parsing of format strings *)

(** The letters: exactly the ten known ones denote fields, each its own. *)
Theorem C32_letters : forall c,
  (is_letter c = true -> In (parse_field c) (map snd field_map) /\ letter (parse_field c) = c)
  /\ (is_letter c = false -> parse_field c = 0).
Proof.
  intros c. split; intros H.
  - destruct (parse_field_letter c H) as [H1 H2]. split; auto. apply parse_field_known. exact H1.
  - apply parse_field_unknown. exact H.
Qed.

(** Printing what was parsed gives the format string back. *)
Theorem C32_exact : forall s, only_known s = true -> show_all (parse_elements s) = s.
Proof. intros s H. apply (show_parse s [] H). Qed.

(** What is parsed is canonical: fields, maximal literals and separators. *)
Theorem C32_canonical : forall s, only_known s = true -> canonical (parse_elements s).
Proof. intros s H. apply canonical_parse; auto. Qed.

(** Conversely every canonical sequence of elements is what its text parses to:
    parsing and printing are inverse to each other. *)
Theorem C32_inverse : forall es, canonical es -> parse_elements (show_all es) = es.
Proof. exact parse_show. Qed.

(** An unknown letter contributes nothing: the elements are those of the text
    before it followed by those of the text after it. *)
Theorem C32_unknown : forall s q b, closed s = true -> is_letter q = false -> q <> cNN ->
  parse_elements (s ++ [cPERCENT; q] ++ b) = parse_elements s ++ parse_elements b.
Proof. intros s q b H1 H2 H3. apply (parse_unknown s [] q b); auto. Qed.

(** Printed again, the format with the unknown letter is the one without it. *)
Theorem C32_unknown_text : forall s q b, closed s = true -> is_letter q = false -> q <> cNN ->
  show_all (parse_elements (s ++ [cPERCENT; q] ++ b)) = show_all (parse_elements (s ++ b)).
Proof.
  intros s q b H1 H2 H3. rewrite C32_unknown by auto. rewrite show_all_app.
  symmetry. apply (show_cons_parse_closed s b []); auto.
Qed.

(** a world in which the examples live: two countries, ASCII case mapping *)
Definition demo_config (c k : ustring) : option ustring :=
  if leqb c (B "DE") then
    (if leqb k (B "AddressFormat") then Some (B "%N%n%O%n%A%n%Z %C") else None)
  else if leqb c (B "JP") then
    (if leqb k (B "AddressFormat") then Some (B "%R%n%Z%n%S%n%A%n%O%n%N")
     else if leqb k (B "Upper") then Some (B "S") else None)
  else None.
Definition demo : FmtExt := {|
  fx_config := demo_config;
  fx_alpha2 := fun s => if leqb s (B "DE") || leqb s (B "JP") then s else [];
  fx_byname := fun s => if leqb s (B "Germany") then B "DE" else if leqb s (B "Japan") then B "JP" else [];
  fx_own := B "DE";
  fx_name := fun s => if leqb s (B "DE") then B "Germany" else if leqb s (B "JP") then B "Japan" else [];
  fx_upper := to_upper;
  fx_script := fun _ => 0%nat |}.
Definition demo_address (country : ustring) : address :=
  mkAddress false [] 0 geo_new (B "12") (B "Backyard") (B "Main St 1") (B "Town") (B "Region") (B "10115") country [].

(** "change nothing else" does not extend to the formatted address: the unknown
    letter cuts a literal in two, and the second half is not printed. *)
Theorem C32_unknown_formatted_refuted : exists s1 s2 a,
  closed s1 = true
  /\ format_address demo a [] [] (mkFormat (parse_elements (s1 ++ B "%Q" ++ s2)) 0 0 (B "DE")) MultiDomestic
     = Some (B "PO12")
  /\ format_address demo a [] [] (mkFormat (parse_elements (s1 ++ s2)) 0 0 (B "DE")) MultiDomestic
     = Some (B "PO BOX 12").
Proof.
  exists (B "PO"), (B " BOX %P"), (demo_address []). vm_compute. repeat split; reflexivity.
Qed.

Example C32_example_parse :
  parse_elements (B "%N%nPO BOX %P, %Z%")
  = [ mkElem fName []; mkElem 0 []; mkElem 0 (B "PO BOX "); mkElem fPobox []; mkElem 0 (B ", ");
      mkElem fPostal []; mkElem 0 (B "%") ]
  /\ only_known (B "%N%nPO BOX %P, %Z%") = true.
Proof. split; vm_compute; reflexivity. Qed.
Example C32_example_unknown :
  closed (B "a%%%N") = true /\ is_letter 81 = false /\ only_known (B "%Q") = false
  /\ closed (B "100%") = false /\ parse_field 256 = 0 /\ parse_field (65 + 256) = 0.
Proof. vm_compute. repeat split; reflexivity. Qed.

Print Assumptions C32_letters.
Print Assumptions C32_exact.
Print Assumptions C32_canonical.
Print Assumptions C32_inverse.
Print Assumptions C32_unknown.
Print Assumptions C32_unknown_text.
Print Assumptions C32_unknown_formatted_refuted.

(** ** C33: formatting *)

(** No access outside the format, the style table or the separator table, for
    any format whatsoever. *)
Theorem C33_total : forall X a name org fmt style, (forall c, (fx_script X c < 4)%nat) ->
  exists s, format_address X a name org fmt style = Some s.
Proof. exact format_total. Qed.

(** Formats of the repository are made of proper elements, so the theorems below
    apply to every formatted address. *)
Theorem C33_repository : forall X a fp, Forall proper (af_elements (format_for_address X a fp)).
Proof. intros X a fp. apply parse_proper. constructor. Qed.

(** The lines of the output, exactly: every line of the format yields its text,
    the extended address has its own line next to the street. *)
Theorem C33_lines : forall X a name org fmt style,
  (forall s, fx_upper X s = [] -> s = []) -> Forall proper (af_elements fmt) ->
  format_lines X a name org fmt style
  = Some (force_country X a fmt style (expected_lines X a name org fmt style (segments (af_elements fmt)))).
Proof. intros. apply format_lines_spec; auto. Qed.

(** Every non-empty component that format and style include is in the output,
    upper-cased when the style and the format ask for that. *)
Theorem C33_contains : forall X a name org fmt style s f v,
  (forall s, fx_upper X s = [] -> s = []) -> Forall proper (af_elements fmt) ->
  format_address X a name org fmt style = Some s ->
  In (f, v) (components a name org) -> v <> [] -> shows style fmt f = true ->
  occurs (if st_upper style && has (af_upper fmt) f then fx_upper X v else v) s.
Proof.
  intros X a name org fmt style s f v U P F C N S.
  unfold format_address in F. rewrite format_lines_spec in F by auto.
  destruct (separator X a style) as [sep|]; [|discriminate]. inversion F; subst s; clear F.
  unfold shows in S. apply andb_true_iff in S. destruct S as [S1 S2].
  apply existsb_exists in S2. destruct S2 as [e [E1 E2]]. apply N.eqb_eq in E2. subst f.
  assert (V : field_value X a name org fmt style (e_field e) = v /\ is_field e = true).
  { unfold components in C. cbn [In] in C. unfold field_value, is_field.
    repeat (destruct C as [C|C]; [injection C as C1 C2; rewrite <- C1; split; [|reflexivity]; try exact C2|]); [|destruct C].
    change (fStreet =? fName) with false. change (fStreet =? fOrg) with false.
    change (fStreet =? fPobox) with false. change (fStreet =? fStreet) with true. cbv iota.
    rewrite C2. destruct v as [|c v]; [contradiction|reflexivity]. }
  destruct V as [V1 V2].
  destruct (field_line X a name org fmt style e E1 V2 S1) as [l [L1 L2]].
  { rewrite V1. unfold cased. destruct (st_upper style && has (af_upper fmt) (e_field e)); auto. }
  rewrite V1 in L2. eapply occurs_trans; [exact L2|].
  apply occurs_join. apply force_keeps. exact L1.
Qed.

(** So is the extended address, where the street is shown; a map query leaves it
    out when there is a street. *)
Theorem C33_extended : forall X a name org fmt style s,
  (forall s, fx_upper X s = [] -> s = []) -> Forall proper (af_elements fmt) ->
  format_address X a name org fmt style = Some s ->
  ad_extended a <> [] -> shows style fmt fStreet = true -> style <> GeoQuery \/ ad_street a = [] ->
  occurs (ad_extended a) s \/ (ad_street a = [] /\ st_upper style && has (af_upper fmt) fStreet = true
                               /\ occurs (fx_upper X (ad_extended a)) s).
Proof.
  intros X a name org fmt style s U P F N S G.
  unfold format_address in F. rewrite format_lines_spec in F by auto.
  destruct (separator X a style) as [sep|]; [|discriminate]. inversion F; subst s; clear F.
  unfold shows in S. apply andb_true_iff in S. destruct S as [S1 S2].
  apply existsb_exists in S2. destruct S2 as [e [E1 E2]]. apply N.eqb_eq in E2.
  destruct (ad_street a) as [|c st] eqn:Z.
  - assert (V : field_value X a name org fmt style (e_field e) = ad_extended a).
    { rewrite E2. unfold field_value. change (fStreet =? fName) with false. change (fStreet =? fOrg) with false.
      change (fStreet =? fPobox) with false. change (fStreet =? fStreet) with true. cbv iota. rewrite Z. reflexivity. }
    destruct (field_line X a name org fmt style e E1) as [l [L1 L2]].
    { unfold is_field. rewrite E2. reflexivity. }
    { rewrite E2. exact S1. }
    { rewrite V. unfold cased. destruct (st_upper style && has (af_upper fmt) (e_field e)); auto. }
    assert (O : occurs l (join sep (force_country X a fmt style (expected_lines X a name org fmt style (segments (af_elements fmt)))))).
    { apply occurs_join. apply force_keeps. exact L1. }
    rewrite V in L2. unfold cased in L2. rewrite E2 in L2.
    destruct (st_upper style && has (af_upper fmt) fStreet).
    + right. repeat split; auto. eapply occurs_trans; [exact L2|exact O].
    + left. eapply occurs_trans; [exact L2|exact O].
  - left. apply occurs_join. apply force_keeps. apply (extended_found X a name org fmt style e); auto.
    unfold ext_of, is_street, extended_line. rewrite E2, Z, S1. change (fStreet =? fStreet) with true.
    apply isnil_false in N. rewrite N. cbn [isnil negb andb].
    destruct G as [G|G]; [|discriminate]. destruct style; cbn; try discriminate. exfalso. apply G. reflexivity.
Qed.

(** A country that is given is named whenever the style is international (or
    postal), whether or not the format mentions it. *)
Theorem C33_country : forall X a name org fmt style s,
  (forall s, fx_upper X s = [] -> s = []) -> Forall proper (af_elements fmt) ->
  format_address X a name org fmt style = Some s ->
  ad_country a <> [] -> style <> MultiDomestic -> style <> SingleDomestic ->
  let n := if is_geo style then af_country fmt else fx_name X (af_country fmt) in
  occurs n s \/ (st_upper style = true /\ occurs (fx_upper X n) s).
Proof.
  intros X a name org fmt style s U P F N D1 D2 n.
  unfold format_address in F. rewrite format_lines_spec in F by auto.
  destruct (separator X a style) as [sep|]; [|discriminate]. inversion F; subst s; clear F.
  assert (CN : country_name X a fmt style = n).
  { unfold country_name. apply isnil_false in N. rewrite N. reflexivity. }
  assert (FO : st_force style = true) by (destruct style; auto; contradiction).
  destruct (has (N.land (used_fields (af_elements fmt)) fCountry) (st_fields style)) eqn:H.
  - (* the format itself mentions it *)
    assert (E : exists e, In e (af_elements fmt) /\ e_field e = fCountry).
    { assert (K : forall l acc, has (fold_left (fun acc e => N.lor acc (e_field e)) l acc) fCountry = true ->
                has acc fCountry = true \/ exists e, In e l /\ has (e_field e) fCountry = true).
      { induction l as [|e l IH]; intros acc K; [left; exact K|]. cbn [fold_left] in K.
        destruct (IH _ K) as [K1|[e' [K1 K2]]].
        - unfold has in K1. rewrite negb_true_iff, N.eqb_neq, N.land_lor_distr_l in K1.
          destruct (N.eq_dec (N.land acc fCountry) 0) as [Q|Q].
          + right. exists e. split; [left; reflexivity|]. unfold has. rewrite negb_true_iff, N.eqb_neq.
            rewrite Q, N.lor_0_l in K1. exact K1.
          + left. unfold has. rewrite negb_true_iff, N.eqb_neq. exact Q.
        - right. exists e'. split; [right; exact K1|exact K2]. }
      destruct (K (af_elements fmt) fNone) as [K1|[e [K1 K2]]].
      - unfold has in *. rewrite negb_true_iff, N.eqb_neq in H |- *. intros Q. apply H.
        unfold used_fields. rewrite Q. reflexivity.
      - discriminate.
      - exists e. split; auto. rewrite Forall_forall in P. destruct (P e K1) as [[_ [Q|Q]]|[Q _]].
        + rewrite Q in K2. discriminate.
        + revert K2. revert Q. generalize (e_field e). intros f Q. cbn in Q.
          repeat (destruct Q as [Q|Q]; [subst f; vm_compute; try discriminate; reflexivity|]). destruct Q.
        + rewrite Q in K2. discriminate. }
    destruct E as [e [E1 E2]].
    assert (SF : has (st_fields style) fCountry = true).
    { unfold has in *. rewrite negb_true_iff, N.eqb_neq in *. intros Q. apply H.
      rewrite <- N.land_assoc, (N.land_comm fCountry), Q, N.land_0_r. reflexivity. }
    assert (V : field_value X a name org fmt style (e_field e) = n).
    { rewrite E2. exact CN. }
    destruct n as [|c n'] eqn:NE.
    + left. exists [], (join sep (force_country X a fmt style (expected_lines X a name org fmt style (segments (af_elements fmt))))).
      reflexivity.
    + destruct (field_line X a name org fmt style e E1) as [l [L1 L2]].
      { unfold is_field. rewrite E2. reflexivity. }
      { rewrite E2. exact SF. }
      { rewrite V. unfold cased. destruct (st_upper style && has (af_upper fmt) (e_field e)); [|discriminate].
        intros K. apply U in K. discriminate. }
      assert (O : occurs l (join sep (force_country X a fmt style (expected_lines X a name org fmt style (segments (af_elements fmt)))))).
      { apply occurs_join. apply force_keeps. exact L1. }
      rewrite V in L2. unfold cased in L2.
      destruct (st_upper style); cbn [andb] in L2.
      * destruct (has (af_upper fmt) (e_field e)).
        -- right. split; auto. eapply occurs_trans; [exact L2|exact O].
        -- left. eapply occurs_trans; [exact L2|exact O].
      * left. eapply occurs_trans; [exact L2|exact O].
  - unfold force_country. rewrite FO, H. apply isnil_false in N. rewrite N. cbn [negb andb].
    rewrite CN.
    assert (A : forall l w, occurs w (join sep (l ++ [w]))).
    { intros l w. apply occurs_join. apply in_or_app. right. left. reflexivity. }
    assert (G : forall w, w = n \/ (st_upper style = true /\ w = fx_upper X n) ->
              forall r, occurs w r -> occurs n r \/ st_upper style = true /\ occurs (fx_upper X n) r).
    { intros w [W|[W1 W2]] r O; subst w; [left|right]; auto. }
    destruct style; try contradiction.
    + set (w := if _ && _ then fx_upper X n else n).
      apply (G w).
      * subst w. destruct (_ && _); auto.
      * destruct (reverse_order _); [apply occurs_join; left; reflexivity|apply A].
    + apply (G n); [left; reflexivity|apply A].
    + apply (G n); [left; reflexivity|apply A].
    + apply (G (cased X fmt GeoQuery fCountry n)); [|apply A].
      unfold cased. destruct (_ && _); auto.
Qed.

(** [formattedPostalAddress]: the text for an envelope.  Every part is in it as the format of the country (the generic one, there is no organisation) wants them:
    in capitals where it says so. *)
Theorem C33_postal : forall X a s f v,
  (forall s, fx_upper X s = [] -> s = []) -> formatted_postal X a = Some s ->
  In (f, v) (components a [] []) -> v <> [] ->
  let fmt := format_for_address X a Generic in
  In f (map e_field (af_elements fmt)) ->
  occurs (if has (af_upper fmt) f then fx_upper X v else v) s.
Proof.
  intros X a s f v U F C N fmt M.
  assert (S : shows Postal fmt f = true).
  { unfold shows. apply andb_true_iff. split.
    - unfold components in C. cbn [In] in C. repeat (destruct C as [C|C]; [injection C as <- _; reflexivity|]). destruct C.
    - apply in_map_iff in M as (e & <- & I). apply existsb_exists. exists e. split; [exact I|apply N.eqb_refl]. }
  pose proof (C33_contains X a [] [] fmt Postal s f v U (C33_repository X a Generic) F C N S) as K. exact K.
Qed.

(** Nothing that the style excludes, and nothing that the format does not
    mention, has any influence on the output. *)
Theorem C33_shown_only : forall X a1 a2 name1 name2 org1 org2 fmt style,
  (forall s, fx_upper X s = [] -> s = []) -> Forall proper (af_elements fmt) ->
  same_shown style fmt a1 a2 name1 name2 org1 org2 ->
  (st_sep style = Native -> detect (fx_script X) a1 = detect (fx_script X) a2) ->
  format_address X a1 name1 org1 fmt style = format_address X a2 name2 org2 fmt style.
Proof. exact shown_only. Qed.

(** What the styles include: the international styles everything, the domestic and
    postal styles everything but the country (which the postal style adds in a line of
    its own), map queries the country, the region, the locality, the dependent locality,
    the postal code and the street. *)
Theorem C33_styles : forall style f,
  In f [fCountry; fRegion; fLocality; fDependent; fSorting; fPostal; fStreet; fOrg; fName; fPobox] ->
  (has (st_fields style) f = true <->
   match style with
   | MultiInternational | SingleInternational => True
   | MultiDomestic | SingleDomestic | Postal => f <> fCountry
   | GeoQuery => In f [fCountry; fRegion; fLocality; fDependent; fPostal; fStreet]
   end).
Proof.
  intros style f I. cbn [In] in I.
  destruct style; destruct I as [<-|[<-|[<-|[<-|[<-|[<-|[<-|[<-|[<-|[<-|[]]]]]]]]]]]; vm_compute;
    (split; [intros H; try discriminate H; try (intros K; discriminate K); tauto
            |intros H; try reflexivity; exfalso; try (apply H; reflexivity); intuition discriminate]).
Qed.

(** So the country does not matter in the domestic styles. *)
Theorem C33_domestic : forall X a c name org fmt style,
  (forall s, fx_upper X s = [] -> s = []) -> Forall proper (af_elements fmt) ->
  style = MultiDomestic \/ style = SingleDomestic ->
  format_address X (ad_set_country c a) name org fmt style = format_address X a name org fmt style.
Proof.
  intros X a c name org fmt style U P S. apply C33_shown_only; auto.
  repeat split; auto; try (destruct S; subst; cbn; discriminate).
  intros [K|K]; destruct S; subst style; discriminate K.
Qed.

(** Literals do not show without content: an address with nothing in it is
    formatted as the empty string, for formats of the usual shape. *)
Theorem C33_nothing : forall X a fmt style, (forall c, (fx_script X c < 4)%nat) ->
  (forall s, fx_upper X s = [] -> s = []) -> fx_upper X [] = [] -> Forall proper (af_elements fmt) ->
  ad_pobox a = [] -> ad_street a = [] -> ad_extended a = [] -> ad_postal a = [] -> ad_locality a = [] ->
  ad_region a = [] -> ad_country a = [] ->
  forallb lean_line (segments (af_elements fmt)) = true ->
  format_address X a [] [] fmt style = Some [].
Proof.
  intros X a fmt style SC U U0 P A1 A2 A3 A4 A5 A6 A7 L.
  unfold format_address. rewrite format_lines_spec by auto.
  destruct (separator_some X a style SC) as [sep S]. rewrite S.
  assert (FE : forall f, field_empty a [] [] style f = true).
  { intros f. unfold field_empty. rewrite A1, A2, A3, A4, A5, A6, A7. cbn [isnil andb orb].
    destruct (has (st_fields style) f); cbn [negb]; auto.
    repeat match goal with |- context [N.eqb f ?g] => destruct (N.eqb f g) end; reflexivity. }
  assert (FV : forall f, cased X fmt style f (field_value X a [] [] fmt style f) = []).
  { intros f. assert (V : field_value X a [] [] fmt style f = []).
    { unfold field_value, country_name. rewrite A1, A2, A3, A4, A5, A6, A7. cbn [isnil].
      repeat match goal with |- context [N.eqb f ?g] => destruct (N.eqb f g) end; reflexivity. }
    rewrite V. unfold cased. rewrite U0. destruct (_ && _); reflexivity. }
  assert (EL : extended_line a style = []) by (unfold extended_line; rewrite A2; reflexivity).
  assert (SL : forall g b, In g (segments (af_elements fmt)) -> seg_lines X a [] [] fmt style b g = []).
  { intros g b Hg. rewrite forallb_forall in L. specialize (L g Hg).
    assert (T : seg_text X a [] [] fmt style g = []).
    { apply lean_empty; auto.
      - apply Forall_forall. intros e He. rewrite Forall_forall in P. apply P. apply (in_segments _ g e Hg He).
      - apply Forall_forall. intros e He. apply (in_segments _ g e Hg He).
      - intros _. destruct g as [|e g]; auto. cbn [lean_line] in L. apply orb_true_iff in L.
        destruct L as [L|L]; [left; apply negb_true_iff; exact L|right]. destruct g; [discriminate|exact L]. }
    unfold seg_lines. rewrite T, EL. cbn [isnil].
    assert (GN : isnil g = false) by (destruct g; [discriminate|reflexivity]).
    rewrite GN, andb_false_r.
    assert (FM : forall l : list elem, flat_map (fun e => if is_street e then @nil ustring else []) l = []).
    { induction l as [|x l IH]; [reflexivity|]. cbn [flat_map]. rewrite IH. destruct (is_street x); reflexivity. }
    destruct (reverse_order (af_elements fmt)); [destruct (existsb is_street g); reflexivity|].
    rewrite app_nil_r. apply FM. }
  assert (RL : forall gs, (forall g, In g gs -> In g (segments (af_elements fmt))) ->
               rest_lines X a [] [] fmt style gs = []).
  { induction gs as [|g gs IH]; intros H; [reflexivity|]. destruct gs as [|h gs].
    - apply SL. apply H. left. reflexivity.
    - change (seg_lines X a [] [] fmt style (is_newline style) g ++ rest_lines X a [] [] fmt style (h :: gs) = []).
      rewrite SL, IH; [reflexivity| |]; [intros g' Hg'; apply H; right; exact Hg'|apply H; left; reflexivity]. }
  destruct (segments_cons (af_elements fmt)) as [g [gs E]].
  assert (EX : expected_lines X a [] [] fmt style (segments (af_elements fmt)) = []).
  { rewrite E. cbn [expected_lines]. rewrite SL, RL; [reflexivity| |]; rewrite E; [intros g' Hg'; right; exact Hg'|left; reflexivity]. }
  rewrite EX. unfold force_country. rewrite A7. cbn [isnil negb]. rewrite andb_false_r. reflexivity.
Qed.

(** "contains every component" fails for the country in one case: a country that
    is not recognised is replaced by the user's own country. *)
Theorem C33_unknown_country_refuted : forall X a s,
  (forall s, fx_upper X s = [] -> s = []) ->
  ad_country a <> [] -> fx_alpha2 X (ad_country a) = [] -> fx_byname X (ad_country a) = [] ->
  formatted X a MultiInternational [] [] = Some s ->
  occurs (fx_name X (fx_own X)) s.
Proof.
  intros X a s U N K1 K2 F. unfold formatted in F.
  assert (C : af_country (format_for_address X a Generic) = fx_own X).
  { cbn [af_country format_for_address format_for_country]. unfold format_for_address, format_for_country. cbn [af_country].
    unfold country_of_address. rewrite K1, K2. destruct (Nat.eqb _ 2); reflexivity. }
  destruct (C33_country X a [] [] _ MultiInternational s U (C33_repository X a Generic) F N) as [O|[O _]]; try discriminate.
  cbn [is_geo] in O. rewrite C in O. exact O.
Qed.

Lemma demo_upper : forall s, fx_upper demo s = [] -> s = [].
Proof. intros [|c s] H; [reflexivity|discriminate]. Qed.

Example C33_example_german :
  formatted demo (demo_address (B "Germany")) Postal (B "Jo Doe") (B "ACME")
  = Some (B "Jo Doe" ++ [10] ++ B "ACME" ++ [10] ++ B "Backyard" ++ [10] ++ B "Main St 1" ++ [10]
          ++ B "10115 Town" ++ [10; 10] ++ B "Germany")
  /\ shows Postal (format_for_address demo (demo_address (B "Germany")) Generic) fStreet = true
  /\ shows Postal (format_for_address demo (demo_address (B "Germany")) Generic) fRegion = false.
Proof. vm_compute. repeat split; reflexivity. Qed.
Example C33_example_postal :
  In fRegion (map e_field (af_elements (format_for_address demo (demo_address (B "Japan")) Generic)))
  /\ has (af_upper (format_for_address demo (demo_address (B "Japan")) Generic)) fRegion = true
  /\ exists s, formatted_postal demo (demo_address (B "Japan")) = Some s /\ occurs (B "REGION") s.
Proof.
  split; [vm_compute; tauto|]. split; [vm_compute; reflexivity|]. eexists. split; [vm_compute; reflexivity|].
  apply (C33_postal demo (demo_address (B "Japan")) _ fRegion (B "Region")); [|vm_compute; reflexivity|cbn; tauto|discriminate|vm_compute; tauto].
  intros [|c s]; [reflexivity|discriminate].
Qed.
Example C33_example_japanese :
  formatted demo (demo_address (B "JP")) MultiInternational (B "Jo Doe") []
  = Some (B "Japan" ++ [10] ++ B "10115" ++ [10] ++ B "Region" ++ [10] ++ B "Main St 1" ++ [10]
          ++ B "Backyard" ++ [10] ++ B "Jo Doe")
  /\ formatted demo (demo_address (B "JP")) GeoQuery [] [] = Some (B "JP,10115,REGION,Main St 1").
Proof. vm_compute. split; reflexivity. Qed.
Example C33_example_unknown_country :
  formatted demo (demo_address (B "Atlantis")) SingleInternational [] []
  = Some (B "Backyard, Main St 1, 10115 Town, Germany").
Proof. vm_compute. reflexivity. Qed.
(** the region and the country have no influence on a domestic German address *)
Example C33_example_hidden :
  same_shown MultiDomestic (format_for_address demo (demo_address (B "DE")) Generic)
    (demo_address (B "DE")) (ad_set_region (B "Elsewhere") (demo_address [])) [] [] [] [].
Proof.
  unfold same_shown. repeat split; try reflexivity; intros H; vm_compute in H; try discriminate.
  destruct H; discriminate.
Qed.
Example C33_example_nothing :
  forallb lean_line (segments (parse_elements default_format)) = true
  /\ formatted demo (address_new [] 0) Postal [] [] = Some []
  /\ format_address demo (address_new [] 0) [] [] (mkFormat (parse_elements default_format) 0 0 []) Postal = Some [].
Proof. vm_compute. repeat split; reflexivity. Qed.

Print Assumptions C33_total.
Print Assumptions C33_repository.
Print Assumptions C33_lines.
Print Assumptions C33_contains.
Print Assumptions C33_extended.
Print Assumptions C33_country.
Print Assumptions C33_postal.
Print Assumptions C33_shown_only.
Print Assumptions C33_styles.
Print Assumptions C33_domestic.
Print Assumptions C33_nothing.
Print Assumptions C33_unknown_country_refuted.
