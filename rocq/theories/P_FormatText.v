(** The formatter against the independent statement of its text: lemmas for C75. *)
From Verif Require Import Base BaseFacts M_Values M_AddressFormat S_AddressFormat P_AddressFormat P_AddressFormat2 P_AddressFormat3 P_AddressFormat4 S_FormatText.
Open Scope N_scope.

Lemma first_script_detect X s : detect_text (fx_script X) s = first_script X s.
Proof.
  induction s as [|c s IH]; [reflexivity|]. cbn [detect_text]. unfold first_script. cbn [find].
  destruct (fx_script X c) eqn:E; cbn [Nat.eqb negb]; [exact IH|rewrite E; reflexivity].
Qed.
Lemma script_detect X a : detect (fx_script X) a = script_of X a.
Proof. unfold detect, script_of. rewrite !first_script_detect. reflexivity. Qed.
Lemma code_of X a : country_of_address X a = country_code X a.
Proof.
  unfold country_of_address, country_code. cbn [first_text]. destruct (Nat.eqb _ 2); cbn [isnil].
  - destruct (isnil (fx_alpha2 X (ad_country a))) eqn:E1; [|rewrite E1; reflexivity].
    destruct (isnil (fx_byname X (ad_country a))) eqn:E2; [|reflexivity].
    destruct (fx_own X); reflexivity.
  - destruct (isnil (fx_byname X (ad_country a))) eqn:E2; [|reflexivity]. destruct (fx_own X); reflexivity.
Qed.
Lemma first_text_one s : first_text [s] = s.
Proof. destruct s; reflexivity. Qed.
Lemma chosen_string X c sp fp :
  format_string X c sp fp = chosen X c (match sp with Latin => true | Local => false end) (match fp with Business => true | Generic => false end).
Proof.
  unfold format_string, chosen, read_entry. change default_format with (B "%N%n%O%n%A%nPO BOX %P%n%C %S %Z").
  fold (entry X c (B "LatinBusinessAddressFormat")) (entry X c (B "LatinAddressFormat")) (entry X c (B "BusinessAddressFormat")).
  destruct sp, fp; cbn [andb app first_text isnil].
  - destruct (fx_config X c (B "AddressFormat")) as [[|]|]; reflexivity.
  - destruct (entry X c (B "BusinessAddressFormat")); cbn [isnil]; [|reflexivity]. destruct (fx_config X c (B "AddressFormat")) as [[|]|]; reflexivity.
  - destruct (entry X c (B "LatinAddressFormat")); cbn [isnil]; [|reflexivity]. destruct (fx_config X c (B "AddressFormat")) as [[|]|]; reflexivity.
  - destruct (entry X c (B "LatinBusinessAddressFormat")); cbn [isnil]; [|reflexivity].
    destruct (entry X c (B "LatinAddressFormat")); cbn [isnil andb]; [|reflexivity].
    destruct (entry X c (B "BusinessAddressFormat")); cbn [isnil]; [|reflexivity]. destruct (fx_config X c (B "AddressFormat")) as [[|]|]; reflexivity.
Qed.

(** ** Fields and flags *)

Definition known (f : N) : Prop := In f (map snd field_map).
Ltac fields H := unfold known in H; cbn [map snd field_map In] in H; destruct H as [<-|[<-|[<-|[<-|[<-|[<-|[<-|[<-|[<-|[<-|[]]]]]]]]]]].
Lemma included_has style f : known f -> has (st_fields style) f = included style f.
Proof. intros H. fields H; destruct style; reflexivity. Qed.
Lemma has_lor a b f : has (N.lor a b) f = has a f || has b f.
Proof.
  unfold has. rewrite N.land_lor_distr_l. destruct (N.eqb_spec (N.land a f) 0) as [E|E].
  - rewrite E, N.lor_0_l. reflexivity.
  - cbn [negb orb]. apply negb_true_iff, N.eqb_neq. intros K. apply N.lor_eq_0_iff in K. tauto.
Qed.
Lemma has_known f g : known f -> known g -> has g f = (g =? f).
Proof. intros H K. fields H; fields K; reflexivity. Qed.
Lemma field_letter c f : known f -> has (parse_field c) f = (letter f =? c).
Proof.
  intros H. destruct (is_letter c) eqn:L.
  - destruct (parse_field_letter c L) as [K1 K2]. apply parse_field_known in K1. destruct K1 as [_ K1]. fold (known (parse_field c)) in K1.
    rewrite has_known by auto. assert (G : forall g, known g -> (g =? f) = (letter f =? letter g)) by (intros g K; fields H; fields K; reflexivity). rewrite (G _ K1), K2. reflexivity.
  - rewrite (parse_field_unknown c L). destruct (N.eqb_spec (letter f) c) as [<-|N]; [|reflexivity]. exfalso. fields H; discriminate L.
Qed.
Lemma upper_flag s f : known f -> has (parse_fields s) f = existsb (N.eqb (letter f)) s.
Proof.
  intros H. unfold parse_fields.
  assert (G : forall acc, has (fold_left (fun acc c => N.lor acc (parse_field c)) s acc) f = has acc f || existsb (N.eqb (letter f)) s).
  { induction s as [|c s IH]; intros acc; cbn [fold_left existsb]; [rewrite orb_false_r; reflexivity|].
    rewrite IH, has_lor, field_letter, orb_assoc by exact H. reflexivity. }
  rewrite G. reflexivity.
Qed.
Lemma used_country es : Forall proper es -> has (used_fields es) fCountry = existsb (fun e => e_field e =? fCountry) es.
Proof.
  intros P. unfold used_fields.
  assert (G : forall acc, has (fold_left (fun acc e => N.lor acc (e_field e)) es acc) fCountry = has acc fCountry || existsb (fun e => e_field e =? fCountry) es).
  { induction P as [|e es E P IH]; intros acc; cbn [fold_left existsb]; [rewrite orb_false_r; reflexivity|].
    rewrite IH, has_lor, orb_assoc. do 2 f_equal. destruct E as [[_ [->|K]]|[-> _]]; try reflexivity. apply has_known; [|exact K]. cbn. tauto. }
  rewrite G. reflexivity.
Qed.

Section Text.
  Variables (X : FmtExt) (a : address) (name org : ustring) (style : fstyle) (sp : scriptpref) (fp : formatpref).
  Let c := country_code X a.
  Let fmt := format_for_country X c sp fp.
  Let es := af_elements fmt.
  Hypothesis upper_keeps : forall s, fx_upper X s = [] -> s = [].

  Lemma cased_capital f v : known f -> cased X fmt style f v = capital X style c f v.
  Proof using.
    intros H. unfold cased, capital. cbn [fmt format_for_country af_upper]. rewrite upper_flag by exact H. reflexivity.
  Qed.
  Lemma country_same : country_name X a fmt style = country_text X a style.
  Proof using. unfold country_name, country_text. cbn [fmt format_for_country af_country]. destruct style; reflexivity. Qed.
  Lemma value_text f : known f ->
    (if has (st_fields style) f then cased X fmt style f (field_value X a name org fmt style f) else []) = text_of X a name org style f.
  Proof using.
    intros H. unfold text_of. rewrite included_has by exact H. destruct (included style f); [|reflexivity].
    rewrite cased_capital by exact H. fold c. f_equal. unfold field_value. rewrite country_same. unfold lookup. cbn [first_text].
    fields H; try reflexivity. cbn. destruct (ad_street a); cbn; [|reflexivity]. destruct (ad_extended a); reflexivity.
  Qed.
  Lemma empty_filled f : known f -> field_empty a name org style f = negb (filled a name org style f).
  Proof using.
    intros H. unfold field_empty, filled. rewrite included_has by exact H. destruct (included style f); [|reflexivity]. unfold lookup.
    cbn [negb andb]. fields H; cbv - [isnil negb orb andb map_query is_geo ad_street ad_extended ad_pobox ad_postal ad_locality ad_region ad_country]; rewrite ?negb_involutive; try reflexivity.
    destruct (isnil (ad_street a)), (isnil (ad_extended a)), style; reflexivity.
  Qed.
  Lemma line_same g : Forall proper g -> forall first seen,
    line_text X a name org fmt style first seen g = line_from X a name org style first seen g.
  Proof using.
    induction 1 as [|e g E P IH]; intros first seen; [reflexivity|]. cbn [line_text line_from].
    assert (K : is_field e = true -> known (e_field e)).
    { unfold is_field. intros N. apply negb_true_iff, N.eqb_neq in N. change fNone with 0 in N. destruct E as [[_ [Z|K]]|[Z _]]; tauto. }
    f_equal.
    - destruct (is_field e); [apply value_text, K; reflexivity|]. destruct g as [|x g']; [reflexivity|].
      inversion P as [|? ? Ex _]; subst. destruct (is_field x) eqn:F; [|reflexivity]. cbn [andb]. rewrite empty_filled; [reflexivity|].
      unfold is_field in F. apply negb_true_iff, N.eqb_neq in F. change fNone with 0 in F. destruct Ex as [[_ [Z|Kx]]|[Z _]]; tauto.
    - rewrite IH. f_equal. destruct (is_field e); [|reflexivity]. cbn [andb]. rewrite empty_filled, negb_involutive by (apply K; reflexivity). reflexivity.
  Qed.
  Lemma extended_same : extended_line a style = extended a style.
  Proof using. unfold extended_line, extended. destruct style; cbn [is_geo map_query st_fields]; rewrite ?andb_true_r, ?andb_false_r; reflexivity. Qed.
  Lemma seg_same b g : Forall proper g -> seg_lines X a name org fmt style b g = lines_of X a name org style es b g.
  Proof using.
    intros P. unfold seg_lines, lines_of, seg_text. rewrite (line_same g P), extended_same. fold es. change (reverse_order es) with (country_first es).
    assert (F1 : existsb is_street g = negb (isnil (filter (fun e => e_field e =? fStreet) g))).
    { clear P. induction g as [|e g IH]; [reflexivity|]. cbn [existsb filter]. unfold is_street at 1. destruct (e_field e =? fStreet); [reflexivity|exact IH]. }
    assert (F2 : flat_map (fun e => if is_street e then extended a style else []) g = flat_map (fun _ => extended a style) (filter (fun e => e_field e =? fStreet) g)).
    { clear P F1. induction g as [|e g IH]; [reflexivity|]. cbn [flat_map filter]. unfold is_street at 1. destruct (e_field e =? fStreet); cbn [flat_map]; rewrite IH; reflexivity. }
    rewrite F1, F2. destruct (country_first es); [|reflexivity]. destruct (isnil (filter _ g)); reflexivity.
  Qed.
  Lemma rest_same gs : Forall (Forall proper) gs -> rest_lines X a name org fmt style gs = lines_from X a name org style es gs.
  Proof using.
    induction 1 as [|g gs P F IH]; [reflexivity|]. cbn [rest_lines lines_from]. destruct gs as [|g2 gs]; [apply seg_same, P|].
    rewrite IH, seg_same by exact P. destruct style; reflexivity.
  Qed.
  Lemma segments_proper l : Forall proper l -> Forall (Forall proper) (segments l).
  Proof using.
    induction 1 as [|e l E P IH]; cbn [segments]; [repeat constructor|]. destruct (is_sep e); [constructor; [constructor|exact IH]|].
    destruct (segments l) as [|g gs]; [apply Forall_cons; [apply Forall_cons; [exact E|apply Forall_nil]|apply Forall_nil]|].
    inversion IH; subst. apply Forall_cons; [apply Forall_cons|]; assumption.
  Qed.
  Lemma proper_es : Forall proper es.
  Proof using. apply parse_proper. constructor. Qed.
  Lemma lines_same : expected_lines X a name org fmt style (segments es) = all_lines X a name org style es.
  Proof using.
    unfold expected_lines, all_lines. pose proof (segments_proper es proper_es) as P. destruct (segments es) as [|g gs]; [reflexivity|].
    inversion P; subst. rewrite seg_same, rest_same by assumption. reflexivity.
  Qed.
  Lemma force_same l :
    force_country X a fmt style l = with_country X a style es (parse_elements (chosen X (fx_own X) false false)) l.
  Proof using.
    unfold force_country, with_country. fold es. destruct (isnil (ad_country a)); [rewrite andb_false_r; reflexivity|]. cbn [negb]. rewrite andb_true_r.
    rewrite country_same.
    assert (KC : known fCountry) by (cbn; tauto).
    assert (H : has (N.land (used_fields es) fCountry) (st_fields style) = has (used_fields es) fCountry && has (st_fields style) fCountry).
    { unfold has. rewrite <- N.land_assoc, (N.land_comm fCountry). destruct style; cbn [st_fields];
        (change (N.land domestic_fields fCountry) with 0 || change (N.land all_fields fCountry) with fCountry || change (N.land geo_fields fCountry) with fCountry);
        rewrite ?N.land_0_r; cbn; rewrite ?andb_true_r, ?andb_false_r; reflexivity. }
    rewrite H, used_country by apply proper_es. rewrite (cased_capital fCountry) by exact KC. unfold c.
    destruct style; cbn [st_force andb]; try reflexivity.
    - change (has (st_fields Postal) fCountry) with false. rewrite andb_false_r. cbn [negb].
      cbn [format_for_country af_elements af_upper]. rewrite chosen_string.
      rewrite upper_flag by exact KC. unfold capital. cbn [st_upper].
      fold (entry X (fx_own X) (B "Upper")). destruct (country_first _) eqn:CF; unfold country_first in CF; unfold reverse_order; rewrite CF;
        unfold read_entry, entry; destruct (isnil l) eqn:L; try (destruct l; [|discriminate L]); reflexivity.
    - change (has (st_fields MultiInternational) fCountry) with true. rewrite andb_true_r. destruct (existsb _ es); reflexivity.
    - change (has (st_fields SingleInternational) fCountry) with true. rewrite andb_true_r. destruct (existsb _ es); reflexivity.
    - change (has (st_fields GeoQuery) fCountry) with true. rewrite andb_true_r. destruct (existsb _ es); reflexivity.
  Qed.
End Text.
