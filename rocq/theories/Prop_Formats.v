(** C86: the formats that come with the library. *)
From Verif Require Import Base BaseFacts Utf8 M_Values M_AddressFormat S_AddressFormat P_AddressFormat
  S_FormatText P_FormatText M_Formats S_Formats P_Formats Prop_AddressFormat.
From Coq Require Import String.
Open Scope list_scope.
Open Scope N_scope.

Definition preference (style : fstyle) (org : ustring) : formatpref :=
  match style with Postal => if isnil org then Generic else Business | _ => Generic end.
Lemma shown_part : forall X a style name org t f v,
  (forall s, fx_upper X s = [] -> s = []) -> formatted X a style name org = Some t ->
  In (f, v) (components a name org) -> v <> [] -> included style f = true ->
  uses (af_elements (format_for_address X a (preference style org))) f = true ->
  occurs (capital X style (country_code X a) f v) t.
Proof.
  intros X a style name org t f v U F C V I M. unfold formatted in F. fold (preference style org) in F.
  assert (K : known f).
  { unfold components in C. cbn [In] in C. unfold known.
    repeat (destruct C as [C|C]; [injection C as <- _; vm_compute; tauto|]). destruct C. }
  pose proof (C33_contains X a name org _ style t f v U (C33_repository X a (preference style org)) F C V) as H.
  unfold shows in H. rewrite (included_has style f K), I in H. specialize (H M).
  unfold capital. replace (existsb (N.eqb (letter f)) (entry X (country_code X a) (B "Upper")))
    with (has (af_upper (format_for_address X a (preference style org))) f).
  - destruct style; exact H.
  - unfold format_for_address, format_for_country. cbn [af_upper]. rewrite code_of. unfold read_entry, entry. rewrite (upper_flag _ f K). reflexivity.
Qed.

(** What a country requires is in the text of every address that has it. *)
Theorem C86_required :
  forall (X : FmtExt) (a : address) (style : fstyle) (name org t : ustring) (f : N) (v : ustring),
    ships X -> (forall s, fx_upper X s = [] -> s = []) ->
    formatted X a style name org = Some t ->
    In (f, v) (components a name org) -> v <> [] -> included style f = true ->
    In (letter f) (entry X (country_code X a) (B "Required")) ->
    occurs (capital X style (country_code X a) f v) t.
Proof.
  intros X a style name org t f v S U F C V I R. apply (shown_part X a style name org t f v U F C V I).
  destruct (chosen_parts X a (preference style org) S) as (_ & _ & P & _).
  assert (K : In f every_field).
  { unfold components in C. cbn [In] in C. repeat (destruct C as [C|C]; [injection C as <- _; vm_compute; tauto|]). destruct C. }
  pose proof (proj1 (forallb_forall _ _) P f K) as Q. cbv beta in Q.
  rewrite (wants_entry X) in Q by (auto; cbn [In]; tauto).
  replace (existsb (N.eqb (letter f)) (entry X (country_code X a) (B "Required"))) with true in Q; [exact Q|].
  symmetry. apply existsb_exists. exists (letter f). split; [exact R|apply N.eqb_refl].
Qed.
Print Assumptions C86_required.

(** The name, the organisation and the street are in the text of every address, whatever
    its country; so is the locality, but for six countries. *)
Theorem C86_always :
  forall (X : FmtExt) (a : address) (style : fstyle) (name org t : ustring) (f : N) (v : ustring),
    ships X -> (forall s, fx_upper X s = [] -> s = []) ->
    formatted X a style name org = Some t ->
    In (f, v) [(fName, name); (fOrg, org); (fStreet, ad_street a); (fLocality, ad_locality a)] ->
    v <> [] -> included style f = true ->
    (f = fLocality -> ~ In (country_code X a) no_locality) ->
    occurs (capital X style (country_code X a) f v) t.
Proof.
  intros X a style name org t f v S U F C V I L.
  apply (shown_part X a style name org t f v U F); auto.
  - unfold components. cbn [In] in C |- *. tauto.
  - destruct (chosen_parts X a (preference style org) S) as (P & Q & _).
    cbn [forallb] in P. apply andb_true_iff in P as [P1 P]. apply andb_true_iff in P as [P2 P]. apply andb_true_iff in P as [P3 _].
    cbn [In] in C. destruct C as [C|[C|[C|[C|[]]]]]; injection C as <- <-; try assumption.
    apply orb_true_iff in Q as [Q|Q]; [|exact Q]. exfalso. apply (L eq_refl).
    apply existsb_exists in Q as (c & J & E). apply leqb_eq in E. rewrite E. exact J.
Qed.
Print Assumptions C86_always.

(** No format names a field twice, so nothing is repeated. *)
Theorem C86_once :
  forall (X : FmtExt) (a : address) (fp : formatpref),
    ships X -> NoDup (named_fields (af_elements (format_for_address X a fp))).
Proof.
  intros X a fp S. destruct (chosen_parts X a fp S) as (_ & _ & _ & _ & D). apply distinct_nodup, D.
Qed.
Print Assumptions C86_once.

(** A country asks for capital letters only in fields that its format names, and in its own name. *)
Theorem C86_capitals :
  forall (X : FmtExt) (a : address) (fp : formatpref) (f : N),
    ships X -> In f every_field -> In (letter f) (entry X (country_code X a) (B "Upper")) ->
    f = fCountry \/ In f (map e_field (af_elements (format_for_address X a fp))).
Proof.
  intros X a fp f S K R. destruct (chosen_parts X a fp S) as (_ & _ & _ & P & _).
  pose proof (proj1 (forallb_forall _ _) P f K) as Q. cbv beta in Q.
  rewrite (wants_entry X) in Q by (auto; cbn [In]; tauto).
  replace (existsb (N.eqb (letter f)) (entry X (country_code X a) (B "Upper"))) with true in Q.
  - cbn [negb orb] in Q. apply orb_true_iff in Q as [Q|Q].
    + left. apply N.eqb_eq, Q.
    + right. apply existsb_exists in Q as (e & I & E). apply N.eqb_eq in E. rewrite <- E. apply in_map, I.
  - symmetry. apply existsb_exists. exists (letter f). split; [exact R|apply N.eqb_refl].
Qed.
Print Assumptions C86_capitals.

(** A world with the formats of the library, read in German. *)
Definition ex_shipped : FmtExt := {|
  fx_config := bundled_config (B "de");
  fx_alpha2 := fun s => s; fx_byname := fun _ => []; fx_own := B "US";
  fx_name := fun c => if leqb c (B "CH") then B "Switzerland" else c;
  fx_upper := map (fun c => if (97 <=? c) && (c <=? 122) then c - 32 else c);
  fx_script := fun _ => O |}.
Lemma ex_shipped_ships : ships ex_shipped.
Proof. exists (B "de"). reflexivity. Qed.

(** The entry for the language of the user counts, if the file has one for it; else the entry without language, and nothing
    else. *)
Theorem C86_language :
  forall (X : FmtExt) (lang : ustring) (c : string) (k : ustring),
    (forall c k, k <> B "PostalCodeFormat" -> fx_config X c k = bundled_config lang c k) -> k <> B "PostalCodeFormat" ->
    (forall v, in_file c (for_language k lang) v -> fx_config X (B c) k = Some v) /\
    ((forall w, ~ in_file c (for_language k lang) w) ->
       (forall v, in_file c k v -> fx_config X (B c) k = Some v) /\ ((forall v, ~ in_file c k v) -> fx_config X (B c) k = None)).
Proof.
  intros X lang c k H N. rewrite (H (B c) k N).
  assert (U1 : forallb (fun g => forallb (fun g' => negb (leqb (B (fst g)) (B (fst g'))) || (String.eqb (fst g) (fst g')
      && Nat.eqb (List.length (snd g)) (List.length (snd g')) && forallb (fun e => String.eqb (fst (fst e)) (fst (snd e)) && String.eqb (snd (fst e)) (snd (snd e))) (combine (snd g) (snd g')))) bundled) bundled = true)
    by (vm_compute; reflexivity).
  assert (U2 : forallb (fun g => forallb (fun p => forallb (fun p' => negb (leqb (B (fst p)) (B (fst p'))) || String.eqb (snd p) (snd p')) (snd g)) (snd g)) bundled = true)
    by (vm_compute; reflexivity).
  assert (G : forall g, In (c, g) bundled -> bundled_group (B c) = g).
  { intros g I. unfold bundled_group. destruct (find _ bundled) as [[c' g']|] eqn:F.
    - apply find_some in F as [I' E]. cbn [fst snd] in *. rewrite forallb_forall in U1. specialize (U1 _ I'). rewrite forallb_forall in U1.
      specialize (U1 _ I). cbn [fst snd] in U1. rewrite E in U1. cbn [negb orb] in U1. rewrite !andb_true_iff in U1. destruct U1 as [[_ L] C].
      apply Nat.eqb_eq in L. clear -L C. revert g L C. induction g' as [|[a b] g' IH]; intros [|[a' b'] g] L C; try discriminate; [reflexivity|].
      cbn [combine forallb fst snd] in C. rewrite !andb_true_iff in C. destruct C as [[C1 C2] C]. apply String.eqb_eq in C1, C2. subst. f_equal. apply IH; [injection L; auto|exact C].
    - exfalso. apply (find_none _ _ F) in I. cbn [fst] in I. assert (leqb (B c) (B c) = true) by (apply leqb_eq; reflexivity). congruence. }
  assert (E : forall k v, in_file c k v -> group_entry (bundled_group (B c)) k = Some v).
  { intros k0 v (g & k' & v' & I1 & I2 & <- & <-). rewrite (G g I1). unfold group_entry. destruct (find _ g) as [[a b]|] eqn:F.
    - apply find_some in F as [I E]. cbn [fst snd] in *. rewrite forallb_forall in U2. specialize (U2 _ I1). cbn [snd] in U2. rewrite forallb_forall in U2.
      specialize (U2 _ I). rewrite forallb_forall in U2. specialize (U2 _ I2). cbn [fst snd] in U2. rewrite E in U2. cbn [negb orb] in U2.
      apply String.eqb_eq in U2. subst. reflexivity.
    - exfalso. apply (find_none _ _ F) in I2. cbn [fst] in I2. assert (leqb (B k') (B k') = true) by (apply leqb_eq; reflexivity). congruence. }
  assert (M : forall k, (forall v, ~ in_file c k v) -> group_entry (bundled_group (B c)) k = None).
  { intros k0 Hn. destruct (group_entry (bundled_group (B c)) k0) as [v|] eqn:F; [|reflexivity]. exfalso. apply group_entry_in in F as (p & I & <- & ->).
    unfold bundled_group in I. destruct (find _ bundled) as [[c' g']|] eqn:F; [|destruct I]. apply find_some in F as [I' E']. cbn [fst snd] in *. apply leqb_eq in E'.
    assert (c' = c).
    { clear -E' . revert c E'. induction c' as [|x c' IH]; intros [|y c] K; try discriminate; [reflexivity|]. unfold B in K. cbn in K. injection K as K1 K2.
      f_equal; [|apply IH; exact K2]. apply (f_equal Ascii.ascii_of_N) in K1. rewrite !Ascii.ascii_N_embedding in K1. exact K1. }
    subst. apply (Hn (from_utf8 (B (snd p)))). exists g', (fst p), (snd p). split; [exact I'|]. split; [destruct p; exact I|]. auto. }
  unfold bundled_config. change (in_language k lang) with (for_language k lang). split; [|split].
  - intros v I. rewrite (E _ _ I). reflexivity.
  - intros v I. rewrite (M _ H0), (E _ _ I). reflexivity.
  - intros I. rewrite (M _ H0), (M _ I). reflexivity.
Qed.
Print Assumptions C86_language.
Example C86_language_case : in_file "CH" (for_language (B "AddressFormat") (B "de")) (from_utf8 (B "%O%n%N%nPostfach %P%n%A%n%Z %C")).
Proof.
  let g := eval vm_compute in (bundled_group (B "CH")) in exists g, "AddressFormat[de]"%string, "%O%n%N%nPostfach %P%n%A%n%Z %C"%string.
  split; [|split; [|split; reflexivity]].
  - assert (H : existsb (fun g => String.eqb (fst g) "CH") bundled = true) by (vm_compute; reflexivity). cbv [bundled In]. repeat first [left; reflexivity|right].
  - cbn [In]. repeat first [left; reflexivity|right].
Qed.
(** Not everything that an address has is shown: the city of an address in the United Arab
    Emirates is in no text of it, and a post office box in a Polish address neither. *)
Definition ex_dubai : address :=
  ad_set_country (B "AE") (ad_set_locality (B "Dubai") (ad_set_street (B "Main Road 1") (address_new [] 0))).
Definition ex_box : address :=
  ad_set_country (B "PL") (ad_set_locality (B "Lublin") (ad_set_postal (B "20-001") (ad_set_pobox (B "4711") (address_new [] 0)))).
Fixpoint inside (w s : ustring) : bool :=
  leqb (firstn (List.length w) s) w || match s with [] => false | _ :: r => inside w r end.
Lemma inside_occurs w s : occurs w s -> inside w s = true.
Proof.
  intros (p & q & ->). induction p as [|c p IH].
  - assert (E : leqb (firstn (List.length w) (w ++ q)) w = true).
    { apply leqb_eq. rewrite firstn_app, firstn_all, Nat.sub_diag. cbn [firstn]. apply app_nil_r. }
    cbn [app]. destruct (w ++ q) as [|x r]; cbn [inside]; rewrite E; reflexivity.
  - cbn [app inside]. rewrite IH. apply orb_true_r.
Qed.
Theorem C86_everything_refuted :
  (forall style, exists t, formatted ex_shipped ex_dubai style [] [] = Some t /\ t <> [] /\ ~ occurs (B "Dubai") t /\ ~ occurs (B "DUBAI") t)
  /\ (forall style, exists t, formatted ex_shipped ex_box style [] [] = Some t /\ t <> [] /\ ~ occurs (B "4711") t).
Proof.
  split; intros style; destruct style; eexists; (split; [vm_compute; reflexivity|]); (split; [discriminate|]);
    repeat split; intros H; apply inside_occurs in H; vm_compute in H; discriminate.
Qed.
Print Assumptions C86_everything_refuted.

Definition ex_swiss : address :=
  ad_set_country (B "CH") (ad_set_locality (B "Bern") (ad_set_postal (B "3000")
    (ad_set_pobox (B "42") (ad_set_street (B "Weg 1") (address_new [] 0))))).
Example C86_case :
  formatted ex_shipped ex_swiss Postal (B "Eva") [] = Some (B "Eva
Postfach 42
Weg 1
3000 Bern

SWITZERLAND")
  /\ In (letter fLocality) (entry ex_shipped (country_code ex_shipped ex_swiss) (B "Required"))
  /\ ~ In (country_code ex_shipped ex_swiss) no_locality.
Proof.
  split; [vm_compute; reflexivity|]. split; [vm_compute; tauto|]. vm_compute. intuition discriminate.
Qed.
