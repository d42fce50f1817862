(** Proofs about the formats that come with the library. *)
From Verif Require Import Base BaseFacts Utf8 M_Values M_AddressFormat S_AddressFormat P_AddressFormat
  P_AddressFormat3 P_AddressFormat4 S_FormatText P_FormatText M_Formats S_Formats Prop_AddressFormat.
From Coq Require Import String.
Open Scope list_scope.
Open Scope N_scope.

Definition uses (es : list elem) (f : N) : bool := existsb (fun e => e_field e =? f) es.
Definition every_field : list N := [fCountry; fRegion; fLocality; fDependent; fSorting; fPostal; fStreet; fOrg; fName; fPobox].
Fixpoint distinct (l : list N) : bool :=
  match l with [] => true | x :: r => negb (existsb (N.eqb x) r) && distinct r end.
Definition wants (g : list (string * string)) (k : ustring) (f : N) : bool :=
  existsb (N.eqb (letter f)) (match group_entry g k with Some v => v | None => [] end).
Definition sound_format (c : ustring) (g : list (string * string)) (s : ustring) : bool :=
  let es := parse_elements s in
  forallb (uses es) [fName; fOrg; fStreet]
  && (existsb (leqb c) no_locality || uses es fLocality)
  && forallb (fun f => negb (wants g (B "Required") f) || uses es f) every_field
  && forallb (fun f => negb (wants g (B "Upper") f) || (f =? fCountry) || uses es f) every_field
  && distinct (named_fields es).
Definition group_sound (x : string * list (string * string)) : bool :=
  forallb (fun p => leqb (B (fst p)) (B "Required") || leqb (B (fst p)) (B "Upper")
                    || (existsb (N.eqb (hd 0 (B (fst p)))) [65; 66; 76]
                        && sound_format (B (fst x)) (snd x) (from_utf8 (B (snd p))))) (snd x)
  && match group_entry (snd x) (B "AddressFormat") with Some _ => true | None => false end.
Lemma all_sound : forallb group_sound bundled = true.
Proof. vm_compute. reflexivity. Qed.

Lemma group_cases c : bundled_group c = [] \/ exists x, In x bundled /\ B (fst x) = c /\ snd x = bundled_group c.
Proof.
  unfold bundled_group. destruct (find _ bundled) as [x|] eqn:F; [|left; reflexivity].
  right. exists x. apply find_some in F as [I E]. apply leqb_eq in E. auto.
Qed.
Lemma group_entry_in g k v : group_entry g k = Some v -> exists p, In p g /\ B (fst p) = k /\ v = from_utf8 (B (snd p)).
Proof.
  unfold group_entry. destruct (find _ g) as [p|] eqn:F; [|discriminate]. intros K. inversion K; subst.
  apply find_some in F as [I E]. apply leqb_eq in E. exists p. auto.
Qed.
Lemma entry_sound c k v : group_entry (bundled_group c) k = Some v -> In (hd 0 k) [65; 66; 76] ->
  sound_format c (bundled_group c) v = true.
Proof.
  intros G H. destruct (group_cases c) as [E|(x & I & <- & E)]; [rewrite E in G; discriminate|].
  rewrite <- E in G |- *. apply group_entry_in in G as (p & P & <- & ->).
  pose proof (proj1 (forallb_forall _ _) all_sound x I) as S. unfold group_sound in S.
  apply andb_true_iff in S as [S _]. pose proof (proj1 (forallb_forall _ _) S p P) as Q. cbv beta in Q.
  apply orb_true_iff in Q as [Q|Q].
  - exfalso. apply orb_true_iff in Q as [Q|Q]; apply leqb_eq in Q; rewrite Q in H; cbn in H; intuition discriminate.
  - apply andb_true_iff in Q as [_ Q]. exact Q.
Qed.
Lemma config_sound lang c k v : bundled_config lang c k = Some v -> In (hd 0 k) [65; 66; 76] ->
  sound_format c (bundled_group c) v = true.
Proof.
  unfold bundled_config. intros H K. destruct (group_entry _ (in_language k lang)) as [w|] eqn:G.
  - inversion H; subst. apply (entry_sound c _ v G). unfold in_language. destruct k as [|x k]; [cbn in K; intuition discriminate|exact K].
  - apply (entry_sound c _ v H K).
Qed.
Lemma empty_sound c : sound_format c [] default_format = true.
Proof.
  unfold sound_format. destruct (existsb (leqb c) no_locality); vm_compute; reflexivity.
Qed.
Lemma chosen_sound X c sp fp : ships X -> sound_format c (bundled_group c) (format_string X c sp fp) = true.
Proof.
  intros [lang S]. unfold format_string, read_entry.
  assert (Q : forall k, In k [B "LatinBusinessAddressFormat"; B "LatinAddressFormat"; B "BusinessAddressFormat"; B "AddressFormat"] ->
              forall v, fx_config X c k = Some v -> sound_format c (bundled_group c) v = true).
  { intros k I v H. rewrite S in H.
    - apply (config_sound lang c k v H). cbn [In] in I. destruct I as [<-|[<-|[<-|[<-|[]]]]]; cbn; tauto.
    - cbn [In] in I. destruct I as [<-|[<-|[<-|[<-|[]]]]]; discriminate. }
  assert (R : forall k d, In k [B "LatinBusinessAddressFormat"; B "LatinAddressFormat"; B "BusinessAddressFormat"; B "AddressFormat"] ->
              (d = [] \/ sound_format c (bundled_group c) d = true) ->
              let s := match fx_config X c k with Some v => v | None => d end in s = [] \/ sound_format c (bundled_group c) s = true).
  { intros k d I D s. unfold s. destruct (fx_config X c k) as [v|] eqn:F; [right; apply (Q k I v F)|exact D]. }
  assert (L : sound_format c (bundled_group c) (match fx_config X c (B "AddressFormat") with Some v => v | None => default_format end) = true).
  { destruct (fx_config X c (B "AddressFormat")) as [v|] eqn:F.
    - apply (Q (B "AddressFormat")); [cbn [In]; tauto|exact F].
    - destruct (group_cases c) as [E|(x & I & <- & E)]; [rewrite E; apply empty_sound|].
      exfalso. rewrite S in F by discriminate. unfold bundled_config in F.
      destruct (group_entry (bundled_group (B (fst x))) (in_language (B "AddressFormat") lang)); [discriminate|].
      pose proof (proj1 (forallb_forall _ _) all_sound x I) as G. unfold group_sound in G.
      apply andb_true_iff in G as [_ G]. rewrite E, F in G. discriminate. }
  assert (Step : forall s0 s1 : ustring, (s0 = [] \/ sound_format c (bundled_group c) s0 = true) ->
                 (s1 = [] \/ sound_format c (bundled_group c) s1 = true) ->
                 forall b : bool, let s := if isnil s0 && b then s1 else s0 in s = [] \/ sound_format c (bundled_group c) s = true).
  { intros s0 s1 H0 H1 b s. unfold s. destruct (isnil s0 && b); assumption. }
  assert (Fin : forall s0 : ustring, (s0 = [] \/ sound_format c (bundled_group c) s0 = true) ->
                sound_format c (bundled_group c) (if isnil s0 then match fx_config X c (B "AddressFormat") with Some v => v | None => default_format end else s0) = true).
  { intros s0 [->|H0]; [exact L|]. destruct s0; [exact L|exact H0]. }
  apply Fin. apply Step; [|apply R; [cbn [In]; tauto|left; reflexivity]].
  apply Step; [|apply R; [cbn [In]; tauto|left; reflexivity]].
  destruct (_ && _); [apply R; [cbn [In]; tauto|left; reflexivity]|left; reflexivity].
Qed.

(** entries without languages *)
Definition plain_keys (x : string * list (string * string)) : bool :=
  forallb (fun p => negb (existsb (N.eqb (hd 0 (B (fst p)))) [82; 85])
                    || leqb (B (fst p)) (B "Required") || leqb (B (fst p)) (B "Upper")) (snd x).
Lemma all_plain : forallb plain_keys bundled = true.
Proof. vm_compute. reflexivity. Qed.
Lemma plain_config lang c k : In k [B "Required"; B "Upper"] -> bundled_config lang c k = group_entry (bundled_group c) k.
Proof.
  intros K. unfold bundled_config. destruct (group_entry _ (in_language k lang)) as [w|] eqn:G; [|reflexivity].
  exfalso. destruct (group_cases c) as [E|(x & I & <- & E)]; [rewrite E in G; discriminate|].
  rewrite <- E in G. apply group_entry_in in G as (p & P & Q & _).
  pose proof (proj1 (forallb_forall _ _) all_plain x I) as S.
  pose proof (proj1 (forallb_forall _ _) S p P) as Z. cbv beta in Z. rewrite Q in Z.
  cbn [In] in K. destruct K as [<-|[<-|[]]]; cbn in Z; try discriminate;
    apply orb_true_iff in Z as [Z|Z]; try discriminate; apply leqb_eq in Z; discriminate.
Qed.
Lemma wants_entry X c k f : ships X -> In k [B "Required"; B "Upper"] ->
  wants (bundled_group c) k f = existsb (N.eqb (letter f)) (entry X c k).
Proof.
  intros [lang S] K. unfold wants, entry. rewrite S, (plain_config lang c k K); [reflexivity|].
  cbn [In] in K. destruct K as [<-|[<-|[]]]; discriminate.
Qed.

(** the parts of [sound_format] *)
Section Chosen.
  Variables (X : FmtExt) (a : address) (fp : formatpref).
  Hypothesis S : ships X.
  Let c := country_code X a.
  Let es := af_elements (format_for_address X a fp).
  Lemma chosen_parts :
    forallb (uses es) [fName; fOrg; fStreet] = true
    /\ existsb (leqb c) no_locality || uses es fLocality = true
    /\ forallb (fun f => negb (wants (bundled_group c) (B "Required") f) || uses es f) every_field = true
    /\ forallb (fun f => negb (wants (bundled_group c) (B "Upper") f) || (f =? fCountry) || uses es f) every_field = true
    /\ distinct (named_fields es) = true.
  Proof.
    unfold es, format_for_address, format_for_country. cbn [af_elements]. rewrite code_of.
    set (sp := match detect (fx_script X) a with O => Latin | _ => Local end).
    pose proof (chosen_sound X c sp fp S) as H. unfold sound_format in H. cbv zeta in H.
    apply andb_true_iff in H as [H H5]. apply andb_true_iff in H as [H H4].
    apply andb_true_iff in H as [H H3]. apply andb_true_iff in H as [H1 H2].
    split; [exact H1|split; [exact H2|split; [exact H3|split; [exact H4|exact H5]]]].
  Qed.
End Chosen.
Lemma distinct_nodup l : distinct l = true -> NoDup l.
Proof.
  induction l as [|x r IH]; intros H; [constructor|]. cbn in H. apply andb_true_iff in H as [H1 H2].
  constructor; [|apply IH, H2]. intros I. apply negb_true_iff in H1.
  assert (existsb (N.eqb x) r = true) by (apply existsb_exists; exists x; split; [exact I|apply N.eqb_refl]). congruence.
Qed.
