(** Property C88: the name that is shown. *)
From Verif Require Import Base BaseFacts QtText M_Addressee M_Name S_Name P_Types Prop_Name Prop_NameWords S_NameShown P_NameShown.
Open Scope list_scope.

(** Every text has one list of words. *)
Theorem C88_words : forall s, exists ws, word_list s ws /\ forall ws', word_list s ws' -> ws' = ws.
Proof.
  intros s. exists (words s). split; [apply words_word_list|]. intros ws' H. symmetry. apply word_list_words, H.
Qed.
Print Assumptions C88_words.

(** [assembledName]: the words of prefix, given name, additional names, family name and suffix, in this order, with one space
    between two of them, whatever white space there is in the parts. *)
Theorem C88_assembled : forall a ws, spoken a ws -> assembled_name a = join [cSP] ws.
Proof.
  intros a ws (p & g & d & f & s & H1 & H2 & H3 & H4 & H5 & ->). rewrite assembled_words.
  rewrite (word_list_words _ _ H1), (word_list_words _ _ H2), (word_list_words _ _ H3), (word_list_words _ _ H4), (word_list_words _ _ H5). reflexivity.
Qed.
Print Assumptions C88_assembled.
(** So these words can be read off the text, and two contacts have the same assembled name exactly if they have the same
    words. *)
Theorem C88_same : forall a b ws ws', spoken a ws -> spoken b ws' ->
  word_list (assembled_name a) ws /\ (assembled_name a = assembled_name b <-> ws = ws').
Proof.
  assert (K : forall a ws, spoken a ws -> words (assembled_name a) = ws).
  { intros a ws H. rewrite (C88_assembled a ws H). apply words_join. destruct H as (p & g & d & f & s & H1 & H2 & H3 & H4 & H5 & ->).
    rewrite !Forall_app. rewrite <- (word_list_words _ _ H1), <- (word_list_words _ _ H2), <- (word_list_words _ _ H3), <- (word_list_words _ _ H4), <- (word_list_words _ _ H5).
    repeat split; apply words_acc_words; constructor. }
  intros a b ws ws' H H'. split; [rewrite <- (K a ws H) at 1; apply words_word_list|]. split; intros E.
  - rewrite <- (K a ws H), <- (K b ws' H'), E. reflexivity.
  - rewrite (C88_assembled a ws H), (C88_assembled b ws' H'), E. reflexivity.
Qed.
Print Assumptions C88_same.

(** [realName]: the formatted name; without one the assembled name; if none of the parts has a word either, the name, then the
    organization.  It is empty only if all of them are. *)
Theorem C88_real : forall a ws, spoken a ws ->
  (a_formatted a <> [] -> real_name a = a_formatted a) /\
  (a_formatted a = [] -> ws <> [] -> real_name a = join [cSP] ws) /\
  (a_formatted a = [] -> ws = [] -> a_name a <> [] -> real_name a = a_name a) /\
  (a_formatted a = [] -> ws = [] -> a_name a = [] -> real_name a = organization a) /\
  (real_name a = [] <-> a_formatted a = [] /\ all_blank (a_prefix a) /\ all_blank (a_given a) /\ all_blank (a_additional a) /\
     all_blank (a_family a) /\ all_blank (a_suffix a) /\ a_name a = [] /\ organization a = []).
Proof.
  intros a ws H. pose proof (C88_assembled a ws H) as E.
  assert (N : ws <> [] -> join [cSP] ws <> []).
  { pose proof (proj1 (C88_same a a ws ws H H)) as W. rewrite E in W. intros Hn K. rewrite K in W. apply word_list_words in W. cbn in W. congruence. }
  assert (Z : ws = [] <-> all_blank (a_prefix a) /\ all_blank (a_given a) /\ all_blank (a_additional a) /\ all_blank (a_family a) /\ all_blank (a_suffix a)).
  { assert (Q : forall s l, word_list s l -> (l = [] <-> all_blank s)).
    { intros s l W. split; [intros ->; inversion W; assumption|]. intros B. rewrite <- (word_list_words _ _ W), <- (app_nil_r s), words_of_blanks by exact B. reflexivity. }
    destruct H as (p & g & d & f & s & H1 & H2 & H3 & H4 & H5 & ->).
    rewrite <- (Q _ _ H1), <- (Q _ _ H2), <- (Q _ _ H3), <- (Q _ _ H4), <- (Q _ _ H5).
    split; [|intros (-> & -> & -> & -> & ->); reflexivity]. intros K. repeat (apply app_eq_nil in K; destruct K as [-> K]). subst. auto. }
  unfold real_name. rewrite E. destruct (a_formatted a) as [|c t]; cbn [isnil negb].
  - split; [congruence|]. split; [intros _ Hw; specialize (N Hw); destruct (join [cSP] ws); [congruence|reflexivity]|].
    split; [intros _ -> Hn; cbn; destruct (a_name a); [congruence|reflexivity]|].
    split; [intros _ -> ->; reflexivity|]. destruct ws as [|w ws].
    + cbn [join isnil negb]. destruct (a_name a); cbn [isnil negb]; split.
      * intros K. pose proof (proj1 Z eq_refl). tauto.
      * tauto.
      * discriminate.
      * intros K. decompose [and] K. discriminate.
    + specialize (N ltac:(discriminate)). destruct (join [cSP] (w :: ws)) as [|x y] eqn:J; [congruence|]. cbn [isnil negb]. split; [discriminate|].
      intros K. assert (w :: ws = []) by (apply Z; tauto). discriminate.
  - split; [reflexivity|]. split; [discriminate|]. split; [discriminate|]. split; [discriminate|]. split; [discriminate|]. intros [K _]. discriminate.
Qed.
Print Assumptions C88_real.

(** [setNameFromString] and then [assembledName]: without a comma all the words come back in their order (if a single word is
    taken as family name); with one, those behind the comma come first, and then words before it. *)
Theorem C88_from_text : forall H s str a a' ws, name_text s str -> ~ In cCOMMA str -> nx_family H = true ->
  set_name_from_string H s a = Some a' -> word_list str ws -> assembled_name a' = join [cSP] ws.
Proof.
  intros H s str a a' ws T N F R W. destruct (C23_without_comma H s str a T N) as (x & R' & _ & _ & _ & K & _).
  rewrite R' in R. injection R as <-. rewrite assembled_spaced, (K F), <- words_spaced, (word_list_words _ _ W). reflexivity.
Qed.
Print Assumptions C88_from_text.
Theorem C88_from_comma : forall H s a a' p1 p2 w1 w2, name_text s (p1 ++ cCOMMA :: p2) -> ~ In cCOMMA p1 ->
  set_name_from_string H s a = Some a' -> word_list p1 w1 -> word_list p2 w2 ->
  exists lost kept, w1 = lost ++ kept /\ assembled_name a' = join [cSP] (w2 ++ kept) /\ (~ In cSP p1 -> lost = []).
Proof.
  intros H s a a' p1 p2 w1 w2 T N R W1 W2. destruct (C23_comma_words H s a a' p1 p2 T N R) as (_ & _ & _ & K & lost & L).
  exists (flat_map words lost), (flat_map words (spaced (a_family a') ++ spaced (a_suffix a'))).
  split; [rewrite <- flat_map_app, <- L, <- words_spaced; symmetry; apply word_list_words, W1|]. split.
  - rewrite assembled_spaced. f_equal. unfold name_words. rewrite <- (word_list_words _ _ W2), (words_spaced p2), <- K, <- !flat_map_app, <- !app_assoc. reflexivity.
  - intros H1. destruct (C85_comma H s a a' p1 p2 T N R) as (_ & _ & _ & l & f & x & E1 & E2 & _ & _ & _ & _ & _ & _ & E3 & _).
    assert (S1 : split cSP p1 = [p1]) by (rewrite <- (split_join cSP [p1]); [reflexivity|discriminate|constructor; [exact H1|constructor]]).
    rewrite S1 in E1. destruct l as [|y l]; [|destruct l, f; try discriminate; congruence]. destruct f as [|y f]; [congruence|].
    injection E1 as -> E1. symmetry in E1. apply app_eq_nil in E1. destruct E1 as [-> ->]. cbn [join] in E3. rewrite E3 in L.
    apply (f_equal (@length ustring)) in L. rewrite !app_length in L. destruct lost; [reflexivity|cbn in L; lia].
Qed.
Print Assumptions C88_from_comma.

(** A contact with blanks of all kinds in its name; texts with and without a comma. *)
Example C88_case :
  let a := put_suffix (B "Jr.") (put_family (B " van  Dyke") (put_given (B "Dick" ++ [160%N]) (put_prefix [9%N] (addressee_new (B "u"))))) in
  spoken a [B "Dick"; B "van"; B "Dyke"; B "Jr."] /\ assembled_name a = B "Dick van Dyke Jr." /\ real_name a = B "Dick van Dyke Jr." /\
  real_name (put_formatted (B "D. v. D.") a) = B "D. v. D." /\
  (exists b, set_name_from_string (ex_words true) (B "Dr.  Anna  Smith") ex_none = Some b /\ assembled_name b = B "Dr. Anna Smith") /\
  (exists b, set_name_from_string (ex_words true) (B "Smith, Anna B.") ex_none = Some b /\ assembled_name b = B "Anna B. Smith").
Proof.
  cbv zeta. split.
  { exists [], [B "Dick"], [], [B "van"; B "Dyke"], [B "Jr."]. repeat split; apply words_word_list. }
  split; [vm_compute; reflexivity|]. split; [vm_compute; reflexivity|]. split; [vm_compute; reflexivity|].
  split; eexists; (split; [vm_compute; reflexivity|vm_compute; reflexivity]).
Qed.
