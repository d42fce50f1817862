(** C59: exporting what has been read gives the same text again.

    [round_trip T E v export l res] (S_Contact): writing [l] in version [v] and parsing
    the text gives [res].  [fits], [safe30], [safe21] (S_Contact, S_Whole) and
    [rest_in] (S_Stable) say which contacts are meant. *)
From Verif Require Import Base QtText Utf8 M_ParamMap M_VCard M_VCardText S_Escape S_Card S_Parse S_RoundTrip S_Split P_Split P_RoundTrip3
  M_Split M_Values M_Date S_Date M_Addressee M_VCardTool S_Contact S_Whole S_Orderly P_Orderly2 S_Stable P_Stable P_Stable2 P_ReadBack
  P_Lines P_Contact P_Contact2 P_ContactCase P_Whole Prop_Contact Prop_Contact2 Prop_Whole.

Lemma trip_orderly T E v export l res : fresh_ids T -> round_trip T E v export l res -> Forall (orderly (t_env T)) res.
Proof. intros HT [n Hn]. apply (parse_text_orderly T E n (create_text T E v export l) res HT). apply Hn. auto. Qed.
Lemma same_texts E T v export l res : Forall2 (fun a b => card_text E (create_card T v export a) = card_text E (create_card T v export b)) l res ->
  create_text T E v export res = create_text T E v export l.
Proof. intros H. unfold create_text, create_vcards. induction H as [|a b l res H _ IH]; [reflexivity|]. cbn [map flat_map]. rewrite H, IH. reflexivity. Qed.
Lemma trip_again E T v export l res : round_trip T E v export l res -> create_text T E v export res = create_text T E v export l ->
  round_trip T E v export res res.
Proof. intros [n Hn] H. exists n. intros fuel Hf. rewrite H. auto. Qed.
Lemma stable_in E T v export l res : v <> V40 -> Forall (fits T v) l -> fresh_ids T -> paths_replace T ->
  (forall a b, In a l -> reads_as E T v export a b ->
     kept v a b /\ Forall (fun e => text_safe (snd e) /\ snd e <> [] /\ custom_name (fst e)) (a_customs a) /\ rest_in T v a) ->
  round_trip T E v export l res -> create_text T E v export res = create_text T E v export l.
Proof.
  intros Hv Hf HT HP Hk Hr. apply same_texts. pose proof (trip_reads E T v export l res Hf Hr) as H2. pose proof (trip_orderly T E v export l res HT Hr) as Ho.
  clear Hr. revert Hf Hk Ho. induction H2 as [|a b l res Hab H2 IH]; intros Hf Hk Ho; constructor.
  - destruct (Hk a b (or_introl eq_refl) Hab) as (K1 & K2 & K3). apply written_agree.
    apply chunks_agree; auto; [apply Forall_inv in Hf; exact Hf|apply Forall_inv in Ho; apply o_params in Ho; exact Ho].
  - apply IH; [apply Forall_inv_tail in Hf; exact Hf|intros x y Hx; apply Hk; right; auto|apply Forall_inv_tail in Ho; exact Ho].
Qed.

Theorem C59_stable30 :
  forall (T : Tool) (E : Ext) (export : bool) (l : list addressee),
    Forall (fits T V30) l -> Forall (safe30 T) l -> Forall (rest_in T V30) l -> fresh_ids T -> paths_replace T ->
    exists res, round_trip T E V30 export l res /\ create_text T E V30 export res = create_text T E V30 export l /\
                round_trip T E V30 export res res.
Proof.
  intros T E export l Hf Hs Hrest HT HP. destruct (trip_exists E T V30 export l Hf) as (res & Hr & _). exists res. split; [exact Hr|].
  assert (Ht : create_text T E V30 export res = create_text T E V30 export l); [|split; [exact Ht|exact (trip_again _ _ _ _ _ _ Hr Ht)]].
  eapply stable_in; [discriminate|exact Hf|exact HT|exact HP| |exact Hr]. intros a b Hin Hab. rewrite Forall_forall in Hs, Hf, Hrest. split; [|split].
  - apply kept30. apply (whole30 E T export a b); auto.
  - apply (s_customs _ _ (Hs a Hin)).
  - auto.
Qed.
Print Assumptions C59_stable30.
Theorem C59_stable21 :
  forall (T : Tool) (E : Ext) (export : bool) (l : list addressee),
    Forall (fits T V21) l -> Forall (safe21 T) l -> Forall (rest_in T V21) l -> fresh_ids T -> paths_replace T ->
    exists res, round_trip T E V21 export l res /\ create_text T E V21 export res = create_text T E V21 export l /\
                round_trip T E V21 export res res.
Proof.
  intros T E export l Hf Hs Hrest HT HP. destruct (trip_exists E T V21 export l Hf) as (res & Hr & _). exists res. split; [exact Hr|].
  assert (Ht : create_text T E V21 export res = create_text T E V21 export l); [|split; [exact Ht|exact (trip_again _ _ _ _ _ _ Hr Ht)]].
  eapply stable_in; [discriminate|exact Hf|exact HT|exact HP| |exact Hr]. intros a b Hin Hab. rewrite Forall_forall in Hs, Hf, Hrest. split; [|split].
  - apply kept21. apply (whole21 E T export a b); auto.
  - destruct (Hs a Hin) as (Ha & _). destruct (w_customs _ _ _ Ha) as (_ & H & _). exact H.
  - auto.
Qed.
Print Assumptions C59_stable21.

(** two preferred e-mail addresses swap their places each time: the text never settles *)
Theorem C59_preferred_refuted :
  forall E : Ext, exists a b, fits exT V30 a /\ fits exT V30 b /\ round_trip exT E V30 false [a] [b] /\ round_trip exT E V30 false [b] [a] /\
    create_text exT E V30 false [b] <> create_text exT E V30 false [a].
Proof.
  intros E. set (c := put_emails [mkEmail [(B "type", [B "PREF"])] (B "a@b"); mkEmail [(B "type", [B "PREF"])] (B "c@d")] (addressee_new (B "u"))).
  let r := eval cbv in (read_cards exT 0 (map (fun a => reread_card E (create_card exT V30 false a)) [c])) in
  match r with Some [?b] =>
    let r' := eval cbv in (read_cards exT 0 (map (fun a => reread_card E (create_card exT V30 false a)) [b])) in
    match r' with Some [?a] => exists a, b; set (b' := b); set (a' := a) end
  end.
  assert (Ha : fits exT V30 a') by (apply fits_spec; vm_compute; reflexivity). assert (Hb : fits exT V30 b') by (apply fits_spec; vm_compute; reflexivity).
  split; [exact Ha|]. split; [exact Hb|]. split; [apply trip_at; [constructor; [exact Ha|constructor]|cbv; reflexivity]|].
  split; [apply trip_at; [constructor; [exact Hb|constructor]|cbv; reflexivity]|]. vm_compute. discriminate.
Qed.
Print Assumptions C59_preferred_refuted.
(** a contact with a value in every property that version 3.0 writes *)
Definition ex_stable : addressee :=
  put_keys [ex_key; mkKey (B "k2") [] (B "a,b;c") [] KPGP false] (put_photo ex_photo (put_xphotos [mkPicture (B "http://p/1;2") [] None [] false; picture_new]
  (put_logo (mkPicture (B "http://l") [] None [] false) (put_sound ex_sound (put_geo (geo_of (Fin (QArith_base.Qmake 3 2)) (Fin (QArith_base.Qmake 3 2)))
  (put_sources [B "http://s"; []] (put_related [mkPtext [(B "type", [B "friend"])] (B "x;y"); mkPtext [] []]
  (put_fgroups [mkFgroup [] (B "item2.X-AB") (B "v,1"); mkFgroup [] (B "item1.X-AB") (B "w")]
  (put_impps [mkImpp [(B "type", [B "home"]); (B "x-service-type", [B "skype"])] (B "skype:me")] ex_contact2))))))))).
Example C59_case : fits exT V30 ex_stable /\ safe30 exT ex_stable /\ rest_in exT V30 ex_stable.
Proof.
  split; [apply fits_spec; vm_compute; reflexivity|]. split.
  - constructor.
    all: show ex_stable.
    + repeat (apply Forall_cons; [apply text_safe_spec; reflexivity|]). apply Forall_nil.
    + discriminate.
    + apply parts_b; reflexivity.
    + repeat (apply Forall_cons; [split; [apply text_safe_spec; reflexivity|discriminate]|]). apply Forall_nil.
    + repeat (apply Forall_cons; [split; [apply text_safe_spec; reflexivity|discriminate]|]). apply Forall_nil.
    + repeat (apply Forall_cons; [split; [apply text_safe_spec; reflexivity|discriminate]|]). apply Forall_nil.
    + split; [apply parts_b; reflexivity|discriminate].
    + repeat (apply Forall_cons; [split; [discriminate|split; [apply parts_b; reflexivity|cbv; intuition discriminate]]|]). apply Forall_nil.
    + discriminate.
    + right. exists (mkDate 1970 2 28). split; [reflexivity|]. split; [left; cbn; lia|reflexivity].
    + right. exists (mkDate 2024 2 29), (mkTime 23 59 58 0), TUtc. split; [reflexivity|]. split; [split; [left; cbn; lia|reflexivity]|]. split; [cbv; intuition discriminate|exact I].
    + reflexivity.
    + repeat (apply Forall_cons; [split; [apply text_safe_spec; reflexivity|split; [discriminate|split; reflexivity]]|]). apply Forall_nil.
    + split; [repeat (apply Forall_cons; [split; [apply text_safe_spec; reflexivity|discriminate]|]); apply Forall_nil|]. split.
      * repeat constructor; cbv; intuition discriminate.
      * repeat constructor.
    + repeat (apply Forall_cons; [split; [apply text_safe_spec; reflexivity|split; [reflexivity|split; [discriminate|split; [reflexivity|discriminate]]]]|]). apply Forall_nil.
    + split; [|exact ex_labels]. repeat (apply Forall_cons; [split; [apply parts_b; reflexivity|split; [reflexivity|split; [apply text_safe_spec; reflexivity|reflexivity]]]|]). apply Forall_nil.
    + split; [apply increasing_b_spec; reflexivity|exact ex_customs].
  - constructor; show ex_stable.
    + split; [split; each ltac:(cbv; intuition discriminate)|]. intros _. repeat split.
    + each ltac:(split; [split; [try discriminate; intros _; apply text_safe_spec; reflexivity|try discriminate; intros _; cbv; intuition discriminate]|discriminate]).
    + each ltac:(split; [first [apply text_safe_spec; reflexivity|cbv; intuition discriminate]|discriminate]).
    + each ltac:(split; [first [apply text_safe_spec; reflexivity|cbv; intuition discriminate]|discriminate]).
    + each ltac:(split; [intros H; first [discriminate H|apply text_safe_spec; reflexivity]|discriminate]).
    + each ltac:(split; [apply text_safe_spec; reflexivity|reflexivity]).
    + split; [each ltac:(apply text_safe_spec; reflexivity)|]. repeat constructor; cbv; intuition discriminate.
    + split; [each ltac:(apply text_safe_spec; reflexivity)|]. repeat constructor; cbv; intuition discriminate.
    + each ltac:(split; [apply text_safe_spec; reflexivity|split; reflexivity]).
Qed.
(** the contact of [C44_case21] with a key and a sound that version 2.1 can hold *)
Definition with_text (k : list key) (s : sound) (a : addressee) : addressee := put_keys k (put_sound s a).
Lemma with_text_safe T k s a : safe21 T a -> safe21 T (with_text k s a).
Proof. intros [[] H]. split; [constructor; assumption|exact H]. Qed.
Example C59_case21 : let a := with_text [key_of (B "k2") (B "a,b;c") KPGP] (mkSound (B "http://s;1") [] [] false) ex_old in
  fits exT V21 a /\ safe21 exT a /\ rest_in exT V21 a.
Proof.
  cbv zeta. split; [apply fits_spec; vm_compute; reflexivity|]. split; [apply with_text_safe; apply C44_case21|].
  set (a := with_text _ _ _). constructor; show a.
  + split; [split; each ltac:(cbv; intuition discriminate)|]. discriminate.
  + each ltac:(split; [split; [try discriminate; intros _; apply text_safe_spec; reflexivity|try discriminate; intros _; cbv; intuition discriminate]|reflexivity]).
  + each ltac:(split; [apply text_safe_spec; reflexivity|reflexivity]).
  + each ltac:(split; [apply text_safe_spec; reflexivity|reflexivity]).
  + each ltac:(split; [intros H; first [discriminate H|apply text_safe_spec; reflexivity]|reflexivity]).
  + each ltac:(split; [apply text_safe_spec; reflexivity|reflexivity]).
  + split; [each ltac:(apply text_safe_spec; reflexivity)|]. repeat constructor; cbv; intuition discriminate.
  + split; [each ltac:(apply text_safe_spec; reflexivity)|]. repeat constructor; cbv; intuition discriminate.
  + each ltac:(split; [apply text_safe_spec; reflexivity|split; reflexivity]).
Qed.
