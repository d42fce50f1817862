(** C83: contacts of version 2.1 whose texts need the quoted-printable coding. *)
From Verif Require Import Base BaseFacts QtText Utf8 Utf8Facts M_ParamMap M_VCard M_VCardText S_Escape S_Split S_Date S_Card S_RoundTrip P_RoundTrip3
  M_Split M_Values M_Date M_Addressee M_VCardTool S_Contact S_Whole P_Lines P_Contact P_Fields P_Contact2 P_ContactCase Prop_Contact Prop_Contact2 P_Whole Prop_Whole S_Whole21 P_Whole21.

Theorem C83_contact_any_script :
  forall (T : Tool) (E : Ext) (export : bool) (l : list addressee), Forall (fitting E T V21) l -> Forall (safe21 T) l -> fresh_ids T ->
    exists res, round_trip T E V21 export l res /\ Forall2 same21_coded l res.
Proof.
  intros T E export l Hf Hs HT. destruct (trip_exists_q E T V21 export l Hf) as (res & Hr & H2). exists res. split; [exact Hr|].
  rewrite Forall_forall in Hs, Hf. eapply Forall2_imp; [|exact H2]. intros a b Hin Hab. apply (whole_coded E T export a b); auto.
Qed.
Print Assumptions C83_contact_any_script.

(** ** A codec *)
(** RFC 2045 without soft line breaks; the texts are in UTF-8.  Everything is quoted
    but printable ASCII other than = and the backslash. *)
Definition hex_digit (n : N) : N := if (n <? 10)%N then (n + 48)%N else (n + 55)%N.
Definition digit_of (c : N) : N := if (c <? 58)%N then (c - 48)%N else (c - 55)%N.
Definition bare (c : N) : bool := (32 <=? c)%N && (c <=? 126)%N && negb (N.eqb c 61) && negb (N.eqb c 92).
Definition qp_out (s : bytes) : bytes := flat_map (fun c => if bare c then [c] else [61; hex_digit (c / 16); hex_digit (c mod 16)]%N) s.
Fixpoint qp_in (s : bytes) : bytes :=
  match s with
  | [] => []
  | c :: r => if N.eqb c 61 then match r with a :: b :: r' => (16 * digit_of a + digit_of b)%N :: qp_in r' | _ => r end else c :: qp_in r
  end.
Definition exP : Ext := {| qp_decode := qp_in; qp_encode := qp_out; charset_decode := fun _ => None; charset_encode := fun _ => None |}.

Lemma hex_back n : (n < 16)%N -> digit_of (hex_digit n) = n /\ hex_digit n <> 61%N /\ hex_digit n <> 92%N.
Proof.
  intros H. unfold hex_digit, digit_of. destruct (N.ltb_spec n 10).
  - destruct (N.ltb_spec (n + 48) 58); lia.
  - destruct (N.ltb_spec (n + 55) 58); lia.
Qed.
Lemma hex_parts c : (c < 256)%N -> (c / 16 < 16)%N /\ (c mod 16 < 16)%N.
Proof. intros H. split; [apply N.div_lt_upper_bound; lia|apply N.mod_lt; lia]. Qed.
Lemma qp_back s : is_bytes s = true -> qp_in (qp_out s) = s.
Proof.
  induction s as [|c s IH]; [reflexivity|]. unfold is_bytes in *. cbn [forallb]. rewrite andb_true_iff, N.ltb_lt. intros [Hc Hs].
  unfold qp_out. cbn [flat_map]. fold (qp_out s). destruct (bare c) eqn:Eb.
  - cbn [app qp_in]. unfold bare in Eb. rewrite !andb_true_iff, !negb_true_iff in Eb. destruct Eb as [[_ Eb] _]. rewrite Eb, IH by auto. reflexivity.
  - cbn [app qp_in]. rewrite N.eqb_refl. destruct (hex_parts c Hc) as [H1 H2]. destruct (hex_back _ H1) as [-> _]. destruct (hex_back _ H2) as [-> _].
    rewrite IH by auto. rewrite <- (N.div_mod c 16) by lia. reflexivity.
Qed.
Lemma qp_clean s : is_bytes s = true -> ~ In 92%N (qp_out s) /\ ~ (exists r, qp_out s = r ++ [61%N]).
Proof.
  intros Hb. unfold is_bytes in Hb. rewrite forallb_forall in Hb.
  assert (Hx : forall c, In c s -> bare c = true /\ c <> 61%N /\ c <> 92%N \/ bare c = false /\ (hex_digit (c / 16) <> 92 /\ hex_digit (c mod 16) <> 92 /\ hex_digit (c mod 16) <> 61)%N).
  { intros c Hc. specialize (Hb c Hc). rewrite N.ltb_lt in Hb. destruct (bare c) eqn:Eb; [left|right].
    - unfold bare in Eb. rewrite !andb_true_iff, !negb_true_iff, !N.eqb_neq in Eb. tauto.
    - destruct (hex_parts c Hb) as [H1 H2]. destruct (hex_back _ H1) as (_ & _ & H3). destruct (hex_back _ H2) as (_ & H4 & H5). auto. }
  clear Hb. split.
  - intros H. unfold qp_out in H. apply in_flat_map in H as (c & Hc & H). destruct (Hx c Hc) as [(Eb & H1 & H2)|(Eb & H1 & H2 & H3)]; rewrite Eb in H; cbn [In] in H; intuition congruence.
  - induction s as [|c s IH] using rev_ind; [intros [r H]; destruct r; discriminate|]. clear IH. intros [r H]. unfold qp_out in H. rewrite flat_map_app in H. cbn [flat_map] in H. rewrite app_nil_r in H.
    destruct (Hx c ltac:(apply in_or_app; right; left; auto)) as [(Eb & H1 & H2)|(Eb & H1 & H2 & H3)]; rewrite Eb in H.
    + apply app_inj_tail in H as [_ H]. auto.
    + change [61%N; hex_digit (c / 16); hex_digit (c mod 16)] with ([61%N; hex_digit (c / 16)] ++ [hex_digit (c mod 16)]) in H. rewrite app_assoc in H. apply app_inj_tail in H as [_ H]. auto.
Qed.
(** with it every text will do *)
Theorem C83_codec : forall s, text_ok s = true -> s <> [] -> quotable exP s.
Proof.
  intros s Hs Hn. assert (Hb : is_bytes (to_utf8 s) = true).
  { unfold text_ok in Hs. apply andb_true_iff in Hs as [Hs _]. apply (to_utf8_is_bytes (length s)); auto. }
  unfold quotable, read21, written21. cbn [exP charset_encode charset_decode qp_encode qp_decode]. rewrite qp_back by exact Hb.
  split; [apply utf8_roundtrip; exact Hs|]. destruct (qp_clean _ Hb) as [H1 H2]. split; [|split; [|exact H2]].
  - intros H. apply Hn. rewrite <- (utf8_roundtrip s Hs). apply (f_equal qp_in) in H. rewrite qp_back in H by exact Hb. rewrite H. reflexivity.
  - intros (p & r & c & H & _). apply H1. rewrite H. apply in_or_app. right. left. reflexivity.
Qed.
Print Assumptions C83_codec.

(** ** A contact in more than one script *)
Definition uJoerg : ustring := [74; 246; 114; 103]%N.
Definition uHan : ustring := [28450; 23383; 32; 55357; 56841]%N.   (* two characters of the plane 0 and one beyond *)
Definition ex_intl : addressee :=
  put_formatted (B "Dr. " ++ uJoerg) (put_given uJoerg (put_note (uHan ++ [10%N] ++ B "a=b; c, d")
  (put_titles [mkPtext [(B "x-lang", [B "zh"; B "de"])] uHan; mkPtext [] (B "Chef")]
  (put_roles [mkPtext [] uJoerg]
  (put_orgs [mkPtext [(B "type", [B "work"])] (B "KDE")] (put_department (B "K" ++ [246%N] ++ B "ln; Nord")
  (put_photo picture_new
  (put_emails [mkEmail [(B "type", [B "work"; B "PREF"; B "HOME"]); (B "x-k", [B "1"])] (B "a@b"); mkEmail [] (B "c@d")]
  (put_addresses [ad_set_locality (B "K" ++ [246%N] ++ B "ln") (ad_set_label uHan ex_address); ex_address2] ex_contact2))))))))).
Lemma codec_each l : forallb text_ok l = true -> Forall (fun s => needs_encoding s = true -> quotable exP s) l.
Proof.
  intros H. rewrite forallb_forall in H. apply Forall_forall. intros s Hs Hn. apply C83_codec; [apply H; exact Hs|]. intros ->. discriminate.
Qed.
Example C83_case : fitting exP exT V21 ex_intl /\ safe21 exT ex_intl /\
  map needs_encoding [a_formatted ex_intl; a_given ex_intl; a_note ex_intl; a_name ex_intl] = [true; true; true; false] /\
  map (fun t => needs_encoding (pt_text t)) (a_titles ex_intl) = [true; false] /\ map (fun o => needs_encoding (org_written ex_intl o)) (a_orgs ex_intl) = [true].
Proof.
  split; [|split; [|split; [vm_compute; reflexivity|split; vm_compute; reflexivity]]].
  - constructor.
    + eapply forallb_Forall; [apply plain_params_spec|vm_compute; reflexivity].
    + eapply forallb_Forall; [intros f; apply group_name_spec|vm_compute; reflexivity].
    + eapply forallb_Forall; [intros f; apply name_b_spec|vm_compute; reflexivity].
    + eapply forallb_Forall; [intros f; apply picture_fits_spec|vm_compute; reflexivity].
    + show ex_intl. show ex_contact2. each ltac:(intros H; vm_compute in H |- *; first [reflexivity|discriminate]).
    + show ex_intl. show ex_contact2. each ltac:(split; intros H; vm_compute in H |- *; try reflexivity; try discriminate; repeat constructor; lia || (cbn; intuition discriminate)).
    + discriminate.
    + intros _. split; [apply codec_each; vm_compute; reflexivity|]. show ex_intl. each ltac:(apply bare_types_spec; reflexivity).
  - split; [constructor|split; apply text_safe_spec; vm_compute; reflexivity].
    15: { assert (K : a_customs ex_intl = a_customs ex_contact2) by (vm_compute; reflexivity). rewrite K.
          split; [show ex_contact2; apply increasing_b_spec; reflexivity|]. split; [exact ex_customs|discriminate]. }
    all: show ex_intl.
    + each ltac:(apply text_safe_spec; reflexivity).
    + discriminate.
    + apply parts_b; reflexivity.
    + each ltac:(split; [apply text_safe_spec; reflexivity|discriminate]).
    + each ltac:(split; [apply text_safe_spec; reflexivity|discriminate]).
    + each ltac:(split; [discriminate|apply parts_b; reflexivity]).
    + discriminate.
    + right. exists (mkDate 1970 2 28). split; [reflexivity|]. split; [left; cbn; lia|reflexivity].
    + right. exists (mkDate 2024 2 29), (mkTime 23 59 58 0), TUtc. split; [reflexivity|]. split; [split; [left; cbn; lia|reflexivity]|]. split; [cbv; intuition discriminate|exact I].
    + reflexivity.
    + each ltac:(split; [apply text_safe_spec; reflexivity|split; [discriminate|split; reflexivity]]).
    + split; [each ltac:(split; [apply text_safe_spec; reflexivity|discriminate])|]. split.
      * repeat constructor; cbv; intuition discriminate.
      * repeat constructor.
    + each ltac:(split; [apply text_safe_spec; reflexivity|split; [reflexivity|split; [discriminate|split; [reflexivity|discriminate]]]]).
    + split; [each ltac:(split; [apply parts_b; reflexivity|split; [reflexivity|split; [intros _; apply text_safe_spec; reflexivity|reflexivity]]])|].
      intros _ l1 x l2 H _. destruct l1 as [|y [|z l1]]; injection H as; subst; [constructor| |destruct l1; discriminate].
      constructor; [cbv; discriminate|constructor].
Qed.

(** ** The kind of an e-mail address *)
(** The preference and the kinds of an address are not lost. *)
Theorem C83_email_kinds :
  forall e f : email, same_email e f -> em_mail f = em_mail e /\ email_preferred f = email_preferred e /\ email_type f = email_type e.
Proof. intros e f [H1 H2]. split; [exact H1|]. split; [exact (types_upper_preferred _ _ H2)|exact (types_upper_type _ _ H2)]. Qed.
Print Assumptions C83_email_kinds.
(** as the first address of the contact above *)
Example C83_email_case :
  let e := mkEmail [(B "type", [B "work"; B "PREF"; B "HOME"]); (B "x-k", [B "1"])] (B "a@b") in
  let f := email_out e in
  same_email e f /\ em_params f = [(B "type", [B "HOME"; B "PREF"; B "WORK"]); (B "x-k", [B "1"])] /\ email_preferred f = true /\ email_type f = 3%N.
Proof.
  cbv zeta. split; [|vm_compute; auto]. split; [reflexivity|]. apply email_out_types; [apply plain_params_spec; reflexivity|]. apply bare_types_spec; reflexivity.
Qed.

(** ** What does not come back *)
Lemma trip_one T E v export l res res' : round_trip T E v export l res -> round_trip T E v export l res' -> res = res'.
Proof.
  intros [n Hn] [m Hm]. specialize (Hn (n + m)%nat ltac:(lia)). specialize (Hm (n + m)%nat ltac:(lia)). rewrite Hm in Hn. injection Hn as ->. reflexivity.
Qed.
(** titles, roles and organisations come back with parameters they did not have *)
Theorem C83_equal_refuted :
  ~ (forall (T : Tool) (E : Ext) (export : bool) (l : list addressee), Forall (fitting E T V21) l -> Forall (safe21 T) l -> fresh_ids T ->
       exists res, round_trip T E V21 export l res /\ Forall2 (fun a b => a_titles b = a_titles a) l res).
Proof.
  intros H. destruct C83_case as (Hf & Hs & _). pose proof (Forall_cons _ Hf (Forall_nil _)) as Hf'. pose proof (Forall_cons _ Hs (Forall_nil _)) as Hs'.
  destruct (H exT exP false [ex_intl] Hf' Hs' ex_fresh) as (res & Hr & H1). destruct (C83_contact_any_script exT exP false [ex_intl] Hf' Hs' ex_fresh) as (res' & Hr' & H2).
  rewrite (trip_one _ _ _ _ _ _ _ Hr' Hr) in H2. inversion H1 as [|? b ? ? Ht _]; subst. inversion H2 as [|? ? ? ? Hk _]; subst.
  pose proof (k21_titles _ _ Hk) as Hx. rewrite Ht in Hx. revert Hx. show ex_intl. intros Hx. inversion Hx as [|? ? ? ? [_ Hy] _]; subst.
  match type of Hy with if ?c then _ else _ => assert (K : c = true) by (vm_compute; reflexivity); rewrite K in Hy end.
  destruct Hy as [_ Hy]. destruct (proj2 (Hy (B "charset") [B "UTF-8"]) (or_introl (conj eq_refl eq_refl))) as [Hz|[]]. discriminate Hz.
Qed.
Print Assumptions C83_equal_refuted.

(** They keep the announcement of that coding, and write it in every version: cards
    of version 3.0 and 4.0 get quoted-printable values, which these versions do not have. *)
Lemma Forall2_left {A C} (R : A -> C -> Prop) l m x : Forall2 R l m -> In x l -> exists y, In y m /\ R x y.
Proof. induction 1 as [|a b l m H1 H2 IH]; intros Hin; [destruct Hin|]. destruct Hin as [->|Hin]; [exists b; split; [left; auto|exact H1]|]. destruct (IH Hin) as (y & Hy & Hr). exists y. split; [right; auto|auto]. Qed.
Theorem C83_coding_stays :
  forall (T : Tool) (E : Ext) (export : bool) (l : list addressee), Forall (fitting E T V21) l -> Forall (safe21 T) l -> fresh_ids T ->
    exists res, round_trip T E V21 export l res /\
      Forall2 (fun a b => forall t, In t (a_titles a) -> needs_encoding (pt_text t) = true ->
        forall v export', v <> V21 ->
          exists line, In line (contact_lines T v export' b) /\ vl_id line = B "TITLE" /\ vl_value line = QStr (pt_text t) /\
            vl_parameter (B "encoding") line = B "QUOTED-PRINTABLE") l res.
Proof.
  intros T E export l Hf Hs HT. destruct (C83_contact_any_script T E export l Hf Hs HT) as (res & Hr & H). exists res. split; [exact Hr|].
  eapply Forall2_imp; [|exact H]. intros a b Hin Hk t Ht Hn v export' Hv. destruct (Forall2_left _ _ _ _ (k21_titles _ _ Hk) Ht) as (u & Hu & Hx & Hp).
  rewrite Hn in Hp. destruct Hp as [Hi Hp]. exists (vl_add_params (pt_params u) (text_line (B "TITLE") (pt_text u))).
  rewrite P_Seen.vl_add_params_all. unfold text_line, vline_new. rewrite P_Seen.add_all_new. cbn [vl_id vl_value]. split; [|split; [reflexivity|split; [rewrite Hx; reflexivity|]]].
  - rewrite P_Chunks.chunks_lines. apply in_flat_map. exists (P_Chunks.TId (B "TITLE"), map (fun t => vl_add_params (pt_params t) (line21 v (B "TITLE") (pt_text t))) (a_titles b)). split.
    + unfold P_Chunks.chunks. repeat (first [left; reflexivity|right]).
    + cbn [snd]. apply in_map_iff. exists u. split; [|exact Hu]. rewrite P_Seen.vl_add_params_all. unfold line21, encode21. destruct v; [congruence| |]; unfold text_line, vline_new; rewrite P_Seen.add_all_new; reflexivity.
  - unfold vl_parameter, vl_parameters. cbn [vl_params]. rewrite (P_Seen.read_params_some _ (B "QUOTED-PRINTABLE")); [reflexivity| |].
    + rewrite P_Seen.joined_keys. apply P_Card.increasing_NoDup. exact Hi.
    + unfold P_Seen.joined. apply in_map_iff. exists (B "encoding", [B "QUOTED-PRINTABLE"]). split; [reflexivity|]. apply Hp. auto.
Qed.
Print Assumptions C83_coding_stays.
(** the first title of the contact above is such a title *)
Example C83_stays_case : exists t, In t (a_titles ex_intl) /\ needs_encoding (pt_text t) = true.
Proof. exists (mkPtext [(B "x-lang", [B "zh"; B "de"])] uHan). split; [left; reflexivity|vm_compute; reflexivity]. Qed.
