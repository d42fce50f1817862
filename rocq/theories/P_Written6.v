(** Keys, sounds and pictures in a written card (C80). *)
From Coq Require Import Permutation.
From Verif Require Import Base BaseFacts QtText Utf8 Utf8Facts M_ParamMap M_VCard M_VCardText
  S_Escape P_Escape S_Fold P_Fold S_CardText P_CardText S_Card P_Assoc P_Card S_Parse P_Parse P_Parse2
  S_RoundTrip P_RoundTrip P_RoundTrip2 P_RoundTrip3 P_ReadBack P_Items P_Order
  M_Split S_Split P_Split M_Values M_Date M_Addressee M_VCardTool S_Contact P_Seen P_ReadFields P_Lines P_Contact P_Chunks
  P_Types P_Addr P_Contact2 P_Fields P_Fields2 S_Soft S_Order S_Coding S_Meaning S_Written P_Written P_Written2 P_Written3 S_DateText S_Date P_Date P_Values P_Fields4 P_Fields5 P_Four P_Own P_Fields6 P_Fields7 S_Four P_Written4 P_Written5.
From Coq Require Import Lia ZArith.


Lemma b64_kept e b : is_bytes b = true -> add_escapes e (to_base64 b) = to_base64 b.
Proof.
  intros Hb. apply to_base64_chars in Hb. rewrite add_escapes_tok. revert Hb. generalize (to_base64 b). intros s. induction s as [|c s IH]; intros H; [reflexivity|].
  cbn [forallb flat_map] in *. apply andb_true_iff in H as [H1 H2]. rewrite IH by auto. unfold tok.
  destruct (N.eqb_spec c 92) as [->|_]; [discriminate H1|]. destruct (N.eqb_spec c 44) as [->|_]; [discriminate H1|].
  destruct (N.eqb_spec c 13) as [->|_]; [discriminate H1|]. destruct (N.eqb_spec c 10) as [->|_]; [discriminate H1|]. reflexivity.
Qed.
Lemma bytes_put E i kvs b : NoDup (map fst kvs) -> In (B "encoding", B "b") kvs -> Forall (fun kv => kv = (B "encoding", B "b") \/ plain_item kv) kvs -> is_bytes b = true ->
  put_of E (add_all kvs (vline_new i (QBytes b))) = mkSaid i (map iput (items_of (read_params kvs))) (to_base64 b).
Proof.
  intros Hn Hin Hp Hb. unfold vline_new. rewrite add_all_new. unfold put_of. cbn [vl_value vl_id vl_params]. f_equal.
  rewrite Forall_forall in Hp. unfold value_text, vl_parameter, vl_parameters. cbn [vl_params vl_value vl_id].
  assert (He : find_param (B "encoding") (read_params kvs) = Some [B "b"]) by (apply read_params_some; auto).
  assert (Hc : find_param (B "charset") (read_params kvs) = None).
  { apply read_params_none. intros H. apply in_map_iff in H as (x & Hx & Hx'). destruct (Hp x Hx') as [->|(_ & _ & Hq & _)]; [discriminate|]. auto. }
  rewrite He, Hc. cbn [isnil negb]. unfold vl_param_list. cbn [vl_params]. rewrite (find_some_contains _ _ _ He). cbn. apply b64_kept. exact Hb.
Qed.
Lemma bytes_held E i kvs b : NoDup (map fst kvs) -> In (B "encoding", B "b") kvs -> Forall (fun kv => kv = (B "encoding", B "b") \/ plain_item kv) kvs -> is_bytes b = true ->
  let p := put_of E (add_all kvs (vline_new i (QBytes b))) in holds_data p b /\ forall kv, In kv kvs -> In (iput kv) (sd_params p).
Proof.
  intros Hn Hin Hp Hb. cbv zeta. rewrite bytes_put by auto. cbn [sd_params sd_text].
  assert (H : forall kv, In kv kvs -> In (iput kv) (map iput (items_of (read_params kvs)))) by (intros kv Hkv; apply in_map; eapply Permutation_in; [symmetry; apply items_perm; auto|exact Hkv]).
  split; [|exact H]. split; [|reflexivity]. exact (H _ Hin).
Qed.
Lemma uri_put E i u : In i known -> let l := vl_add_param (B "value") (B "URI") (text_line i u) in
  loud E l = not_empty u /\ sd_params (put_of E l) = [B "VALUE=URI"] /\ holds_text (put_of E l) u.
Proof.
  intros Hi. cbv zeta. change (vl_add_param (B "value") (B "URI") (text_line i u)) with (add_all [(B "value", B "URI")] (text_line i u)).
  assert (Hn : NoDup (map fst [(B "value", B "URI")])) by (apply nodup_b_spec; reflexivity).
  assert (Hp : Forall plain_item [(B "value", B "URI")]).
  { constructor; [|constructor]. apply upper_plain; [apply ikey_dec; reflexivity|discriminate|cbv; intuition discriminate|discriminate|discriminate|apply ivalue_dec; reflexivity]. }
  split; [apply text_loud; auto|]. split; [rewrite text_put by auto; reflexivity|apply text_held; auto].
Qed.

(** ** Keys *)
Definition key_value (k : key) : list N := if ke_isbin k then ke_bin k else ke_text k.
Lemma key_kv_plain v k : key_fits k -> plain_item (key_kv v k).
Proof.
  intros Hk. pose proof (key_kv_calm v k Hk) as [Ho _]. split; [exact Ho|]. unfold key_kv.
  destruct v; cbn [fst]; (split; [discriminate|]); (split; [discriminate|]); split; intros H; apply item_ops_keys in H; cbn [fst snd] in H; destruct H as [[_ H]|[_ H]]; discriminate.
Qed.
Lemma key_word v k : key_fits k -> snd (key_kv v k) <> [] -> iput (key_kv v k) = to_upper (fst (key_kv v k)) ++ 61%N :: snd (key_kv v k).
Proof.
  intros [_ Hk] Hn. unfold iput. rewrite (proj2 (isnil_false _) Hn). rewrite (latin1_of (snd (key_kv v k))).
  - unfold key_kv. destruct v; reflexivity.
  - unfold key_kv. destruct v; cbn [snd]; (destruct (ke_type k); [repeat constructor..|]); (eapply Forall_impl; [|apply (Hk eq_refl)]; cbn; intros; lia).
Qed.
Lemma put_keys T E v export a : fits T v a -> (v = V21 -> Forall (fun k => ke_isbin k = false) (a_keys a)) -> let ps := puts E (written (create_card T v export a)) in
  Forall2 (fun p k => (if ke_isbin k then holds_data p (ke_bin k) else holds_text p (ke_text k)) /\
             forall s, s <> [] -> s = (match v, ke_type k with V40, KX509 => B "application/x-x509-ca-cert" | V40, KPGP => B "application/pgp-keys" | _, KX509 => B "X509" | _, KPGP => B "PGP" | _, KCustom => ke_custom k end) ->
             In ((match v with V40 => B "MEDIATYPE=" | _ => B "TYPE=" end) ++ s) (sd_params p))
    (of_name "key" ps) (filter (fun k => not_empty (if ke_isbin k then ke_bin k else ke_text k)) (a_keys a)).
Proof.
  intros Hf H21 ps. unfold ps. rewrite (of_name_puts T E v export a "key" (B "KEY")); put_side; auto.
  change (flat_map (pick (B "KEY")) (chunks T v export a)) with (map (key_line v) (a_keys a) ++ []). rewrite app_nil_r.
  pose proof (fit_keys _ _ _ Hf) as Hk. rewrite Forall_forall in Hk. apply puts_map. intros k Hin. specialize (Hk k Hin). pose proof (key_kv_plain v k Hk) as Hpl. rewrite key_line_eq.
  assert (Hw : forall p, In (iput (key_kv v k)) (sd_params p) -> forall s, s <> [] -> s = (match v, ke_type k with V40, KX509 => B "application/x-x509-ca-cert" | V40, KPGP => B "application/pgp-keys" | _, KX509 => B "X509" | _, KPGP => B "PGP" | _, KCustom => ke_custom k end) ->
             In ((match v with V40 => B "MEDIATYPE=" | _ => B "TYPE=" end) ++ s) (sd_params p)).
  { intros p Hp s Hs Es. assert (Ek : snd (key_kv v k) = s) by (subst s; unfold key_kv; destruct v; reflexivity).
    rewrite key_word in Hp; [|exact Hk|rewrite Ek; exact Hs]. rewrite Ek in Hp. destruct v; exact Hp. }
  assert (Hn1 : NoDup (map fst [key_kv v k])) by (constructor; [intros []|constructor]).
  destruct (ke_isbin k) eqn:Eb.
  - assert (Hv : v <> V21) by (intros ->; specialize (H21 eq_refl); rewrite Forall_forall in H21; specialize (H21 k Hin); congruence).
    destruct Hk as [Hby _]. specialize (Hby Eb). destruct (ke_bin k) as [|c r] eqn:Ec.
    + cbn [isnil]. destruct (seen_silent E [key_kv v k] (B "KEY")) as [_ L]. cbv zeta in L. rewrite L. split; [reflexivity|discriminate].
    + cbn [isnil]. rewrite enc_param_all. change (add_all ?x (add_all ?y ?l)) with (add_all (y ++ x) l). set (b := c :: r) in *.
      replace (match v with V21 => (B "ENCODING", B "BASE64") | _ => (B "encoding", B "b") end) with (B "encoding", B "b") by (destruct v; [congruence|reflexivity..]).
      set (kvs := [(B "encoding", B "b")] ++ [key_kv v k]).
      assert (Hn : NoDup (map fst kvs)) by (unfold kvs, key_kv; destruct v; apply nodup_b_spec; reflexivity).
      assert (Hall : Forall (fun kv => kv = (B "encoding", B "b") \/ plain_item kv) kvs) by (constructor; [left; reflexivity|constructor; [right; exact Hpl|constructor]]).
      destruct (seen_bytes E (B "KEY") [] (B "KEY") kvs b (known_id (B "KEY") ltac:(in_known)) Hn (or_introl eq_refl) Hall Hby) as (_ & L & _). cbv zeta in L.
      split; [exact L|]. intros _. destruct (bytes_held E (B "KEY") kvs b Hn (or_introl eq_refl) Hall Hby) as [B1 B2]. cbv zeta in B1, B2.
      split; [exact B1|]. apply Hw. apply B2. right. left. reflexivity.
  - destruct (ke_text k) as [|c r] eqn:Ec; cbn [isnil].
    + destruct (seen_silent E [key_kv v k] (B "KEY")) as [_ L]. cbv zeta in L. rewrite L. split; [reflexivity|discriminate].
    + assert (Hp1 : Forall plain_item [key_kv v k]) by (constructor; [exact Hpl|constructor]).
      pose proof (text_loud E (B "KEY") [key_kv v k] (c :: r) ltac:(in_known) Hn1 Hp1) as L. split; [exact L|]. intros _. split; [apply text_held; auto|].
      apply Hw. rewrite text_put by auto. cbn [sd_params]. apply in_map. eapply Permutation_in; [symmetry; apply items_perm; exact Hn1|left; reflexivity].
Qed.

(** ** Sounds *)
Lemma put_sounds T E v export a : fits T v a -> (v = V21 -> Forall (fun x => so_intern x = false) (a_sound a :: a_xsounds a)) -> let ps := puts E (written (create_card T v export a)) in
  Forall2 (fun p x => if so_intern x then holds_data p (so_data x) else sd_params p = [B "VALUE=URI"] /\ holds_text p (so_url x))
    (of_name "sound" ps) (match v with V40 => [] | _ => filter (fun x => not_empty (if so_intern x then so_data x else so_url x)) (a_sound a :: a_xsounds a) end).
Proof.
  intros Hf H21 ps. unfold ps. rewrite (of_name_puts T E v export a "sound" (B "SOUND")); put_side; auto.
  change (flat_map (pick (B "SOUND")) (chunks T v export a)) with (when (negb (is40 v)) (map (sound_line v) (a_sound a :: a_xsounds a)) ++ []). rewrite app_nil_r.
  assert (H : v <> V40 -> Forall2 (fun p x => if so_intern x then holds_data p (so_data x) else sd_params p = [B "VALUE=URI"] /\ holds_text p (so_url x))
    (puts E (map (sound_line v) (a_sound a :: a_xsounds a))) (filter (fun x => not_empty (if so_intern x then so_data x else so_url x)) (a_sound a :: a_xsounds a))).
  2: { destruct v; cbn [is40 negb when]; [apply H; discriminate|apply H; discriminate|constructor]. }
  intros Hv. pose proof (fit_sounds _ _ _ Hf) as Hs. rewrite Forall_forall in Hs. apply puts_map. intros x Hin. specialize (Hs x Hin). unfold sound_line. destruct (so_intern x) eqn:Ei.
  - assert (Hv' : v <> V21) by (intros ->; specialize (H21 eq_refl); rewrite Forall_forall in H21; specialize (H21 x Hin); congruence).
    specialize (Hs Ei). destruct (so_data x) as [|c r] eqn:Ec.
    + cbn [isnil]. destruct (seen_silent E [] (B "SOUND")) as [_ L]. cbv zeta in L. cbn [add_all fold_left] in L. rewrite L. split; [reflexivity|discriminate].
    + cbn [isnil]. rewrite enc_param_all. set (b := c :: r) in *.
      replace (match v with V21 => (B "ENCODING", B "BASE64") | _ => (B "encoding", B "b") end) with (B "encoding", B "b") by (destruct v; [congruence|reflexivity..]).
      set (kvs := [(B "encoding", B "b")]). assert (Hn : NoDup (map fst kvs)) by (apply nodup_b_spec; reflexivity).
      assert (Hall : Forall (fun kv => kv = (B "encoding", B "b") \/ plain_item kv) kvs) by (constructor; [left; reflexivity|constructor]).
      destruct (seen_bytes E (B "SOUND") [] (B "SOUND") kvs b (known_id (B "SOUND") ltac:(in_known)) Hn (or_introl eq_refl) Hall Hs) as (_ & L & _). cbv zeta in L.
      split; [exact L|]. intros _. apply (bytes_held E (B "SOUND") kvs b Hn (or_introl eq_refl) Hall Hs).
  - destruct (so_url x) as [|c r] eqn:Ec; cbn [isnil].
    + destruct (seen_silent E [] (B "SOUND")) as [_ L]. cbv zeta in L. cbn [add_all fold_left] in L. rewrite L. split; [reflexivity|discriminate].
    + destruct (uri_put E (B "SOUND") (c :: r) ltac:(in_known)) as (L & U1 & U2). cbv zeta in *. split; [exact L|]. intros _. split; [exact U1|exact U2].
Qed.
