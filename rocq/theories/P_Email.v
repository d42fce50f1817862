(** Proofs about [fullEmail] and [parseEmailAddress]. *)
From Verif Require Import Base BaseFacts Utf8 Utf8Facts S_Parse P_Parse2 M_Addressee M_Name S_Name.
Open Scope list_scope.
Open Scope N_scope.

(** ** A text and its encoding, side by side *)

Definition wide (l : list N) : Prop := Forall (fun c => 128 <= c) l.
Inductive enc : ustring -> bytes -> Prop :=
| enc_nil : enc [] []
| enc_ascii : forall c s b, c < 128 -> enc s b -> enc (c :: s) (c :: b)
| enc_multi : forall u x s b, u <> [] -> x <> [] -> wide u -> wide x -> enc s b -> enc (u ++ s) (x ++ b).

Lemma enc_to_utf8_aux : forall m s, (length s <= m)%nat -> valid_utf16 s = true -> enc s (to_utf8 s).
Proof.
  induction m as [|m IH]; intros s L V; (destruct s as [|c t]; [constructor|]); cbn [length] in L; [lia|].
  cbn [to_utf8 valid_utf16] in *. unfold enc1, enc2, enc3, enc4, is_surr.
  destruct (is_high c) eqn:Eh.
  - destruct t as [|d t]; [discriminate|]. apply andb_true_iff in V as [Hl V].
    unfold is_high in Eh. rewrite (proj2 (N.ltb_ge c 0x80)), (proj2 (N.ltb_ge c 0x800)) by lia.
    cbn [orb negb]. rewrite Hl. unfold is_low in Hl. cbn [length] in L.
    match goal with |- enc _ (?x ++ to_utf8 t) => apply (enc_multi [c; d] x) end;
      [discriminate|discriminate| | |apply IH; [lia|exact V]]; repeat constructor; lia.
  - rewrite !andb_true_iff, negb_true_iff in V. destruct V as [[Hl Hc] V]. rewrite Hl. cbn [orb negb].
    destruct (N.ltb_spec c 0x80); [|destruct (N.ltb_spec c 0x800)].
    + apply enc_ascii; [exact H|]. apply IH; [lia|exact V].
    + match goal with |- enc _ (?x ++ to_utf8 t) => apply (enc_multi [c] x) end;
        [discriminate|discriminate| | |apply IH; [lia|exact V]]; repeat constructor; lia.
    + match goal with |- enc _ (?x ++ to_utf8 t) => apply (enc_multi [c] x) end;
        [discriminate|discriminate| | |apply IH; [lia|exact V]]; repeat constructor; lia.
Qed.
Lemma enc_to_utf8 : forall s, valid_utf16 s = true -> enc s (to_utf8 s).
Proof. intros s. apply (enc_to_utf8_aux (length s)). lia. Qed.

Lemma to_utf8_app_aux : forall m s t, (length s <= m)%nat -> valid_utf16 s = true ->
  to_utf8 (s ++ t) = to_utf8 s ++ to_utf8 t /\ valid_utf16 (s ++ t) = valid_utf16 t.
Proof.
  induction m as [|m IH]; intros s t L V; (destruct s as [|c s]; [split; reflexivity|]); cbn [length] in L; [lia|].
  cbn [app to_utf8 valid_utf16] in *. unfold is_surr.
  destruct (is_high c) eqn:Eh.
  - destruct s as [|d s]; [discriminate|]. apply andb_true_iff in V as [Hl V]. cbn [length] in L.
    destruct (IH s t) as [I1 I2]; [lia|exact V|]. cbn [app]. rewrite Hl, I1, I2.
    unfold is_high in Eh. rewrite (proj2 (N.ltb_ge c 0x80)), (proj2 (N.ltb_ge c 0x800)) by lia.
    cbn [orb negb andb]. rewrite <- app_assoc. split; reflexivity.
  - rewrite !andb_true_iff, negb_true_iff in V. destruct V as [[Hl Hc] V]. rewrite Hl, Hc. cbn [orb negb andb].
    destruct (IH s t) as [I1 I2]; [lia|exact V|]. rewrite I1, I2.
    destruct (c <? 0x80), (c <? 0x800); rewrite <- app_assoc; split; reflexivity.
Qed.
Lemma to_utf8_app : forall s t, valid_utf16 s = true -> to_utf8 (s ++ t) = to_utf8 s ++ to_utf8 t.
Proof. intros s t V. apply (to_utf8_app_aux (length s)); auto. Qed.
Lemma valid_app : forall s t, valid_utf16 s = true -> valid_utf16 (s ++ t) = valid_utf16 t.
Proof. intros s t V. apply (to_utf8_app_aux (length s)); auto. Qed.

Definition ascii (l : list N) : Prop := Forall (fun c => c < 128) l.
Lemma ascii_utf8 : forall l, ascii l -> to_utf8 l = l /\ valid_utf16 l = true.
Proof.
  induction 1 as [|c l H _ IH]; [split; reflexivity|]. cbn [to_utf8 valid_utf16].
  rewrite (proj2 (N.ltb_lt c 0x80)) by exact H. destruct IH as [-> ->].
  unfold is_high, is_low, enc1. split; [reflexivity|]. replace (0xD800 <=? c) with false by lia.
  replace (0xDC00 <=? c) with false by lia. replace (c <? 65536) with true by lia. reflexivity.
Qed.
Lemma spaces_ascii : forall l, Forall (fun c => is_space c = true) l -> ascii l.
Proof.
  intros l H. unfold ascii. eapply Forall_impl; [|exact H]. cbn. intros c E. unfold is_space in E. lia.
Qed.
(** cutting ASCII off the end keeps a text well-formed *)
Lemma valid_prefix_aux : forall m s t, (length s <= m)%nat -> ascii t -> valid_utf16 (s ++ t) = true -> valid_utf16 s = true.
Proof.
  induction m as [|m IH]; intros s t L A V; (destruct s as [|c s]; [reflexivity|]); cbn [length] in L; [lia|].
  cbn [app valid_utf16] in *. destruct (is_high c).
  - destruct s as [|d s]; cbn [app] in V.
    + destruct t as [|d t]; [discriminate|]. apply andb_true_iff in V as [Hl _]. inversion A; subst.
      unfold is_low in Hl. lia.
    + apply andb_true_iff in V as [Hl V]. rewrite Hl. cbn [length] in L. cbn [andb]. apply (IH s t); auto. lia.
  - apply andb_true_iff in V as [Hl V]. rewrite Hl. cbn [andb]. apply (IH s t); auto. lia.
Qed.

Lemma wide_notin : forall u c, wide u -> c < 128 -> ~ In c u.
Proof. intros u c W L I. unfold wide in W. rewrite Forall_forall in W. apply W in I. lia. Qed.
Lemma enc_in : forall s b, enc s b -> forall c, c < 128 -> In c b -> In c s.
Proof.
  induction 1 as [|c s b L E IH|u x s b Nu Nx Wu Wx E IH]; intros d D I; auto.
  - destruct I as [->|I]; [left; reflexivity|right; auto].
  - rewrite in_app_iff in I. destruct I as [I|I].
    + exfalso. eapply wide_notin; eauto.
    + apply in_or_app. right. auto.
Qed.

(** ** Trimming *)

Lemma trim_left_split : forall s, exists sp, s = sp ++ trim_left s /\ Forall (fun c => is_space c = true) sp.
Proof.
  induction s as [|c s [sp [E F]]]; [exists []; split; [reflexivity|constructor]|].
  cbn [trim_left]. destruct (is_space c) eqn:K.
  - exists (c :: sp). cbn [app]. split; [f_equal; exact E|constructor; auto].
  - exists []. split; [reflexivity|constructor].
Qed.
Lemma trimmed_split : forall s, exists l r, s = l ++ trimmed s ++ r
  /\ Forall (fun c => is_space c = true) l /\ Forall (fun c => is_space c = true) r.
Proof.
  intros s. destruct (trim_left_split s) as [l [E F]].
  destruct (trim_left_split (rev (trim_left s))) as [r [E2 F2]].
  exists l, (rev r). split; [|split; [exact F|apply Forall_rev; exact F2]].
  rewrite E at 1. f_equal. unfold trimmed. rewrite <- rev_app_distr, <- E2, rev_involutive. reflexivity.
Qed.

(** no space at either end *)
Definition bare (s : list N) : Prop :=
  (forall c t, s = c :: t -> is_space c = false) /\ (forall t c, s = t ++ [c] -> is_space c = false).
Lemma trimmed_bare : forall s, bare (trimmed s).
Proof.
  intros s. unfold trimmed. set (u := trim_left s).
  assert (B2 : forall t c, rev (trim_left (rev u)) = t ++ [c] -> is_space c = false).
  { intros t c E. apply (f_equal (@rev N)) in E. rewrite rev_involutive, rev_app_distr in E. cbn in E.
    destruct (trim_left_cases (rev u)) as [Q|(d & v & Q & S)]; rewrite Q in E; [discriminate|].
    inversion E; subst. exact S. }
  split; [|exact B2].
  intros c t E. destruct (trim_left_split (rev u)) as [sp [E2 F]].
  assert (E3 : u = rev (trim_left (rev u)) ++ rev sp).
  { rewrite <- rev_app_distr, <- E2, rev_involutive. reflexivity. }
  rewrite E in E3. destruct (trim_left_cases s) as [Q|(d & v & Q & S)]; fold u in Q; rewrite Q in E3; [discriminate|].
  cbn [app] in E3. inversion E3; subst. exact S.
Qed.

Lemma trim_left_spaces : forall sp s, Forall (fun c => is_space c = true) sp -> trim_left (sp ++ s) = trim_left s.
Proof. induction 1; cbn [app trim_left]; [reflexivity|]. rewrite H. exact IHForall. Qed.
Lemma trimmed_around : forall l s r, Forall (fun c => is_space c = true) l -> Forall (fun c => is_space c = true) r ->
  bare s -> trimmed (l ++ s ++ r) = s.
Proof.
  intros l s r L R [B1 B2]. unfold trimmed. rewrite trim_left_spaces by exact L.
  destruct s as [|c s].
  - cbn [app]. rewrite <- (app_nil_r r), trim_left_spaces by exact R. reflexivity.
  - cbn [app trim_left]. rewrite (B1 c s eq_refl). change (c :: s ++ r) with ((c :: s) ++ r).
    rewrite rev_app_distr, trim_left_spaces by (apply Forall_rev; exact R).
    destruct (rev (c :: s)) as [|d v] eqn:E.
    + apply (f_equal (@rev N)) in E. rewrite rev_involutive in E. discriminate.
    + cbn [trim_left]. rewrite (B2 (rev v) d).
      * rewrite <- E, rev_involutive. reflexivity.
      * rewrite <- (rev_involutive (c :: s)), E. reflexivity.
Qed.

Lemma enc_app : forall s b t d, enc s b -> enc t d -> enc (s ++ t) (b ++ d).
Proof.
  induction 1; intros K; auto.
  - cbn [app]. constructor; auto.
  - rewrite <- !app_assoc. constructor; auto.
Qed.
Lemma wide_rev : forall u, wide u -> wide (rev u).
Proof. intros u. apply Forall_rev. Qed.
Lemma rev_nonnil : forall (A : Type) (u : list A), u <> [] -> rev u <> [].
Proof. intros A u H E. apply H. rewrite <- (rev_involutive u), E. reflexivity. Qed.
Lemma enc_rev : forall s b, enc s b -> enc (rev s) (rev b).
Proof.
  induction 1; [constructor| |].
  - cbn [rev]. apply enc_app; [exact IHenc|]. constructor; [exact H|constructor].
  - rewrite !rev_app_distr. apply enc_app; [exact IHenc|].
    rewrite <- (app_nil_r (rev u)), <- (app_nil_r (rev x)).
    constructor; auto using wide_rev, rev_nonnil. constructor.
Qed.
Lemma space_ascii : forall c, is_space c = true -> c < 128.
Proof. intros c E. unfold is_space in E. lia. Qed.
Lemma enc_head : forall s b c t, enc s b -> b = c :: t -> is_space c = true -> exists t', s = c :: t'.
Proof.
  intros s b c t E H S. destruct E as [|d s b L E|u x s b Nu Nx Wu Wx E]; [discriminate| |].
  - inversion H; subst. eauto.
  - destruct x as [|y x]; [congruence|]. inversion H; subst. apply space_ascii in S. inversion Wx; subst. lia.
Qed.
Lemma enc_bare : forall s b, enc s b -> bare s -> bare b.
Proof.
  intros s b E [B1 B2]. split.
  - intros c t H. destruct (is_space c) eqn:S; [|reflexivity].
    destruct (enc_head s b c t E H S) as [t' ->]. rewrite <- S. apply (B1 c t'). reflexivity.
  - intros t c H. destruct (is_space c) eqn:S; [|reflexivity].
    assert (R : rev b = c :: rev t) by (rewrite H, rev_app_distr; reflexivity).
    destruct (enc_head _ _ c (rev t) (enc_rev _ _ E) R S) as [t' Q].
    rewrite <- S. apply (B2 (rev t') c). rewrite <- (rev_involutive s), Q. reflexivity.
Qed.

(** ** The loop over runs of characters *)

Definition top_plain (c : N) : Prop := c <> 0 /\ c <> cBS /\ c <> cDQ /\ c <> 40 /\ c <> 60 /\ c <> cCOMMA.
Definition angle_plain (c : N) : Prop := c <> 0 /\ c <> cBS /\ c <> cDQ /\ c <> 62.

Lemma neqb : forall a b : N, a <> b -> (a =? b) = false.
Proof. intros a b. apply N.eqb_neq. Qed.

Lemma loop_top : forall b r q n d a m, Forall top_plain b ->
  email_loop (b ++ r) (mkE TopLevel q n d a m) = email_loop r (mkE TopLevel q n (d ++ b) a m).
Proof.
  induction b as [|c b IH]; intros r q n d a m F; [cbn [app]; rewrite app_nil_r; reflexivity|].
  inversion F as [|? ? [P0 [P1 [P2 [P3 [P4 P5]]]]] F']; subst. cbn [app email_loop es_context].
  rewrite !neqb by assumption. cbv beta iota delta [add_display es_context es_quoted es_level es_display es_addr es_comment]. rewrite IH by exact F'.
  rewrite <- app_assoc. reflexivity.
Qed.
Lemma loop_angle : forall b r n d a m, Forall angle_plain b ->
  email_loop (b ++ r) (mkE InAngle false n d a m) = email_loop r (mkE InAngle false n d (a ++ b) m).
Proof.
  induction b as [|c b IH]; intros r n d a m F; [cbn [app]; rewrite app_nil_r; reflexivity|].
  inversion F as [|? ? [P0 [P1 [P2 P3]]] F']; subst. cbn [app email_loop es_context].
  rewrite !neqb by assumption. cbv beta iota delta [add_addr es_context es_quoted es_level es_display es_addr es_comment]. rewrite IH by exact F'.
  rewrite <- app_assoc. reflexivity.
Qed.

(** quotes escaped, no open escape at the end; [e]: the character before was a backslash *)
Fixpoint qs (e : bool) (s : list N) : bool :=
  match s with
  | [] => negb e
  | c :: r => if e then qs false r else if c =? cBS then qs true r else negb (c =? cDQ) && qs false r
  end.

Lemma loop_quoted : forall k b r n d a m, (length b <= k)%nat -> qs false b = true -> ~ In 0 b ->
  email_loop (b ++ r) (mkE TopLevel true n d a m) = email_loop r (mkE TopLevel true n (d ++ b) a m).
Proof.
  induction k as [|k IH]; intros b r n d a m L Q Z; (destruct b as [|c b]; [cbn [app]; rewrite app_nil_r; reflexivity|]);
    cbn [length] in L; [lia|].
  assert (C0 : (c =? 0) = false) by (apply neqb; intros ->; apply Z; left; reflexivity).
  cbn [app email_loop es_context]. rewrite C0. cbn [qs] in Q.
  destruct (c =? cBS) eqn:CB.
  - destruct b as [|x b]; [discriminate|].
    assert (X0 : (x =? 0) = false) by (apply neqb; intros ->; apply Z; right; left; reflexivity).
    cbn [app]. rewrite X0. cbn [qs] in Q. cbn [length] in L.
    unfold add_here. cbv beta iota delta [add_display es_context es_quoted es_level es_display es_addr es_comment].
    rewrite IH; [|lia|exact Q|intros I; apply Z; right; right; exact I].
    rewrite <- app_assoc. reflexivity.
  - apply andb_true_iff in Q as [Q1 Q2]. rewrite negb_true_iff in Q1. rewrite Q1. cbn [es_quoted].
    assert (ZZ : ~ In 0 b) by (intros I; apply Z; right; exact I).
    assert (G : email_loop (b ++ r) (add_display [c] (mkE TopLevel true n d a m))
                = email_loop r (mkE TopLevel true n (d ++ c :: b) a m)).
    { cbv beta iota delta [add_display es_context es_quoted es_level es_display es_addr es_comment].
      rewrite IH; [|lia|exact Q2|exact ZZ]. rewrite <- app_assoc. reflexivity. }
    destruct (c =? 40); [exact G|]. destruct (c =? 60); [exact G|]. destruct (c =? cCOMMA); exact G.
Qed.

Lemma qs_wide : forall u s e, u <> [] -> wide u -> qs e (u ++ s) = qs false s.
Proof.
  assert (K : forall u s, wide u -> qs false (u ++ s) = qs false s).
  { induction 1 as [|c u H _ IH]; [reflexivity|]. cbn [app qs].
    rewrite !neqb by (unfold cBS, cDQ; lia). exact IH. }
  intros u s e N W. destruct u as [|c u]; [congruence|]. destruct e; [|apply K; exact W].
  cbn [app qs]. inversion W; subst. apply K. assumption.
Qed.
Lemma enc_qs : forall s b, enc s b -> forall e, qs e b = qs e s.
Proof.
  induction 1; intros e; [reflexivity| |].
  - cbn [qs]. rewrite !IHenc. reflexivity.
  - rewrite !qs_wide by assumption. apply IHenc.
Qed.
Lemma qs_closed : forall k s, (length s <= k)%nat -> ~ In cDQ s -> qs false s = bs_closed s.
Proof.
  induction k as [|k IH]; intros s L N; (destruct s as [|c s]; [reflexivity|]); cbn [length] in L; [lia|].
  cbn [qs bs_closed]. destruct (c =? cBS).
  - destruct s as [|x s]; [reflexivity|]. cbn [length] in L. cbn [qs]. apply IH; [lia|].
    intros I; apply N; right; right; exact I.
  - rewrite (neqb c cDQ) by (intros ->; apply N; left; reflexivity). cbn [negb andb].
    apply IH; [lia|]. intros I; apply N; right; exact I.
Qed.
Lemma qs_replace : forall s, ~ In cBS s -> qs false (replace_ch cDQ [cBS; cDQ] s) = true.
Proof.
  induction s as [|c s IH]; intros N; [reflexivity|]. unfold replace_ch. cbn [flat_map]. fold (replace_ch cDQ [cBS; cDQ] s).
  assert (NS : ~ In cBS s) by (intros I; apply N; right; exact I).
  destruct (c =? cDQ) eqn:D.
  - cbn [app qs]. apply IH; exact NS.
  - cbn [app qs]. rewrite (neqb c cBS) by (intros ->; apply N; left; reflexivity). rewrite D. apply IH; exact NS.
Qed.
Lemma replace_none : forall (c : N) r s, ~ In c s -> replace_ch c r s = s.
Proof.
  induction s as [|x s IH]; intros N; [reflexivity|]. unfold replace_ch. cbn [flat_map].
  rewrite (neqb x c) by (intros ->; apply N; left; reflexivity). cbn [app]. f_equal. apply IH.
  intros I; apply N; right; exact I.
Qed.
Lemma valid_replace : forall k s, (length s <= k)%nat -> valid_utf16 s = true -> valid_utf16 (replace_ch cDQ [cBS; cDQ] s) = true.
Proof.
  induction k as [|k IH]; intros s L V; (destruct s as [|c s]; [reflexivity|]); cbn [length] in L; [lia|].
  cbn [valid_utf16] in V. unfold replace_ch. cbn [flat_map]. fold (replace_ch cDQ [cBS; cDQ] s).
  destruct (is_high c) eqn:Hc.
  - destruct s as [|d s]; [discriminate|]. apply andb_true_iff in V as [Hl V]. cbn [length] in L.
    unfold is_high in Hc. rewrite (neqb c cDQ) by (unfold cDQ; lia). unfold replace_ch. cbn [flat_map].
    fold (replace_ch cDQ [cBS; cDQ] s). unfold is_low in Hl. rewrite (neqb d cDQ) by (unfold cDQ; lia).
    cbn [app valid_utf16]. unfold is_high, is_low. rewrite Hc, Hl. cbn [andb]. apply IH; [lia|exact V].
  - apply andb_true_iff in V as [V1 V]. destruct (c =? cDQ) eqn:D.
    + cbn [app]. change (valid_utf16 ([cBS; cDQ] ++ replace_ch cDQ [cBS; cDQ] s) = true).
      rewrite valid_app by reflexivity. apply IH; [lia|exact V].
    + cbn [app valid_utf16]. rewrite Hc, V1. cbn [andb]. apply IH; [lia|exact V].
Qed.
Lemma in_replace : forall s x, In x (replace_ch cDQ [cBS; cDQ] s) -> In x s \/ x = cBS \/ x = cDQ.
Proof.
  intros s x I. unfold replace_ch in I. apply in_flat_map in I as [y [I1 I2]].
  destruct (y =? cDQ); cbn in I2.
  - destruct I2 as [<-|[<-|[]]]; auto.
  - destruct I2 as [<-|[]]; auto.
Qed.

(** ** The two functions together *)

Lemma plain_utf8 : forall s (P : N -> Prop), valid_utf16 s = true ->
  (forall c, 128 <= c -> P c) -> Forall P s -> Forall P (to_utf8 s).
Proof.
  intros s P V W F. apply Forall_forall. intros c I. destruct (N.lt_ge_cases c 128) as [L|G].
  - rewrite Forall_forall in F. apply F. eapply enc_in; eauto using enc_to_utf8.
  - apply W. exact G.
Qed.

Lemma plain_address_bytes : forall e, plain_address e ->
  Forall angle_plain (to_utf8 e) /\ Forall top_plain (to_utf8 e) /\ bare (to_utf8 e) /\ to_utf8 e <> []
  /\ from_utf8 (to_utf8 e) = e.
Proof.
  intros e [N [T [TR [P0 [P1 [P2 [P3 [P4 [P5 P6]]]]]]]]].
  assert (V : valid_utf16 e = true) by (unfold text_ok in T; apply andb_true_iff in T; tauto).
  repeat split.
  - apply plain_utf8; [exact V| |].
    + intros c L. unfold angle_plain, cBS, cDQ. lia.
    + apply Forall_forall. intros c I. unfold angle_plain. repeat split; intros ->; auto.
  - apply plain_utf8; [exact V| |].
    + intros c L. unfold top_plain, cBS, cDQ, cCOMMA. lia.
    + apply Forall_forall. intros c I. unfold top_plain. repeat split; intros ->; auto.
  - apply (enc_bare e); [apply enc_to_utf8; exact V|]. rewrite <- TR. apply trimmed_bare.
  - apply (enc_bare e); [apply enc_to_utf8; exact V|]. rewrite <- TR. apply trimmed_bare.
  - pose proof (enc_to_utf8 e V) as E. intros Q. rewrite Q in E. inversion E; [congruence|].
    destruct x; [congruence|discriminate].
  - apply utf8_roundtrip. exact T.
Qed.

Lemma trimmed_of_bare : forall s, bare s -> trimmed s = s.
Proof.
  intros s B. rewrite <- (app_nil_r s) at 1. apply (trimmed_around [] s []); [constructor|constructor|exact B].
Qed.

Lemma loop_end_angle : forall n d a m, email_loop [62] (mkE InAngle false n d a m) = mkE TopLevel false n d a m.
Proof. reflexivity. Qed.

Lemma loop_close : forall x d, email_loop ([cDQ; cSP; 60] ++ x) (mkE TopLevel true 0 d [] [])
  = email_loop x (mkE InAngle false 0 ((d ++ [cDQ]) ++ [cSP]) [] []).
Proof. reflexivity. Qed.

(** the quoted form *)
Lemma parse_quoted : forall lower m e, m <> [] -> valid_utf16 m = true -> qs false m = true -> ~ In 0 m -> plain_address e ->
  parse_email lower ([cDQ] ++ m ++ [cDQ; cSP; 60] ++ e ++ [62]) = (m, lower e).
Proof.
  intros lower m e Nm V Q Z PA. destruct (plain_address_bytes e PA) as [A1 [A2 [A3 [A4 A5]]]].
  assert (Ve : valid_utf16 e = true).
  { destruct PA as [_ [T _]]. unfold text_ok in T. apply andb_true_iff in T. tauto. }
  unfold parse_email. change (isnil ([cDQ] ++ m ++ [cDQ; cSP; 60] ++ e ++ [62])) with false. cbv iota.
  assert (U : to_utf8 ([cDQ] ++ m ++ [cDQ; cSP; 60] ++ e ++ [62]) = cDQ :: to_utf8 m ++ [cDQ; cSP; 60] ++ to_utf8 e ++ [62]).
  { rewrite (to_utf8_app [cDQ]) by reflexivity. rewrite (to_utf8_app m) by exact V.
    rewrite (to_utf8_app [cDQ; cSP; 60]) by reflexivity. rewrite (to_utf8_app e) by exact Ve. reflexivity. }
  rewrite U.
  assert (L : email_loop (cDQ :: to_utf8 m ++ [cDQ; cSP; 60] ++ to_utf8 e ++ [62]) estate_new
              = mkE TopLevel false 0 ([cDQ] ++ to_utf8 m ++ [cDQ; cSP]) (to_utf8 e) []).
  { transitivity (email_loop (to_utf8 m ++ [cDQ; cSP; 60] ++ to_utf8 e ++ [62]) (mkE TopLevel true 0 [cDQ] [] [])); [reflexivity|].
    rewrite (loop_quoted (length (to_utf8 m))); [| |rewrite (enc_qs m); [exact Q|apply enc_to_utf8; exact V]|].
    - transitivity (email_loop (to_utf8 e ++ [62]) (mkE InAngle false 0 (([cDQ] ++ to_utf8 m) ++ [cDQ; cSP]) [] [])).
      + rewrite loop_close, <- (app_assoc _ [cDQ] [cSP]). reflexivity.
      + rewrite loop_angle by exact A1. rewrite loop_end_angle. rewrite <- app_assoc. reflexivity.
    - apply Nat.le_refl.
    - intros I. apply Z. eapply enc_in; [apply enc_to_utf8; exact V|lia|exact I]. }
  rewrite L. cbv zeta. cbn [es_display es_addr es_comment es_quoted es_context].
  assert (TD : trimmed ([cDQ] ++ to_utf8 m ++ [cDQ; cSP]) = to_utf8 ([cDQ] ++ m ++ [cDQ])).
  { rewrite (to_utf8_app [cDQ]) by reflexivity. rewrite (to_utf8_app m) by exact V. 
    change (to_utf8 [cDQ]) with [cDQ].
    replace ([cDQ] ++ to_utf8 m ++ [cDQ; cSP]) with ([] ++ ([cDQ] ++ to_utf8 m ++ [cDQ]) ++ [cSP])
      by (cbn [app]; rewrite <- app_assoc; reflexivity).
    apply trimmed_around; [constructor|repeat constructor|]. split.
    - intros c t H. inversion H; reflexivity.
    - intros t c H. rewrite app_assoc in H. apply app_inj_tail in H as [_ <-]. reflexivity. }
  rewrite TD.
  assert (TOK : text_ok ([cDQ] ++ m ++ [cDQ]) = true).
  { unfold text_ok. rewrite (valid_app [cDQ]) by reflexivity. rewrite (valid_app m) by exact V. reflexivity. }
  rewrite (utf8_roundtrip _ TOK). rewrite (trimmed_of_bare (to_utf8 e)) by exact A3.
  assert (IE : isnil (to_utf8 e) = false) by (destruct (to_utf8 e); [congruence|reflexivity]).
  rewrite IE. cbn [andb]. rewrite A5. f_equal. unfold strip_quotes.
  assert (LN : (length ([cDQ] ++ m ++ [cDQ]) = length m + 2)%nat) by (rewrite !app_length; cbn; lia).
  assert (LM : (1 <= length m)%nat) by (destruct m; [congruence|cbn; lia]).
  rewrite LN. destruct (Nat.ltb_spec (length m + 2) 3) as [K|_]; [lia|].
  replace (starts_with [cDQ] ([cDQ] ++ m ++ [cDQ])) with true by reflexivity.
  assert (EW : ends_with [cDQ] ([cDQ] ++ m ++ [cDQ]) = true) by (apply ends_with_1; exists ([cDQ] ++ m); rewrite app_assoc; reflexivity).
  rewrite EW. cbn [andb]. unfold mid_len. cbn [app skipn].
  replace (length m + 2 - 2)%nat with (length m) by lia.
  rewrite firstn_app, firstn_all, Nat.sub_diag. cbn [firstn]. apply app_nil_r.
Qed.

(** the form without quotes *)
Lemma parse_unquoted : forall lower n e, Forall top_plain n -> n <> [] -> valid_utf16 n = true -> no_bom (trimmed n) = true ->
  plain_address e -> parse_email lower (n ++ [cSP; 60] ++ e ++ [62]) = (trimmed n, lower e).
Proof.
  intros lower n e Pn Nn V NB PA. destruct (plain_address_bytes e PA) as [A1 [A2 [A3 [A4 A5]]]].
  assert (Ve : valid_utf16 e = true).
  { destruct PA as [_ [T _]]. unfold text_ok in T. apply andb_true_iff in T. tauto. }
  unfold parse_email. assert (I0 : isnil (n ++ [cSP; 60] ++ e ++ [62]) = false) by (destruct n; [congruence|reflexivity]).
  rewrite I0.
  assert (U : to_utf8 (n ++ [cSP; 60] ++ e ++ [62]) = to_utf8 n ++ [cSP; 60] ++ to_utf8 e ++ [62]).
  { rewrite (to_utf8_app n) by exact V.
    rewrite (to_utf8_app [cSP; 60]) by reflexivity. rewrite (to_utf8_app e) by exact Ve. reflexivity. }
  rewrite U.
  assert (L : email_loop (to_utf8 n ++ [cSP; 60] ++ to_utf8 e ++ [62]) estate_new
              = mkE TopLevel false 0 (to_utf8 n ++ [cSP]) (to_utf8 e) []).
  { unfold estate_new. rewrite loop_top; [|apply plain_utf8; [exact V| |exact Pn]; intros c G; unfold top_plain, cBS, cDQ, cCOMMA; lia].
    transitivity (email_loop (to_utf8 e ++ [62]) (mkE InAngle false 0 (to_utf8 n ++ [cSP]) [] [])); [reflexivity|].
    rewrite loop_angle by exact A1. reflexivity. }
  rewrite L. cbv zeta. cbn [es_display es_addr es_comment es_quoted es_context].
  destruct (trimmed_split n) as [l [r [E [Fl Fr]]]].
  assert (Al : ascii l) by (apply spaces_ascii; exact Fl). assert (Ar : ascii r) by (apply spaces_ascii; exact Fr).
  assert (Vt : valid_utf16 (trimmed n) = true).
  { apply (valid_prefix_aux (length (trimmed n)) _ r); [lia|exact Ar|].
    rewrite <- (valid_app l); [rewrite <- E; exact V|apply ascii_utf8; exact Al]. }
  assert (Un : to_utf8 n = l ++ to_utf8 (trimmed n) ++ r).
  { rewrite E at 1. rewrite (to_utf8_app l) by (apply ascii_utf8; exact Al).
    rewrite (to_utf8_app (trimmed n)) by exact Vt.
    rewrite (proj1 (ascii_utf8 l Al)), (proj1 (ascii_utf8 r Ar)). reflexivity. }
  assert (TD : trimmed (to_utf8 n ++ [cSP]) = to_utf8 (trimmed n)).
  { rewrite Un, <- !app_assoc. apply trimmed_around; [exact Fl| |].
    - apply Forall_app. split; [exact Fr|repeat constructor].
    - apply (enc_bare (trimmed n)); [apply enc_to_utf8; exact Vt|apply trimmed_bare]. }
  rewrite TD.
  assert (TOK : text_ok (trimmed n) = true) by (unfold text_ok; rewrite Vt, NB; reflexivity).
  rewrite (utf8_roundtrip _ TOK). rewrite (trimmed_of_bare (to_utf8 e)) by exact A3.
  assert (IE : isnil (to_utf8 e) = false) by (destruct (to_utf8 e); [congruence|reflexivity]).
  rewrite IE. cbn [andb]. rewrite A5. f_equal. unfold strip_quotes.
  destruct (Nat.ltb (length (trimmed n)) 3); [reflexivity|].
  destruct (starts_with [cDQ] (trimmed n)) eqn:SW; [|reflexivity]. exfalso.
  destruct (trimmed n) as [|c t] eqn:T; [discriminate|]. cbn in SW. rewrite andb_true_r in SW. apply N.eqb_eq in SW. 
  rewrite Forall_forall in Pn. assert (I : In c n) by (rewrite E; apply in_or_app; right; left; reflexivity).
  destruct (Pn c I) as [_ [_ [K _]]]. apply K. symmetry. exact SW.
Qed.

(** the address alone *)
Lemma parse_alone : forall lower e, plain_address e -> parse_email lower e = ([], lower e).
Proof.
  intros lower e PA. destruct (plain_address_bytes e PA) as [A1 [A2 [A3 [A4 A5]]]].
  unfold parse_email. destruct e as [|c e0] eqn:Ee; [destruct PA; congruence|]. rewrite <- Ee in *.
  assert (I0 : isnil e = false) by (subst e; reflexivity). rewrite I0.
  assert (L : email_loop (to_utf8 e) estate_new = mkE TopLevel false 0 (to_utf8 e) [] []).
  { rewrite <- (app_nil_r (to_utf8 e)) at 1. unfold estate_new. rewrite loop_top by exact A2. reflexivity. }
  rewrite L. cbv zeta. cbn [es_display es_addr es_comment es_quoted es_context].
  rewrite (trimmed_of_bare (to_utf8 e)) by exact A3. rewrite A5.
  change (trimmed []) with (@nil N). cbn [isnil andb].
  destruct (to_utf8 e) as [|x b]; [congruence|]. reflexivity.
Qed.

Lemma unquoted_plain : forall n, need_quotes n = false -> valid_utf16 n = true -> Forall top_plain n.
Proof.
  intros n Q V. unfold need_quotes in Q. rewrite V in Q. cbn [andb] in Q. rewrite negb_false_iff in Q.
  rewrite forallb_forall in Q. apply Forall_forall. intros c I. apply Q in I. clear -I.
  unfold plain_char, is_digit, is_upper, is_lower in I. unfold top_plain, cBS, cDQ, cCOMMA.
  rewrite !orb_true_iff, !andb_true_iff, !N.leb_le, N.eqb_eq in I. lia.
Qed.
