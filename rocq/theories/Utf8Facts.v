(** Lemmas about UTF-8, Latin-1 and base64. *)
From Verif Require Import Base BaseFacts Utf8.
Local Open Scope N_scope.
Ltac Zify.zify_post_hook ::= Z.div_mod_to_equations.

(** ** Latin-1 *)
Lemma latin1_roundtrip s : is_latin1 s = true -> from_latin1 (to_latin1 s) = s.
Proof.
  unfold is_latin1, from_latin1, to_latin1; induction s as [|c s IH]; cbn; auto.
  rewrite andb_true_iff; intros [H1 H2]; rewrite H1, IH; auto.
Qed.

(** ** UTF-8 *)
Lemma dec1_enc1 c t : c < 128 -> dec1 (enc1 c ++ t) = Some ([c], t).
Proof. intros H; unfold enc1, dec1; cbn [app]. rewrite (proj2 (N.ltb_lt c 0x80)) by lia. auto. Qed.

Lemma dec1_enc2 c t : 128 <= c -> c < 0x800 -> dec1 (enc2 c ++ t) = Some ([c], t).
Proof.
  intros H1 H2; unfold enc2, dec1, is_cont; cbn [app].
  rewrite (proj2 (N.ltb_ge _ 0x80)) by lia.
  rewrite (proj2 (N.ltb_ge _ 0xC2)) by lia.
  rewrite (proj2 (N.ltb_lt _ 0xE0)) by lia.
  rewrite (proj2 (N.leb_le 0x80 _)) by lia.
  rewrite (proj2 (N.ltb_lt (0x80 + c mod 64) 0xC0)) by lia.
  cbn [andb]. repeat f_equal. lia.
Qed.

Lemma dec1_enc3 c t : 0x800 <= c -> c < 65536 -> is_surr c = false -> dec1 (enc3 c ++ t) = Some ([c], t).
Proof.
  intros H1 H2 Hs; unfold enc3, dec1, is_cont; cbn [app].
  rewrite (proj2 (N.ltb_ge _ 0x80)) by lia.
  rewrite (proj2 (N.ltb_ge _ 0xC2)) by lia.
  rewrite (proj2 (N.ltb_ge _ 0xE0)) by lia.
  rewrite (proj2 (N.ltb_lt _ 0xF0)) by lia.
  rewrite !(proj2 (N.leb_le 0x80 _)) by lia.
  rewrite (proj2 (N.ltb_lt (0x80 + c mod 64) 0xC0)) by lia.
  rewrite (proj2 (N.ltb_lt (0x80 + (c / 64) mod 64) 0xC0)) by lia.
  cbn [andb].
  replace ((0xE0 + c / 4096 - 0xE0) * 4096 + (0x80 + (c / 64) mod 64 - 0x80) * 64 + (0x80 + c mod 64 - 0x80)) with c by lia.
  rewrite Hs, (proj2 (N.ltb_ge c 0x800)) by lia. auto.
Qed.

Lemma dec1_enc4 h l t : is_high h = true -> is_low l = true ->
  dec1 (enc4 (surr_cp h l) ++ t) = Some ([h; l], t).
Proof.
  unfold is_high, is_low; intros Hh Hl.
  assert (Hh' : 0xD800 <= h < 0xDC00) by lia. assert (Hl' : 0xDC00 <= l < 0xE000) by lia.
  clear Hh Hl.
  remember (surr_cp h l) as u eqn:Eu. unfold surr_cp in Eu.
  assert (Hu : 0x10000 <= u <= 0x10FFFF) by lia.
  unfold enc4, dec1, is_cont; cbn [app].
  rewrite (proj2 (N.ltb_ge (_ + _) 0x80)) by lia.
  rewrite (proj2 (N.ltb_ge _ 0xC2)) by lia.
  rewrite (proj2 (N.ltb_ge _ 0xE0)) by lia.
  rewrite (proj2 (N.ltb_ge _ 0xF0)) by lia.
  rewrite (proj2 (N.ltb_lt _ 0xF5)) by lia.
  rewrite !(proj2 (N.leb_le 0x80 _)) by lia.
  rewrite (proj2 (N.ltb_lt (0x80 + u mod 64) 0xC0)) by lia.
  rewrite (proj2 (N.ltb_lt (0x80 + (u / 64) mod 64) 0xC0)) by lia.
  rewrite (proj2 (N.ltb_lt (0x80 + (u / 4096) mod 64) 0xC0)) by lia.
  cbn [andb].
  replace ((0xF0 + u / 262144 - 0xF0) * 262144 + (0x80 + (u / 4096) mod 64 - 0x80) * 4096 +
      (0x80 + (u / 64) mod 64 - 0x80) * 64 + (0x80 + u mod 64 - 0x80)) with u by lia.
  rewrite (proj2 (N.ltb_ge u 0x10000)), (proj2 (N.ltb_ge 0x10FFFF u)) by lia. cbn [orb].
  repeat f_equal; lia.
Qed.

Lemma utf8_loop_step n s us r : dec1 s = Some (us, r) -> utf8_loop (S n) s = us ++ utf8_loop n r.
Proof. destruct s; intros H; [discriminate|]. cbn [utf8_loop]. rewrite H. auto. Qed.

Lemma utf8_loop_roundtrip m : forall s n, (length s <= m)%nat ->
  valid_utf16 s = true -> (length (to_utf8 s) <= n)%nat -> utf8_loop n (to_utf8 s) = s.
Proof.
  induction m as [|m IH]; intros s n Hm Hv Hn.
  - destruct s; cbn in Hm; [|lia]. destruct n; auto.
  - destruct s as [|c t]; [destruct n; auto|].
    cbn [to_utf8] in *. cbn [valid_utf16] in Hv. cbn [length] in Hm.
    destruct (N.ltb_spec c 0x80) as [H1|H1].
    { rewrite app_length in Hn. cbn [enc1 length] in Hn. destruct n as [|n]; [lia|].
      rewrite (utf8_loop_step _ _ _ _ (dec1_enc1 c _ ltac:(lia))). cbn [app]. f_equal.
      apply IH; try lia.
      unfold is_high, is_low in Hv.
      replace ((0xD800 <=? c) && (c <? 0xDC00)) with false in Hv by lia.
      rewrite !andb_true_iff in Hv; tauto. }
    destruct (N.ltb_spec c 0x800) as [H2|H2].
    { rewrite app_length in Hn. cbn [enc2 length] in Hn. destruct n as [|n]; [lia|].
      rewrite (utf8_loop_step _ _ _ _ (dec1_enc2 c _ ltac:(lia) ltac:(lia))). cbn [app]. f_equal.
      apply IH; try lia.
      unfold is_high, is_low in Hv.
      replace ((0xD800 <=? c) && (c <? 0xDC00)) with false in Hv by lia.
      rewrite !andb_true_iff in Hv; tauto. }
    destruct (is_high c) eqn:Eh.
    + replace (is_surr c) with true in * by (unfold is_surr; rewrite Eh; auto). cbn [negb] in *.
      destruct t as [|d t']; [discriminate|].
      apply andb_true_iff in Hv; destruct Hv as [Hl Hv]. rewrite Hl in *.
      rewrite app_length in Hn. cbn [enc4 length] in Hn. destruct n as [|n]; [lia|].
      rewrite (utf8_loop_step _ _ _ _ (dec1_enc4 c d _ Eh Hl)). cbn [app]. do 2 f_equal.
      cbn [length] in Hm. apply IH; try lia. auto.
    + rewrite !andb_true_iff, negb_true_iff in Hv. destruct Hv as [[Hl Hc] Hv].
      assert (Hs : is_surr c = false) by (unfold is_surr; rewrite Eh, Hl; auto).
      rewrite Hs in *. cbn [negb] in *.
      rewrite app_length in Hn. cbn [enc3 length] in Hn. destruct n as [|n]; [lia|].
      rewrite (utf8_loop_step _ _ _ _ (dec1_enc3 c _ ltac:(lia) ltac:(lia) Hs)). cbn [app]. f_equal.
      apply IH; try lia. auto.
Qed.

Lemma skip_bom_to_utf8 s : valid_utf16 s = true -> no_bom s = true -> skip_bom (to_utf8 s) = to_utf8 s.
Proof.
  intros Hv Hb. unfold skip_bom.
  destruct (to_utf8 s) as [|b0 [|b1 [|b2 t]]] eqn:E; auto.
  destruct ((b0 =? 0xEF) && (b1 =? 0xBB) && (b2 =? 0xBF)) eqn:Eb; auto. exfalso.
  destruct s as [|c s]; [discriminate|]. cbn [to_utf8] in E. cbn [no_bom] in Hb. cbn [valid_utf16] in Hv.
  unfold enc1, enc2, enc3, enc4, is_surr in E.
  destruct (N.ltb_spec c 0x80); [cbn in E; injection E as <- E; lia|].
  destruct (N.ltb_spec c 0x800); [cbn in E; injection E as <- <- E; lia|].
  destruct (is_high c) eqn:Eh.
  - cbn [negb orb] in E. destruct s as [|d s]; [discriminate|].
    destruct (is_low d); [|discriminate]. cbn in E. injection E as <- E1 E. 
    unfold is_high in Eh. unfold surr_cp in *. lia.
  - rewrite !andb_true_iff, negb_true_iff in Hv. destruct Hv as [[Hl Hc] Hv]. rewrite Hl in E. cbn in E.
    injection E as <- <- <- E. lia.
Qed.

Theorem utf8_roundtrip s : text_ok s = true -> from_utf8 (to_utf8 s) = s.
Proof.
  unfold text_ok; rewrite andb_true_iff; intros [Hv Hb]. unfold from_utf8.
  rewrite skip_bom_to_utf8 by auto. cbv zeta. eapply utf8_loop_roundtrip; eauto.
Qed.

(** The encoding of a string contains an ASCII byte exactly where the string
    contains the character. *)
Lemma to_utf8_is_bytes m s : (length s <= m)%nat -> valid_utf16 s = true -> is_bytes (to_utf8 s) = true.
Proof.
  revert s; induction m as [|m IH]; intros s Hm Hv; destruct s as [|c t]; auto; cbn [length] in Hm; [lia|].
  cbn [to_utf8 valid_utf16] in *. unfold enc1, enc2, enc3, enc4, is_surr.
  destruct (is_high c) eqn:Eh.
  - destruct t as [|d t]; [discriminate|]. apply andb_true_iff in Hv as [Hl Hv].
    unfold is_high in Eh. rewrite (proj2 (N.ltb_ge c 0x80)), (proj2 (N.ltb_ge c 0x800)) by lia.
    cbn [orb negb]. rewrite Hl. unfold is_low in Hl. cbn [is_bytes forallb app]. fold (is_bytes (to_utf8 t)).
    cbn [length] in Hm. unfold is_bytes in *; cbn [forallb]. rewrite IH by (auto; lia). unfold surr_cp.
    rewrite !(proj2 (N.ltb_lt _ 256)) by lia. auto.
  - rewrite !andb_true_iff, negb_true_iff in Hv. destruct Hv as [[Hl Hc] Hv]. rewrite Hl. cbn [orb negb].
    unfold is_bytes in *.
    destruct (N.ltb_spec c 0x80); [|destruct (N.ltb_spec c 0x800)]; cbn [app forallb];
      rewrite IH by (auto; lia); rewrite !(proj2 (N.ltb_lt _ 256)) by lia; auto.
Qed.

(** ** base64 *)
Lemma b64_val_char d : d < 64 -> b64_val (b64_char d) = Some d.
Proof.
  intros H. unfold b64_char.
  destruct (N.ltb_spec d 26); [|destruct (N.ltb_spec d 52); [|destruct (N.ltb_spec d 62); [|destruct (N.eqb_spec d 62)]]];
    unfold b64_val.
  - rewrite (proj2 (N.leb_le 65 _)), (proj2 (N.leb_le _ 90)) by lia. cbn [andb]. f_equal; lia.
  - rewrite (proj2 (N.leb_gt (97 + _) 90)) by lia. rewrite andb_false_r.
    rewrite (proj2 (N.leb_le 97 _)), (proj2 (N.leb_le _ 122)) by lia. cbn [andb]. f_equal; lia.
  - rewrite (proj2 (N.leb_gt 65 _)) by lia. rewrite (proj2 (N.leb_gt 97 _)) by lia. cbn [andb].
    rewrite (proj2 (N.leb_le 48 _)), (proj2 (N.leb_le _ 57)) by lia. cbn [andb]. f_equal; lia.
  - subst d; reflexivity.
  - assert (d = 63) as -> by lia. reflexivity.
Qed.

Lemma from_b64_step0 d s : d < 64 -> from_base64_aux 0 0 (b64_char d :: s) = from_base64_aux d 6 s.
Proof.
  intros H; cbn [from_base64_aux]. rewrite b64_val_char by auto. cbv zeta. 
  change (8 <=? 0 + 6) with false. cbn iota. f_equal; lia.
Qed.
Lemma from_b64_step6 b d s : d < 64 -> from_base64_aux b 6 (b64_char d :: s) =
  (b * 64 + d) / 16 :: from_base64_aux ((b * 64 + d) mod 16) 4 s.
Proof. intros H; cbn [from_base64_aux]. rewrite b64_val_char by auto. reflexivity. Qed.
Lemma from_b64_step4 b d s : d < 64 -> from_base64_aux b 4 (b64_char d :: s) =
  (b * 64 + d) / 4 :: from_base64_aux ((b * 64 + d) mod 4) 2 s.
Proof. intros H; cbn [from_base64_aux]. rewrite b64_val_char by auto. reflexivity. Qed.
Lemma from_b64_step2 b d s : d < 64 -> from_base64_aux b 2 (b64_char d :: s) =
  (b * 64 + d) / 1 :: from_base64_aux ((b * 64 + d) mod 1) 0 s.
Proof. intros H; cbn [from_base64_aux]. rewrite b64_val_char by auto. reflexivity. Qed.
Lemma from_b64_pad b n s : from_base64_aux b n (61 :: s) = from_base64_aux b n s.
Proof. reflexivity. Qed.

Theorem base64_roundtrip s : is_bytes s = true -> from_base64 (to_base64 s) = s.
Proof.
  unfold from_base64.
  assert (H : forall n s, (length s <= n)%nat -> is_bytes s = true -> from_base64_aux 0 0 (to_base64 s) = s).
  { induction n as [|n IH]; intros [|a [|b [|c t]]] Hn Hb; cbn [length] in Hn; try lia; auto;
      unfold is_bytes in Hb; cbn [forallb] in Hb; rewrite ?andb_true_iff in Hb;
      cbn [to_base64].
    - rewrite from_b64_step0, from_b64_step6 by lia. rewrite !from_b64_pad. cbn [from_base64_aux]. f_equal; lia.
    - rewrite from_b64_step0, from_b64_step6, from_b64_step4, from_b64_pad by lia. cbn [from_base64_aux].
      f_equal; [lia|]. f_equal; lia.
    - rewrite from_b64_step0, from_b64_step6, from_b64_step4, from_b64_step2 by lia.
      f_equal; [lia|]. f_equal; [lia|]. f_equal; [lia|].
      rewrite N.mod_1_r. apply IH; [lia|]. unfold is_bytes; tauto. }
  intros; eapply H; eauto.
Qed.

Definition is_b64 (c : N) : bool :=
  ((65 <=? c) && (c <=? 90)) || ((97 <=? c) && (c <=? 122)) || ((48 <=? c) && (c <=? 57))
  || (c =? 43) || (c =? 47) || (c =? 61).
Lemma b64_char_is_b64 d : d < 64 -> is_b64 (b64_char d) = true.
Proof.
  intros H. unfold b64_char, is_b64.
  destruct (N.ltb_spec d 26); [|destruct (N.ltb_spec d 52); [|destruct (N.ltb_spec d 62); [|destruct (N.eqb_spec d 62)]]]; lia.
Qed.
Lemma to_base64_chars s : is_bytes s = true -> forallb is_b64 (to_base64 s) = true.
Proof.
  assert (H : forall n s, (length s <= n)%nat -> is_bytes s = true -> forallb is_b64 (to_base64 s) = true).
  { induction n as [|n IH]; intros [|a [|b [|c t]]] Hn Hb; cbn [length] in Hn; try lia; auto;
      unfold is_bytes in Hb; cbn [forallb] in Hb; rewrite ?andb_true_iff in Hb;
      cbn [to_base64 forallb]; rewrite ?b64_char_is_b64 by lia; auto.
    cbn [andb]. apply IH; [lia|]. unfold is_bytes; tauto. }
  intros; eapply H; eauto.
Qed.
Lemma to_base64_nonnil s : s <> [] -> to_base64 s <> [].
Proof. destruct s as [|a [|b [|c t]]]; cbn; congruence. Qed.
