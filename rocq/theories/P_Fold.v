(** Proofs about [fixLineSize] (vcardparser.cpp:335-384). *)
From Verif Require Import Base BaseFacts Utf8 Utf8Facts M_VCardText S_Fold.
Ltac Zify.zify_post_hook ::= Z.div_mod_to_equations.

Definition foldsep : bytes := [13; 10; 32]%N.

(** ** chunk view of the multibyte loop *)
Definition Chunks (s : bytes) (col : nat) (out : bytes) (chs : list bytes) : Prop :=
  exists ch cr, chs = ch :: cr /\ out = join foldsep chs /\ List.concat chs = s /\
    col + length ch <= 75 /\ Forall (fun c => length c <= 74) cr.

Lemma join_foldsep_app a chs b : join foldsep ((a ++ b) :: chs) = a ++ join foldsep (b :: chs).
Proof. destruct chs; cbn; rewrite <- ?app_assoc; auto. Qed.

Lemma Chunks_prepend p s col out chs :
  Chunks s (col + length p) out chs -> col + length p <= 75 ->
  exists chs', Chunks (p ++ s) col (p ++ out) chs' /\
    (exists ch cr, chs = ch :: cr /\ chs' = (p ++ ch) :: cr).
Proof.
  intros (ch & cr & -> & -> & <- & Hl & Hf) Hp.
  exists ((p ++ ch) :: cr). split; [|eauto].
  exists (p ++ ch), cr. repeat split; auto.
  - rewrite join_foldsep_app; auto.
  - cbn. rewrite <- app_assoc; auto.
  - rewrite app_length; lia.
Qed.

Lemma Chunks_break s out chs col : Chunks s 1 out chs -> col <= 75 ->
  Chunks s col (foldsep ++ out) ([] :: chs).
Proof.
  intros (ch & cr & -> & -> & <- & Hl & Hf) Hc.
  exists [], (ch :: cr). repeat split; auto.
  - cbn [length]. lia.
  - constructor; auto. cbn in *. lia.
Qed.

Lemma Chunks_nil col : col <= 75 -> Chunks [] col [] [[]].
Proof. intros H. exists [], []. repeat split; auto. cbn; lia. Qed.

(** generic step: chunk [p] of counted length [k >= length p] *)
Lemma step_chunks (p t : bytes) k col (f : nat -> bytes) :
  length p <= k -> 1 <= k -> k <= 4 -> col < 75 ->
  (forall c, c < 75 -> exists chs, Chunks t c (f c) chs) ->
  (t = [] -> forall c, f c = []) ->
  (length p < k -> t = []) ->
  exists chs,
   Chunks (p ++ t) col (let (o, k1) := put_seq k p col in let (o', k') := put_break t k1 in o ++ o' ++ f k') chs.
Proof.
  intros Hp H1 Hk Hcol IH Hnil Hshort.
  unfold put_seq, put_break, crlf, cCR, cLF, cSP. change FOLD_WIDTH with 75.
  assert (Hcase : t = [] \/ (length p = k /\ isnil t = false)).
  { destruct t; auto. right. split; auto. destruct (Nat.lt_ge_cases (length p) k); [|lia]. discriminate (Hshort H). }
  destruct (Nat.ltb_spec 75 (col + k)) as [Hbig|Hsmall].
  - (* fold first *)
    replace (1 + k =? 75) with false by (symmetry; apply Nat.eqb_neq; lia). cbn [andb app].
    destruct (IH (1 + k)) as [chs Hch]; [lia|].
    destruct Hcase as [->|[Hlen Hne]].
    + rewrite Hnil by auto. rewrite ?app_nil_r.
      destruct (Chunks_prepend p [] 1 [] [[]]) as (chs' & Hc & _);
        [apply Chunks_nil; lia|lia|].
      rewrite !app_nil_r in Hc.
      exists ([] :: chs'). apply (Chunks_break p p chs' col) in Hc; [|lia]. cbn in Hc. cbn. rewrite ?app_nil_r. exact Hc.
    + destruct (Chunks_prepend p t 1 (f (1 + k)) chs) as (chs' & Hc & _); [rewrite Hlen; auto|lia|].
      exists ([] :: chs'). apply Chunks_break with (col := col) in Hc; [|lia]. cbn in Hc. exact Hc.
  - destruct (Nat.eqb_spec (col + k) 75) as [E|E].
    + destruct Hcase as [->|[Hlen Hne]].
      * cbn [isnil negb andb app]. rewrite Hnil by auto. rewrite !app_nil_r.
        destruct (Chunks_prepend p [] col [] [[]]) as (chs' & Hc & _); [apply Chunks_nil; lia|lia|].
        rewrite !app_nil_r in Hc. eauto.
      * rewrite Hne. cbn [negb andb].
        destruct (IH 1) as [chs Hch]; [lia|].
        apply Chunks_break with (col := col + length p) in Hch; [|lia].
        destruct (Chunks_prepend _ _ _ _ _ Hch) as (chs' & Hc & _); [lia|]. eexists. exact Hc.
    + cbn [andb app]. destruct (IH (col + k)) as [chs Hch]; [lia|].
      destruct Hcase as [->|[Hlen Hne]].
      * rewrite Hnil by auto. rewrite !app_nil_r.
        destruct (Chunks_prepend p [] col [] [[]]) as (chs' & Hc & _); [apply Chunks_nil; lia|lia|].
        rewrite !app_nil_r in Hc. eauto.
      * rewrite <- Hlen in Hch. destruct (Chunks_prepend _ _ _ _ _ Hch) as (chs' & Hc & _); [lia|].
        rewrite Hlen in Hc. eauto.
Qed.

Lemma fold_mb_nil col : fold_mb [] col = [].
Proof. reflexivity. Qed.

Lemma fold_mb_chunks n : forall s col, length s <= n -> col < 75 ->
  exists chs, Chunks s col (fold_mb s col) chs.
Proof.
  induction n as [|n IH]; intros s col Hn Hc.
  { destruct s; [|cbn in Hn; lia]. exists [[]]. apply Chunks_nil; lia. }
  destruct s as [|c t]; [exists [[]]; apply Chunks_nil; lia|]. cbn [length] in Hn.
  assert (HN : forall (t' : bytes) k, t' = [] -> fold_mb t' k = []) by (intros ? ? ->; reflexivity).
  cbn [fold_mb]. destruct (lead2 c).
  - unfold seq_length. destruct (lead3 c); [|destruct (lead4 c)].
    + destruct t as [|b1 [|b2 t']].
      * edestruct (step_chunks [c] [] 3 col (fun _ => [])) as [chs H]; try (cbn; lia); auto.
        { intros; exists [[]]; apply Chunks_nil; lia. }
        exists chs. destruct (put_seq 3 [c] col) as [o k1]. unfold put_break in H. cbn [isnil negb] in H. rewrite andb_false_r in H.
        rewrite ?app_nil_r in H. exact H.
      * edestruct (step_chunks [c; b1] [] 3 col (fun _ => [])) as [chs H]; try (cbn; lia); auto.
        { intros; exists [[]]; apply Chunks_nil; lia. }
        exists chs. destruct (put_seq 3 [c; b1] col) as [o k1]. unfold put_break in H. cbn [isnil negb] in H. rewrite andb_false_r in H.
        rewrite ?app_nil_r in H. exact H.
      * apply (step_chunks [c; b1; b2] t' 3 col (fold_mb t')); try (cbn; lia); auto.
        { intros c0 Hc0. apply IH; auto. cbn [length] in Hn. lia. }
    + destruct t as [|b1 [|b2 [|b3 t']]].
      * edestruct (step_chunks [c] [] 4 col (fun _ => [])) as [chs H]; try (cbn; lia); auto.
        { intros; exists [[]]; apply Chunks_nil; lia. }
        exists chs. destruct (put_seq 4 [c] col) as [o k1]. unfold put_break in H. cbn [isnil negb] in H. rewrite andb_false_r in H.
        rewrite ?app_nil_r in H. exact H.
      * edestruct (step_chunks [c; b1] [] 4 col (fun _ => [])) as [chs H]; try (cbn; lia); auto.
        { intros; exists [[]]; apply Chunks_nil; lia. }
        exists chs. destruct (put_seq 4 [c; b1] col) as [o k1]. unfold put_break in H. cbn [isnil negb] in H. rewrite andb_false_r in H.
        rewrite ?app_nil_r in H. exact H.
      * edestruct (step_chunks [c; b1; b2] [] 4 col (fun _ => [])) as [chs H]; try (cbn; lia); auto.
        { intros; exists [[]]; apply Chunks_nil; lia. }
        exists chs. destruct (put_seq 4 [c; b1; b2] col) as [o k1]. unfold put_break in H. cbn [isnil negb] in H. rewrite andb_false_r in H.
        rewrite ?app_nil_r in H. exact H.
      * apply (step_chunks [c; b1; b2; b3] t' 4 col (fold_mb t')); try (cbn; lia); auto.
        { intros c0 Hc0. apply IH; auto. cbn [length] in Hn. lia. }
    + destruct t as [|b1 t'].
      * edestruct (step_chunks [c] [] 2 col (fun _ => [])) as [chs H]; try (cbn; lia); auto.
        { intros; exists [[]]; apply Chunks_nil; lia. }
        exists chs. destruct (put_seq 2 [c] col) as [o k1]. unfold put_break in H. cbn [isnil negb] in H. rewrite andb_false_r in H.
        rewrite ?app_nil_r in H. exact H.
      * apply (step_chunks [c; b1] t' 2 col (fold_mb t')); try (cbn; lia); auto.
        { intros c0 Hc0. apply IH; auto. cbn [length] in Hn. lia. }
  - edestruct (step_chunks [c] t 1 col (fold_mb t)) as [chs H]; try (cbn; lia); auto.
    { intros c0 Hc0. apply IH; auto. lia. }
    exists chs. unfold put_seq in H. change FOLD_WIDTH with 75 in H.
    replace (75 <? col + 1) with false in H by (symmetry; apply Nat.ltb_ge; lia).
    destruct (put_break t (col + 1)) as [o' k']. exact H.
Qed.

(** ** chunk view of the plain loop *)
Definition plain_chunks (s : bytes) : list bytes :=
  map (fun i => mid_len (i * 75) 75 s) (seq 0 (length s / 75 + 1)).

Lemma flat_map_seq_join (g : nat -> bytes) n :
  flat_map (fun i => (if i =? 0 then [] else [32%N]) ++ g i ++ [13;10]%N) (seq 0 (S n)) =
  join foldsep (map g (seq 0 (S n))) ++ [13;10]%N.
Proof.
  assert (H : forall n k, flat_map (fun i => (if i =? 0 then [] else [32%N]) ++ g i ++ [13;10]%N) (seq (S k) (S n)) =
     [32%N] ++ join foldsep (map g (seq (S k) (S n))) ++ [13;10]%N).
  { induction n0 as [|m IH]; intros k.
    - cbn. rewrite app_nil_r; auto.
    - change (seq (S k) (S (S m))) with (S k :: seq (S (S k)) (S m)). cbn [flat_map]. rewrite (IH (S k)). cbn [Nat.eqb map seq]. rewrite (join_cons foldsep (g (S k))) by discriminate.
      cbn [app]. f_equal. rewrite <- !app_assoc. cbn [app foldsep]. reflexivity. }
  destruct n as [|n].
  - cbn. rewrite app_nil_r; auto.
  - change (seq 0 (S (S n))) with (0 :: seq 1 (S n)). cbn [flat_map]. rewrite (H n 0). cbn [Nat.eqb app map seq].
    rewrite (join_cons foldsep (g 0)) by discriminate. rewrite <- !app_assoc. cbn [app foldsep]. reflexivity.
Qed.

Lemma fold_plain_join s : fold_plain s = join foldsep (plain_chunks s) ++ crlf.
Proof.
  unfold fold_plain, plain_chunks, crlf, cCR, cLF, cSP. change FOLD_WIDTH with 75.
  rewrite Nat.add_1_r. apply flat_map_seq_join.
Qed.

Lemma skipn_skipn' {A} a b (t : list A) : skipn a (skipn b t) = skipn (b + a) t.
Proof. revert t; induction b; intros [|x t]; cbn; auto. apply skipn_nil. Qed.
Lemma firstn_plus {A} a b (t : list A) : firstn (a + b) t = firstn a t ++ firstn b (skipn a t).
Proof. revert t; induction a; intros [|x t]; cbn; auto; [rewrite firstn_nil; auto|rewrite IHa; auto]. Qed.

Lemma concat_mids (s : bytes) n : forall k,
  List.concat (map (fun i => mid_len (i * 75) 75 s) (seq k n)) = firstn (n * 75) (skipn (k * 75) s).
Proof.
  induction n as [|n IH]; intros k.
  - reflexivity.
  - cbn [seq map List.concat]. rewrite IH. unfold mid_len.
    replace (S n * 75) with (75 + n * 75) by lia.
    replace (S k * 75) with (k * 75 + 75) by lia.
    rewrite firstn_plus, skipn_skipn'. repeat (f_equal; try lia).
Qed.
Lemma plain_chunks_concat s : List.concat (plain_chunks s) = s.
Proof.
  unfold plain_chunks. rewrite concat_mids. cbn [Nat.mul skipn].
  apply firstn_all2. lia.
Qed.
Lemma plain_chunks_len s : Forall (fun c => length c <= 75) (plain_chunks s).
Proof.
  unfold plain_chunks. apply Forall_forall. intros c Hc. apply in_map_iff in Hc as (i & <- & _).
  unfold mid_len. rewrite firstn_length. lia.
Qed.
Lemma plain_chunks_cons s : exists c0 cs, plain_chunks s = c0 :: cs.
Proof. unfold plain_chunks. rewrite Nat.add_1_r. cbn [seq map]. eauto. Qed.

(** ** [fixLineSize]: the common form *)
Lemma fix_line_size_chunks s mb : exists c0 cs,
  fix_line_size s mb = join foldsep (c0 :: cs) ++ crlf /\ List.concat (c0 :: cs) = s /\
  length c0 <= 75 /\ Forall (fun c => length c <= if mb then 74 else 75) cs.
Proof.
  unfold fix_line_size. change FOLD_WIDTH with 75.
  destruct (Nat.ltb_spec 75 (length s)) as [H|H].
  - destruct mb.
    + destruct (fold_mb_chunks (length s) s 0) as [chs (ch & cr & -> & Ho & Hc & Hl & Hf)]; try lia.
      exists ch, cr. rewrite Ho. auto.
    + destruct (plain_chunks_cons s) as (c0 & cs & E).
      exists c0, cs. rewrite fold_plain_join, E. split; auto. split; [pose proof (plain_chunks_concat s) as Hp; rewrite E in Hp; exact Hp|].
      pose proof (plain_chunks_len s) as Hl. rewrite E in Hl. inversion Hl; subst; auto.
  - exists s, []. cbn. rewrite app_nil_r. auto.
Qed.

(** ** physical lines of a folded text *)
Lemma crlf_lines_nil : crlf_lines [] = [[]]. Proof. reflexivity. Qed.
Lemma crlf_lines_break t : crlf_lines (13 :: 10 :: t)%N = [] :: crlf_lines t.
Proof. reflexivity. Qed.
Lemma crlf_lines_cons c t : c <> 13%N -> crlf_lines (c :: t) =
  match crlf_lines t with l :: ls => (c :: l) :: ls | [] => [[c]] end.
Proof.
  intros H. cbn [crlf_lines]. destruct t as [|d t']; auto.
  destruct (N.eqb_spec c 13); [congruence|]. cbn [andb]. auto.
Qed.
Lemma crlf_lines_app p t : ~ In 13%N p -> crlf_lines (p ++ [13;10]%N ++ t) = p :: crlf_lines t.
Proof.
  induction p as [|c p IH]; intros H.
  - reflexivity.
  - cbn [app]. rewrite crlf_lines_cons by (intros ->; apply H; left; auto).
    cbn [app] in IH. rewrite IH; auto. intros ?; apply H; right; auto.
Qed.

Lemma crlf_lines_join c0 cs : ~ In 13%N (List.concat (c0 :: cs)) ->
  crlf_lines (join foldsep (c0 :: cs) ++ crlf) = (c0 :: map (cons 32%N) cs) ++ [[]].
Proof.
  unfold crlf, cCR, cLF.
  revert c0; induction cs as [|c1 cs IH]; intros c0 H.
  - cbn [join map app]. cbn in H. rewrite app_nil_r in H.
    rewrite <- (app_nil_r [13%N;10%N]). rewrite crlf_lines_app by auto. reflexivity.
  - rewrite join_cons by discriminate. unfold foldsep at 1. rewrite <- !app_assoc.
    change ([13;10;32]%N ++ ?x) with ([13;10]%N ++ [32]%N ++ x).
    cbn [List.concat] in H. rewrite in_app_iff in H.
    rewrite crlf_lines_app by tauto. cbn [map]. cbn [app]. f_equal.
    rewrite crlf_lines_cons by discriminate. rewrite IH by (cbn [List.concat]; tauto). reflexivity.
Qed.

(** ** unfolding *)
Lemma unfold_text_cons c t : c <> 13%N -> unfold_text (c :: t) = c :: unfold_text t.
Proof. intros H. cbn [unfold_text]. destruct t as [|d [|e t']]; auto. destruct (N.eqb_spec c 13); [congruence|]. auto. Qed.
Lemma unfold_text_app p t : ~ In 13%N p -> unfold_text (p ++ t) = p ++ unfold_text t.
Proof.
  induction p as [|c p IH]; intros H; auto. cbn [app]. rewrite unfold_text_cons by (intros ->; apply H; left; auto).
  rewrite IH; auto. intros ?; apply H; right; auto.
Qed.
Lemma unfold_join c0 cs tail : ~ In 13%N (List.concat (c0 :: cs)) ->
  unfold_text (join foldsep (c0 :: cs) ++ tail) = List.concat (c0 :: cs) ++ unfold_text tail.
Proof.
  revert c0; induction cs as [|c1 cs IH]; intros c0 H.
  - cbn [join List.concat]. rewrite app_nil_r. apply unfold_text_app. cbn in H. rewrite app_nil_r in H. auto.
  - rewrite join_cons by discriminate. cbn [List.concat] in *. rewrite <- !app_assoc. rewrite in_app_iff in H.
    rewrite unfold_text_app by tauto. f_equal.
    change (unfold_text (foldsep ++ join foldsep (c1 :: cs) ++ tail)) with (unfold_text (join foldsep (c1 :: cs) ++ tail)).
    rewrite IH by (cbn; tauto). cbn [List.concat]. rewrite <- app_assoc. auto.
Qed.

Lemma fold_width s mb l : ~ In 13%N s -> In l (crlf_lines (fix_line_size s mb)) ->
  length l <= if mb then 75 else 76.
Proof.
  intros Hs Hl. destruct (fix_line_size_chunks s mb) as (c0 & cs & E & Hc & H0 & Hf).
  rewrite E, crlf_lines_join in Hl by (rewrite Hc; auto).
  apply in_app_iff in Hl as [Hl|[<-|[]]]; [|cbn; destruct mb; lia].
  cbn [In] in Hl. destruct Hl as [<-|Hl]; [destruct mb; lia|].
  apply in_map_iff in Hl as (c & <- & Hc'). cbn [length].
  rewrite Forall_forall in Hf. specialize (Hf _ Hc'). destruct mb; cbn in *; lia.
Qed.

Lemma fold_unfold s mb : ~ In 13%N s -> unfold_text (fix_line_size s mb) = s ++ crlf.
Proof.
  intros Hs. destruct (fix_line_size_chunks s mb) as (c0 & cs & E & Hc & H0 & Hf).
  rewrite E, unfold_join by (rewrite Hc; auto). rewrite Hc. reflexivity.
Qed.

(** ** Characters are not split (at most three bytes per character) *)
Lemma sweep (P : N -> bool) n : forallb P (map N.of_nat (seq 0 n)) = true -> forall c, (c < N.of_nat n)%N -> P c = true.
Proof.
  intros H c Hc. rewrite forallb_forall in H. apply H.
  rewrite <- (N2Nat.id c). apply in_map. apply in_seq. lia.
Qed.
Lemma leads c : (c < 256)%N ->
  lead2 c = (192 <=? c)%N /\ lead3 c = (224 <=? c)%N.
Proof.
  intros H.
  assert (HH : (Bool.eqb (lead2 c) (192 <=? c)%N && Bool.eqb (lead3 c) (224 <=? c)%N) = true).
  { revert c H. apply (sweep _ 256). vm_compute. reflexivity. }
  apply andb_true_iff in HH as [H1 H2]. apply eqb_prop in H1, H2. auto.
Qed.

Definition UChunks (u : ustring) (col : nat) (out : bytes) : Prop :=
  exists (p0 : ustring) (ps : list ustring),
    out = join foldsep (map to_utf8 (p0 :: ps)) /\ List.concat (p0 :: ps) = u.

Definition enc_bmp (c : N) : bytes :=
  if (c <? 0x80)%N then enc1 c else if (c <? 0x800)%N then enc2 c else enc3 c.
Lemma to_utf8_bmp_cons c u : is_surr c = false -> to_utf8 (c :: u) = enc_bmp c ++ to_utf8 u.
Proof.
  intros Hs. cbn [to_utf8]. unfold enc_bmp. rewrite Hs. cbn [negb].
  destruct (c <? 0x80)%N, (c <? 0x800)%N; auto.
Qed.

Lemma bmp_cons c u : bmp_text (c :: u) = true -> (c < 65536)%N /\ is_surr c = false /\ bmp_text u = true.
Proof. cbn. rewrite !andb_true_iff, negb_true_iff. intros [[H1 H2] H3]. repeat split; auto. apply N.ltb_lt; auto. Qed.

Lemma UChunks_prepend c u k out : is_surr c = false -> UChunks u k out ->
  UChunks (c :: u) k (enc_bmp c ++ out).
Proof.
  intros Hs (p0 & ps & -> & <-). exists (c :: p0), ps. split; auto.
  cbn [map]. rewrite to_utf8_bmp_cons by auto. rewrite join_foldsep_app. auto.
Qed.
Lemma UChunks_break u k k' out : UChunks u k out -> UChunks u k' (foldsep ++ out).
Proof. intros (p0 & ps & -> & <-). exists [], (p0 :: ps). split; auto. Qed.

Lemma put_seq_cases k chunk col : 
  exists pre col', put_seq k chunk col = (pre ++ chunk, col') /\ (pre = [] \/ pre = foldsep).
Proof.
  unfold put_seq. destruct (_ <? _).
  - exists foldsep, (1 + k). split; auto.
  - exists [], (col + k). auto.
Qed.
Lemma put_break_cases t col :
  exists pre col', put_break t col = (pre, col') /\ (pre = [] \/ pre = foldsep).
Proof. unfold put_break. destruct (_ && _); eexists; eexists; split; eauto. Qed.

Lemma fold_mb_uchunks u : bmp_text u = true -> forall col, UChunks u col (fold_mb (to_utf8 u) col).
Proof.
  induction u as [|c u IH]; intros Hb col.
  { exists [], []. auto. }
  apply bmp_cons in Hb as (Hlt & Hs & Hb). specialize (IH Hb).
  rewrite to_utf8_bmp_cons by auto. unfold enc_bmp.
  assert (Hgen : forall k chunk, enc_bmp c = chunk -> UChunks (c :: u) col
    (let (o, k1) := put_seq k chunk col in let (o', k') := put_break (to_utf8 u) k1 in o ++ o' ++ fold_mb (to_utf8 u) k')).
  { intros k chunk E. destruct (put_seq_cases k chunk col) as (pre & k1 & -> & Hpre).
    destruct (put_break_cases (to_utf8 u) k1) as (pre' & k' & -> & Hpre').
    rewrite <- app_assoc. rewrite <- E.
    assert (H1 : UChunks u col (pre' ++ fold_mb (to_utf8 u) k')).
    { destruct Hpre' as [->| ->]; [apply IH|]. eapply UChunks_break; apply IH. }
    apply UChunks_prepend with (c := c) in H1; auto.
    destruct Hpre as [->| ->]; [exact H1|]. eapply UChunks_break; exact H1. }
  unfold enc_bmp in Hgen.
  destruct (N.ltb_spec c 0x80) as [H1|H1]; [|destruct (N.ltb_spec c 0x800) as [H2|H2]].
  - unfold enc1 in *. cbn [app fold_mb].
    destruct (leads c) as [-> _]; [lia|].
    rewrite (proj2 (N.leb_gt 192 c)) by lia.
    specialize (Hgen 1 _ eq_refl). unfold put_seq in Hgen. change FOLD_WIDTH with 75 in Hgen.
    destruct (put_break_cases (to_utf8 u) (col + 1)) as (pre' & k' & -> & Hpre').
    assert (HH : UChunks u col (pre' ++ fold_mb (to_utf8 u) k')).
    { destruct Hpre' as [->| ->]; [apply IH|]. eapply UChunks_break; apply IH. }
    apply UChunks_prepend with (c := c) in HH; auto. unfold enc_bmp, enc1 in HH.
    rewrite (proj2 (N.ltb_lt c 0x80)) in HH by auto. exact HH.
  - unfold enc2 in *. cbn [app fold_mb].
    destruct (leads (0xC0 + c / 64)%N) as [E2 E3]; [lia|]. rewrite E2, (proj2 (N.leb_le 192 _)) by lia.
    unfold seq_length. rewrite E3, (proj2 (N.leb_gt 224 _)) by lia.
    assert (E4 : lead4 (0xC0 + c / 64) = false).
    { unfold lead4. assert (Hx : (192 + c / 64 < 224)%N) by lia. assert (Hy : (192 <= 192 + c / 64)%N) by lia.
      revert Hx Hy. generalize (192 + c / 64)%N. intros x Hx Hy.
      assert (HH : ((192 <=? x)%N && (N.land x 0xF0 =? 0xF0)%N) = false).
      { apply negb_true_iff. revert x Hx Hy. intros x Hx _. revert x Hx.
        apply (sweep (fun x => negb ((192 <=? x)%N && (N.land x 0xF0 =? 0xF0)%N)) 224). vm_compute. reflexivity. }
      rewrite (proj2 (N.leb_le 192 x)) in HH by auto. exact HH. }
    rewrite E4. apply Hgen; auto.
  - unfold enc3 in *. cbn [app fold_mb].
    destruct (leads (0xE0 + c / 4096)%N) as [E2 E3]; [lia|]. rewrite E2, (proj2 (N.leb_le 192 _)) by lia.
    unfold seq_length. rewrite E3, (proj2 (N.leb_le 224 _)) by lia.
    apply Hgen; auto.
Qed.

Lemma bmp_valid u : bmp_text u = true -> valid_utf16 u = true.
Proof.
  induction u as [|c u IH]; auto. intros H. apply bmp_cons in H as (H1 & H2 & H3). cbn [valid_utf16].
  unfold is_surr in H2. apply orb_false_iff in H2 as [-> ->]. cbn. rewrite (proj2 (N.ltb_lt c 65536)); auto.
Qed.
Lemma bmp_concat l : bmp_text (List.concat l) = true -> Forall (fun u => bmp_text u = true) l.
Proof.
  unfold bmp_text. induction l as [|u l IH]; cbn; intros H; constructor; rewrite forallb_app, andb_true_iff in H; tauto.
Qed.

Lemma in_to_utf8_ascii b u : bmp_text u = true -> (b < 128)%N -> In b (to_utf8 u) -> In b u.
Proof.
  induction u as [|c u IH]; intros Hb Hlt; auto. apply bmp_cons in Hb as (H1 & H2 & H3).
  rewrite to_utf8_bmp_cons, in_app_iff by auto. intros [H|H]; [|right; auto].
  unfold enc_bmp in H. destruct (N.ltb_spec c 0x80) as [Ha|Ha]; [|destruct (N.ltb_spec c 0x800)].
  - destruct H as [->|[]]; left; auto.
  - destruct H as [<-|[<-|[]]]; lia.
  - destruct H as [<-|[<-|[<-|[]]]]; lia.
Qed.

Lemma to_utf8_map_concat ps : Forall (fun u => bmp_text u = true) ps ->
  List.concat (map to_utf8 ps) = to_utf8 (List.concat ps).
Proof.
  induction ps as [|p ps IH]; intros H; auto. inversion H as [|? ? Hp Hps]; subst. cbn. rewrite IH by auto.
  revert Hp. clear. generalize (List.concat ps). intros r. induction p as [|c p IH]; intros Hp; auto.
  apply bmp_cons in Hp as (H1 & H2 & H3). cbn [app]. rewrite !to_utf8_bmp_cons by auto. rewrite <- app_assoc, IH; auto.
Qed.

Lemma fold_no_split u l : bmp_text u = true -> ~ In 13%N u ->
  In l (crlf_lines (fix_line_size (to_utf8 u) true)) -> valid_utf8 l.
Proof.
  intros Hb Hcr Hl.
  assert (H : exists p0 ps, fix_line_size (to_utf8 u) true = join foldsep (map to_utf8 (p0 :: ps)) ++ crlf /\ List.concat (p0 :: ps) = u).
  { unfold fix_line_size. destruct (_ <? _).
    - destruct (fold_mb_uchunks u Hb 0) as (p0 & ps & -> & E). eauto.
    - exists u, []. cbn. rewrite app_nil_r. auto. }
  destruct H as (p0 & ps & E & Hc). rewrite E in Hl. subst u.
  pose proof (bmp_concat _ Hb) as Hf.
  change (map to_utf8 (p0 :: ps)) with (to_utf8 p0 :: map to_utf8 ps) in Hl.
  rewrite crlf_lines_join in Hl.
  2:{ change (to_utf8 p0 :: map to_utf8 ps) with (map to_utf8 (p0 :: ps)).
      rewrite to_utf8_map_concat by auto. intros Hin. apply Hcr. apply in_to_utf8_ascii; auto. lia. }
  inversion Hf as [|? ? Hp0 Hps]; subst.
  apply in_app_iff in Hl as [[<-|Hl]|[<-|[]]].
  - exists p0. auto using bmp_valid.
  - apply in_map_iff in Hl as (x & <- & Hx). apply in_map_iff in Hx as (p & <- & Hp).
    rewrite Forall_forall in Hps. specialize (Hps _ Hp).
    exists (32%N :: p). split; [|reflexivity]. cbn. apply bmp_valid; auto.
  - exists []. auto.
Qed.

(** a byte string that does not re-encode to itself is not valid UTF-8 *)
Lemma not_valid_utf8 b : to_utf8 (utf8_loop (length b) b) <> b -> ~ valid_utf8 b.
Proof.
  intros H (u & Hv & ->). apply H. rewrite (utf8_loop_roundtrip (length u)); auto.
Qed.

Definition emoji_line : ustring := repeat 97%N 72 ++ [0xD83D; 0xDE00]%N ++ B "xyz".
Lemma fold_splits_4byte :
  exists u l, valid_utf16 u = true /\ ~ In 13%N u /\
    In l (crlf_lines (fix_line_size (to_utf8 u) true)) /\ ~ valid_utf8 l.
Proof.
  exists emoji_line, (repeat 97%N 72 ++ [0xF0; 0x9F; 0x98]%N). repeat split.
  - rewrite <- mem_In. vm_compute. discriminate.
  - vm_compute. left. reflexivity.
  - apply not_valid_utf8. vm_compute. discriminate.
Qed.
