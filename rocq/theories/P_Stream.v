(** Reading back what the stream operators write. *)
From Verif Require Import Base BaseFacts M_ParamMap M_Values M_Date M_Addressee M_Stream S_Card S_Stream P_Assoc P_Addressee.
Local Open Scope list_scope.
Local Open Scope N_scope.

(** [reads r w y]: from the bytes [w] the reader [r] gets [y], consumes them
    exactly, and notices if some at the end are missing *)
Definition reads {A} (r : reader A) (w : bytes) (y : A) : Prop :=
  (forall rest, r (w ++ rest, true) = (y, (rest, true))) /\
  (forall p q, w = p ++ q -> q <> [] -> ok_after (r (p, true)) = false).

Lemma reads_ret {A} (y : A) : reads (ret y) [] y.
Proof. split; [reflexivity|]. intros p q H Hq. symmetry in H. apply app_eq_nil in H as [_ ->]. congruence. Qed.
Lemma stays_ret {A} (y : A) : stays_bad (ret y).
Proof. intros b. reflexivity. Qed.
Lemma stays_bind {A C} (r : reader A) (k : A -> reader C) :
  stays_bad r -> (forall x, stays_bad (k x)) -> stays_bad (bind r k).
Proof.
  intros Hr Hk b. unfold bind. specialize (Hr b). destruct (r (b, false)) as [x [b1 o]] eqn:E.
  unfold ok_after in Hr. cbn in Hr. subst o. apply Hk.
Qed.
Lemma reads_bind {A C} (r : reader A) (k : A -> reader C) w1 w2 x y :
  reads r w1 x -> reads (k x) w2 y -> (forall z, stays_bad (k z)) -> reads (bind r k) (w1 ++ w2) y.
Proof.
  intros [R1 C1] [R2 C2] Hk. split.
  - intros rest. unfold bind. rewrite <- app_assoc, R1. apply R2.
  - intros p q H Hq. unfold bind.
    apply app_eq_app in H as (l & [[H1 H2]|[H1 H2]]).
    + (* p is a prefix of w1 *)
      destruct l as [|c l].
      * rewrite app_nil_r in H1. cbn in H2. subst w1 w2. specialize (R1 []). rewrite app_nil_r in R1. rewrite R1.
        apply (C2 [] q); auto.
      * specialize (C1 p (c :: l) H1). destruct (r (p, true)) as [z [b1 o]] eqn:E.
        unfold ok_after in C1. cbn in C1. rewrite C1 by discriminate. apply Hk.
    + subst p. rewrite R1. apply (C2 l q); auto.
Qed.

(** The same with the last step being a [ret] *)
Lemma reads_last {A C} (r : reader A) (f : A -> C) w x : reads r w x -> reads (bind r (fun z => ret (f z))) w (f x).
Proof.
  intros H. rewrite <- (app_nil_r w). eapply reads_bind; [exact H|apply reads_ret|]. intros z. apply stays_ret.
Qed.

(** ** Primitives *)
Lemma be4 a b c d : be [a; b; c; d] = ((a * 256 + b) * 256 + c) * 256 + d.
Proof. unfold be. cbn [fold_left]. lia. Qed.
Lemma u32_value n : n < 4294967296 ->
  ((n / 16777216 mod 256 * 256 + n / 65536 mod 256) * 256 + n / 256 mod 256) * 256 + n mod 256 = n.
Proof.
  intros H.
  pose proof (N.div_mod n 256 ltac:(lia)). pose proof (N.div_mod (n / 256) 256 ltac:(lia)).
  pose proof (N.div_mod (n / 65536) 256 ltac:(lia)).
  assert (n / 65536 = n / 256 / 256) by (rewrite N.div_div by lia; reflexivity).
  assert (n / 16777216 = n / 65536 / 256) by (rewrite N.div_div by lia; reflexivity).
  assert (n / 16777216 < 256) by (apply N.div_lt_upper_bound; lia).
  rewrite (N.mod_small (n / 16777216)) by auto. lia.
Qed.

Lemma rd_block_ok n b rest : length b = n -> rd_block n (b ++ rest, true) = (Some b, (rest, true)).
Proof.
  intros H. unfold rd_block. cbn [fst snd]. rewrite app_length.
  replace (n <=? length b + length rest)%nat with true by (symmetry; apply Nat.leb_le; lia).
  subst n. rewrite firstn_app_exact, skipn_app_exact. reflexivity.
Qed.
Lemma rd_block_cut n b p q : length b = n -> b = p ++ q -> q <> [] -> rd_block n (p, true) = (None, ([], false)).
Proof.
  intros H E Hq. unfold rd_block. cbn [fst]. subst b. rewrite app_length in H.
  replace (n <=? length p)%nat with false; auto. symmetry. apply Nat.leb_gt. destruct q; [congruence|]. cbn in H. lia.
Qed.
Lemma reads_block n b : length b = n -> reads (rd_block n) b (Some b).
Proof.
  intros H. split; [intros; apply rd_block_ok; auto|]. intros p q E Hq. rewrite (rd_block_cut n b p q); auto.
Qed.
Lemma stays_block n : stays_bad (rd_block n).
Proof. intros b. unfold rd_block. destruct (_ <=? _)%nat; reflexivity. Qed.
Lemma stays_fail {A} (x : A) : stays_bad (fail x).
Proof. intros b. reflexivity. Qed.

Lemma reads_u32 n : n < 4294967296 -> reads rd_u32 (wr_u32 n) n.
Proof.
  intros H. unfold rd_u32. rewrite <- (u32_value n H) at 2. rewrite <- be4. fold (wr_u32 n).
  apply (reads_last (rd_block 4) (fun o => match o with Some b => be b | None => 0 end) (wr_u32 n) (Some (wr_u32 n))).
  apply reads_block. reflexivity.
Qed.
Lemma stays_u32 : stays_bad rd_u32.
Proof. apply stays_bind; [apply stays_block|]. intros. apply stays_ret. Qed.

Lemma reads_i32 z : (-2147483648 <= z < 2147483648)%Z -> reads rd_i32 (wr_i32 z) z.
Proof.
  intros H. unfold rd_i32, wr_i32.
  assert (M : (0 <= z mod 4294967296 < 4294967296)%Z) by (apply Z.mod_pos_bound; lia).
  set (n := Z.to_N (z mod 4294967296)). assert (Hn : n < 4294967296) by lia.
  assert (Hz : (if n <? 2147483648 then Z.of_N n else (Z.of_N n - 4294967296)%Z) = z).
  { unfold n. rewrite Z2N.id by lia. destruct (Z.ltb_spec z 0).
    + assert (E : (z mod 4294967296 = z + 4294967296)%Z).
      { rewrite <- (Z_mod_plus_full z 1). apply Z.mod_small. lia. }
      rewrite E. replace (_ <? _) with false by (symmetry; apply N.ltb_ge; lia). lia.
    + rewrite Z.mod_small by lia. replace (_ <? _) with true by (symmetry; apply N.ltb_lt; lia). lia. }
  clearbody n. rewrite <- Hz.
  apply (reads_last rd_u32 (fun n => if n <? 2147483648 then Z.of_N n else (Z.of_N n - 4294967296)%Z)). apply reads_u32. auto.
Qed.
Lemma stays_i32 : stays_bad rd_i32.
Proof. apply stays_bind; [apply stays_u32|]. intros. apply stays_ret. Qed.

Lemma reads_bool b : reads rd_bool (wr_bool b) b.
Proof.
  pose proof (reads_last (rd_block 1) (fun o => match o with Some [x] => negb (x =? 0) | _ => false end)
    (wr_bool b) (Some (wr_bool b)) (reads_block 1 (wr_bool b) eq_refl)) as H.
  destruct b; exact H.
Qed.
Lemma stays_bool : stays_bad rd_bool.
Proof. apply stays_bind; [apply stays_block|]. intros. apply stays_ret. Qed.

Lemma stays_bytes : stays_bad rd_bytes.
Proof.
  apply stays_bind; [apply stays_u32|]. intros n. destruct (_ =? _); [apply stays_ret|].
  apply stays_bind; [apply stays_block|]. intros. apply stays_ret.
Qed.
Lemma reads_bytes b : data_ok b -> reads rd_bytes (wr_bytes b) b.
Proof.
  intros H. unfold data_ok in H. unfold rd_bytes, wr_bytes. eapply reads_bind; [apply reads_u32; lia| |].
  - cbv beta. replace (_ =? _) with false by (symmetry; apply N.eqb_neq; lia). rewrite Nat2N.id.
    apply (reads_last (rd_block (length b)) (fun o => match o with Some b => b | None => [] end) b (Some b)).
    apply reads_block. reflexivity.
  - intros n. destruct (_ =? _); [apply stays_ret|]. apply stays_bind; [apply stays_block|]. intros. apply stays_ret.
Qed.

Lemma units_length s : length (units s) = (2 * length s)%nat.
Proof. induction s as [|u s IH]; auto. change (units (u :: s)) with (u / 256 :: u mod 256 :: units s). cbn [length]. rewrite IH. lia. Qed.
Lemma of_units_units s : Forall (fun u => u < 65536) s -> of_units (units s) = s.
Proof.
  induction 1 as [|u s Hu _ IH]; auto. change (units (u :: s)) with (u / 256 :: u mod 256 :: units s). cbn [of_units].
  rewrite IH. pose proof (N.div_mod u 256 ltac:(lia)). f_equal. lia.
Qed.
Lemma stays_string_k n : stays_bad (if n =? 4294967295 then ret [] else if N.odd n then fail []
  else bind (rd_block (N.to_nat n)) (fun o => ret (match o with Some b => of_units b | None => [] end))).
Proof.
  destruct (_ =? _); [apply stays_ret|]. destruct (N.odd n); [apply stays_fail|].
  apply stays_bind; [apply stays_block|]. intros. apply stays_ret.
Qed.
Lemma stays_string : stays_bad rd_string.
Proof. apply stays_bind; [apply stays_u32|]. exact stays_string_k. Qed.
Lemma reads_string s : str_ok s -> reads rd_string (wr_string s) s.
Proof.
  intros [H1 H2]. unfold rd_string, wr_string. eapply reads_bind; [apply reads_u32; lia| |exact stays_string_k].
  cbv beta. replace (_ =? _) with false by (symmetry; apply N.eqb_neq; lia).
  rewrite N.odd_mul. change (N.odd 2) with false. cbn [andb].
  rewrite <- (of_units_units s H1) at 3.
  apply (reads_last (rd_block _) (fun o => match o with Some b => of_units b | None => [] end) (units s) (Some (units s))).
  apply reads_block. rewrite units_length. lia.
Qed.

(** ** Lists *)
Lemma rd_items_reads {A} (r : reader A) (w : A -> bytes) (f : A -> A) l :
  (forall x, In x l -> reads r (w x) (f x)) -> forall acc,
  reads (rd_items r (length l) acc) (flat_map w l) (acc ++ map f l).
Proof.
  induction l as [|x l IH]; intros H acc.
  - cbn. rewrite app_nil_r. apply reads_ret.
  - destruct (H x (or_introl eq_refl)) as [R C].
    destruct (IH (fun y Hy => H y (or_intror Hy)) (acc ++ [f x])) as [R2 C2].
    cbn [rd_items length flat_map map]. split.
    + intros rest. rewrite <- app_assoc, R. cbn [snd]. rewrite R2, <- app_assoc. reflexivity.
    + intros p q E Hq. apply app_eq_app in E as (m & [[E1 E2]|[E1 E2]]).
      * destruct m as [|c m].
        -- rewrite app_nil_r in E1. cbn in E2. subst p. specialize (R []). rewrite app_nil_r in R. rewrite R. cbn [snd].
           apply (C2 [] q); auto.
        -- specialize (C p (c :: m) E1). destruct (r (p, true)) as [z [b1 o]]. unfold ok_after in C. cbn in C.
           rewrite C by discriminate. reflexivity.
      * subst p. rewrite R. cbn [snd]. apply (C2 m q); auto.
Qed.
Lemma saved_bad {A} (z : A * source) : ok_after z = false -> ok_after (let '(l, s1) := z in (l, (fst s1, true && snd s1))) = false.
Proof. destruct z as [x [b o]]. exact (fun H => H). Qed.
Lemma reads_list_map {A} (r : reader A) (w : A -> bytes) (f : A -> A) (P : A -> Prop) l :
  (forall x, P x -> reads r (w x) (f x)) -> list_ok P l -> reads (rd_list r) (wr_list w l) (map f l).
Proof.
  intros H [Hf Hl]. rewrite Forall_forall in Hf.
  assert (R : reads (bind rd_u32 (fun n => rd_items r (N.to_nat n) [])) (wr_list w l) (map f l)).
  { destruct (rd_items_reads r w f l (fun x Hx => H x (Hf x Hx)) []) as [R2 C2].
    destruct (reads_u32 (N.of_nat (length l)) Hl) as [R1 C1]. unfold wr_list. split.
    - intros rest. unfold bind. rewrite <- app_assoc, R1, Nat2N.id. apply R2.
    - intros p q E Hq. unfold bind. apply app_eq_app in E as (m & [[E1 E2]|[E1 E2]]).
      + destruct m as [|c m].
        * rewrite app_nil_r in E1. cbn in E2. subst p. specialize (R1 []). rewrite app_nil_r in R1. rewrite R1, Nat2N.id.
          apply (C2 [] q); auto.
        * (* the number itself is cut *)
          unfold rd_u32, bind. rewrite (rd_block_cut 4 (wr_u32 (N.of_nat (length l))) p (c :: m) eq_refl E1) by discriminate. reflexivity.
      + subst p. rewrite R1, Nat2N.id. apply (C2 m q); auto. }
  destruct R as [R C]. unfold rd_list. split.
  - intros rest. cbn [fst snd]. rewrite R. reflexivity.
  - intros p q E Hq. cbn [fst snd]. apply saved_bad. exact (C p q E Hq).
Qed.
Lemma reads_list {A} (r : reader A) (w : A -> bytes) (P : A -> Prop) l :
  (forall x, P x -> reads r (w x) x) -> list_ok P l -> reads (rd_list r) (wr_list w l) l.
Proof. intros H Hl. rewrite <- (map_id l) at 2. apply (reads_list_map r w (fun x => x) P); auto. Qed.
Lemma stays_list {A} (r : reader A) : stays_bad (rd_list r).
Proof. intros b. unfold rd_list. cbn [fst snd]. destruct (bind _ _ _) as [x [b1 o]]. reflexivity. Qed.

(** ** Parameter maps *)
Lemma stays_pmap_loop n : forall m, stays_bad (rd_pmap_loop n m).
Proof.
  destruct n as [|n]; intros m b; [reflexivity|]. cbn [rd_pmap_loop].
  pose proof (stays_string b) as H1. destruct (rd_string (b, false)) as [p [b1 o1]]. unfold ok_after in H1. cbn in H1. subst o1.
  pose proof (stays_list rd_string b1) as H2. destruct (rd_list rd_string (b1, false)) as [vs [b2 o2]]. unfold ok_after in H2. cbn in H2. subst o2.
  reflexivity.
Qed.
Lemma stays_pmap : stays_bad rd_pmap.
Proof. apply stays_bind; [apply stays_u32|]. intros n. apply stays_pmap_loop. Qed.
Lemma reads_pmap_loop l : Forall (fun e : ustring * list ustring => str_ok (fst e) /\ list_ok str_ok (snd e)) l -> forall m,
  reads (rd_pmap_loop (length l) m) (flat_map (fun e => wr_string (fst e) ++ wr_list wr_string (snd e)) l) (m ++ l).
Proof.
  induction 1 as [|[p vs] l [Hp Hv] _ IH]; intros m.
  - cbn. rewrite app_nil_r. apply reads_ret.
  - specialize (IH (m ++ [(p, vs)])). cbn [fst snd] in *. cbn [length flat_map rd_pmap_loop fst snd].
    replace (m ++ (p, vs) :: l) with ((m ++ [(p, vs)]) ++ l) by (rewrite <- app_assoc; reflexivity).
    assert (R : reads (bind rd_string (fun q => bind (rd_list rd_string) (fun ws => ret (q, ws)))) (wr_string p ++ wr_list wr_string vs) (p, vs)).
    { eapply reads_bind; [apply reads_string; auto| |].
      - apply (reads_last (rd_list rd_string) (fun ws => (p, ws))). apply (reads_list rd_string wr_string str_ok); auto. apply reads_string.
      - intros z. apply stays_bind; [apply stays_list|]. intros. apply stays_ret. }
    destruct R as [R C], IH as [R2 C2]. unfold bind, ret in R, C. split.
    + intros rest. rewrite <- app_assoc. specialize (R (flat_map (fun e => wr_string (fst e) ++ wr_list wr_string (snd e)) l ++ rest)).
      destruct (rd_string _) as [p' s1]. destruct (rd_list rd_string s1) as [vs' s2]. injection R as -> -> ->. cbn [snd]. apply R2.
    + intros a q E Hq. apply app_eq_app in E as (k & [[E1 E2]|[E1 E2]]).
      * destruct k as [|c k].
        -- rewrite app_nil_r in E1. cbn in E2. rewrite <- E1. specialize (R []). rewrite app_nil_r in R.
           destruct (rd_string _) as [p' s1]. destruct (rd_list rd_string s1) as [vs' s2]. injection R as -> -> ->. cbn [snd].
           apply (C2 [] q); auto.
        -- specialize (C a (c :: k) E1). destruct (rd_string (a, true)) as [p' s1]. destruct (rd_list rd_string s1) as [vs' [b o]].
           unfold ok_after in C. cbn in C. cbn [snd]. rewrite C by discriminate. reflexivity.
      * subst a. specialize (R k).
        destruct (rd_string _) as [p' s1]. destruct (rd_list rd_string s1) as [vs' s2]. injection R as -> -> ->. cbn [snd].
        apply (C2 k q); auto.
Qed.
Lemma reads_pmap m : params_ok m -> reads rd_pmap (wr_pmap m) m.
Proof.
  intros [H1 H2]. unfold rd_pmap, wr_pmap. eapply reads_bind; [apply reads_u32; auto| |intros; apply stays_pmap_loop].
  rewrite Nat2N.id. apply (reads_pmap_loop m H1 []).
Qed.

(** ** Failed reads leave nothing behind *)
Lemma items_bad {A} (r : reader A) n : forall acc s, snd s = true -> ok_after (rd_items r n acc s) = false -> got (rd_items r n acc s) = [].
Proof.
  induction n as [|n IH]; intros acc s Hs H.
  - unfold ok_after in H. cbn in H. congruence.
  - cbn [rd_items] in *. destruct (r s) as [x s1]. destruct (snd s1) eqn:E; [|reflexivity]. apply IH; auto.
Qed.
Lemma list_bad {A} (r : reader A) b : ok_after (rd_list r (b, true)) = false -> got (rd_list r (b, true)) = [].
Proof.
  unfold rd_list. cbn [fst snd]. unfold bind. destruct (rd_u32 (b, true)) as [n s1]. destruct (N.to_nat n) as [|m].
  - intros _. reflexivity.
  - cbn [rd_items]. destruct (r s1) as [x s2]. destruct (snd s2) eqn:E2; [|reflexivity].
    pose proof (items_bad r m ([] ++ [x]) s2 E2) as I. revert I. destruct (rd_items r m ([] ++ [x]) s2) as [l [b2 o2]]. exact (fun I => I).
Qed.
Lemma pmap_loop_bad n : forall m s, snd s = true -> ok_after (rd_pmap_loop n m s) = false -> got (rd_pmap_loop n m s) = [].
Proof.
  induction n as [|n IH]; intros m s Hs H.
  - unfold ok_after in H. cbn in H. congruence.
  - cbn [rd_pmap_loop] in *. destruct (rd_string s) as [p s1]. destruct (rd_list rd_string s1) as [vs s2].
    destruct (snd s2) eqn:E; [|reflexivity]. apply IH; auto.
Qed.
Lemma pmap_bad s : ok_after (rd_pmap s) = false -> got (rd_pmap s) = [].
Proof.
  unfold rd_pmap, bind. destruct (rd_u32 s) as [n s1]. destruct (N.to_nat n) as [|m]; [reflexivity|].
  cbn [rd_pmap_loop]. destruct (rd_string s1) as [p s2]. destruct (rd_list rd_string s2) as [vs s3].
  destruct (snd s3) eqn:E; [|reflexivity]. apply pmap_loop_bad; auto.
Qed.
Lemma reads_restored {A} (w : A -> bytes) (r : reader A) x : reads r (w x) x -> restored w r x.
Proof. intros [H _]. exact H. Qed.
Lemma reads_cut {A} (w : A -> bytes) (r : reader A) x : reads r (w x) x -> cut_noticed w r x.
Proof. intros [_ H]. exact H. Qed.
Lemma bad_result {A} (z : A * source) x : ok_after z = false -> got z = x -> z = (x, (rest_of z, false)).
Proof. destruct z as [y [b o]]. unfold ok_after, got, rest_of. cbn. intros -> ->. reflexivity. Qed.
