(** A concrete set of encodings that satisfies the assumptions on Qt's encodings
    (used only in the examples). *)
From Verif Require Import Base BaseFacts M_ParamMap M_Values M_Date M_Addressee M_Stream S_Card S_Stream P_Stream P_StreamBack.
From Coq Require Import QArith.
Local Open Scope list_scope.
Local Open Scope N_scope.

(** numbers in unary, ended by 0, the list ended by 2 *)
Definition w_nums (l : list N) : bytes := flat_map (fun n => repeat 1 (N.to_nat n) ++ [0]) l ++ [2].
Fixpoint r_loop (b : bytes) (cur : N) (acc : list N) : list N * source :=
  match b with
  | [] => ([], ([], false))
  | c :: r => if c =? 1 then r_loop r (cur + 1) acc
              else if c =? 0 then r_loop r 0 (acc ++ [cur])
              else if c =? 2 then (acc, (r, true)) else ([], (r, false))
  end.
Definition r_nums : reader (list N) := fun s =>
  let '(x, (b, o)) := r_loop (fst s) 0 [] in (x, (b, snd s && o)).
Lemma r_loop_ones n : forall cur acc rest, r_loop (repeat 1 n ++ rest) cur acc = r_loop rest (cur + N.of_nat n) acc.
Proof.
  induction n as [|n IH]; intros cur acc rest; cbn [repeat app].
  - f_equal. lia.
  - cbn [r_loop]. change (1 =? 1) with true. cbn match. rewrite IH. f_equal. lia.
Qed.
Lemma r_loop_ok l : forall acc rest, r_loop (w_nums l ++ rest) 0 acc = (acc ++ l, (rest, true)).
Proof.
  unfold w_nums. induction l as [|n l IH]; intros acc rest.
  - rewrite app_nil_r. reflexivity.
  - cbn [flat_map]. rewrite <- !app_assoc. rewrite r_loop_ones. cbn [app r_loop]. change (0 =? 1) with false. change (0 =? 0) with true. cbn match.
    replace (0 + N.of_nat (N.to_nat n)) with n by lia. specialize (IH (acc ++ [n]) rest). rewrite <- !app_assoc in IH. cbn [app] in IH.
    rewrite IH. reflexivity.
Qed.
Lemma r_loop_cut b : Forall (fun c => c = 0 \/ c = 1) b -> forall cur acc, ok_after (r_loop b cur acc) = false.
Proof.
  induction 1 as [|c b [-> | ->] _ IH]; intros cur acc; [reflexivity| |]; cbn [r_loop].
  - change (0 =? 1) with false. change (0 =? 0) with true. cbn match. apply IH.
  - change (1 =? 1) with true. cbn match. apply IH.
Qed.
Lemma codec_nums : codec w_nums r_nums.
Proof.
  split; [|split].
  - intros l rest. unfold r_nums. cbn [fst snd]. pose proof (r_loop_ok l [] rest) as H. cbn [app] in H.
    etransitivity; [|reflexivity]. revert H. destruct (r_loop (w_nums l ++ rest) 0 []) as [x [b o]]. intros H. injection H as -> -> ->. reflexivity.
  - intros l p q H Hq. unfold r_nums. cbn [fst snd].
    assert (Hp : Forall (fun c => c = 0 \/ c = 1) p).
    { destruct (exists_last Hq) as (q' & c & ->). unfold w_nums in H. rewrite app_assoc in H. apply app_inj_tail in H as [H _].
      assert (F : Forall (fun c => c = 0 \/ c = 1) (p ++ q')).
      { rewrite <- H. clear. apply Forall_forall. intros c Hc. apply in_flat_map in Hc as (n & _ & Hc). apply in_app_iff in Hc as [Hc|[<-|[]]]; auto.
        apply repeat_spec in Hc. auto. }
      apply Forall_app in F. tauto. }
    pose proof (r_loop_cut p Hp 0 []) as C. revert C. destruct (r_loop p 0 []) as [x [b o]]. exact (fun C => C).
  - intros b. unfold r_nums. cbn [fst snd]. destruct (r_loop b 0 []) as [x [b1 o]]. reflexivity.
Qed.
Lemma codec_map {A C} (w : A -> bytes) (r : reader A) (enc : C -> A) (dec : A -> C) : codec w r -> (forall x, dec (enc x) = x) ->
  codec (fun x => w (enc x)) (bind r (fun z => ret (dec z))).
Proof.
  intros H D. pose proof (fun x => codec_reads w r (enc x) H) as R. split; [|split].
  - intros x. destruct (reads_end r dec (w (enc x)) (enc x) x (R x) (D x)) as [R1 _]. exact R1.
  - intros x. destruct (reads_end r dec (w (enc x)) (enc x) x (R x) (D x)) as [_ R1]. exact R1.
  - apply stays_bind; [apply (codec_stays w r H)|]. intros z. apply stays_ret.
Qed.

Definition enc_z (z : Z) : N * N := if (z <? 0)%Z then (1, Z.to_N (- z)) else (0, Z.to_N z).
Definition dec_z (p : N * N) : Z := if fst p =? 0 then Z.of_N (snd p) else (- Z.of_N (snd p))%Z.
Lemma dec_enc_z z : dec_z (enc_z z) = z.
Proof. unfold enc_z. destruct (Z.ltb_spec z 0); unfold dec_z; cbn [fst snd]; [change (1 =? 0) with false|change (0 =? 0) with true]; cbn match; lia. Qed.
Definition nz (z : Z) : list N := [fst (enc_z z); snd (enc_z z)].
Lemma dec_nz z : dec_z (fst (enc_z z), snd (enc_z z)) = z.
Proof. rewrite <- surjective_pairing. apply dec_enc_z. Qed.

Definition enc_dt (d : datetime) : list N :=
  match dt_date d with Some x => 1 :: nz (d_year x) ++ nz (d_month x) ++ nz (d_day x) | None => [0; 0; 0; 0; 0; 0; 0] end
  ++ match dt_time d with Some t => 1 :: nz (t_hour t) ++ nz (t_min t) ++ nz (t_sec t) ++ nz (t_msec t) | None => [0; 0; 0; 0; 0; 0; 0; 0; 0] end
  ++ match dt_spec d with TLocal => [0; 0; 0] | TUtc => [1; 0; 0] | TOffset o => 2 :: nz o | TZone => [3; 0; 0] end.
Definition dec_dt (l : list N) : datetime :=
  match l with
  | [hd; y1; y2; m1; m2; d1; d2; ht; h1; h2; i1; i2; s1; s2; k1; k2; sp; o1; o2] =>
      mkDt (if hd =? 0 then None else Some (mkDate (dec_z (y1, y2)) (dec_z (m1, m2)) (dec_z (d1, d2))))
           (if ht =? 0 then None else Some (mkTime (dec_z (h1, h2)) (dec_z (i1, i2)) (dec_z (s1, s2)) (dec_z (k1, k2))))
           (if sp =? 0 then TLocal else if sp =? 1 then TUtc else if sp =? 2 then TOffset (dec_z (o1, o2)) else TZone)
  | _ => dt_null
  end.
Lemma dec_enc_dt d : dec_dt (enc_dt d) = d.
Proof.
  destruct d as [[[y m dd]|] [[h i s k]|] [| |o|]]; unfold enc_dt, nz; cbn [dt_date dt_time dt_spec d_year d_month d_day t_hour t_min t_sec t_msec app dec_dt];
    change (1 =? 0) with false; change (0 =? 0) with true; change (1 =? 1) with true; change (2 =? 0) with false; change (2 =? 1) with false;
    change (2 =? 2) with true; change (3 =? 0) with false; change (3 =? 1) with false; change (3 =? 2) with false; cbn match; rewrite ?dec_nz; reflexivity.
Qed.
Definition enc_flt (f : flt) : list N :=
  match f with Fin q => 0 :: Npos (Qden q) :: nz (Qnum q) | PInf => [1] | NInf => [2] | NaN => [3] end.
Definition dec_flt (l : list N) : flt :=
  match l with
  | [_; Npos d; a; b] => Fin (dec_z (a, b) # d)
  | [1] => PInf | [2] => NInf | _ => NaN
  end.
Lemma dec_enc_flt f : dec_flt (enc_flt f) = f.
Proof. destruct f as [[n d]| | |]; [|reflexivity..]. unfold enc_flt, nz. cbn [Qnum Qden dec_flt]. rewrite dec_nz. reflexivity. Qed.
Definition enc_img (i : image) : list N := match i with None => [] | Some l => 1 :: l end.
Definition dec_img (l : list N) : image := match l with [] => None | _ :: r => Some r end.
Lemma dec_enc_img i : dec_img (enc_img i) = i. Proof. destruct i; reflexivity. Qed.

Definition ex_stream : StreamExt := {|
  se_url_encoded := fun u => u;
  se_dt_write := fun d => w_nums (enc_dt d);
  se_dt_read := bind r_nums (fun l => ret (dec_dt l));
  se_flt_write := fun d => w_nums (enc_flt d);
  se_flt_read := bind r_nums (fun l => ret (dec_flt l));
  se_img_write := fun d => w_nums (enc_img d);
  se_img_read := bind r_nums (fun l => ret (dec_img l))
|}.
(** every text but the empty one is a valid URL unless it starts with a blank; image
    data starting with 0 cannot be decoded *)
Definition ex_senv : Env := {|
  env_url := {| url_parse := fun s => s; url_valid := fun u => match u with [] => false | c :: _ => negb (c =? 32) end;
                url_scheme := fun u => firstn 4 u |};
  env_img := {| img_load := fun b => match b with 0 :: _ => None | _ => Some b end; img_save := fun im _ => im |};
  env_instant := fun d => match dt_date d with Some x => d_year x | None => 0%Z end
|}.
Lemma ex_sane : sane_stream (env_url ex_senv) ex_stream.
Proof.
  constructor.
  - apply (codec_map w_nums r_nums enc_dt dec_dt codec_nums dec_enc_dt).
  - apply (codec_map w_nums r_nums enc_flt dec_flt codec_nums dec_enc_flt).
  - apply (codec_map w_nums r_nums enc_img dec_img codec_nums dec_enc_img).
  - reflexivity.
  - reflexivity.
Qed.

(** deciding the conditions *)
Definition str_okb (s : ustring) : bool := forallb (fun u => u <? 65536) s && (2 * N.of_nat (length s) <? 4294967294).
Lemma str_okb_ok s : str_okb s = true -> str_ok s.
Proof.
  unfold str_okb, str_ok. intros H. apply andb_prop in H as [H1 H2]. split; [|apply N.ltb_lt; exact H2].
  apply Forall_forall. intros u Hu. rewrite forallb_forall in H1. apply N.ltb_lt. auto.
Qed.
