(** Reading back values with null texts. *)
From Verif Require Import Base BaseFacts M_ParamMap M_Values M_Date M_Addressee M_Stream S_Card S_Stream S_StreamNull P_Stream P_StreamBack.
Local Open Scope list_scope.
Local Open Scope N_scope.

(** every form of a value is read as the value *)
Definition formed {A} (r : reader A) (f : forms) (y : A) : Prop := forall c, f c -> reads r c y.
Lemma formed_only {A} (r : reader A) w y : reads r w y -> formed r (only w) y.
Proof. intros H c ->. exact H. Qed.
Lemma formed_bind {A C} (r : reader A) (k : A -> reader C) f g l x y :
  formed r f x -> formed (k x) (cat (g :: l)) y -> (forall z, stays_bad (k z)) -> formed (bind r k) (cat (f :: g :: l)) y.
Proof. intros H1 H2 H3 c (a & b & -> & Ha & Hb). eapply reads_bind; [apply H1; exact Ha|apply H2; exact Hb|exact H3]. Qed.
Lemma formed_end {A C} (r : reader A) (h : A -> C) f x y : formed r f x -> h x = y -> formed (bind r (fun z => ret (h z))) (cat [f]) y.
Proof. intros H E c Hc. eapply reads_end; [apply H; exact Hc|exact E]. Qed.

Lemma formed_string s : str_ok s -> formed rd_string (fm_string s) s.
Proof.
  intros H c [->|[-> ->]]; [apply reads_string; exact H|]. unfold rd_string. rewrite <- (app_nil_r null_mark).
  eapply reads_bind; [change null_mark with (wr_u32 4294967295); apply reads_u32; reflexivity| |exact stays_string_k]. apply reads_ret.
Qed.
Lemma formed_bytes d : data_ok d -> formed rd_bytes (fm_bytes d) d.
Proof.
  intros H c [->|[-> ->]]; [apply reads_bytes; exact H|]. unfold rd_bytes. rewrite <- (app_nil_r null_mark).
  eapply reads_bind; [change null_mark with (wr_u32 4294967295); apply reads_u32; reflexivity| |].
  - apply reads_ret.
  - intros n. destruct (_ =? _); [apply stays_ret|]. apply stays_bind; [apply stays_block|]. intros. apply stays_ret.
Qed.
Lemma items_formed {A} (r : reader A) bs ys : Forall2 (reads r) bs ys -> forall acc, reads (rd_items r (length bs) acc) (concat bs) (acc ++ ys).
Proof.
  induction 1 as [|b y bs ys [R C] _ IH]; intros acc.
  - cbn. rewrite app_nil_r. apply reads_ret.
  - destruct (IH (acc ++ [y])) as [R2 C2]. cbn [rd_items length concat]. split.
    + intros rest. rewrite <- app_assoc, R. cbn [snd]. rewrite R2, <- app_assoc. reflexivity.
    + intros p q E Hq. apply app_eq_app in E as (m & [[E1 E2]|[E1 E2]]).
      * destruct m as [|c m].
        -- rewrite app_nil_r in E1. cbn in E2. subst p. specialize (R []). rewrite app_nil_r in R. rewrite R. cbn [snd]. apply (C2 [] q); auto.
        -- specialize (C p (c :: m) E1). destruct (r (p, true)) as [z [b1 o]]. unfold ok_after in C. cbn in C. rewrite C by discriminate. reflexivity.
      * subst p. rewrite R. cbn [snd]. apply (C2 m q); auto.
Qed.
Lemma formed_list_map {A} (r : reader A) (w : A -> forms) (f : A -> A) (P : A -> Prop) l :
  (forall x, P x -> formed r (w x) (f x)) -> list_ok P l -> formed (rd_list r) (fm_list w l) (map f l).
Proof.
  intros H [Hf Hl] c (c1 & c2 & -> & -> & bs & -> & F).
  assert (F2 : Forall2 (reads r) bs (map f l)).
  { clear Hl. revert bs F. induction Hf as [|x l Hx _ IH]; intros bs F; inversion F; subst; constructor; auto. apply (H x Hx). assumption. }
  assert (LB : length bs = length l) by (clear -F; induction F; cbn; congruence).
  assert (R : reads (bind rd_u32 (fun n => rd_items r (N.to_nat n) [])) (wr_u32 (N.of_nat (length l)) ++ concat bs) (map f l)).
  { assert (I : reads (rd_items r (length l) []) (concat bs) (map f l)) by (rewrite <- LB; exact (items_formed r bs (map f l) F2 [])). destruct I as [R2 C2].
    destruct (reads_u32 (N.of_nat (length l)) Hl) as [R1 C1]. split.
    - intros rest. unfold bind. rewrite <- app_assoc, R1, Nat2N.id. apply R2.
    - intros p q E Hq. unfold bind. apply app_eq_app in E as (m & [[E1 E2]|[E1 E2]]).
      + destruct m as [|c m].
        * rewrite app_nil_r in E1. cbn in E2. subst p. specialize (R1 []). rewrite app_nil_r in R1. rewrite R1, Nat2N.id. apply (C2 [] q); auto.
        * unfold rd_u32, bind. rewrite (rd_block_cut 4 (wr_u32 (N.of_nat (length l))) p (c :: m) eq_refl E1) by discriminate. reflexivity.
      + subst p. rewrite R1, Nat2N.id. apply (C2 m q); auto. }
  destruct R as [R C]. unfold rd_list. split.
  - intros rest. cbn [fst snd]. rewrite R. reflexivity.
  - intros p q E Hq. cbn [fst snd]. apply saved_bad. exact (C p q E Hq).
Qed.
Lemma formed_list {A} (r : reader A) (w : A -> forms) (P : A -> Prop) l :
  (forall x, P x -> formed r (w x) x) -> list_ok P l -> formed (rd_list r) (fm_list w l) l.
Proof. intros H Hl. rewrite <- (map_id l) at 2. apply (formed_list_map r w (fun x => x) P); auto. Qed.

Lemma formed_pmap_loop l : Forall (fun e : ustring * list ustring => str_ok (fst e) /\ list_ok str_ok (snd e)) l -> forall bs m,
  Forall2 (fun e => cat [fm_string (fst e); fm_list fm_string (snd e)]) l bs -> reads (rd_pmap_loop (length l) m) (concat bs) (m ++ l).
Proof.
  induction 1 as [|[p vs] l [Hp Hv] _ IH]; intros bs m F; inversion F as [|? b ? bs' F1 F2]; subst.
  - cbn. rewrite app_nil_r. apply reads_ret.
  - specialize (IH bs' (m ++ [(p, vs)]) F2). cbn [fst snd] in *. cbn [length concat rd_pmap_loop].
    replace (m ++ (p, vs) :: l) with ((m ++ [(p, vs)]) ++ l) by (rewrite <- app_assoc; reflexivity).
    assert (R : reads (bind rd_string (fun q => bind (rd_list rd_string) (fun ws => ret (q, ws)))) b (p, vs)).
    { refine (formed_bind _ _ _ _ _ p _ (formed_string p Hp) _ _ b F1).
      - eapply formed_end; [apply (formed_list rd_string fm_string str_ok); [exact formed_string|exact Hv]|reflexivity].
      - intros z. apply stays_bind; [apply stays_list|]. intros. apply stays_ret. }
    destruct R as [R C], IH as [R2 C2]. unfold bind, ret in R, C. split.
    + intros rest. rewrite <- app_assoc. specialize (R (concat bs' ++ rest)).
      destruct (rd_string _) as [p' s1]. destruct (rd_list rd_string s1) as [vs' s2]. injection R as -> -> ->. cbn [snd]. apply R2.
    + intros a q E Hq. apply app_eq_app in E as (k & [[E1 E2]|[E1 E2]]).
      * destruct k as [|c k].
        -- rewrite app_nil_r in E1. cbn in E2. rewrite <- E1. specialize (R []). rewrite app_nil_r in R.
           destruct (rd_string _) as [p' s1]. destruct (rd_list rd_string s1) as [vs' s2]. injection R as -> -> ->. cbn [snd]. apply (C2 [] q); auto.
        -- specialize (C a (c :: k) E1). destruct (rd_string (a, true)) as [p' s1]. destruct (rd_list rd_string s1) as [vs' [b1 o]].
           unfold ok_after in C. cbn in C. cbn [snd]. rewrite C by discriminate. reflexivity.
      * subst a. specialize (R k). destruct (rd_string _) as [p' s1]. destruct (rd_list rd_string s1) as [vs' s2]. injection R as -> -> ->. cbn [snd].
        apply (C2 k q); auto.
Qed.
Lemma formed_pmap m : params_ok m -> formed rd_pmap (fm_pmap m) m.
Proof.
  intros [H1 H2] c (a & b & -> & -> & bs & -> & F). unfold rd_pmap. eapply reads_bind; [apply reads_u32; auto| |intros; apply stays_pmap_loop].
  rewrite Nat2N.id. apply (formed_pmap_loop m H1 bs [] F).
Qed.

Ltac fstep H := eapply formed_bind; [first [apply H; tauto | apply formed_only; apply H; tauto]| |intros; stays].
Ltac flast H := eapply formed_end; [first [apply H; tauto | apply formed_only; apply H; tauto]|reflexivity].
Ltac flist L P := eapply formed_bind; [apply (formed_list _ _ P); [intros; apply L; assumption|assumption]| |intros; stays].

Lemma formed_phone p : phone_ok p -> formed rd_phone (fm_phone p) p.
Proof.
  destruct p as [i n t m]. unfold phone_ok, flags_ok, fm_phone, rd_phone. cbn [ph_id ph_type ph_number ph_params]. intros H.
  fstep formed_string. fstep reads_u32. fstep formed_string. flast formed_pmap.
Qed.
Lemma formed_email e : email_ok e -> formed rd_email (fm_email e) e.
Proof. destruct e as [m s]. unfold email_ok, fm_email, rd_email. cbn [em_params em_mail]. intros H. fstep formed_pmap. flast formed_string. Qed.
Lemma formed_ptext e : ptext_ok e -> formed rd_ptext (fm_ptext e) e.
Proof. destruct e as [m s]. unfold ptext_ok, fm_ptext, rd_ptext. cbn [pt_params pt_text]. intros H. fstep formed_pmap. flast formed_string. Qed.
Lemma formed_key k : key_ok k -> formed rd_key (fm_key k) k.
Proof.
  destruct k as [i b x c t ib]. unfold key_ok, fm_key, rd_key. cbn [ke_id ke_bin ke_text ke_custom ke_type ke_isbin]. intros H.
  fstep formed_string. fstep reads_keytype. fstep reads_bool. fstep formed_bytes. fstep formed_string.
  eapply formed_end; [apply formed_string; tauto|]. destruct t; reflexivity.
Qed.
Lemma formed_sound s : sound_ok s -> formed rd_sound (fm_sound s) s.
Proof.
  destruct s as [u t d i]. unfold sound_ok, fm_sound, rd_sound. cbn [so_intern so_url so_data so_type]. intros H.
  fstep reads_bool. fstep formed_string. fstep formed_bytes. flast formed_string.
Qed.
Lemma formed_gender g : gender_ok g -> formed rd_gender (fm_gender g) g.
Proof. destruct g as [x c]. unfold gender_ok, fm_gender, rd_gender. cbn [ge_gender ge_comment]. intros H. fstep formed_string. flast formed_string. Qed.
Lemma formed_fgroup f : fgroup_ok f -> formed rd_fgroup (fm_fgroup f) f.
Proof.
  destruct f as [m n v]. unfold fgroup_ok, fm_fgroup, rd_fgroup. cbn [fg_params fg_name fg_value]. intros H.
  fstep formed_pmap. fstep formed_string. flast formed_string.
Qed.
Lemma formed_url U E u : sane_stream U E -> url_ok U E u -> formed (rd_url U) (fm_url U E u) u.
Proof.
  intros S [[H1 H2]|[H1 ->]]; unfold rd_url, fm_url; rewrite H1; (eapply formed_end; [apply formed_bytes|]).
  - exact H2.
  - apply (ss_url _ _ S). exact H1.
  - unfold data_ok. cbn. lia.
  - apply (ss_url_empty _ _ S).
Qed.
Lemma formed_calurl U E c : sane_stream U E -> calurl_ok U E c -> formed (rd_calurl U) (fm_calurl U E c) c.
Proof.
  intros S. destruct c as [m t u]. unfold calurl_ok, fm_calurl, rd_calurl. cbn [cu_params cu_type cu_url]. intros H.
  fstep formed_pmap. eapply formed_bind; [apply formed_only; apply (reads_u32 (caltype_num t)); destruct t; reflexivity| |intros; stays].
  eapply formed_end; [apply formed_url; tauto|]. destruct t; reflexivity.
Qed.
Lemma formed_rurl U E r : sane_stream U E -> rurl_ok U E r -> formed (rd_rurl U) (fm_rurl U E r) r.
Proof.
  intros S. destruct r as [m u]. unfold rurl_ok, fm_rurl, rd_rurl. cbn [ru_params ru_url]. intros H. fstep formed_pmap. flast formed_url.
Qed.
Lemma formed_impp U E i : sane_stream U E -> impp_ok U E i -> formed (rd_impp U) (fm_impp U E i) i.
Proof.
  intros S. destruct i as [m u]. unfold impp_ok, fm_impp, rd_impp. cbn [im_params im_address]. intros H.
  fstep formed_pmap. fstep formed_url. eapply formed_end; [|reflexivity]. apply formed_only. change (wr_u32 0) with (wr_i32 0). apply reads_i32. lia.
Qed.
Lemma formed_address U E a : sane_stream U E -> address_ok a -> formed (rd_address E) (fm_address E a) a.
Proof.
  intros S. pose proof (stays_geo _ _ S). destruct a as [em i t g po ex st lo re pc co la].
  unfold address_ok, flags_ok, fm_address, rd_address. cbn [ad_empty ad_id ad_type ad_geo ad_pobox ad_extended ad_street ad_locality ad_region ad_postal ad_country ad_label].
  intros (H1 & H2 & H3). repeat match goal with H : Forall _ (_ :: _) |- _ => inversion H; clear H; subst end.
  fstep formed_string. fstep reads_u32. do 8 (fstep formed_string). fstep reads_bool.
  eapply formed_end; [apply formed_only; apply (reads_geo U E); exact S|reflexivity].
Qed.
Lemma formed_picture U I E o p : sane_stream U E -> picture_ok p -> formed (rd_picture E o) (fm_picture I E p) (picture_back I o p).
Proof.
  intros S. pose proof (codec_stays _ _ (ss_img _ _ S)). pose proof (fun x => codec_reads _ _ x (ss_img _ _ S)) as F.
  unfold picture_ok, picture_back, fm_picture, rd_picture. intros H0.
  fstep reads_bool. fstep formed_string. fstep formed_string. flast F.
Qed.
Lemma formed_contact V E o a : sane_stream (env_url V) E -> streamable V E a -> formed (rd_addressee V E o) (fm_contact V E a) (back V o a).
Proof.
  intros S H. pose proof (stays_geo _ _ S). pose proof (fun p => stays_picture _ _ p S). pose proof (codec_stays _ _ (ss_dt _ _ S)).
  pose proof (fun x => codec_reads _ _ x (ss_dt _ _ S)) as D.
  destruct H as [Ht Hz [Hp1 Hp2] Hs Hg Hph Had Hem Hke Him Hca Hxs Hxp Hxl Hur Hso Hct Hme Hpt Hfg Hcu Hsr Hnm].
  repeat match goal with H : Forall _ (_ :: _) |- _ => inversion H; clear H; subst end.
  unfold fm_contact, rd_addressee. cbv zeta.
  do 8 (fstep formed_string). fstep D. fstep reads_bool. fstep formed_string. fstep reads_tz.
  eapply formed_bind; [apply formed_only; apply (reads_geo (env_url V) E); exact S| |intros; stays].
  do 3 (fstep formed_string). fstep D. fstep formed_string. fstep reads_secrecy.
  eapply formed_bind; [apply (formed_picture (env_url V) (env_img V) E); [exact S|assumption]| |intros; stays].
  eapply formed_bind; [apply (formed_picture (env_url V) (env_img V) E); [exact S|assumption]| |intros; stays].
  fstep formed_sound.
  flist formed_phone phone_ok.
  eapply formed_bind; [apply (formed_list _ _ address_ok); [intros; apply (formed_address (env_url V)); assumption|assumption]| |intros; stays].
  flist formed_email email_ok. flist formed_string str_ok. flist formed_string str_ok. flist formed_key key_ok. flist formed_ptext ptext_ok.
  fstep formed_gender. fstep formed_string.
  flist (formed_calurl (env_url V) E) (calurl_ok (env_url V) E).
  flist formed_sound sound_ok.
  do 2 (eapply formed_bind; [apply (formed_list_map _ _ (picture_back (env_img V) picture_new) picture_ok); [intros; apply (formed_picture (env_url V)); assumption|assumption]| |intros; stays]).
  flist (formed_rurl (env_url V) E) (rurl_ok (env_url V) E).
  flist formed_string str_ok. flist formed_ptext ptext_ok.
  flist (formed_url (env_url V) E) (url_ok (env_url V) E).
  flist (formed_impp (env_url V) E) (impp_ok (env_url V) E).
  flist formed_fgroup fgroup_ok.
  do 5 (flist formed_ptext ptext_ok).
  eapply formed_end; [apply formed_only; apply D|reflexivity].
Qed.

(** What the writers of M_Stream write is one of the forms. *)
Lemma plain_items {A} (w : A -> bytes) (f : A -> forms) l : (forall x, f x (w x)) -> fm_items f l (flat_map w l).
Proof. intros H. exists (map w l). split; [apply flat_map_concat_map|]. induction l; cbn; constructor; auto. Qed.
Lemma plain_list {A} (w : A -> bytes) (f : A -> forms) l : (forall x, f x (w x)) -> fm_list f l (wr_list w l).
Proof. intros H. eexists. eexists. split; [reflexivity|]. split; [reflexivity|]. apply plain_items. exact H. Qed.
Lemma plain_string s : fm_string s (wr_string s). Proof. left. reflexivity. Qed.
Lemma plain_bytes s : fm_bytes s (wr_bytes s). Proof. left. reflexivity. Qed.
Ltac plain := repeat first [apply plain_string | apply plain_bytes | apply plain_list; intros | reflexivity
  | match goal with |- cat (_ :: _ :: _) _ => eexists; eexists; split; [reflexivity|split] | |- cat [_] _ => cbn [cat] end].
Lemma plain_pmap m : fm_pmap m (wr_pmap m).
Proof. eexists. eexists. split; [reflexivity|]. split; [reflexivity|]. apply (plain_items (fun e => wr_string (fst e) ++ wr_list wr_string (snd e))). intros e. plain. Qed.
Lemma plain_contact V E a : fm_contact V E a (wr_addressee V E a).
Proof.
  unfold fm_contact, wr_addressee. cbv zeta.
  repeat first [apply plain_string | apply plain_bytes | apply plain_pmap | apply plain_list; intros ?
    | match goal with
      | |- only _ _ => reflexivity
      | |- cat (_ :: _ :: _) _ => eexists; eexists; split; [reflexivity|split]
      | |- cat [_] _ => cbn [cat]
      end
    | progress unfold fm_phone, wr_phone, fm_address, wr_address, fm_email, wr_email, fm_key, wr_key, fm_sound, wr_sound, fm_picture, wr_picture,
        fm_gender, wr_gender, fm_ptext, wr_ptext, fm_calurl, wr_calurl, fm_fgroup, wr_fgroup, fm_rurl, wr_rurl, fm_impp, wr_impp, fm_url, wr_url].
Qed.
