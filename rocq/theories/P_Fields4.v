(** Secrecy, gender, sort string, keys, pictures and sounds after writing and reading. *)
From Coq Require Import Permutation.
From Verif Require Import Base BaseFacts QtText Utf8 Utf8Facts M_ParamMap M_VCard M_VCardText
  S_Escape P_Escape S_Fold P_Fold S_CardText P_CardText S_Card P_Assoc P_Card S_Parse P_Parse P_Parse2
  S_RoundTrip P_RoundTrip P_RoundTrip2 P_RoundTrip3 P_ReadBack P_Items P_Order
  M_Split S_Split P_Split M_Values M_Date M_Addressee M_VCardTool S_Contact P_Seen P_ReadFields P_Lines P_Contact P_Chunks P_Lists P_Values P_Fields P_Fields2 P_Types P_Addr P_Fields3.
From Verif Require P_Email.

(** ** secrecy *)
Lemma field_secrecy E T export a b : fits T V30 a -> reads_as E T V30 export a b -> a_secrecy b = a_secrecy a.
Proof.
  intros Hf Hr.
  destruct (one_field E T V30 export a b a_secrecy (fun k => match k with LClass => true | _ => false end) (B "CLASS")
    (fun l _ => parse_secrecy l) (secrecy_line (a_secrecy a)) Hf Hr) as [card ->]; text_side; auto.
  assert (Hp : forall u, u <> [] -> text_safe u -> loud E (text_line (B "CLASS") u) = true /\ lvalue (reread E (text_line (B "CLASS") u)) = u).
  { intros u Hu [U1 U2]. destruct (seen_plain E (B "CLASS") u (known_id (B "CLASS") ltac:(in_known))) as (_ & L & R). unfold text_line. rewrite L, R.
    split; [destruct u; [congruence|reflexivity]|]. unfold lvalue. cbn [vl_value variant_string]. apply thru_id; auto. }
  assert (Hs : forall u, text_ok u = true -> adj 92 110 u = false -> adj 92 78 u = false -> adj 92 114 u = false -> text_safe u).
  { intros u U1 U2 U3 U4. split; auto. rewrite ambiguous_adj. intuition congruence. }
  destruct (a_secrecy a); cbn [secrecy_line].
  - destruct (Hp (B "PUBLIC") ltac:(discriminate) ltac:(apply Hs; reflexivity)) as [-> R]. unfold parse_secrecy. rewrite R. reflexivity.
  - destruct (Hp (B "PRIVATE") ltac:(discriminate) ltac:(apply Hs; reflexivity)) as [-> R]. unfold parse_secrecy. rewrite R. reflexivity.
  - destruct (Hp (B "CONFIDENTIAL") ltac:(discriminate) ltac:(apply Hs; reflexivity)) as [-> R]. unfold parse_secrecy. rewrite R. reflexivity.
  - destruct (seen_silent E [] (B "CLASS")) as [_ L]. cbn [add_all fold_left] in L. rewrite L. reflexivity.
Qed.

(** ** gender *)
Lemma safe_sep sep s t : In sep [cSEMI; cCOMMA] -> text_safe s -> text_safe t -> text_safe (s ++ sep :: t).
Proof.
  intros Hs [S1 S2] [T1 T2]. unfold text_ok in *. apply andb_true_iff in S1 as [S0 S1]. apply andb_true_iff in T1 as [T0 T1].
  assert (Hsep : (sep < 128)%N /\ sep <> 65279%N /\ ~ In sep [110; 78; 114]%N /\ sep <> 92%N).
  { destruct Hs as [<-|[<-|[]]]; repeat split; (discriminate || (cbn; intuition discriminate)). }
  destruct Hsep as (H1 & H2 & H3 & H4). split.
  - apply andb_true_iff. split.
    + rewrite P_Email.valid_app by auto. rewrite valid_sep by auto. exact T0.
    + destruct s as [|c s]; [cbn; apply negb_true_iff, N.eqb_neq; auto|exact S1].
  - rewrite ambiguous_adj in *. intros H.
    assert (X : forall c, In c [110; 78; 114]%N -> adj 92 c (s ++ sep :: t) = true -> adj 92 c s = true \/ adj 92 c t = true).
    { intros c Hc Ha. apply adj_app in Ha as [Ha|[Ha|[_ [t' Ha]]]]; auto.
      - cbn [adj] in Ha. apply orb_true_iff in Ha as [Ha|Ha]; auto. apply andb_true_iff in Ha as [Ha _]. apply N.eqb_eq in Ha. congruence.
      - injection Ha as Ha _. rewrite Ha in H3. tauto. }
    destruct H as [H|[H|H]]; apply X in H; cbn [In]; auto; tauto.
Qed.
Lemma gender_back g : (length (ge_gender g) <= 1)%nat -> ge_gender g <> [cSEMI] -> gender_valid g = true -> parse_gender (gender_text g) = Some g.
Proof.
  destruct g as [s c]. unfold gender_text, gender_valid. cbn [ge_gender ge_comment]. intros Hl Hs Hv.
  destruct s as [|x [|y s]]; [| |cbn in Hl; lia].
  - destruct c as [|d c]; [discriminate|]. reflexivity.
  - assert (Hx : N.eqb x cSEMI = false) by (apply N.eqb_neq; congruence).
    destruct c as [|d c]; cbn [isnil app]; unfold parse_gender; rewrite Hx; [reflexivity|]. rewrite N.eqb_refl. reflexivity.
Qed.
Lemma field_gender E T export a b : fits T V40 a -> reads_as E T V40 export a b ->
  (length (ge_gender (a_gender a)) <= 1)%nat -> ge_gender (a_gender a) <> [cSEMI] -> text_safe (ge_gender (a_gender a)) -> text_safe (ge_comment (a_gender a)) ->
  a_gender b = a_gender a.
Proof.
  intros Hf Hr H1 H2 H3 H4.
  destruct (fold_field E T V40 export a b a_gender (fun k => match k with LGender => true | _ => false end) (B "GENDER")
    (fun l x => match parse_gender (lvalue l) with Some g => g | None => x end) Hf Hr) as [card ->]; text_side; try discriminate.
  change (flat_map (pick (B "GENDER")) (chunks T V40 export a)) with (when (gender_valid (a_gender a)) [text_line (B "GENDER") (gender_text (a_gender a))] ++ []).
  destruct (gender_valid (a_gender a)) eqn:Ev.
  - assert (Hs : text_safe (gender_text (a_gender a))).
    { unfold gender_text. destruct (isnil (ge_comment (a_gender a))); [rewrite app_nil_r; exact H3|]. apply safe_sep; auto. left. reflexivity. }
    cbn [when app]. destruct (seen_plain E (B "GENDER") (gender_text (a_gender a)) (known_id (B "GENDER") ltac:(in_known))) as (_ & L & R).
    unfold readings. cbn [filter]. unfold text_line. rewrite L. pose proof (gender_back (a_gender a) H1 H2 Ev) as Hg.
    destruct (isnil (gender_text (a_gender a))) eqn:En; [apply isnil_true in En; rewrite En in Hg; discriminate|].
    cbn [negb map fold_left]. rewrite R. unfold lvalue. cbn [vl_value variant_string]. destruct Hs as [S1 S2]. rewrite thru_id by auto. rewrite Hg. reflexivity.
  - destruct (a_gender a) as [[|x s] [|y c]]; cbn in Ev; try discriminate. reflexivity.
Qed.

(** ** parameters of a line that has been read *)
Section Params.
Variables (i g : ustring) (kvs : list item) (val : qvariant) (bs : bytes).
Let l := mkVline i g (read_params (seen_ops kvs)) val bs.
Lemma param_none k : NoDup (map fst kvs) -> Forall (silent_key k) kvs -> contains k (vl_param_list l) = false /\ vl_parameter k l = [].
Proof.
  intros Hn Hs. rewrite Forall_forall in Hs.
  assert (Hf : find_param k (read_params (seen_ops kvs)) = None) by (rewrite read_params_find, seen_added_none; auto).
  split; [apply params_none_contains; exact Hf|]. unfold vl_parameter, vl_parameters, l. cbn [vl_params]. rewrite Hf. reflexivity.
Qed.
Lemma param_one k x : NoDup (map fst kvs) -> In (k, x) kvs -> to_lower k = k -> x <> [] -> ~ In cDQ x -> ~ In cCOMMA x ->
  (forall y, In y kvs -> y <> (k, x) -> silent_key k y) -> contains k (vl_param_list l) = true /\ vl_parameter k l = x.
Proof.
  intros Hn Hin Hk Hx Hq Hc Hs.
  assert (Hf : find_param k (read_params (seen_ops kvs)) = Some [x]).
  { rewrite read_params_find, (seen_added_one k kvs (k, x)) by auto.
    assert (Ho : item_ops (k, x) = [(k, x)]).
    { unfold item_ops. cbn [fst snd]. destruct x as [|c r]; [congruence|]. destruct (N.eqb_spec c cDQ) as [->|_]; [exfalso; apply Hq; left; auto|].
      change (c :: r) with (join [cCOMMA] [c :: r]). rewrite split_join_comma; [|discriminate|constructor; auto]. rewrite Hk. reflexivity. }
    rewrite Ho. cbn [added map]. unfold added. cbn [filter map fst snd]. rewrite leqb_refl. reflexivity. }
  split; [apply (find_some_contains _ _ _ Hf)|]. unfold vl_parameter, vl_parameters, l. cbn [vl_params]. rewrite Hf. reflexivity.
Qed.
End Params.

(** ** keys *)
Lemma type_plain x : Forall ivalue_char x -> plain_item (B "type", x).
Proof.
  intros Hx. split; [split; [apply ikey_dec; reflexivity|left; exact Hx]|]. split; [discriminate|]. split; [discriminate|].
  split; intros H; apply item_ops_keys in H; cbn [fst snd] in H; destruct H as [[_ H]|[_ H]]; discriminate.
Qed.
Lemma enc_silent k : k <> B "encoding" -> silent_key k (B "encoding", B "b").
Proof. intros Hk H. apply item_ops_keys in H. cbn [fst snd] in H. destruct H as [[H _]|[_ H]]; [discriminate|]. apply Hk. rewrite H. reflexivity. Qed.
Lemma value_no c x : value_chars x -> In c [34; 58; 59]%N -> ~ In c x.
Proof. intros H Hc Hin. unfold value_chars in H. rewrite Forall_forall in H. destruct (H c Hin) as [_ Hn]. auto. Qed.
Definition key_name (k : key) : ustring := match ke_type k with KX509 => B "X509" | KPGP => B "PGP" | KCustom => ke_custom k end.
Lemma key_name_chars k : key_fits k -> value_chars (key_name k).
Proof.
  intros [_ Hk]. unfold key_name. destruct (ke_type k); auto.
  all: unfold value_chars; repeat constructor; cbn; intuition (lia || discriminate).
Qed.
Lemma value_ivalue x : value_chars x -> Forall ivalue_char x.
Proof. intros H. exact H. Qed.
Lemma key_name_safe k : key_safe k -> key_name k <> [] /\ ~ In cCOMMA (key_name k).
Proof.
  intros [_ Hk]. unfold key_name. destruct (ke_type k); [split; [discriminate|cbn; intuition discriminate]..|]. destruct (Hk eq_refl) as (H1 & H2 & _). auto.
Qed.
Lemma key_type_back k key0 : key_safe k -> ke_isbin key0 = ke_isbin k -> (if ke_isbin k then ke_bin key0 = ke_bin k else ke_text key0 = ke_text k) ->
  key_back k (if leqb (to_lower (key_name k)) (B "x509") then ke_set_type KX509 key0
              else if leqb (to_lower (key_name k)) (B "pgp") then ke_set_type KPGP key0
              else ke_set_custom (key_name k) (ke_set_type KCustom key0)).
Proof.
  intros [_ Hk] H1 H2. unfold key_name. destruct (ke_type k) eqn:Et.
  - change (leqb (to_lower (B "X509")) (B "x509")) with true. cbv iota. split; [exact H1|]. rewrite Et. split; [reflexivity|]. split; [discriminate|exact H2].
  - change (leqb (to_lower (B "PGP")) (B "x509")) with false. change (leqb (to_lower (B "PGP")) (B "pgp")) with true. cbv iota.
    split; [exact H1|]. rewrite Et. split; [reflexivity|]. split; [discriminate|exact H2].
  - destruct (Hk eq_refl) as (_ & _ & Hn). rewrite (proj2 (leqb_neq _ _)) by (intros X; apply Hn; left; auto).
    rewrite (proj2 (leqb_neq _ _)) by (intros X; apply Hn; right; left; auto).
    split; [exact H1|]. rewrite Et. split; [reflexivity|]. split; [reflexivity|exact H2].
Qed.
Lemma key_read E v k id : v <> V40 -> (v = V21 -> ke_isbin k = false) -> key_fits k -> key_safe k ->
  loud E (key_line v k) = key_full k /\ (key_full k = true -> key_back k (parse_key id (reread E (key_line v k)))).
Proof.
  intros Hv H21 Hfit Hs. rewrite key_line_eq. assert (Hkv : key_kv v k = (B "type", key_name k)) by (destruct v; [reflexivity|reflexivity|congruence]). rewrite Hkv.
  destruct (key_name_safe k Hs) as [N1 N2]. pose proof (key_name_chars k Hfit) as N3.
  assert (N4 : ~ In cDQ (key_name k)) by (apply value_no; [exact N3|left; reflexivity]).
  unfold key_full. destruct (ke_isbin k) eqn:Eb.
  - destruct (ke_bin k) as [|c bs] eqn:Ek; [destruct (seen_silent E [(B "type", key_name k)] (B "KEY")) as [_ L]; split; [exact L|discriminate]|].
    cbn [isnil negb]. rewrite enc_param_all. replace (match v with V21 => (B "ENCODING", B "BASE64") | _ => (B "encoding", B "b") end) with (B "encoding", B "b") by (destruct v; auto; specialize (H21 eq_refl); discriminate).
    rewrite <- add_all_app. cbn [app]. set (kvs := [(B "encoding", B "b"); (B "type", key_name k)]).
    assert (Hn : NoDup (map fst kvs)) by (apply nodup_b_spec; reflexivity).
    assert (Hall : Forall (fun kv => kv = (B "encoding", B "b") \/ plain_item kv) kvs) by (constructor; [left; auto|constructor; [right; apply type_plain; exact N3|constructor]]).
    assert (Hbytes : is_bytes (c :: bs) = true) by (rewrite <- Ek; apply (proj1 Hfit Eb)).
    destruct (seen_bytes E (B "KEY") [] (B "KEY") kvs (c :: bs) (known_id (B "KEY") ltac:(in_known)) Hn (or_introl eq_refl) Hall Hbytes) as (_ & L & R).
    split; [exact L|]. intros _. change (key_back k (parse_key id (reread E (add_all kvs (vline_new (B "KEY") (QBytes (c :: bs))))))). cbv zeta in R. rewrite R.
    destruct (param_one (B "KEY") [] kvs (QBytes (c :: bs)) [] (B "encoding") (B "b") Hn (or_introl eq_refl) eq_refl ltac:(discriminate) ltac:(cbn; intuition discriminate) ltac:(cbn; intuition discriminate)) as [P1 P2].
    { intros y [<-|[<-|[]]] Hy; [destruct (Hy eq_refl)|]. apply type_plain. exact N3. }
    destruct (param_one (B "KEY") [] kvs (QBytes (c :: bs)) [] (B "type") (key_name k) Hn (or_intror (or_introl eq_refl)) eq_refl N1 N4 N2) as [P3 P4].
    { intros y [<-|[<-|[]]] Hy; [|destruct (Hy eq_refl)]. apply enc_silent. discriminate. }
    unfold parse_key. rewrite P1, P3, P4. apply key_type_back; [exact Hs|rewrite Eb; reflexivity|]. rewrite Eb, Ek. reflexivity.
  - destruct (isnil (ke_text k)) eqn:Ek; [destruct (seen_silent E [(B "type", key_name k)] (B "KEY")) as [_ L]; split; [exact L|discriminate]|].
    set (kvs := [(B "type", key_name k)]).
    assert (Hn : NoDup (map fst kvs)) by (apply nodup_b_spec; reflexivity).
    assert (Hall : Forall plain_item kvs) by (constructor; [apply type_plain; exact N3|constructor]).
    destruct (seen_text E (B "KEY") [] (B "KEY") kvs (ke_text k) (known_id (B "KEY") ltac:(in_known)) Hn Hall) as (_ & L & R). cbv zeta in L, R.
    rewrite Ek in L. split; [exact L|]. intros _. change (key_back k (parse_key id (reread E (add_all kvs (vline_new (B "KEY") (QStr (ke_text k))))))). rewrite R. destruct (proj1 Hs Eb) as [S1 S2]. rewrite thru_id by auto.
    destruct (param_none (B "KEY") [] kvs (QStr (ke_text k)) [] (B "encoding") Hn) as [P1 _]. { constructor; [apply type_plain; exact N3|constructor]. }
    destruct (param_one (B "KEY") [] kvs (QStr (ke_text k)) [] (B "type") (key_name k) Hn (or_introl eq_refl) eq_refl N1 N4 N2) as [P3 P4].
    { intros y [<-|[]] Hy. destruct (Hy eq_refl). }
    unfold parse_key. rewrite P1, P3, P4. apply key_type_back; [exact Hs|rewrite Eb; reflexivity|]. rewrite Eb. reflexivity.
Qed.
Lemma parse_key_id id l : ke_id (parse_key id l) = id.
Proof.
  unfold parse_key. cbv zeta. repeat match goal with |- context [if ?x then _ else _] => destruct x end; reflexivity.
Qed.
Lemma field_keys E T v export a b : fitting E T v a -> reads_as E T v export a b -> fresh_ids T -> v <> V40 ->
  Forall (fun k => key_safe k /\ (v = V21 -> ke_isbin k = false)) (a_keys a) ->
  Forall2 key_back (filter key_full (a_keys a)) (a_keys b).
Proof.
  intros Hf Hr Hid Hv Hs. rewrite Forall_forall in Hs. pose proof (fq_keys _ _ _ _ Hf) as Hk. rewrite Forall_forall in Hk.
  destruct (fold_id_field E T v export a b a_keys (fun k => match k with LKey => true | _ => false end) (B "KEY")
    (fun id l x => replace_or (fun q => leqb (ke_id q) (ke_id (parse_key id l))) (parse_key id l) true x) Hf Hr)
    as (card & ks & Hl & Hn & ->); text_side; try discriminate.
  change (flat_map (pick (B "KEY")) (chunks T v export a)) with (map (key_line v) (a_keys a) ++ []) in *. rewrite app_nil_r in *.
  assert (Hrm : readings E (map (key_line v) (a_keys a)) = map (fun k => reread E (key_line v k)) (filter key_full (a_keys a))).
  { apply readings_map. intros k Hin. destruct (key_read E v k [] Hv (proj2 (Hs k Hin)) (Hk k Hin) (proj1 (Hs k Hin))) as [L _]. auto. }
  rewrite Hrm in *.
  rewrite (fold_ids ke_id parse_key (fun _ => true) (t_newid T card)); [|apply parse_key_id|apply Hid|auto|constructor].
  cbn [a_keys addressee_new app].
  rewrite <- (filter_all (fun _ => true) (filter key_full (a_keys a))) at 1 by auto.
  apply ids_Forall2; [rewrite map_length in Hl; exact Hl|]. intros k id Hin. apply filter_In in Hin as [Hin Hfull].
  split; [reflexivity|]. apply (key_read E v k id Hv (proj2 (Hs k Hin)) (Hk k Hin) (proj1 (Hs k Hin))). exact Hfull.
Qed.

(** ** pictures and sounds *)
Definition media_step {A} (empty : A -> bool) (eqA : A -> A -> bool) (parse : vline -> option A) (l : vline) (s : A * list A) : A * list A :=
  match parse l with
  | Some q => if empty (fst s) then (if eqA q (fst s) then fst s else q, snd s) else (fst s, snd s ++ [q])
  | None => s
  end.
Lemma media_fold {A X} (empty : A -> bool) (eqA : A -> A -> bool) (parse : vline -> option A) (none : A) (back : X -> A -> Prop) (out : X -> vline) (l : list X) :
  empty none = true ->
  (forall x, In x l -> exists q, parse (out x) = Some q /\ back x q /\ empty q = false /\ eqA q none = false) ->
  match l with
  | [] => fold_left (fun s x => media_step empty eqA parse x s) (map out l) (none, []) = (none, [])
  | f :: fs => let r := fold_left (fun s x => media_step empty eqA parse x s) (map out l) (none, []) in back f (fst r) /\ Forall2 back fs (snd r)
  end.
Proof.
  intros He Hl. destruct l as [|f fs]; [reflexivity|]. cbv zeta. cbn [map fold_left].
  destruct (Hl f ltac:(left; auto)) as (q & Hq & Hb & Hne & Hneq). unfold media_step at 2 4. rewrite Hq. cbn [fst snd]. rewrite He, Hneq.
  assert (H : forall l ys, (forall x, In x l -> exists q, parse (out x) = Some q /\ back x q /\ empty q = false /\ eqA q none = false) ->
    exists zs, fold_left (fun s x => media_step empty eqA parse x s) (map out l) (q, ys) = (q, ys ++ zs) /\ Forall2 back l zs).
  { induction l as [|x l IH]; intros ys Hx; [exists []; rewrite app_nil_r; split; [reflexivity|constructor]|].
    destruct (Hx x ltac:(left; auto)) as (r & Hr & Hbr & _). cbn [map fold_left]. unfold media_step at 2. rewrite Hr. cbn [fst snd]. rewrite Hne.
    destruct (IH (ys ++ [r]) ltac:(intros; apply Hx; right; auto)) as (zs & -> & Hz). exists (r :: zs). rewrite <- app_assoc. split; [reflexivity|constructor; auto]. }
  destruct (H fs [] ltac:(intros; apply Hl; right; auto)) as (zs & -> & Hz). auto.
Qed.
Lemma uri_plain : plain_item (B "value", B "URI").
Proof.
  split; [split; [apply ikey_dec; reflexivity|left; apply ivalue_dec; reflexivity]|]. split; [discriminate|]. split; [discriminate|].
  split; intros H; apply item_ops_keys in H; cbn [fst snd] in H; destruct H as [[_ H]|[_ H]]; discriminate.
Qed.
(** a line that says VALUE=URI *)
Lemma uri_read E i u : In i known -> text_safe u ->
  let l := vl_add_param (B "value") (B "URI") (text_line i u) in
  loud E l = negb (isnil u) /\ lvalue (reread E l) = u /\ contains (B "encoding") (vl_param_list (reread E l)) = false /\
  contains (B "type") (vl_param_list (reread E l)) = false /\ contains (B "value") (vl_param_list (reread E l)) = true /\ vl_parameter (B "value") (reread E l) = B "URI".
Proof.
  intros Hi [U1 U2]. cbv zeta. set (kvs := [(B "value", B "URI")] : list item).
  change (vl_add_param (B "value") (B "URI") (text_line i u)) with (add_all kvs (vline_new i (QStr u))).
  assert (Hn : NoDup (map fst kvs)) by (apply nodup_b_spec; reflexivity).
  destruct (seen_text E i [] i kvs u (known_id i Hi) Hn (Forall_cons _ uri_plain (Forall_nil _))) as (_ & L & R). cbv zeta in L, R. rewrite L, R, thru_id by auto.
  destruct (param_none i [] kvs (QStr u) [] (B "encoding") Hn) as [P1 _]. { constructor; [apply uri_plain|constructor]. }
  destruct (param_none i [] kvs (QStr u) [] (B "type") Hn) as [P2 _].
  { constructor; [|constructor]. intros H. apply item_ops_keys in H. cbn [fst snd] in H. destruct H as [[H _]|[_ H]]; discriminate. }
  destruct (param_one i [] kvs (QStr u) [] (B "value") (B "URI") Hn (or_introl eq_refl) eq_refl ltac:(discriminate) ltac:(cbn; intuition discriminate) ltac:(cbn; intuition discriminate)) as [P3 P4].
  { intros y [<-|[]] Hy. destruct (Hy eq_refl). }
  rewrite P1, P2, P3, P4. repeat split.
Qed.
Lemma param_list_nonnil k l : contains k (vl_param_list l) = true -> isnil (vl_param_list l) = false.
Proof. destruct (vl_param_list l); [discriminate|reflexivity]. Qed.
Lemma picture_read E T v i p : In i [B "PHOTO"; B "LOGO"] -> v <> V40 -> (v = V21 -> pi_intern p = false) -> picture_fits T v p -> picture_safe p ->
  loud E (picture_line T v i p) = picture_full T p /\
  (picture_full T p = true -> exists q, parse_picture (reread E (picture_line T v i p)) = Some q /\ picture_back T p q /\
     picture_empty q = false /\ picture_eq (env_img (t_env T)) q picture_new = false).
Proof.
  intros Hi Hv H21 Hfit Hs. assert (Hk : In i known) by (destruct Hi as [<-|[<-|[]]]; in_known).
  assert (Hline : picture_line T v i p = if picture_empty p then vline_new i QInvalid
     else if pi_intern p then add_all [(B "encoding", B "b"); (B "type", pi_type p)] (vline_new i (QBytes (pi_raw_of (env_img (t_env T)) p)))
     else vl_add_param (B "value") (B "URI") (text_line i (pi_url p))).
  { unfold picture_line. destruct v; [|reflexivity|congruence]. rewrite (H21 eq_refl). reflexivity. }
  rewrite Hline. clear Hline. unfold picture_full, picture_back, picture_safe in *.
  destruct (picture_empty p) eqn:Ee.
  - destruct (seen_silent E [] i) as [_ L]. cbn [add_all fold_left] in L. rewrite L.
    unfold picture_empty in Ee. unfold pi_raw_of. destruct (pi_intern p); cbn [negb andb orb] in Ee.
    + apply andb_true_iff in Ee as [E1 E2]. destruct (pi_raw p); [|discriminate]. destruct (pi_data p); [discriminate|]. split; [reflexivity|discriminate].
    + rewrite orb_false_r in Ee. rewrite Ee. split; [reflexivity|discriminate].
  - destruct (pi_intern p) eqn:Ei.
    + destruct (proj1 Hfit Ei) as [Hb Ht]. assert (Hty : value_chars (pi_type p)) by (destruct v; [specialize (H21 eq_refl); discriminate|exact Ht|congruence]). clear Ht.
      destruct Hs as [S1 S2]. set (raw := pi_raw_of (env_img (t_env T)) p) in *. clearbody raw.
      set (kvs := [(B "encoding", B "b"); (B "type", pi_type p)] : list item).
      assert (Hn : NoDup (map fst kvs)) by (apply nodup_b_spec; reflexivity).
      assert (Hall : Forall (fun kv => kv = (B "encoding", B "b") \/ plain_item kv) kvs) by (constructor; [left; auto|constructor; [right; apply type_plain; exact Hty|constructor]]).
      destruct (seen_bytes E i [] i kvs raw (known_id i Hk) Hn (or_introl eq_refl) Hall Hb) as (_ & L & R). cbv zeta in L, R.
      split; [exact L|]. intros Hfull.
      match goal with |- exists q, parse_picture (reread E ?x) = _ /\ _ => change x with (add_all kvs (vline_new i (QBytes raw))) end. rewrite R.
      destruct (param_one i [] kvs (QBytes raw) [] (B "encoding") (B "b") Hn (or_introl eq_refl) eq_refl ltac:(discriminate) ltac:(cbn; intuition discriminate) ltac:(cbn; intuition discriminate)) as [P1 P2].
      { intros y [<-|[<-|[]]] Hy; [destruct (Hy eq_refl)|]. apply type_plain. exact Hty. }
      destruct (param_one i [] kvs (QBytes raw) [] (B "type") (pi_type p) Hn (or_intror (or_introl eq_refl)) eq_refl S1 ltac:(apply value_no; [exact Hty|left; reflexivity]) S2) as [P3 P4].
      { intros y [<-|[<-|[]]] Hy; [|destruct (Hy eq_refl)]. apply enc_silent. discriminate. }
      unfold parse_picture. rewrite (param_list_nonnil _ _ P1), P1, P3, P4. eexists. split; [reflexivity|].
      cbn [vl_value variant_bytes]. unfold pi_set_raw, picture_empty, picture_eq, pi_raw_of. cbn [pi_intern pi_url pi_type pi_raw pi_data picture_new negb andb orb Bool.eqb isnull].
      destruct raw as [|c raw]; [discriminate|]. repeat split.
    + destruct (uri_read E i (pi_url p) Hk Hs) as (L & R1 & R2 & R3 & R4 & R5). cbv zeta in *. split; [exact L|]. intros Hfull.
      unfold parse_picture. rewrite (param_list_nonnil _ _ R4), R2, R4, R5, R1. change (leqb (to_lower (B "URI")) (B "uri")) with true. cbn [andb].
      eexists. split; [reflexivity|]. unfold pi_set_url, picture_empty, picture_eq. cbn [pi_intern pi_url pi_type pi_raw pi_data picture_new negb andb orb Bool.eqb leqb].
      destruct (pi_url p) as [|c u]; [discriminate|]. repeat split.
Qed.
Lemma field_photos E T v export a b : fitting E T v a -> reads_as E T v export a b -> v <> V40 ->
  Forall (fun p => picture_safe p /\ (v = V21 -> pi_intern p = false)) (a_photo a :: a_xphotos a) ->
  media_back (picture_full T) (picture_back T) picture_new (a_photo a) (a_xphotos a) (a_photo b) (a_xphotos b).
Proof.
  intros Hf Hr Hv Hs. rewrite Forall_forall in Hs. pose proof (fq_pictures _ _ _ _ Hf) as Hp. rewrite Forall_forall in Hp.
  destruct (fold_field E T v export a b (fun x => (a_photo x, a_xphotos x)) (fun k => match k with LPhoto => true | _ => false end) (B "PHOTO")
    (media_step picture_empty (picture_eq (env_img (t_env T))) parse_picture) Hf Hr ltac:(kinds) ltac:(auto)) as [card Hb]; auto.
  { intros id l x. unfold media_step. cbn [fst snd]. eff_cases l. }
  { intros id l x. eff_cases l. }
  assert (Hin : forall p, In p (a_photo a :: a_xphotos a) -> picture_fits T v p).
  { intros p [<-|Hx]; apply Hp; [right; left; auto|right; right; apply in_or_app; auto]. }
  change (flat_map (pick (B "PHOTO")) (chunks T v export a)) with ((if is40 v then filter (named (B "PHOTO")) (map (picture_line T v (B "PHOTO")) (a_photo a :: a_xphotos a)) else map (picture_line T v (B "PHOTO")) (a_photo a :: a_xphotos a)) ++ []) in Hb.
  replace (is40 v) with false in Hb by (destruct v; auto; congruence). rewrite app_nil_r in Hb.
  rewrite (readings_map E (picture_line T v (B "PHOTO")) (fun p => reread E (picture_line T v (B "PHOTO") p)) (picture_full T)) in Hb.
  2: { intros p Hx. destruct (picture_read E T v (B "PHOTO") p (or_introl eq_refl) Hv (proj2 (Hs p Hx)) (Hin p Hx) (proj1 (Hs p Hx))) as [L _]. auto. }
  pose proof (media_fold picture_empty (picture_eq (env_img (t_env T))) parse_picture picture_new (picture_back T) (fun p => reread E (picture_line T v (B "PHOTO") p))
    (filter (picture_full T) (a_photo a :: a_xphotos a)) eq_refl) as Hm.
  assert (Hq : forall x, In x (filter (picture_full T) (a_photo a :: a_xphotos a)) -> exists q, parse_picture (reread E (picture_line T v (B "PHOTO") x)) = Some q /\ picture_back T x q /\ picture_empty q = false /\ picture_eq (env_img (t_env T)) q picture_new = false).
  { intros p Hx. apply filter_In in Hx as [Hx Hfull]. apply (picture_read E T v (B "PHOTO") p (or_introl eq_refl) Hv (proj2 (Hs p Hx)) (Hin p Hx) (proj1 (Hs p Hx))). exact Hfull. }
  specialize (Hm Hq). unfold media_back. cbn [a_photo a_xphotos addressee_new] in Hb.
  destruct (filter (picture_full T) (a_photo a :: a_xphotos a)) as [|f fs]; cbv zeta in Hm; rewrite <- Hb in Hm; [injection Hm; auto|exact Hm].
Qed.
Lemma field_logos E T v export a b : fitting E T v a -> reads_as E T v export a b -> v <> V40 ->
  Forall (fun p => picture_safe p /\ (v = V21 -> pi_intern p = false)) (a_logo a :: a_xlogos a) ->
  media_back (picture_full T) (picture_back T) picture_new (a_logo a) (a_xlogos a) (a_logo b) (a_xlogos b).
Proof.
  intros Hf Hr Hv Hs. rewrite Forall_forall in Hs. pose proof (fq_pictures _ _ _ _ Hf) as Hp. rewrite Forall_forall in Hp.
  destruct (fold_field E T v export a b (fun x => (a_logo x, a_xlogos x)) (fun k => match k with LLogo => true | _ => false end) (B "LOGO")
    (media_step picture_empty (picture_eq (env_img (t_env T))) parse_picture) Hf Hr ltac:(kinds) ltac:(auto)) as [card Hb]; auto.
  { intros id l x. unfold media_step. cbn [fst snd]. eff_cases l. }
  { intros id l x. eff_cases l. }
  assert (Hin : forall p, In p (a_logo a :: a_xlogos a) -> picture_fits T v p).
  { intros p [<-|Hx]; apply Hp; [left; auto|right; right; apply in_or_app; auto]. }
  change (flat_map (pick (B "LOGO")) (chunks T v export a)) with ((if is40 v then filter (named (B "LOGO")) (map (picture_line T v (B "LOGO")) (a_logo a :: a_xlogos a)) else map (picture_line T v (B "LOGO")) (a_logo a :: a_xlogos a)) ++ []) in Hb.
  replace (is40 v) with false in Hb by (destruct v; auto; congruence). rewrite app_nil_r in Hb.
  rewrite (readings_map E (picture_line T v (B "LOGO")) (fun p => reread E (picture_line T v (B "LOGO") p)) (picture_full T)) in Hb.
  2: { intros p Hx. destruct (picture_read E T v (B "LOGO") p (or_intror (or_introl eq_refl)) Hv (proj2 (Hs p Hx)) (Hin p Hx) (proj1 (Hs p Hx))) as [L _]. auto. }
  pose proof (media_fold picture_empty (picture_eq (env_img (t_env T))) parse_picture picture_new (picture_back T) (fun p => reread E (picture_line T v (B "LOGO") p))
    (filter (picture_full T) (a_logo a :: a_xlogos a)) eq_refl) as Hm.
  assert (Hq : forall x, In x (filter (picture_full T) (a_logo a :: a_xlogos a)) -> exists q, parse_picture (reread E (picture_line T v (B "LOGO") x)) = Some q /\ picture_back T x q /\ picture_empty q = false /\ picture_eq (env_img (t_env T)) q picture_new = false).
  { intros p Hx. apply filter_In in Hx as [Hx Hfull]. apply (picture_read E T v (B "LOGO") p (or_intror (or_introl eq_refl)) Hv (proj2 (Hs p Hx)) (Hin p Hx) (proj1 (Hs p Hx))). exact Hfull. }
  specialize (Hm Hq). unfold media_back. cbn [a_logo a_xlogos addressee_new] in Hb.
  destruct (filter (picture_full T) (a_logo a :: a_xlogos a)) as [|f fs]; cbv zeta in Hm; rewrite <- Hb in Hm; [injection Hm; auto|exact Hm].
Qed.

Lemma sound_read E v x : v <> V40 -> (v = V21 -> so_intern x = false) -> sound_fits x -> sound_safe x ->
  loud E (sound_line v x) = sound_full x /\
  (sound_full x = true -> exists q, Some (parse_sound (reread E (sound_line v x))) = Some q /\ sound_back x q /\ sound_empty q = false /\ sound_eq q sound_new = false).
Proof.
  intros Hv H21 Hfit Hs. unfold sound_line, sound_full, sound_back, sound_fits, sound_safe in *.
  destruct (so_intern x) eqn:Ei.
  - destruct (so_data x) as [|c d] eqn:Ed; [destruct (seen_silent E [] (B "SOUND")) as [_ L]; cbn [isnil]; split; [exact L|discriminate]|].
    cbn [isnil negb]. rewrite enc_param_all. replace (match v with V21 => (B "ENCODING", B "BASE64") | _ => (B "encoding", B "b") end) with (B "encoding", B "b") by (destruct v; auto; specialize (H21 eq_refl); discriminate).
    set (kvs := [(B "encoding", B "b")] : list item).
    assert (Hn : NoDup (map fst kvs)) by (apply nodup_b_spec; reflexivity).
    assert (Hall : Forall (fun kv => kv = (B "encoding", B "b") \/ plain_item kv) kvs) by (constructor; [left; auto|constructor]).
    destruct (seen_bytes E (B "SOUND") [] (B "SOUND") kvs (c :: d) (known_id (B "SOUND") ltac:(in_known)) Hn (or_introl eq_refl) Hall (Hfit eq_refl)) as (_ & L & R). cbv zeta in L, R.
    split; [exact L|]. intros _.
    match goal with |- exists q, Some (parse_sound (reread E ?y)) = _ /\ _ => change y with (add_all kvs (vline_new (B "SOUND") (QBytes (c :: d)))) end. rewrite R.
    destruct (param_one (B "SOUND") [] kvs (QBytes (c :: d)) [] (B "encoding") (B "b") Hn (or_introl eq_refl) eq_refl ltac:(discriminate) ltac:(cbn; intuition discriminate) ltac:(cbn; intuition discriminate)) as [P1 P2].
    { intros y [<-|[]] Hy. destruct (Hy eq_refl). }
    unfold parse_sound. rewrite P1. eexists. split; [reflexivity|]. repeat split.
  - destruct (so_url x) as [|c u] eqn:Eu; [destruct (seen_silent E [] (B "SOUND")) as [_ L]; cbn [isnil]; split; [exact L|discriminate]|].
    cbn [isnil negb].
    destruct (uri_read E (B "SOUND") (c :: u) ltac:(in_known) (Hs eq_refl)) as (L & R1 & R2 & R3 & R4 & R5). cbv zeta in *. split; [exact L|]. intros _.
    unfold parse_sound. rewrite R2, R4, R5, R1. change (leqb (to_lower (B "URI")) (B "uri")) with true. cbn [andb].
    eexists. split; [reflexivity|]. repeat split.
Qed.
Lemma field_sounds E T v export a b : fitting E T v a -> reads_as E T v export a b -> v <> V40 ->
  Forall (fun s => sound_safe s /\ (v = V21 -> so_intern s = false)) (a_sound a :: a_xsounds a) ->
  media_back sound_full sound_back sound_new (a_sound a) (a_xsounds a) (a_sound b) (a_xsounds b).
Proof.
  intros Hf Hr Hv Hs. rewrite Forall_forall in Hs. pose proof (fq_sounds _ _ _ _ Hf) as Hin. rewrite Forall_forall in Hin.
  destruct (fold_field E T v export a b (fun x => (a_sound x, a_xsounds x)) (fun k => match k with LSound => true | _ => false end) (B "SOUND")
    (media_step sound_empty sound_eq (fun l => Some (parse_sound l))) Hf Hr ltac:(kinds) ltac:(discriminate)) as [card Hb]; auto.
  { intros id l x. unfold media_step. cbn [fst snd]. eff_cases l. }
  { intros id l x. eff_cases l. }
  change (flat_map (pick (B "SOUND")) (chunks T v export a)) with (when (negb (is40 v)) (map (sound_line v) (a_sound a :: a_xsounds a)) ++ []) in Hb.
  replace (is40 v) with false in Hb by (destruct v; auto; congruence). cbn [negb when] in Hb. rewrite app_nil_r in Hb.
  rewrite (readings_map E (sound_line v) (fun p => reread E (sound_line v p)) sound_full) in Hb.
  2: { intros p Hx. destruct (sound_read E v p Hv (proj2 (Hs p Hx)) (Hin p Hx) (proj1 (Hs p Hx))) as [L _]. auto. }
  pose proof (media_fold sound_empty sound_eq (fun l => Some (parse_sound l)) sound_new sound_back (fun p => reread E (sound_line v p))
    (filter sound_full (a_sound a :: a_xsounds a)) eq_refl) as Hm.
  specialize (Hm ltac:(intros p Hx; apply filter_In in Hx as [Hx Hfull]; apply (sound_read E v p Hv (proj2 (Hs p Hx)) (Hin p Hx) (proj1 (Hs p Hx))); exact Hfull)).
  unfold media_back. cbn [a_sound a_xsounds addressee_new] in Hb.
  destruct (filter sound_full (a_sound a :: a_xsounds a)) as [|f fs]; cbv zeta in Hm; rewrite <- Hb in Hm; [injection Hm; auto|exact Hm].
Qed.
