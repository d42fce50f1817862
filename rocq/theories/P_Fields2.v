(** The list fields of a contact after writing and reading. *)
From Coq Require Import Permutation.
From Verif Require Import Base BaseFacts QtText Utf8 Utf8Facts M_ParamMap M_VCard M_VCardText
  S_Escape P_Escape S_Fold P_Fold S_CardText P_CardText S_Card P_Assoc P_Card S_Parse P_Parse P_Parse2
  S_RoundTrip P_RoundTrip P_RoundTrip2 P_RoundTrip3 P_ReadBack P_Items P_Order
  M_Split S_Split P_Split M_Values M_Date M_Addressee M_VCardTool S_Contact P_Seen P_ReadFields P_Lines P_Contact P_Chunks P_Lists P_Values P_Fields.
From Verif Require P_Email.

(** ** lists written one line per entry *)
Lemma readings_map {A} E (mk out : A -> vline) (keep : A -> bool) l :
  (forall x, In x l -> loud E (mk x) = keep x /\ (keep x = true -> reread E (mk x) = out x)) ->
  readings E (map mk l) = map out (filter keep l).
Proof.
  unfold readings. induction l as [|x l IH]; intros H; auto. cbn [map filter]. destruct (H x ltac:(left; auto)) as [L R]. rewrite L.
  destruct (keep x) eqn:Ek; [|apply IH; intros; apply H; right; auto].
  cbn [map]. rewrite R by auto. f_equal. apply IH; intros; apply H; right; auto.
Qed.
Lemma fold_append {A X} (g : vline -> list X -> list X) (out : A -> vline) (h : A -> X) l :
  (forall x acc, In x l -> g (out x) acc = acc ++ [h x]) -> forall init, fold_left (fun x l => g l x) (map out l) init = init ++ map h l.
Proof.
  induction l as [|x l IH]; intros H init; cbn [map fold_left]; [symmetry; apply app_nil_r|].
  rewrite H by (left; auto). rewrite IH by (intros; apply H; right; auto). rewrite <- app_assoc. reflexivity.
Qed.
Lemma seen_params_safe E i m u : In i known -> plain_params m -> text_safe u ->
  loud E (vl_add_params m (text_line i u)) = negb (isnil u) /\
  reread E (vl_add_params m (text_line i u)) = mkVline i [] m (QStr u) [].
Proof.
  intros Hi Hm [H1 H2]. destruct (seen_params E i m u (known_id i Hi) Hm) as (_ & L & R). unfold text_line. rewrite L, R, thru_id by auto. auto.
Qed.
Lemma seen_text_safe E i u : In i known -> text_safe u ->
  loud E (text_line i u) = negb (isnil u) /\ reread E (text_line i u) = mkVline i [] [] (QStr u) [].
Proof.
  intros Hi [H1 H2]. destruct (seen_plain E i u (known_id i Hi)) as (_ & L & R). unfold text_line. rewrite L, R, thru_id by auto. auto.
Qed.
Definition ptext_out (i : ustring) (t : ptext) : vline := mkVline i [] (pt_params t) (QStr (pt_text t)) [].
Lemma ptext_back i t : line_ptext (ptext_out i t) = t.
Proof. destruct t; reflexivity. Qed.
Lemma readings_ptext E i l : In i known -> (forall t, In t l -> plain_params (pt_params t)) -> (forall t, In t l -> text_safe (pt_text t)) ->
  readings E (map (params_line i) l) = map (ptext_out i) (filter ptext_valid l).
Proof.
  intros Hi Hp Hs. apply readings_map. intros t Ht. unfold params_line. destruct (seen_params_safe E i (pt_params t) (pt_text t)) as [L R]; auto.
Qed.
Lemma ptext_first i l : forall init, fold_left (fun x y => add_first (line_ptext y) x) (map (ptext_out i) (filter ptext_valid l)) init = init ++ filter ptext_valid l.
Proof.
  intros init. rewrite (fold_append (fun y x => add_first (line_ptext y) x) (ptext_out i) (fun t => t)).
  - rewrite map_id. reflexivity.
  - intros t acc Ht. apply filter_In in Ht as [_ Ht]. rewrite ptext_back. unfold add_first. rewrite Ht. reflexivity.
Qed.
Lemma ptext_field E T v export a b (f : addressee -> list ptext) K i :
  fitting E T v a -> reads_as E T v export a b -> of_kinds K [i] -> pictured i = false -> In i known ->
  (forall e x, f (put_empty e x) = f x) ->
  (forall id l x, K (line_kind l) = true -> f (eff T id l x) = add_first (line_ptext l) (f x)) ->
  (forall id l x, K (line_kind l) = false -> f (eff T id l x) = f x) ->
  (forall id, f (addressee_new id) = []) ->
  flat_map (pick i) (chunks T v export a) = map (params_line i) (f a) ->
  (forall t, In t (f a) -> plain_params (pt_params t)) -> (forall t, In t (f a) -> text_safe (pt_text t)) -> f b = filter ptext_valid (f a).
Proof.
  intros Hf Hr Hk Hp Hi He H1 H0 Hd Hc Hm Hs.
  destruct (fold_field E T v export a b f K i (fun l x => add_first (line_ptext l) x) Hf Hr Hk ltac:(congruence) He H1 H0) as [card ->].
  rewrite Hc, readings_ptext, ptext_first, Hd by auto. reflexivity.
Qed.
Ltac in_app := repeat rewrite in_app_iff; tauto.
Lemma line21_map v i l : (v = V21 -> Forall (fun t => needs_encoding (pt_text t) = false) l) ->
  map (fun t => vl_add_params (pt_params t) (line21 v i (pt_text t))) l = map (params_line i) l.
Proof.
  intros H. apply map_ext_in. intros t Ht. rewrite line21_plain; [reflexivity|]. intros Hv. specialize (H Hv). rewrite Forall_forall in H. auto.
Qed.
Lemma fit21_texts T v a : fits T v a -> v = V21 -> Forall (fun t => needs_encoding (pt_text t) = false) (a_orgs a ++ a_roles a ++ a_titles a).
Proof.
  intros Hf Hv. destruct (fit_21 _ _ _ Hf Hv) as [H _]. apply Forall_app in H as [_ H]. apply Forall_app in H as [_ H]. apply Forall_app in H as [H _].
  rewrite Forall_map in H. exact H.
Qed.
Lemma field_roles E T v export a b : fits T v a -> reads_as E T v export a b -> Forall (fun t => text_safe (pt_text t)) (a_roles a) ->
  a_roles b = filter ptext_valid (a_roles a).
Proof.
  intros Hf Hr Hs. rewrite Forall_forall in Hs. destruct (params_facts a (fit_params _ _ _ Hf)) as (_ & _ & Hp & _).
  apply (ptext_field E T v export a b a_roles (fun k => match k with LRole => true | _ => false end) (B "ROLE")); text_side; auto.
  - change (flat_map (pick (B "ROLE")) (chunks T v export a)) with (map (fun t => vl_add_params (pt_params t) (line21 v (B "ROLE") (pt_text t))) (a_roles a) ++ []).
    rewrite app_nil_r. apply line21_map. intros Hv. pose proof (fit21_texts _ _ _ Hf Hv) as H. rewrite Forall_forall in *. intros t Ht. apply H. in_app.
  - intros t Ht. apply Hp. in_app.
Qed.
Lemma field_titles E T v export a b : fits T v a -> reads_as E T v export a b -> Forall (fun t => text_safe (pt_text t)) (a_titles a) ->
  a_titles b = filter ptext_valid (a_titles a).
Proof.
  intros Hf Hr Hs. rewrite Forall_forall in Hs. destruct (params_facts a (fit_params _ _ _ Hf)) as (_ & _ & Hp & _).
  apply (ptext_field E T v export a b a_titles (fun k => match k with LTitle => true | _ => false end) (B "TITLE")); text_side; auto.
  - change (flat_map (pick (B "TITLE")) (chunks T v export a)) with (map (fun t => vl_add_params (pt_params t) (line21 v (B "TITLE") (pt_text t))) (a_titles a) ++ []).
    rewrite app_nil_r. apply line21_map. intros Hv. pose proof (fit21_texts _ _ _ Hf Hv) as H. rewrite Forall_forall in *. intros t Ht. apply H. in_app.
  - intros t Ht. apply Hp. in_app.
Qed.
Lemma field_nicks E T v export a b : fitting E T v a -> reads_as E T v export a b -> v <> V21 -> Forall (fun t => text_safe (pt_text t)) (a_nicks a) ->
  a_nicks b = filter ptext_valid (a_nicks a).
Proof.
  intros Hf Hr Hv Hs. rewrite Forall_forall in Hs. destruct (params_facts a (fq_params _ _ _ _ Hf)) as (_ & _ & Hp & _).
  apply (ptext_field E T v export a b a_nicks (fun k => match k with LNickname => true | _ => false end) (B "NICKNAME")); text_side; auto.
  - change (flat_map (pick (B "NICKNAME")) (chunks T v export a)) with (when (negb (is21 v)) (map (params_line (B "NICKNAME")) (a_nicks a)) ++ []).
    rewrite app_nil_r. destruct v; auto; congruence.
  - intros t Ht. apply Hp. in_app.
Qed.
Lemma field_pidmaps E T export a b : fits T V40 a -> reads_as E T V40 export a b -> Forall (fun t => text_safe (pt_text t)) (a_pidmaps a) ->
  a_pidmaps b = filter ptext_valid (a_pidmaps a).
Proof.
  intros Hf Hr Hs. rewrite Forall_forall in Hs. destruct (params_facts a (fit_params _ _ _ Hf)) as (_ & _ & Hp & _).
  apply (ptext_field E T V40 export a b a_pidmaps (fun k => match k with LClientpidmap => true | _ => false end) (B "CLIENTPIDMAP")); text_side; auto.
  - change (flat_map (pick (B "CLIENTPIDMAP")) (chunks T V40 export a)) with (map (params_line (B "CLIENTPIDMAP")) (a_pidmaps a) ++ []).
    apply app_nil_r.
  - intros t Ht. apply Hp. in_app.
Qed.
Lemma filter_all {A} (p : A -> bool) l : (forall x, In x l -> p x = true) -> filter p l = l.
Proof. induction l as [|x l IH]; intros H; auto. cbn [filter]. rewrite H by (left; auto). f_equal. apply IH. intros; apply H; right; auto. Qed.
Lemma filter_none {A} (p : A -> bool) l : (forall x, In x l -> p x = false) -> filter p l = [].
Proof. induction l as [|x l IH]; intros H; auto. cbn [filter]. rewrite H by (left; auto). apply IH. intros; apply H; right; auto. Qed.
(** entries that are only added if they are new *)
Lemma fold_new {A X} (g : vline -> list X -> list X) (out : A -> vline) (h : A -> X) (old : X -> list X -> Prop) (l : list A) :
  (forall x acc, In x l -> ~ old (h x) acc -> g (out x) acc = acc ++ [h x]) ->
  forall init, (forall l1 x l2, l = l1 ++ x :: l2 -> ~ old (h x) (init ++ map h l1)) ->
  fold_left (fun x l => g l x) (map out l) init = init ++ map h l.
Proof.
  induction l as [|x l IH]; intros H init Hn; cbn [map fold_left]; [symmetry; apply app_nil_r|].
  rewrite H; [|left; auto|].
  - rewrite IH.
    + rewrite <- app_assoc. reflexivity.
    + intros; apply H; auto. right; auto.
    + intros l1 y l2 Hl. rewrite <- app_assoc. apply (Hn (x :: l1) y l2). rewrite Hl. reflexivity.
  - specialize (Hn [] x l eq_refl). cbn [map] in Hn. rewrite app_nil_r in Hn. exact Hn.
Qed.
Lemma nodup_split {A} (l l1 : list A) x l2 : NoDup l -> l = l1 ++ x :: l2 -> ~ In x l1.
Proof. intros H ->. apply NoDup_remove_2 in H. rewrite in_app_iff in H. tauto. Qed.
Lemma nodup_split_map {A X} (h : A -> X) (l l1 : list A) x l2 : NoDup (map h l) -> l = l1 ++ x :: l2 -> ~ In (h x) (map h l1).
Proof. intros H ->. rewrite map_app in H. cbn [map] in H. apply NoDup_remove_2 in H. rewrite in_app_iff in H. tauto. Qed.
Lemma nodup_filter_map {A X} (h : A -> X) p (l : list A) : NoDup (map h l) -> NoDup (map h (filter p l)).
Proof.
  induction l as [|x l IH]; intros H; auto. inversion H; subst. cbn [filter]. destruct (p x); auto. cbn [map]. constructor; auto.
  intros Hin. apply H2. apply in_map_iff in Hin as (y & Hy & Hin). apply filter_In in Hin as [Hin _]. rewrite <- Hy. apply in_map. auto.
Qed.
Lemma field_langs E T export a b : fits T V40 a -> reads_as E T V40 export a b ->
  Forall (fun t => text_safe (pt_text t) /\ simplified (pt_text t) <> []) (a_langs a) -> NoDup (map pt_text (a_langs a)) -> a_langs b = a_langs a.
Proof.
  intros Hf Hr Hs Hn. rewrite Forall_forall in Hs. destruct (params_facts a (fit_params _ _ _ Hf)) as (_ & _ & Hp & _).
  destruct (fold_field E T V40 export a b a_langs (fun k => match k with LLang => true | _ => false end) (B "LANG")
    (fun l x => if isnil (simplified (lvalue l)) then x else insert_lang_list (line_ptext l) x) Hf Hr) as [card ->]; text_side; try discriminate.
  change (flat_map (pick (B "LANG")) (chunks T V40 export a)) with (map (params_line (B "LANG")) (a_langs a) ++ []).
  rewrite app_nil_r, readings_ptext; [|in_known|intros t Ht; apply Hp; in_app|intros t Ht; apply Hs; auto].
  replace (filter ptext_valid (a_langs a)) with (a_langs a).
  - rewrite (fold_new _ (ptext_out (B "LANG")) (fun t => t) (fun t acc => In (pt_text t) (map pt_text acc))).
    + rewrite map_id. reflexivity.
    + intros t acc Ht Ho. cbv beta. rewrite ptext_back. change (lvalue (ptext_out (B "LANG") t)) with (pt_text t).
      destruct (isnil (simplified (pt_text t))) eqn:Ei; [apply isnil_true in Ei; exfalso; apply (proj2 (Hs t Ht) Ei)|].
      unfold insert_lang_list. destruct (find_split _ acc) as [[[x y] z]|] eqn:Ef; auto. exfalso. apply find_split_Some in Ef as (-> & Hy & _).
      apply leqb_eq in Hy. apply Ho. rewrite map_app, in_app_iff. right. left. exact Hy.
    + intros l1 t l2 Hl. cbn [app]. rewrite map_id. apply (nodup_split_map pt_text _ l1 t l2 Hn Hl).
  - symmetry. apply filter_all. intros t Ht. unfold ptext_valid. destruct (pt_text t) eqn:Et; auto.
    exfalso. apply (proj2 (Hs t Ht)). rewrite Et. reflexivity.
Qed.
Lemma customs_wf {E} T v a : fitting E T v a -> Forall (fun c => exists n value, c = n ++ cCOLON :: value /\ wf_name n /\ In (n, value) (a_customs a)) (customs_of a).
Proof.
  intros Hf. pose proof (fq_customs _ _ _ _ Hf) as H. unfold customs_of. apply Forall_forall. intros c Hc.
  apply in_map_iff in Hc as ([n value] & <- & Hin). rewrite Forall_forall in H. exists n, value. split; [reflexivity|]. split; [exact (H (n, value) Hin)|auto].
Qed.
Definition custom_id (export : bool) (n : ustring) : ustring := if export then renamed export_names (B "X-" ++ n) else B "X-" ++ n.
Lemma custom_id_x export n : starts_with (B "X-") (custom_id export n) = true.
Proof. unfold custom_id. destruct export; [|reflexivity]. destruct (renamed_x n) as (r & -> & _). reflexivity. Qed.
Lemma custom_plain T v a n value : fits T v a -> In (n, value) (a_customs a) -> v = V21 -> needs_encoding value = false.
Proof.
  intros Hf Hin Hv. destruct (fit_21 _ _ _ Hf Hv) as [H _]. rewrite Forall_forall in H. apply H. rewrite !in_app_iff. do 3 right.
  apply (in_map snd) in Hin. exact Hin.
Qed.
Lemma not_related {E} T v export a : fitting E T v a -> v <> V40 -> filter (named (B "RELATED")) (flat_map (custom_lines T v export) (customs_of a)) = [].
Proof.
  intros Hf Hv. apply filter_none. intros l Hl. apply in_flat_map in Hl as (c & Hc & Hl).
  pose proof (customs_wf _ _ _ Hf) as H. rewrite Forall_forall in H. destruct (H c Hc) as (n & value & -> & Hn & Hin).
  rewrite custom_lines_full in Hl by auto. destruct (isnil value); [destruct Hl|]. cbv zeta in Hl.
  replace (is40 v) with false in Hl by (destruct v; auto; congruence). cbn [andb] in Hl. destruct Hl as [<-|[]].
  pose proof (custom_id_x export n) as Hx. unfold custom_id in Hx. unfold named. rewrite line21_id.
  match goal with |- leqb ?x ?y && _ = false => destruct (leqb_spec x y) as [He|_] end; [|reflexivity]. rewrite He in Hx. discriminate.
Qed.
Lemma field_related E T v export a b : fitting E T v a -> reads_as E T v export a b -> v <> V40 ->
  Forall (fun t => text_safe (pt_text t)) (a_related a) -> NoDup (a_related a) -> a_related b = filter ptext_valid (a_related a).
Proof.
  intros Hf Hr Hv Hs Hn. rewrite Forall_forall in Hs. destruct (params_facts a (fq_params _ _ _ _ Hf)) as (_ & _ & Hp & _).
  destruct (fold_field E T v export a b a_related (fun k => match k with LRelated => true | _ => false end) (B "RELATED")
    (fun l x => if existsb (fun y => ptext_eq y (line_ptext l)) x then x else x ++ [line_ptext l]) Hf Hr) as [card ->]; text_side; try discriminate.
  change (flat_map (pick (B "RELATED")) (chunks T v export a)) with
    (map (params_line (B "RELATED")) (a_related a) ++ filter (named (B "RELATED")) (flat_map (custom_lines T v export) (customs_of a)) ++ []).
  rewrite (not_related (E := E)), !app_nil_r, readings_ptext; auto; [|in_known|intros t Ht; apply Hp; in_app].
  rewrite (fold_new _ (ptext_out (B "RELATED")) (fun t => t) (fun t acc => In t acc)).
  - rewrite map_id. reflexivity.
  - intros t acc Ht Ho. cbv beta. rewrite ptext_back. destruct (existsb _ acc) eqn:Ee; auto.
    exfalso. apply existsb_exists in Ee as (y & Hy & Ey). rewrite ptext_eq_eq in Ey. subst. auto.
  - intros l1 t l2 Hl. cbn [app a_related addressee_new]. rewrite map_id. apply (nodup_split (filter ptext_valid (a_related a)) l1 t l2); auto. apply NoDup_filter. auto.
Qed.
Lemma field_sources E T v export a b : fitting E T v a -> reads_as E T v export a b -> Forall text_safe (a_sources a) ->
  a_sources b = map (url_parse (env_url (t_env T))) (filter (fun u => negb (isnil u)) (a_sources a)).
Proof.
  intros Hf Hr Hs. rewrite Forall_forall in Hs.
  destruct (fold_field E T v export a b a_sources (fun k => match k with LSource => true | _ => false end) (B "SOURCE")
    (fun l x => x ++ [url_parse (env_url (t_env T)) (lvalue l)]) Hf Hr) as [card ->]; text_side; try discriminate.
  change (flat_map (pick (B "SOURCE")) (chunks T v export a)) with (map (text_line (B "SOURCE")) (a_sources a) ++ []). rewrite app_nil_r.
  rewrite (readings_map E (text_line (B "SOURCE")) (fun u => mkVline (B "SOURCE") [] [] (QStr u) []) (fun u => negb (isnil u))).
  - rewrite (fold_append (fun l x => x ++ [url_parse (env_url (t_env T)) (lvalue l)]) _ (url_parse (env_url (t_env T)))); [reflexivity|].
    intros u acc Hu. reflexivity.
  - intros u Hu. destruct (seen_text_safe E (B "SOURCE") u ltac:(in_known) (Hs u Hu)) as [L R]. auto.
Qed.
Lemma field_members E T export a b : fits T V40 a -> reads_as E T V40 export a b -> Forall text_safe (a_members a) -> NoDup (a_members a) ->
  to_lower (a_kind a) = B "group" -> a_members b = filter (fun u => negb (isnil u)) (a_members a).
Proof.
  intros Hf Hr Hs Hn Hk. rewrite Forall_forall in Hs.
  destruct (fold_field E T V40 export a b a_members (fun k => match k with LMember => true | _ => false end) (B "MEMBER")
    (fun l x => if contains (lvalue l) x then x else x ++ [lvalue l]) Hf Hr) as [card ->]; text_side; try discriminate.
  change (flat_map (pick (B "MEMBER")) (chunks T V40 export a)) with (when (is40 V40 && leqb (to_lower (a_kind a)) (B "group")) (map (text_line (B "MEMBER")) (a_members a)) ++ []).
  rewrite app_nil_r. replace (is40 V40 && leqb (to_lower (a_kind a)) (B "group")) with true by (rewrite Hk; reflexivity). cbn [when].
  rewrite (readings_map E (text_line (B "MEMBER")) (fun u => mkVline (B "MEMBER") [] [] (QStr u) []) (fun u => negb (isnil u))).
  - rewrite (fold_new _ (fun u => mkVline (B "MEMBER") [] [] (QStr u) []) (fun u => u) (fun u acc => In u acc)).
    + rewrite map_id. reflexivity.
    + intros u acc Hu Ho. change (lvalue (mkVline (B "MEMBER") [] [] (QStr u) [])) with u. destruct (contains u acc) eqn:Ec; auto. apply contains_In in Ec. contradiction.
    + intros l1 t l2 Hl. cbn [app a_members addressee_new]. rewrite map_id. eapply nodup_split; [|exact Hl]. apply NoDup_filter. auto.
  - intros u Hu. destruct (seen_text_safe E (B "MEMBER") u ltac:(in_known) (Hs u Hu)) as [L R]. auto.
Qed.
Lemma field_urls E T v export a b : fitting E T v a -> reads_as E T v export a b ->
  Forall (fun u => text_safe (ru_url u) /\ ru_url u <> [] /\ url_parse (env_url (t_env T)) (ru_url u) = ru_url u /\ rurl_valid (env_url (t_env T)) u = true) (a_urls a) ->
  a_urls b = a_urls a.
Proof.
  intros Hf Hr Hs. rewrite Forall_forall in Hs. destruct (params_facts a (fq_params _ _ _ _ Hf)) as (_ & _ & _ & Hp & _).
  destruct (fold_field E T v export a b a_urls (fun k => match k with LUrl => true | _ => false end) (B "URL")
    (fun l x => let u := mkRurl (vl_params l) (url_parse (env_url (t_env T)) (lvalue l)) in if rurl_valid (env_url (t_env T)) u then x ++ [u] else x) Hf Hr) as [card ->]; text_side; try discriminate.
  change (flat_map (pick (B "URL")) (chunks T v export a)) with (map (fun u => vl_add_params (ru_params u) (text_line (B "URL") (ru_url u))) (a_urls a) ++ []).
  rewrite app_nil_r.
  rewrite (readings_map E _ (fun u => mkVline (B "URL") [] (ru_params u) (QStr (ru_url u)) []) (fun u => true)).
  - rewrite (filter_all (fun u => true)) by auto.
    rewrite (fold_append (fun l x => let u := mkRurl (vl_params l) (url_parse (env_url (t_env T)) (lvalue l)) in if rurl_valid (env_url (t_env T)) u then x ++ [u] else x) _ (fun u => u)).
    + rewrite map_id. reflexivity.
    + intros u acc Hu. cbv zeta. destruct (Hs u Hu) as (_ & _ & Hu1 & Hu2). cbn [vl_params lvalue vl_value variant_string].
      change (lvalue (mkVline (B "URL") [] (ru_params u) (QStr (ru_url u)) [])) with (ru_url u). rewrite Hu1. destruct u as [m u]; cbn [ru_params ru_url] in *. rewrite Hu2. reflexivity.
  - intros u Hu. destruct (Hs u Hu) as (Ht & Hne & _). destruct (seen_params_safe E (B "URL") (ru_params u) (ru_url u) ltac:(in_known) (Hp u Hu) Ht) as [L R].
    rewrite L, R. split; auto. destruct (ru_url u); [congruence|auto].
Qed.

(** ** e-mail addresses: preferred ones are put in front *)
Lemma field_emails E T v export a b : fits T v a -> reads_as E T v export a b ->
  Forall (fun e => text_safe (em_mail e)) (a_emails a) -> NoDup (map em_mail (a_emails a)) ->
  let l := filter (fun e => negb (isnil (em_mail e))) (a_emails a) in
  a_emails b = rev (filter email_preferred l) ++ filter (fun e => negb (email_preferred e)) l.
Proof.
  intros Hf Hr Hs Hn. cbv zeta. rewrite Forall_forall in Hs. destruct (params_facts a (fit_params _ _ _ Hf)) as (Hp & _).
  destruct (fold_field E T v export a b a_emails (fun k => match k with LEmail => true | _ => false end) (B "EMAIL")
    (fun l x => add_email_list (mkEmail (vl_params l) (lvalue l)) x) Hf Hr) as [card ->]; text_side; try discriminate.
  change (flat_map (pick (B "EMAIL")) (chunks T v export a)) with (map (email_line v) (a_emails a) ++ []). rewrite app_nil_r.
  rewrite (readings_map E (email_line v) (fun e => mkVline (B "EMAIL") [] (em_params e) (QStr (em_mail e)) []) (fun e => negb (isnil (em_mail e)))).
  - set (l := filter _ (a_emails a)). assert (Hl : NoDup (map em_mail l)) by (apply nodup_filter_map; auto). clearbody l.
    cbn [a_emails addressee_new].
    assert (H : forall l init1 init2, NoDup (map em_mail (init1 ++ init2 ++ l)) ->
      fold_left (fun x y => add_email_list (mkEmail (vl_params y) (lvalue y)) x) (map (fun e => mkVline (B "EMAIL") [] (em_params e) (QStr (em_mail e)) []) l) (init1 ++ init2)
      = rev (filter email_preferred l) ++ init1 ++ init2 ++ filter (fun e => negb (email_preferred e)) l).
    { clear. induction l as [|e l IH]; intros i1 i2 Hn; [cbn; rewrite app_nil_r; reflexivity|]. cbn [map fold_left].
      cbn [vl_params lvalue vl_value]; change (lvalue (mkVline (B "EMAIL") [] (em_params e) (QStr (em_mail e)) [])) with (em_mail e). replace (mkEmail (em_params e) (em_mail e)) with e by (destruct e; reflexivity).
      assert (Hnew : find_split (fun x => leqb (em_mail x) (em_mail e)) (i1 ++ i2) = None).
      { apply find_split_None, Forall_forall. intros y Hy. destruct (leqb_spec (em_mail y) (em_mail e)) as [He|]; auto. exfalso.
        rewrite app_assoc, map_app in Hn. cbn [map] in Hn. apply NoDup_remove_2 in Hn. apply Hn. rewrite in_app_iff. left. rewrite <- He. apply in_map. auto. }
      unfold add_email_list at 2. rewrite Hnew. cbn [filter]. destruct (email_preferred e) eqn:Ep; cbn [negb].
      - change (e :: i1 ++ i2) with ((e :: i1) ++ i2). rewrite IH; [cbn [rev]; rewrite <- app_assoc; reflexivity|].
        cbn [app map]. eapply Permutation_NoDup; [|exact Hn]. rewrite app_assoc, app_assoc, map_app. cbn [map].
        rewrite (map_app em_mail (i1 ++ i2) l). symmetry. apply Permutation_middle.
      - rewrite <- app_assoc. rewrite IH; rewrite <- ?app_assoc; auto. }
    specialize (H l [] []). cbn [app] in H. rewrite H; auto.
  - intros e He. rewrite email_line_eq.
    + destruct (seen_params_safe E (B "EMAIL") (em_params e) (em_mail e) ltac:(in_known) (Hp e He) (Hs e He)) as [L R]. auto.
    + auto.
    + intros Hv. destruct (fit_21 _ _ _ Hf Hv) as [_ H]. rewrite Forall_forall in H. auto.
Qed.
