(** Contacts of version 2.1 with texts in any script. *)
From Coq Require Import Permutation.
From Verif Require Import Base BaseFacts QtText Utf8 M_ParamMap M_VCard M_VCardText
  S_Escape S_Split S_Date S_Card S_RoundTrip P_Assoc P_Card P_RoundTrip P_RoundTrip2 P_RoundTrip3 P_ReadBack P_Items P_Order M_Split P_Split M_Values M_Date M_Addressee M_VCardTool S_Contact S_Whole P_Seen P_ReadFields P_Lines P_Contact P_Chunks P_Lists P_Values
  P_Fields P_Fields2 P_Types P_Addr P_Fields3 P_Fields4 P_Fields5 P_Fields6 P_Fields7 P_Contact2 P_Whole S_Whole21.
From Verif Require Import P_CardText.

(** the parameters that come back with a value *)
Definition coded (v : version) (s : ustring) (m : pmap) : pmap := read_params (seen_ops (line_kvs v s ++ joined m)).
Lemma coded_plain v s m : wf_params m -> (v = V21 -> needs_encoding s = false) -> coded v s m = m.
Proof. intros Hw H. unfold coded. rewrite line_kvs_plain by auto. apply joined_read, Hw. Qed.
Lemma joined_ops m k vs : wf_params m -> In (k, vs) m -> item_ops (k, join [cCOMMA] vs) = map (pair k) vs.
Proof. intros [_ H] Hin. rewrite Forall_forall in H. destruct (H _ Hin) as (H1 & H2 & _ & H3). apply joined_item; auto. Qed.
Lemma added_pair k (vs : list ustring) : added k (map (pair k) vs) = vs.
Proof. unfold added. induction vs as [|x vs IH]; [reflexivity|]. cbn [map filter fst]. rewrite leqb_refl. cbn [map snd]. f_equal. exact IH. Qed.
Lemma coded_marked s m : plain_params m -> needs_encoding s = true -> announced_in m (coded V21 s m).
Proof.
  intros Hp Hn. pose proof Hp as (Hw & He & Hc). split; [apply read_params_sorted|].
  assert (Hnd : NoDup (map fst (line_kvs V21 s ++ joined m))) by (apply line_kvs_ok; [apply joined_nodup, Hw|apply plain_params_items, Hp]).
  assert (Hk : forall k y, In y (joined m) -> In k (map fst (item_ops y)) -> fst y = k).
  { intros k y Hy Hin. unfold joined in Hy. apply in_map_iff in Hy as ([p vs] & <- & Hy). cbn [fst snd] in Hin |- *.
    assert (Hops := joined_ops m p vs Hw Hy). apply in_map_iff in Hin as ([k' x] & <- & Hin).
    assert (Hin2 : In (k', x) (map (pair p) vs)) by exact (eq_ind _ (fun z => In (k', x) z) Hin _ Hops). apply in_map_iff in Hin2 as (z & Hz & _). injection Hz as <- _. reflexivity. }
  assert (Hfind : forall k vs, In (k, vs) m -> find_param k (coded V21 s m) = Some vs).
  { intros k vs Hin. unfold coded. rewrite read_params_find.
    assert (Hin' : In (k, join [cCOMMA] vs) (joined m)) by (unfold joined; apply in_map_iff; exists (k, vs); auto).
    rewrite (seen_added_one k _ (k, join [cCOMMA] vs)); [|exact Hnd|apply in_or_app; right; exact Hin'|].
    - assert (Ho := joined_ops m k vs Hw Hin). assert (Ha : added k (item_ops (k, join [cCOMMA] vs)) = vs) by exact (eq_trans (f_equal (added k) Ho) (added_pair k vs)).
      rewrite Ha. destruct Hw as [_ Hf]. rewrite Forall_forall in Hf. destruct (Hf _ Hin) as (_ & H2 & H3 & _). cbn [snd] in H2, H3.
      destruct vs as [|x vs]; [destruct (H2 eq_refl)|]. f_equal. apply firsts_id. exact H3.
    - intros y Hy Hne Hx. assert (Hkm : In k (map fst m)) by (apply in_map_iff; exists (k, vs); auto). apply in_app_or in Hy as [Hy|Hy].
      + apply in_map_iff in Hx as ([k' x] & Hk' & Hx). cbn [fst] in Hk'. subst k'. destruct (line_kvs_ops _ _ _ _ _ Hy Hx) as [-> | ->]; auto.
      + apply Hne. apply (nodup_key_eq fst (joined m)); [apply joined_nodup, Hw|exact Hy|exact Hin'|]. rewrite (Hk k y Hy Hx). reflexivity. }
  assert (Hcode : forall k w, In (k, w) [(B "charset", B "UTF-8"); (B "encoding", B "QUOTED-PRINTABLE")] -> find_param k (coded V21 s m) = Some [w]).
  { intros k w Hin. unfold coded. rewrite read_params_find. rewrite (seen_added_one k _ (k, w)); [|exact Hnd|apply in_or_app; left; cbn [line_kvs]; rewrite Hn; exact Hin|].
    - destruct Hin as [Hin|[Hin|[]]]; injection Hin as <- <-; reflexivity.
    - intros y Hy Hne Hx. cbn [line_kvs] in Hy. rewrite Hn in Hy. apply in_app_or in Hy as [Hy|Hy].
      + destruct Hin as [Hin|[Hin|[]]]; injection Hin as <- <-; destruct Hy as [<-|[<-|[]]]; try congruence; destruct Hx as [Hx|[]]; discriminate.
      + pose proof (Hk k y Hy Hx) as Hf. assert (In (fst y) (map fst m)) by (rewrite <- joined_keys; apply in_map; exact Hy). rewrite Hf in H.
        destruct Hin as [Hin|[Hin|[]]]; injection Hin as <- _; auto. }
  assert (Hnone : forall k vs, find_param k (coded V21 s m) = Some vs -> k = B "charset" \/ k = B "encoding" \/ In k (map fst m)).
  { intros k vs H. unfold coded in H. rewrite read_params_find in H. destruct (added k (seen_ops (line_kvs V21 s ++ joined m))) as [|x r] eqn:Ea; [discriminate|].
    assert (Hin : In (k, x) (seen_ops (line_kvs V21 s ++ joined m))) by (apply in_added; rewrite Ea; left; reflexivity).
    apply seen_ops_in in Hin as (kv & Hin & Hx); [|exact Hnd]. apply in_app_or in Hin as [Hin|Hin]; [destruct (line_kvs_ops _ _ _ _ _ Hin Hx); auto|].
    right. right. rewrite <- joined_keys. rewrite <- (Hk k kv Hin); [apply in_map; exact Hin|]. apply (in_map fst) in Hx. exact Hx. }
  assert (Hin : forall k vs, In (k, vs) (coded V21 s m) <-> find_param k (coded V21 s m) = Some vs).
  { intros k vs. rewrite find_param_afind. split; [apply In_afind, read_params_sorted|apply afind_In]. }
  intros k vs. rewrite Hin. split.
  - intros H. destruct (Hnone k vs H) as [-> |[-> |Hk']].
    + left. rewrite (Hcode _ (B "UTF-8")) in H by (left; reflexivity). injection H as <-. auto.
    + right. left. rewrite (Hcode _ (B "QUOTED-PRINTABLE")) in H by (right; left; reflexivity). injection H as <-. auto.
    + right. right. apply in_map_iff in Hk' as ([k' vs'] & Hk' & Hm). cbn [fst] in Hk'. subst k'. rewrite (Hfind k vs' Hm) in H. injection H as <-. exact Hm.
  - intros [[-> ->]|[[-> ->]|H]]; [apply Hcode; left; reflexivity|apply Hcode; right; left; reflexivity|apply Hfind; exact H].
Qed.
Lemma coded_same s x : plain_params (pt_params x) -> same_coded s x (mkPtext (coded V21 s (pt_params x)) (pt_text x)).
Proof.
  intros H. split; [reflexivity|]. cbn [pt_params]. destruct (needs_encoding s) eqn:E; [apply coded_marked; auto|]. apply coded_plain; [apply H|auto].
Qed.
Lemma seen_coded_params E i v m u : In i known -> plain_params m -> codes E v u -> text_safe u ->
  loud E (vl_add_params m (line21 v i u)) = negb (isnil u) /\
  reread E (vl_add_params m (line21 v i u)) = mkVline i [] (coded v u m) (QStr u) [].
Proof.
  intros Hi Hm Hq Hs. rewrite vl_add_params_all. apply seen_coded_safe; auto; [apply joined_nodup; apply Hm|apply plain_params_items, Hm].
Qed.

(** ** roles and titles *)
Definition recoded (v : version) (t : ptext) : ptext := mkPtext (coded v (pt_text t) (pt_params t)) (pt_text t).
Lemma ptext_field21 E T v export a b (f : addressee -> list ptext) K i :
  fitting E T v a -> reads_as E T v export a b -> of_kinds K [i] -> pictured i = false -> In i known ->
  (forall e x, f (put_empty e x) = f x) ->
  (forall id l x, K (line_kind l) = true -> f (eff T id l x) = add_first (line_ptext l) (f x)) ->
  (forall id l x, K (line_kind l) = false -> f (eff T id l x) = f x) ->
  (forall id, f (addressee_new id) = []) ->
  flat_map (pick i) (chunks T v export a) = map (fun t => vl_add_params (pt_params t) (line21 v i (pt_text t))) (f a) ->
  (forall t, In t (f a) -> plain_params (pt_params t)) -> (forall t, In t (f a) -> codes E v (pt_text t)) -> (forall t, In t (f a) -> text_safe (pt_text t)) ->
  f b = map (recoded v) (filter ptext_valid (f a)).
Proof.
  intros Hf Hr Hk Hp Hi He H1 H0 Hd Hc Hm Hq Hs.
  destruct (fold_field E T v export a b f K i (fun l x => add_first (line_ptext l) x) Hf Hr Hk ltac:(congruence) He H1 H0) as [card ->].
  rewrite Hc, (readings_map E _ (fun t => mkVline i [] (coded v (pt_text t) (pt_params t)) (QStr (pt_text t)) []) ptext_valid).
  - rewrite (fold_append (fun y x => add_first (line_ptext y) x) _ (recoded v)); [rewrite Hd; reflexivity|].
    intros t acc Ht. apply filter_In in Ht as [_ Ht]. unfold add_first. change (ptext_valid _) with (ptext_valid t). rewrite Ht. reflexivity.
  - intros t Ht. destruct (seen_coded_params E i v (pt_params t) (pt_text t) Hi (Hm t Ht) (Hq t Ht) (Hs t Ht)) as [L R]. auto.
Qed.
Lemma ptexts_codes E T v a s : fitting E T v a -> In s (ptexts21 a) -> codes E v s.
Proof. intros Hf Hin Hv. destruct (fq_21 _ _ _ _ Hf Hv) as [H _]. rewrite Forall_forall in H. apply H, in_or_app. auto. Qed.
Lemma field_roles21 E T v export a b : fitting E T v a -> reads_as E T v export a b -> Forall (fun t => text_safe (pt_text t)) (a_roles a) ->
  a_roles b = map (recoded v) (filter ptext_valid (a_roles a)).
Proof.
  intros Hf Hr Hs. rewrite Forall_forall in Hs. destruct (params_facts a (fq_params _ _ _ _ Hf)) as (_ & _ & Hp & _).
  apply (ptext_field21 E T v export a b a_roles (fun k => match k with LRole => true | _ => false end) (B "ROLE")); text_side; auto.
  - apply app_nil_r.
  - intros t Ht. apply Hp. in_app.
  - intros t Ht. apply (ptexts_codes E T v a _ Hf). unfold ptexts21. apply in_or_app. right. apply in_map. apply in_or_app. auto.
Qed.
Lemma field_titles21 E T v export a b : fitting E T v a -> reads_as E T v export a b -> Forall (fun t => text_safe (pt_text t)) (a_titles a) ->
  a_titles b = map (recoded v) (filter ptext_valid (a_titles a)).
Proof.
  intros Hf Hr Hs. rewrite Forall_forall in Hs. destruct (params_facts a (fq_params _ _ _ _ Hf)) as (_ & _ & Hp & _).
  apply (ptext_field21 E T v export a b a_titles (fun k => match k with LTitle => true | _ => false end) (B "TITLE")); text_side; auto.
  - apply app_nil_r.
  - intros t Ht. apply Hp. in_app.
  - intros t Ht. apply (ptexts_codes E T v a _ Hf). unfold ptexts21. apply in_or_app. right. apply in_map. apply in_or_app. auto.
Qed.

(** ** organisations and department *)
Definition org_out21 (v : version) (d : ustring) (o : ptext) : vline :=
  mkVline (B "ORG") [] (coded v (join_components cSEMI (org_parts d o)) (pt_params o)) (QStr (join_components cSEMI (org_parts d o))) [].
Lemma org_seen21 E T v a o : fitting E T v a -> In o (a_orgs a) -> parts_safe (org_parts (a_department a) o) ->
  loud E (org_line v (a_department a) o) = negb (isnil (join_components cSEMI (org_parts (a_department a) o))) /\
  reread E (org_line v (a_department a) o) = org_out21 v (a_department a) o /\ parts_of cSEMI (org_out21 v (a_department a) o) = org_parts (a_department a) o.
Proof.
  intros Hf Hin Hs. destruct (params_facts a (fq_params _ _ _ _ Hf)) as (_ & _ & Hp & _).
  destruct (seen_coded_params E (B "ORG") v (pt_params o) (join_components cSEMI (org_parts (a_department a) o)) ltac:(in_known) ltac:(apply Hp; in_app)) as [L R].
  - apply (ptexts_codes E T v a _ Hf). unfold ptexts21. apply in_or_app. left. unfold org_parts. apply (in_map (fun o => join_components cSEMI (pt_text o :: (if isnil (a_department a) then [] else [a_department a])))). exact Hin.
  - exact (join_safe cSEMI _ ltac:(left; reflexivity) (proj1 Hs)).
  - split; [exact L|]. split; [exact R|]. unfold parts_of, org_out21, lvalue. cbn [vl_value variant_string].
    rewrite (proj2 (split_join_iff cSEMI (org_parts (a_department a) o) ltac:(discriminate) ltac:(discriminate)) (proj2 Hs)). reflexivity.
Qed.
Lemma field_orgs21 E T v export a b : fitting E T v a -> reads_as E T v export a b ->
  Forall (fun o => pt_text o <> [] /\ parts_safe (org_parts (a_department a) o)) (a_orgs a) -> (a_orgs a = [] -> a_department a = []) ->
  a_orgs b = map (fun o => mkPtext (coded v (join_components cSEMI (org_parts (a_department a) o)) (pt_params o)) (pt_text o)) (a_orgs a) /\ a_department b = a_department a.
Proof.
  intros Hf Hr Hs Hd. rewrite Forall_forall in Hs.
  assert (Hread : readings E (flat_map (pick (B "ORG")) (chunks T v export a)) = map (org_out21 v (a_department a)) (a_orgs a)).
  { change (flat_map (pick (B "ORG")) (chunks T v export a)) with (map (org_line v (a_department a)) (a_orgs a) ++ []). rewrite app_nil_r.
    rewrite (readings_map E _ (org_out21 v (a_department a)) (fun o => negb (isnil (join_components cSEMI (org_parts (a_department a) o))))).
    - rewrite filter_all; [reflexivity|]. intros o Ho. apply negb_true_iff. destruct (isnil _) eqn:Ej; [|reflexivity]. apply org_silent in Ej as [Ej _]. destruct (Hs o Ho) as [Hne _]. congruence.
    - intros o Ho. destruct (Hs o Ho) as [_ Hps]. destruct (org_seen21 E T v a o Hf Ho Hps) as (L & R & _). auto. }
  split.
  - destruct (fold_field E T v export a b a_orgs (fun k => match k with LOrg => true | _ => false end) (B "ORG")
      (fun l x => match nth_error (parts_of cSEMI l) 0 with Some s => add_first (mkPtext (vl_params l) s) x | None => x end) Hf Hr) as [card ->]; text_side; try discriminate.
    rewrite Hread. cbn [a_orgs addressee_new].
    rewrite (fold_append (fun l x => match nth_error (parts_of cSEMI l) 0 with Some s => add_first (mkPtext (vl_params l) s) x | None => x end) _
      (fun o => mkPtext (coded v (join_components cSEMI (org_parts (a_department a) o)) (pt_params o)) (pt_text o))); [reflexivity|].
    intros o acc Ho. destruct (Hs o Ho) as [Hne Hps]. destruct (org_seen21 E T v a o Hf Ho Hps) as (_ & _ & ->). cbn [org_parts nth_error]. unfold add_first, ptext_valid.
    cbn [pt_text]. rewrite (proj2 (isnil_false _) Hne). reflexivity.
  - destruct (fold_field E T v export a b a_department (fun k => match k with LOrg => true | _ => false end) (B "ORG")
      (fun l x => part 1 (parts_of cSEMI l) x) Hf Hr) as [card ->]; text_side; try discriminate.
    rewrite Hread. cbn [a_department addressee_new].
    assert (H : forall l init, (forall o, In o l -> In o (a_orgs a)) ->
      fold_left (fun x l => part 1 (parts_of cSEMI l) x) (map (org_out21 v (a_department a)) l) init = if isnil l || isnil (a_department a) then init else a_department a).
    { induction l as [|o l IH]; intros init Hin; [reflexivity|]. cbn [map fold_left isnil orb]. assert (Ho := Hin o ltac:(left; auto)).
      destruct (Hs o Ho) as [_ Hps]. destruct (org_seen21 E T v a o Hf Ho Hps) as (_ & _ & Hp). rewrite Hp. rewrite IH by (intros; apply Hin; right; auto).
      unfold org_parts. destruct (isnil (a_department a)); cbn [part nth_error]; [destruct (isnil l); reflexivity|]. destruct (isnil l); reflexivity. }
    rewrite H by auto. destruct (isnil (a_department a)) eqn:Ed; [apply isnil_true in Ed; rewrite orb_true_r; auto|].
    destruct (a_orgs a) as [|o l]; [rewrite Hd in Ed by reflexivity; discriminate|reflexivity].
Qed.

(** ** e-mail addresses *)
Definition email_out (e : email) : email := mkEmail (read_params (seen_ops (email_kvs V21 (em_params e)))) (em_mail e).
Lemma email_kvs_plain m : plain_params m -> bare_types m -> Forall plain_item (email_kvs V21 m).
Proof.
  intros Hp Hb. destruct (email_types m Hp Hb) as (T1 & T2 & T3). eapply Permutation_Forall; [symmetry; apply email_kvs_perm, Hp|]. apply Forall_app. split.
  - apply plain_params_items, plain_filter. exact Hp.
  - apply type_kvs_plain; auto. intros H. apply (proj1 (T3 _ H)). right. left. reflexivity.
Qed.
Lemma email_out_types m : plain_params m -> bare_types m -> types_upper m (read_params (seen_ops (email_kvs V21 m))).
Proof.
  intros Hp Hb. destruct (email_types m Hp Hb) as (T1 & T2 & T3). destruct (email_kvs_ok V21 m Hp (fun _ => Hb)) as [_ K2].
  pose proof (email_kvs_perm m (proj1 Hp)) as P. assert (Hp' : plain_params (typeless m)) by (apply plain_filter; exact Hp).
  pose proof Hp as ((Hs & Hf) & _). rewrite Forall_forall in Hf.
  split; [apply read_params_sorted|]. split.
  - intros k Hk. rewrite read_params_find.
    assert (Ho : forall kv x, In kv (email_kvs V21 m) -> In (k, x) (item_ops kv) -> fst kv = k /\ In kv (joined (typeless m))).
    { intros kv x Hin Hx. eapply Permutation_in in Hin; [|exact P]. apply in_app_or in Hin as [Hin|Hin].
      - destruct (P_Types.joined_ops _ kv (proj1 Hp') Hin) as (vs & _ & Ho). rewrite Ho in Hx. apply in_map_iff in Hx as (y & Hy & _). injection Hy as Hy _. auto.
      - exfalso. apply Hk. refine (proj1 (type_kvs_ops V21 _ kv T1 _ Hin k x Hx)). intros H0. rewrite H0 in Hin. destruct Hin. }
    destruct (find_param k m) as [vs|] eqn:Ef.
    + apply find_param_in in Ef as (q & -> & Hin). destruct (Hf _ Hin) as (F1 & F2 & F3 & F4). cbn [fst snd] in *.
      assert (Hkv : In (k, join [cCOMMA] vs) (email_kvs V21 m)).
      { eapply Permutation_in; [symmetry; exact P|]. apply in_or_app. left. unfold joined. apply in_map_iff. exists (k, vs). split; auto. apply filter_In. split; auto.
        cbn [fst]. apply negb_true_iff, leqb_neq. exact Hk. }
      rewrite (seen_added_one k _ (k, join [cCOMMA] vs) K2 Hkv).
      * assert (Ha : added k (item_ops (k, join [cCOMMA] vs)) = vs).
        { destruct (joined_item k vs F1 F2 F4) as [_ Hi]. rewrite Hi. unfold added. clear. induction vs as [|x vs IH]; auto. cbn [map filter fst]. rewrite leqb_refl. cbn [map snd]. f_equal. auto. }
        rewrite Ha, firsts_id by auto. destruct vs; [destruct (F2 eq_refl)|reflexivity].
      * intros y Hy Hne Hx. apply in_map_iff in Hx as ([k' x] & Hk' & Hx). cbn [fst] in Hk'. subst k'. destruct (Ho y x Hy Hx) as [Hy1 Hy2].
        apply Hne. apply (nodup_key_eq fst (email_kvs V21 m)); auto.
    + rewrite seen_added_none; auto. intros y Hy Hx. apply in_map_iff in Hx as ([k' x] & Hk' & Hx). cbn [fst] in Hk'. subst k'.
      destruct (Ho y x Hy Hx) as [Hy1 Hy2]. rewrite find_param_afind in Ef. apply afind_None in Ef. apply Ef. rewrite <- Hy1.
      apply (in_map fst) in Hy2. rewrite joined_keys in Hy2. apply in_map_iff in Hy2 as (e & He & Hin). apply filter_In in Hin as [Hin _]. rewrite <- He. apply in_map. auto.
  - assert (Ht : Permutation (added (B "type") (seen_ops (email_kvs V21 m))) (map to_upper (listed_types m))).
    { rewrite seen_added_perm by exact K2. rewrite (Permutation_flat_map _ P), flat_map_app.
      assert (H1 : flat_map (fun kv => added (B "type") (item_ops kv)) (joined (typeless m)) = []).
      { apply flat_map_nil. intros kv Hin. apply added_nil. intros Hx. apply in_map_iff in Hx as ([k x] & Hk & Hx). cbn [fst] in Hk. subst k.
        destruct (P_Types.joined_ops _ kv (proj1 Hp') Hin) as (vs & Hv & Ho). rewrite Ho in Hx. apply in_map_iff in Hx as (y & Hy & _). injection Hy as Hy _.
        apply filter_In in Hv as [_ Hv]. cbn [fst] in Hv. rewrite Hy in Hv. discriminate. }
      assert (H2 : flat_map (fun kv => added (B "type") (item_ops kv)) (type_kvs V21 (listed_types m)) = map to_upper (listed_types m)).
      { unfold type_kvs. clear T2 T3 P. induction (listed_types m) as [|s l IH]; auto. inversion T1 as [|? ? H T1']; subst. cbn [map flat_map]. rewrite IH by auto. change (map to_upper (s :: l)) with ([to_upper s] ++ map to_upper l). f_equal.
        destruct (type_kvs_ops V21 [s] (s, []) ltac:(constructor; auto) ltac:(discriminate) ltac:(left; reflexivity) (bare_key (to_upper s)) (to_upper s) ltac:(left; reflexivity)) as [Hk _].
        unfold item_ops. cbn [fst snd]. rewrite Hk. reflexivity. }
      rewrite H1, H2. reflexivity. }
    rewrite read_params_find. destruct (find_param (B "type") m) as [vs|] eqn:Ef.
    + apply find_param_in in Ef as (q & -> & Hin). rewrite (listed_eq m vs Hs Hin) in Ht. destruct (Hf _ Hin) as (_ & F2 & _ & _). cbn [snd] in F2.
      assert (Hn : NoDup (added (B "type") (seen_ops (email_kvs V21 m)))) by (eapply Permutation_NoDup; [symmetry; exact Ht|]; apply (proj2 (Hb vs Hin))).
      rewrite firsts_id by exact Hn. destruct (added (B "type") (seen_ops (email_kvs V21 m))) as [|x r] eqn:Ea.
      * exfalso. apply Permutation_nil in Ht. destruct vs; [auto|discriminate].
      * exists (x :: r). auto.
    + assert (Hl : listed_types m = []).
      { unfold listed_types. apply flat_map_nil. intros pv Hin. destruct (leqb_spec (fst pv) (B "type")) as [He|_]; auto. exfalso.
        rewrite find_param_afind in Ef. apply afind_None in Ef. apply Ef. rewrite <- He. apply in_map. auto. }
      rewrite Hl in Ht. symmetry in Ht. apply Permutation_nil in Ht. rewrite Ht. reflexivity.
Qed.
Lemma emails_fold : forall l init1 init2, NoDup (map em_mail (init1 ++ init2 ++ l)) ->
  fold_left (fun x y => add_email_list (mkEmail (vl_params y) (lvalue y)) x) (map (fun e => mkVline (B "EMAIL") [] (em_params e) (QStr (em_mail e)) []) l) (init1 ++ init2)
  = rev (filter email_preferred l) ++ init1 ++ init2 ++ filter (fun e => negb (email_preferred e)) l.
Proof.
  induction l as [|e l IH]; intros i1 i2 Hn; [cbn; rewrite app_nil_r; reflexivity|]. cbn [map fold_left].
  cbn [vl_params lvalue vl_value]; change (lvalue (mkVline (B "EMAIL") [] (em_params e) (QStr (em_mail e)) [])) with (em_mail e). replace (mkEmail (em_params e) (em_mail e)) with e by (destruct e; reflexivity).
  assert (Hnew : find_split (fun x => leqb (em_mail x) (em_mail e)) (i1 ++ i2) = None).
  { apply find_split_None, Forall_forall. intros y Hy. destruct (leqb_spec (em_mail y) (em_mail e)) as [He|]; auto. exfalso.
    rewrite app_assoc, map_app in Hn. cbn [map] in Hn. apply NoDup_remove_2 in Hn. apply Hn. rewrite in_app_iff. left. rewrite <- He. apply in_map. auto. }
  unfold add_email_list at 2. rewrite Hnew. cbn [filter]. destruct (email_preferred e) eqn:Ep; cbn [negb].
  - change (e :: i1 ++ i2) with ((e :: i1) ++ i2). rewrite IH; [cbn [rev]; rewrite <- app_assoc; reflexivity|].
    cbn [app map]. eapply Permutation_NoDup; [|exact Hn]. rewrite app_assoc, app_assoc, map_app. cbn [map].
    rewrite (map_app em_mail (i1 ++ i2) l). symmetry. apply Permutation_middle.
  - rewrite <- app_assoc. rewrite IH; rewrite <- ?app_assoc; auto.
Qed.
Lemma field_emails21 E T export a b : fitting E T V21 a -> reads_as E T V21 export a b ->
  Forall (fun e => text_safe (em_mail e)) (a_emails a) -> NoDup (map em_mail (a_emails a)) ->
  let l := map email_out (filter (fun e => negb (isnil (em_mail e))) (a_emails a)) in
  a_emails b = rev (filter email_preferred l) ++ filter (fun e => negb (email_preferred e)) l.
Proof.
  intros Hf Hr Hs Hn. cbv zeta. rewrite Forall_forall in Hs. destruct (params_facts a (fq_params _ _ _ _ Hf)) as (Hp & _).
  destruct (fq_21 _ _ _ _ Hf eq_refl) as [_ Hb]. rewrite Forall_forall in Hb.
  destruct (fold_field E T V21 export a b a_emails (fun k => match k with LEmail => true | _ => false end) (B "EMAIL")
    (fun l x => add_email_list (mkEmail (vl_params l) (lvalue l)) x) Hf Hr) as [card ->]; text_side; try discriminate.
  change (flat_map (pick (B "EMAIL")) (chunks T V21 export a)) with (map (email_line V21) (a_emails a) ++ []). rewrite app_nil_r.
  rewrite (readings_map E (email_line V21) (fun e => mkVline (B "EMAIL") [] (em_params (email_out e)) (QStr (em_mail (email_out e))) []) (fun e => negb (isnil (em_mail e)))).
  - set (l := filter _ (a_emails a)). assert (Hl : NoDup (map em_mail (map email_out l))).
    { rewrite map_map. apply nodup_filter_map. exact Hn. }
    rewrite <- (map_map email_out (fun e => mkVline (B "EMAIL") [] (em_params e) (QStr (em_mail e)) [])). clearbody l. cbn [a_emails addressee_new].
    pose proof (emails_fold (map email_out l) [] []) as H. cbn [app] in H. rewrite H; auto.
  - intros e He. rewrite email_line_all. destruct (email_kvs_ok V21 _ (Hp e He) (fun _ => Hb e He)) as [_ K2].
    destruct (seen_text E (B "EMAIL") [] (B "EMAIL") _ (em_mail e) (known_id (B "EMAIL") ltac:(in_known)) K2 (email_kvs_plain _ (Hp e He) (Hb e He))) as (_ & L & R).
    unfold text_line. rewrite L, R. split; auto. intros _. destruct (Hs e He) as [S1 S2]. rewrite thru_id by auto. reflexivity.
Qed.
(** the types and the preference say the same *)
Lemma find_ci s l : contains_ci s l = true <-> exists x, In x l /\ to_lower x = to_lower s.
Proof.
  induction l as [|y l IH]; cbn [contains_ci]; [split; [discriminate|intros (x & [] & _)]|]. unfold leqb_ci. rewrite orb_true_iff, IH, leqb_eq. split.
  - intros [H|(x & Hx & H)]; [exists y; split; [left; auto|auto]|exists x; split; [right; auto|auto]].
  - intros (x & [->|Hx] & H); [left; auto|right; exists x; auto].
Qed.
Lemma lower_upper_all s : to_lower (to_upper s) = to_lower s /\ to_upper (to_upper s) = to_upper s.
Proof.
  unfold to_lower, to_upper. rewrite !map_map. split; apply map_ext; intros c; unfold lower1, upper1, is_lower, is_upper.
  - destruct (N.leb_spec 97 c), (N.leb_spec c 122), (N.leb_spec 65 c), (N.leb_spec c 90); cbn [andb]; try lia;
      repeat match goal with |- context [N.leb ?a ?b] => destruct (N.leb_spec a b) end; cbn [andb]; lia.
  - destruct (N.leb_spec 97 c), (N.leb_spec c 122); cbn [andb]; try lia;
      repeat match goal with |- context [N.leb ?a ?b] => destruct (N.leb_spec a b) end; cbn [andb]; lia.
Qed.
Lemma types_upper_preferred m m' : types_upper m m' -> pm_preferred m' = pm_preferred m.
Proof.
  intros (_ & H1 & H2). unfold pm_preferred. rewrite (H1 kPREF) by discriminate. destruct (find_param kPREF m); [reflexivity|].
  unfold kTYPE in *. destruct (find_param (B "type") m) as [vs|]; [destruct H2 as (ws & -> & P)|rewrite H2; reflexivity].
  apply eq_true_iff_eq. rewrite !find_ci. split; intros (x & Hx & He).
  - eapply Permutation_in in Hx; [|exact P]. apply in_map_iff in Hx as (y & <- & Hy). exists y. split; auto. rewrite (proj1 (lower_upper_all y)) in He. exact He.
  - exists (to_upper x). split; [eapply Permutation_in; [symmetry; exact P|]; apply in_map; auto|]. rewrite (proj1 (lower_upper_all x)). exact He.
Qed.
Lemma types_of_perm (up : ustring -> ustring) (tab : list (ustring * N)) (vs ws : list ustring) : Permutation vs ws -> forall t,
  fold_left (fun t s => N.lor t (lookup_type (fun n => leqb n (up s)) tab)) vs t = fold_left (fun t s => N.lor t (lookup_type (fun n => leqb n (up s)) tab)) ws t.
Proof.
  induction 1; intros t; cbn [fold_left]; auto.
  - f_equal. rewrite <- !N.lor_assoc. f_equal. apply N.lor_comm.
  - etransitivity; eauto.
Qed.
Lemma types_upper_type m m' : types_upper m m' -> pm_type to_upper email_type_names m' = pm_type to_upper email_type_names m.
Proof.
  intros (_ & _ & H2). unfold pm_type, kTYPE in *. destruct (find_param (B "type") m) as [vs|]; [destruct H2 as (ws & -> & P)|rewrite H2; reflexivity].
  unfold types_of. rewrite (types_of_perm _ _ _ _ P). generalize 0%N. clear. induction vs as [|s vs IH]; intros t; auto. cbn [map fold_left].
  rewrite (proj2 (lower_upper_all s)). apply IH.
Qed.
Lemma map_Forall2 {A C} (R : A -> C -> Prop) (f : A -> C) l : (forall x, In x l -> R x (f x)) -> Forall2 R l (map f l).
Proof. induction l as [|x l IH]; intros H; constructor; [apply H; left; auto|apply IH; intros; apply H; right; auto]. Qed.

Lemma whole_coded E T export a b : fitting E T V21 a -> reads_as E T V21 export a b -> fresh_ids T -> safe21 T a -> same21_coded a b.
Proof.
  intros Hf Hr HT ([Ht Hu Hn Hti Hro Hor Hde Hbd Hre Htz Hur (He1 & He2 & He3) Hph [Had Hlab] (Hcu1 & Hcu2 & Hsp)] & Hna & Hma).
  repeat match type of Ht with Forall _ (_ :: _) => inversion_clear Ht as [|? ? ?Htx Ht'']; rename Ht'' into Ht end.
  destruct (params_facts a (fq_params _ _ _ _ Hf)) as (_ & _ & Hp & _).
  constructor.
  - rewrite (field_formatted E T V21 export a b Hf Hr), (field_note E T V21 export a b Hf Hr), (field_uid E T V21 export a b Hf Hr Hu),
      (field_name E T V21 export a b Hf Hr), (field_mailer E T V21 export a b Hf Hr); auto; discriminate.
  - apply (field_n E T V21 export a b Hf Hr Hn).
  - rewrite (field_titles21 E T V21 export a b Hf Hr (texts_full_safe _ Hti)), texts_full_valid by exact Hti.
    apply map_Forall2. intros t Ht'. apply coded_same. apply Hp. in_app.
  - rewrite (field_roles21 E T V21 export a b Hf Hr (texts_full_safe _ Hro)), texts_full_valid by exact Hro.
    apply map_Forall2. intros t Ht'. apply coded_same. apply Hp. in_app.
  - destruct (field_orgs21 E T V21 export a b Hf Hr Hor Hde) as [-> ->]. split; [|reflexivity].
    apply map_Forall2. intros o Ho. unfold org_written. apply (coded_same (join_components cSEMI (org_parts (a_department a) o)) o). apply Hp. in_app.
  - apply (field_birthday E T V21 export a b Hf Hr Hbd).
  - apply (field_revision E T V21 export a b Hf Hr Hre).
  - apply (field_tz E T V21 export a b Hf Hr Htz).
  - apply (field_urls E T V21 export a b Hf Hr Hur).
  - destruct (params_facts a (fq_params _ _ _ _ Hf)) as (Hem & _). destruct (fq_21 _ _ _ _ Hf eq_refl) as [_ Hb]. rewrite Forall_forall in Hb.
    rewrite (field_emails21 E T export a b Hf Hr); [|eapply Forall_impl; [|exact He1]; intros e He; apply He|exact He2].
    rewrite (filter_true (fun e => negb (isnil (em_mail e)))) by (eapply Forall_impl; [|exact He1]; intros e [_ He]; apply negb_true_iff, isnil_false; exact He).
    assert (Hsame : Forall2 same_email (a_emails a) (map email_out (a_emails a))).
    { apply map_Forall2. intros e He. split; [reflexivity|]. apply email_out_types; auto. }
    clear - Hsame He3. destruct (a_emails a) as [|e es]; [constructor|]. cbn [tl map] in *. inversion Hsame as [|? ? ? ? H1 H2]; subst.
    assert (H0 : Forall (fun e => email_preferred e = false) (map email_out es)).
    { clear - H2 He3. induction es as [|x es IH]; [constructor|]. inversion He3; subst. cbn [map] in *. inversion H2 as [|? ? ? ? [_ Hx] ?]; subst. constructor; auto.
      unfold email_preferred in *. rewrite (types_upper_preferred _ _ Hx). auto. }
    assert (K1 : filter email_preferred (map email_out es) = []) by (apply filter_none; rewrite Forall_forall in H0; exact H0).
    assert (K2 : filter (fun e => negb (email_preferred e)) (map email_out es) = map email_out es) by (apply filter_true; eapply Forall_impl; [|exact H0]; intros x Hx; cbv beta in *; rewrite Hx; reflexivity).
    cbn [filter]. destruct (email_preferred (email_out e)); cbn [negb]; rewrite K1, K2; constructor; auto.
  - pose proof (field_phones E T V21 export a b Hf Hr HT ltac:(eapply Forall_impl; [|exact Hph]; intros p Hp'; apply Hp')) as H.
    rewrite Forall_forall in Hph.
    rewrite filter_true in H.
    + eapply Forall2_imp; [|exact H]. intros p q Hin (Q1 & Q2 & Q3). destruct (Hph p Hin) as (_ & S1 & S2 & S3 & S4). split; [congruence|]. split; [|exact Q3].
      cbv zeta in Q2. rewrite S3 in Q2. rewrite (proj2 (N.eqb_neq _ _) S4) in Q2. exact Q2.
    + apply Forall_forall. intros p Hin. destruct (Hph p Hin) as (_ & S1 & S2 & _). rewrite S1. apply negb_true_iff, isnil_false. exact S2.
  - pose proof (field_addresses E T V21 export a b Hf Hr HT) as H. rewrite Forall_forall in Had.
    eapply Forall2_imp; [|apply H].
    + intros x y Hin [(Q1 & Q2 & Q3 & Q4 & Q5 & Q6 & Q7 & Q8) Q9]. destruct (Had x Hin) as (_ & _ & _ & S4). rewrite S4 in Q8. unfold same_address. tauto.
    + apply Forall_forall. intros x Hin. destruct (Had x Hin) as (S1 & S2 & S3 & _). auto.
    + auto.
  - rewrite (field_customs E T V21 export a b Hf Hr Hsp Hcu1).
    + apply filter_true. eapply Forall_impl; [|exact Hcu2]. intros e (_ & S2 & (_ & S3 & _)). unfold kept_custom, full_custom, is_messaging. rewrite S3. rewrite (proj2 (isnil_false _) S2). reflexivity.
    + eapply Forall_impl; [|exact Hcu2]. intros e (S1 & _ & S3). auto.
Qed.

(** deciding [bare_types] *)
Definition bare_types_b (m : pmap) : bool :=
  forallb (fun pv => negb (leqb (fst pv) (B "type")) ||
    (forallb (fun s => forallb (fun c => (32 <=? c)%N && (c <? 127)%N && negb (mem c [34; 44; 58; 59; 61]%N)) s
       && negb (contains (to_lower s) [B "encoding"; B "charset"; B "quoted-printable"; B "base64"]) && negb (contains s (map fst m))) (snd pv)
     && nodup_b (map to_upper (snd pv)))) m.
Lemma bare_types_spec m : bare_types_b m = true -> bare_types m.
Proof.
  unfold bare_types_b. rewrite forallb_forall. intros H vs Hin. specialize (H _ Hin). cbn [fst snd] in H. rewrite leqb_refl in H. cbn [negb orb] in H.
  apply andb_true_iff in H as [H1 H2]. split; [|apply nodup_b_spec; exact H2]. rewrite forallb_forall in H1. apply Forall_forall. intros s Hs. specialize (H1 s Hs).
  rewrite !andb_true_iff, !negb_true_iff in H1. destruct H1 as [[H3 H4] H5]. split; [|split].
  - rewrite forallb_forall in H3. apply Forall_forall. intros c Hc. specialize (H3 c Hc). rewrite !andb_true_iff, negb_true_iff in H3. destruct H3 as [H6 H7].
    split; [lia|]. intros Hx. apply mem_In in Hx. congruence.
  - intros Hx. apply contains_In in Hx. congruence.
  - intros Hx. apply contains_In in Hx. congruence.
Qed.
