(** Organisations, sort string, secrecy, gender, keys, pictures and sounds after writing and reading. *)
From Coq Require Import Permutation.
From Verif Require Import Base BaseFacts QtText Utf8 Utf8Facts M_ParamMap M_VCard M_VCardText
  S_Escape P_Escape S_Fold P_Fold S_CardText P_CardText S_Card P_Assoc P_Card S_Parse P_Parse P_Parse2
  S_RoundTrip P_RoundTrip P_RoundTrip2 P_RoundTrip3 P_ReadBack P_Items P_Order
  M_Split S_Split P_Split M_Values M_Date M_Addressee M_VCardTool S_Contact P_Seen P_ReadFields P_Lines P_Contact P_Chunks P_Lists P_Values P_Fields P_Fields2 P_Types P_Addr.
From Verif Require P_Email.

(** ** organisations and department *)
Definition org_parts (d : ustring) (o : ptext) : list ustring := pt_text o :: (if isnil d then [] else [d]).
Definition org_out (d : ustring) (o : ptext) : vline := mkVline (B "ORG") [] (pt_params o) (QStr (join_components cSEMI (org_parts d o))) [].
Lemma org_seen E T v a o : fits T v a -> In o (a_orgs a) -> parts_safe (org_parts (a_department a) o) ->
  loud E (org_line v (a_department a) o) = negb (isnil (join_components cSEMI (org_parts (a_department a) o))) /\
  reread E (org_line v (a_department a) o) = org_out (a_department a) o /\ parts_of cSEMI (org_out (a_department a) o) = org_parts (a_department a) o.
Proof.
  intros Hf Hin Hs. rewrite org_line_eq.
  - destruct (params_facts a (fit_params _ _ _ Hf)) as (_ & _ & Hp & _).
    destruct (seen_params_safe E (B "ORG") (pt_params o) (join_components cSEMI (org_parts (a_department a) o)) ltac:(in_known) ltac:(apply Hp; in_app)
       (join_safe cSEMI _ ltac:(left; reflexivity) (proj1 Hs))) as [L R].
    split; [exact L|]. split; [exact R|]. unfold parts_of, org_out, lvalue. cbn [vl_value variant_string].
    rewrite (proj2 (split_join_iff cSEMI (org_parts (a_department a) o) ltac:(discriminate) ltac:(discriminate)) (proj2 Hs)). reflexivity.
  - intros Hv. split.
    + pose proof (fit21_texts _ _ _ Hf Hv) as H. rewrite Forall_forall in H. apply H. in_app.
    + destruct (fit_21 _ _ _ Hf Hv) as [H _]. rewrite Forall_forall in H. apply H. cbn [app In]. tauto.
Qed.
Lemma org_readings E T v export a : fits T v a -> Forall (fun o => parts_safe (org_parts (a_department a) o)) (a_orgs a) ->
  readings E (flat_map (pick (B "ORG")) (chunks T v export a)) =
    map (org_out (a_department a)) (filter (fun o => negb (isnil (join_components cSEMI (org_parts (a_department a) o)))) (a_orgs a)).
Proof.
  intros Hf Hs. rewrite Forall_forall in Hs.
  change (flat_map (pick (B "ORG")) (chunks T v export a)) with (map (org_line v (a_department a)) (a_orgs a) ++ []). rewrite app_nil_r.
  apply readings_map. intros o Ho. destruct (org_seen E T v a o Hf Ho (Hs o Ho)) as (L & R & _). auto.
Qed.
Lemma org_silent d o : isnil (join_components cSEMI (org_parts d o)) = true -> pt_text o = [] /\ d = [].
Proof.
  intros H. apply isnil_true, join_nil in H. unfold org_parts in H. destruct H as [H|H]; [discriminate|]. destruct d; [injection H as H; auto|discriminate].
Qed.
Lemma field_orgs E T v export a b : fits T v a -> reads_as E T v export a b -> Forall (fun o => parts_safe (org_parts (a_department a) o)) (a_orgs a) ->
  a_orgs b = filter ptext_valid (a_orgs a).
Proof.
  intros Hf Hr Hs.
  destruct (fold_field E T v export a b a_orgs (fun k => match k with LOrg => true | _ => false end) (B "ORG")
    (fun l x => match nth_error (parts_of cSEMI l) 0 with Some s => add_first (mkPtext (vl_params l) s) x | None => x end) Hf Hr) as [card ->]; text_side; try discriminate.
  rewrite org_readings by auto. rewrite Forall_forall in Hs. cbn [a_orgs addressee_new].
  assert (H : forall l init, (forall o, In o l -> In o (a_orgs a)) ->
    fold_left (fun x l => match nth_error (parts_of cSEMI l) 0 with Some s => add_first (mkPtext (vl_params l) s) x | None => x end)
      (map (org_out (a_department a)) (filter (fun o => negb (isnil (join_components cSEMI (org_parts (a_department a) o)))) l)) init = init ++ filter ptext_valid l).
  { induction l as [|o l IH]; intros init Hin; [cbn; symmetry; apply app_nil_r|]. cbn [filter].
    assert (Ho := Hin o ltac:(left; auto)). assert (Hl : forall o, In o l -> In o (a_orgs a)) by (intros; apply Hin; right; auto).
    destruct (isnil _) eqn:Ej; cbn [negb].
    - apply org_silent in Ej as [Ht _]. unfold ptext_valid. rewrite Ht. cbn [isnil negb]. apply IH; auto.
    - cbn [map fold_left]. destruct (org_seen E T v a o Hf Ho (Hs o Ho)) as (_ & _ & ->). cbn [org_parts nth_error]. rewrite IH by auto.
      cbn [vl_params org_out]. replace (mkPtext (pt_params o) (pt_text o)) with o by (destruct o; reflexivity). unfold add_first.
      destruct (ptext_valid o); [rewrite <- app_assoc|]; reflexivity. }
  apply (H (a_orgs a) []). auto.
Qed.
Lemma field_department E T v export a b : fits T v a -> reads_as E T v export a b -> Forall (fun o => parts_safe (org_parts (a_department a) o)) (a_orgs a) ->
  a_department b = if isnil (a_orgs a) then [] else a_department a.
Proof.
  intros Hf Hr Hs.
  destruct (fold_field E T v export a b a_department (fun k => match k with LOrg => true | _ => false end) (B "ORG")
    (fun l x => part 1 (parts_of cSEMI l) x) Hf Hr) as [card ->]; text_side; try discriminate.
  rewrite org_readings by auto. rewrite Forall_forall in Hs. cbn [a_department addressee_new].
  destruct (isnil (a_department a)) eqn:Ed.
  - apply isnil_true in Ed. rewrite Ed. transitivity (@nil N); [|destruct (isnil (a_orgs a)); reflexivity].
    assert (H : forall l, (forall o, In o l -> In o (a_orgs a)) -> fold_left (fun x l => part 1 (parts_of cSEMI l) x) (map (org_out []) l) [] = []).
    { induction l as [|o l IH]; intros Hin; [reflexivity|]. cbn [map fold_left]. assert (Ho := Hin o ltac:(left; auto)).
      destruct (org_seen E T v a o Hf Ho (Hs o Ho)) as (_ & _ & Hp). rewrite Ed in Hp. rewrite Hp. cbn [part org_parts isnil nth_error]. apply IH. intros; apply Hin; right; auto. }
    apply H. intros o Ho. apply filter_In in Ho. apply Ho.
  - rewrite filter_all.
    2: { intros o Ho. apply negb_true_iff. destruct (isnil (join_components _ _)) eqn:Ej; auto. apply org_silent in Ej as [_ Ej]. rewrite Ej in Ed. discriminate. }
    assert (H : forall l init, (forall o, In o l -> In o (a_orgs a)) -> fold_left (fun x l => part 1 (parts_of cSEMI l) x) (map (org_out (a_department a)) l) init = if isnil l then init else a_department a).
    { induction l as [|o l IH]; intros init Hin; [reflexivity|]. cbn [map fold_left isnil]. assert (Ho := Hin o ltac:(left; auto)).
      destruct (org_seen E T v a o Hf Ho (Hs o Ho)) as (_ & _ & Hp). rewrite Hp. unfold org_parts. rewrite Ed. cbn [part nth_error]. rewrite IH by (intros; apply Hin; right; auto).
      destruct (isnil l); reflexivity. }
    apply H. auto.
Qed.
