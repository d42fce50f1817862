(** Contacts and groups through LDIF: lemmas for C52. *)
From Verif Require Import Base BaseFacts Utf8 Utf8Facts QtText M_ParamMap M_Values M_Date M_Addressee M_ContactGroup M_Ldif S_Ldif S_LdifContact P_Types P_Lists P_Date P_Ldif P_LdifEntry P_LdifConv P_LdifText P_LdifRead P_LdifBack.
Local Open Scope list_scope.
Local Open Scope nat_scope.

(** ** Entries without a name *)

Lemma run_noname ls s : mode (snd (commit [] s)) = ENone -> Forall pline_ok ls ->
  (exists l r, ls = l :: r /\ ordinary (fst (snd l)) = true /\ snd (snd l) <> []) ->
  exists s', run (plines_text ls ++ [cLF]) (pending [] s) =
     (emit (commit [] s) ++ map (fun l => item_event (snd l)) ls, pending [] s')
  /\ mode s' = EAdd.
Proof.
  intros M OK (l & r & -> & O & NV). destruct (commit [] s) as [v0 s1] eqn:C0. cbn [snd] in *.
  inversion OK as [|? ? [L1 L2] OK']; subst. destruct l as [t [f1 v1]]. cbn [fst snd] in *.
  cbn [plines_text flat_map]. fold (plines_text r). cbn [fst].
  rewrite <- app_assoc, run_app, (run_line t f1 v1 _ _ L1), C0. cbn [fst snd].
  destruct r as [|l2 r].
  - destruct (commit_first (logical t) s1 f1 v1 M (line_ok_logical _ _ _ L1) O L2 NV) as (s2 & C2 & D1 & D2 & M2).
    cbn [plines_text flat_map app]. rewrite run_blank, C2. cbn [fst snd].
    exists s2. split; [|exact M2]. unfold emit at 2. cbn [fst snd is_none map app]. rewrite D1, D2. reflexivity.
  - inversion OK' as [|? ? [K1 K2] OK'']; subst. destruct l2 as [t2 [f2 v2]]. cbn [fst snd] in *.
    cbn [plines_text flat_map]. fold (plines_text r). cbn [fst].
    destruct (commit_first (logical t) s1 f1 v1 M (line_ok_logical _ _ _ L1) O L2 NV) as (s2 & C2 & D1 & D2 & M2).
    rewrite <- app_assoc, run_app, (run_line t2 f2 v2 _ _ K1), C2. cbn [fst snd].
    destruct (run_items r (logical t2) s2 f2 v2 M2 (line_ok_logical _ _ _ K1) K2 OK'') as (u' & s' & f' & v' & R & M' & H' & N' & LA).
    rewrite run_app, R. cbn [fst snd].
    destruct (commit_add u' s' f' v' M' H' N') as (s3 & C3 & E1 & E2 & M3).
    rewrite run_blank, C3. cbn [fst snd]. exists s3. split; [|exact M3].
    f_equal. f_equal. unfold emit. cbn [fst snd is_none map app]. rewrite D1, D2, E1, E2. f_equal.
    change [(PItem, f', v')] with (map item_event [(f', v')]). rewrite <- map_app, <- LA, <- app_removelast_last by discriminate.
    cbn [map]. f_equal. rewrite map_map. reflexivity.
Qed.

(** ** Blocks: texts of whole entries *)

Definition block (t : bytes) (es : list event) : Prop :=
  (exists c r, t = c :: r /\ starter c = true) /\
  forall s, mode (snd (commit [] s)) = ENone ->
    exists s', run t (pending [] s) = (emit (commit [] s) ++ es, pending [] s') /\ mode s' = EAdd.
Definition ended (es : list event) : list event := es ++ [(PEndEntry, [], [])].
Lemma blocks_run ts ess : Forall2 block ts ess -> forall s, mode (snd (commit [] s)) = ENone ->
  fst (run (concat ts ++ [cLF; cLF; cLF]) (pending [] s)) = emit (commit [] s) ++ flat_map ended ess.
Proof.
  induction 1 as [|t es ts ess (_ & BK) F IH]; intros s M.
  - cbn [concat app flat_map]. rewrite run_lf3, app_nil_r. reflexivity.
  - cbn [concat flat_map]. rewrite <- app_assoc, run_app. destruct (BK s M) as (s' & R & M'). rewrite R. cbn [fst snd].
    destruct (commit_end s' M') as (s1 & C & A1 & A2 & M1). rewrite IH by (rewrite C; exact M1). rewrite C. unfold emit at 2. cbn [fst snd is_none].
    rewrite A1, A2. unfold ended at 2. rewrite <- !app_assoc. reflexivity.
Qed.
Lemma blocks_evs ts ess : Forall2 block ts ess -> evs (concat ts) = flat_map ended ess.
Proof.
  intros F. destruct F as [|t es ts ess BK F]; [reflexivity|]. assert (F' : Forall2 block (t :: ts) (es :: ess)) by (constructor; assumption).
  destruct BK as ((c & r & -> & SS) & _). unfold evs. rewrite (run_start_rest _ _ []). cbn [concat app].
  rewrite run_start by exact SS. change (c :: (r ++ concat ts) ++ [cLF; cLF; cLF]) with (concat ((c :: r) :: ts) ++ [cLF; cLF; cLF]).
  rewrite (blocks_run _ _ F') by reflexivity. rewrite commit_start. reflexivity.
Qed.
Lemma entry_block dn p ps : is_bytes dn = true -> forallb pair_ok (p :: ps) = true -> ordinary (fst p) = true -> snd p <> [] ->
  exists w, block (entry_bytes dn (p :: ps)) ((PNewEntry, B "dn", w) :: map item_event (p :: ps)).
Proof.
  intros D P O NV. destruct (dn_line_ok dn D) as (w & LD). exists w. unfold entry_bytes.
  set (td := to_latin1 _) in *. clearbody td. split.
  - destruct (line_ok_start _ _ _ LD) as (c & r & -> & SS). exists c. eexists. split; [reflexivity|exact SS].
  - intros s M. destruct (run_entry td (B "dn") w (plines true 72 (p :: ps)) [] s LD eq_refl M (plines_ok true 72 _ P)) as (s' & R & M').
    { cbn [plines map]. eexists _, _. split; [reflexivity|]. cbn [fst snd]. auto. }
    rewrite plines_line_of in R. exists s'. rewrite R. split; [|exact M']. unfold plines. rewrite map_map. reflexivity.
Qed.
Lemma noname_block p ps : forallb pair_ok (p :: ps) = true -> ordinary (fst p) = true -> snd p <> [] ->
  block (flat_map (line_of true 72) (p :: ps) ++ [cLF]) (map item_event (p :: ps)).
Proof.
  intros P O NV. pose proof (plines_ok true 72 _ P) as OK. split.
  - rewrite <- plines_line_of. assert (L := Forall_inv OK). destruct L as [L _]. 
    destruct (line_ok_start _ _ _ L) as (c & r & X & SS). unfold plines. cbn [map plines_text flat_map]. 
    match type of X with ?u = _ => match goal with |- context [(fst ?z ++ _) ++ _] => change (fst z) with u end end. rewrite X. exists c. eexists. split; [reflexivity|exact SS].
  - intros s M. destruct (run_noname (plines true 72 (p :: ps)) s M OK) as (s' & R & M').
    { cbn [plines map]. eexists _, _. split; [reflexivity|]. cbn [fst snd]. auto. }
    rewrite plines_line_of in R. exists s'. rewrite R. split; [|exact M']. unfold plines. rewrite map_map. reflexivity.
Qed.

(** ** Contacts *)

Lemma contact_block E a : le_signed E = true -> a_empty a = false -> forallb (fun p => text_ok (snd p)) (contact_pairs E a) = true ->
  exists text es, addressee_to_ldif E a = Some text /\ block (to_latin1 text) es /\
    forall rev r, process_events E rev (ended es) r = end_entry E rev (fold_left (take E) (contact_pairs E a) r).
Proof.
  intros SG NE T. destruct (contact_text E a SG NE T) as (text & X & L). exists text.
  set (dn := to_utf8 _) in *. pose proof (contact_dn_bytes E a T) as D. fold dn in D.
  set (ps := entry_pairs contact_classes (contact_pairs E a)) in *.
  assert (TP : forallb (fun p => text_ok (snd p)) ps = true) by (unfold ps, entry_pairs; rewrite forallb_app; apply andb_true_iff; split; [reflexivity|exact T]).
  assert (NP : forallb (fun p => plain_name (fst p)) ps = true) by (unfold ps, entry_pairs; rewrite forallb_app; apply andb_true_iff; split; [reflexivity|apply contact_names]).
  assert (LP : forallb (fun p => leqb (to_lower (fst p)) (fst p)) ps = true) by (unfold ps, entry_pairs; rewrite forallb_app; apply andb_true_iff; split; [reflexivity|apply contact_lower]).
  pose proof (written_ok ps NP (text_valid _ TP)) as WP.
  assert (W : written ps = (B "objectclass", B "top") :: written (entry_pairs [B "person"; B "organizationalPerson"] (contact_pairs E a))) by reflexivity.
  rewrite W in WP. destruct (entry_block dn _ _ D WP eq_refl ltac:(discriminate)) as (w & BK).
  eexists. split; [exact X|]. rewrite L, W. split; [exact BK|]. intros rev r. unfold ended, process_events. cbn [fold_left app]. rewrite fold_left_app. cbn [fold_left].
  unfold ev_step at 1. cbn [fst snd]. f_equal.
  match goal with |- context [map item_event ?l] => replace l with (written ps) by exact W end.
  change (fold_left (ev_step E rev) ?l ?x) with (process_events E rev l x).
  rewrite (take_written E rev ps _ LP TP). unfold ps, entry_pairs. rewrite fold_left_app. reflexivity.
Qed.

(** ** Groups *)

Definition group_pairs (g : cgroup) : list (ustring * ustring) := map (fun d => (B "member", cn_mail (cd_name d) (cd_email d))) (cg_data g).
Lemma group_block E g : le_signed E = true -> cg_data g <> [] -> forallb (fun p => text_ok (snd p)) (group_pairs g) = true ->
  exists text es, group_to_ldif E g = Some text /\ block (to_latin1 text) es /\
    forall rev r, process_events E rev (ended es) r = end_entry E rev (fold_left (take E) (group_pairs g) r).
Proof.
  intros SG NE T. set (ps := entry_pairs [B "top"; B "groupOfNames"] (group_pairs g)).
  assert (GN : forall x : ustring * ustring -> bool, (forall v, x (B "member", v) = true) -> forallb x (group_pairs g) = true).
  { intros x H. apply forallb_forall. intros p I. apply in_map_iff in I. destruct I as (d & <- & _). apply H. }
  assert (TP : forallb (fun p => text_ok (snd p)) ps = true) by (unfold ps, entry_pairs; rewrite forallb_app; apply andb_true_iff; split; [reflexivity|exact T]).
  assert (NP : forallb (fun p => plain_name (fst p)) ps = true) by (unfold ps, entry_pairs; rewrite forallb_app; apply andb_true_iff; split; [reflexivity|apply GN; reflexivity]).
  assert (LP : forallb (fun p => leqb (to_lower (fst p)) (fst p)) ps = true) by (unfold ps, entry_pairs; rewrite forallb_app; apply andb_true_iff; split; [reflexivity|apply GN; reflexivity]).
  pose proof (written_ok ps NP (text_valid _ TP)) as WP.
  assert (W : written ps = (B "objectclass", B "top") :: written (entry_pairs [B "groupOfNames"] (group_pairs g))) by reflexivity.
  assert (GT : exists text, group_to_ldif E g = Some text /\ to_latin1 text = flat_map (line_of true 72) (written ps) ++ [cLF]).
  { unfold group_to_ldif. replace (isnil (cg_data g)) with false by (destruct (cg_data g); [congruence|reflexivity]). eexists. split; [reflexivity|].
    assert (NG : forallb (fun p => plain_name (fst p)) (group_pairs g) = true) by (apply GN; reflexivity).
    pose proof (pairs_lines E (group_pairs g) SG NG (text_valid _ T)) as L. unfold group_pairs in L at 1. rewrite flat_map_concat_map, map_map, <- flat_map_concat_map in L. cbn [fst snd] in L.
    rewrite !latin1_app, L. unfold ps, entry_pairs, written. rewrite filter_app, map_app, flat_map_app. rewrite <- !app_assoc. reflexivity. }
  destruct GT as (text & GT & L). exists text. rewrite W in WP. pose proof (noname_block _ _ WP eq_refl ltac:(discriminate)) as BK.
  eexists. split; [exact GT|]. rewrite L, W. split; [exact BK|]. intros rev r. unfold ended, process_events. rewrite fold_left_app. cbn [fold_left].
  unfold ev_step at 1. cbn [fst snd]. f_equal.
  match goal with |- context [map item_event ?l] => replace l with (written ps) by exact W end.
  change (fold_left (ev_step E rev) ?l ?x) with (process_events E rev l x).
  rewrite (take_written E rev ps _ LP TP). unfold ps, entry_pairs. rewrite fold_left_app. reflexivity.
Qed.
Lemma member_take E v r : v <> [] -> take E r (B "member", v) = r_set_group (cg_append_data (member_data v) (r_group r)) r.
Proof. destruct v; [congruence|reflexivity]. Qed.
Lemma group_state E ds : forall r,
  fold_left (take E) (map (fun d => (B "member", cn_mail (cd_name d) (cd_email d))) ds) r =
  r_set_group (mkCgroup (cg_id (r_group r)) (cg_name (r_group r)) (cg_refs (r_group r)) (cg_grefs (r_group r))
    (cg_data (r_group r) ++ map (fun d => member_data (cn_mail (cd_name d) (cd_email d))) ds)) r.
Proof.
  induction ds as [|d ds IH]; intros r.
  - cbn [map fold_left]. rewrite app_nil_r. destruct r as [a h w x y z g k cs gs]. destruct g. reflexivity.
  - cbn [map fold_left]. rewrite member_take by discriminate. rewrite IH. unfold r_set_group, cg_append_data. cbn [r_group r_a r_home r_work r_bday r_bmon r_byear r_k r_contacts r_groups cg_id cg_name cg_refs cg_grefs cg_data].
    rewrite <- app_assoc. reflexivity.
Qed.
Lemma member_back d : ~ In cCOMMA (cd_name d) -> ~ In cCOMMA (cd_email d) ->
  let x := member_data (cn_mail (cd_name d) (cd_email d)) in
  (cd_name x, cd_email x) = carried_member d /\ cd_customs x = [].
Proof.
  intros N M. unfold member_data, cn_mail.
  assert (S : split cCOMMA (B "cn=" ++ cd_name d ++ B ",mail=" ++ cd_email d) = [B "cn=" ++ cd_name d; B "mail=" ++ cd_email d]).
  { change (B ",mail=" ++ cd_email d) with (cCOMMA :: (B "mail=" ++ cd_email d)). rewrite app_assoc.
    rewrite split_app, split_notin; [reflexivity| |].
    - rewrite in_app_iff. intros [H|H]; [vm_compute in H; intuition discriminate|contradiction].
    - rewrite in_app_iff. intros [H|H]; [vm_compute in H; intuition discriminate|contradiction]. }
  rewrite S. unfold carried_member. cbn [fold_left].
  change (member_part ([], []) (B "cn=" ++ cd_name d)) with (utrimmed (cd_name d), [] : ustring).
  change (member_part (utrimmed (cd_name d), []) (B "mail=" ++ cd_email d)) with (utrimmed (cd_name d), utrimmed (cd_email d)).
  cbv beta iota. cbn [cd_name cd_email cd_customs cd_set_name cd_set_email cdata_new]. split; [|reflexivity]. f_equal.
  destruct (isnil (utrimmed (cd_name d))), (isnil (utrimmed (cd_email d))); reflexivity.
Qed.
Definition group_of (E : LdifExt) (k : nat) (g : cgroup) : cgroup :=
  mkCgroup (le_newid E (k + 3)) [] [] [] (map (fun d => member_data (cn_mail (cd_name d) (cd_email d))) (cg_data g)).
Lemma group_step E rev k b cs gs g : cg_data g <> [] -> dt_valid rev = true ->
  end_entry E rev (fold_left (take E) (group_pairs g) (r_start E rev k b cs gs)) = r_start E rev (k + 4) b cs (gs ++ [group_of E k g]).
Proof.
  intros NE V. unfold group_pairs. rewrite group_state, start_St by exact V. unfold end_entry.
  assert (CN : forall ds x, ds <> [] -> Nat.eqb (cg_count (mkCgroup x [] [] [] (map (fun d => member_data (cn_mail (cd_name d) (cd_email d))) ds))) 0 = false)
    by (intros [|d ds] x H; [congruence|reflexivity]).
  cbn [St r_group r_set_group cg_id cg_name cg_refs cg_grefs cg_data cgroup_new app]. rewrite CN by exact NE.
  rewrite reset_start by exact V. cbn [r_set_lists r_k r_bday r_bmon r_byear r_contacts r_groups cg_id cg_name cg_refs cg_grefs].
  unfold group_of. destruct b as [[x y] z]. reflexivity.
Qed.
Lemma group_came_back E k g : group_exportable g -> group_back g (group_of E k g).
Proof.
  intros X. split; [| |reflexivity]; cbn [group_of cg_data].
  - rewrite map_map. apply map_ext_in. intros d I. unfold group_exportable in X. rewrite Forall_forall in X. destruct (X d I) as (_ & N & M).
    exact (proj1 (member_back d N M)).
  - apply Forall_forall. intros x I. apply in_map_iff in I. destruct I as (d & <- & I). unfold group_exportable in X. rewrite Forall_forall in X.
    destruct (X d I) as (_ & N & M). exact (proj2 (member_back d N M)).
Qed.

(** ** Everything *)

Definition gexports (E : LdifExt) (l : list cgroup) : list bytes :=
  flat_map (fun g => match group_to_ldif E g with Some t => [to_latin1 t] | None => [] end) l.
Definition nonempty_groups (l : list cgroup) : list cgroup := filter (fun g => negb (isnil (cg_data g))) l.
Lemma glatin1_concat E l : to_latin1 (flat_map (fun g => or_nothing (group_to_ldif E g)) l) = concat (gexports E l).
Proof.
  induction l as [|a l IH]; [reflexivity|]. cbn [flat_map]. rewrite latin1_app, IH. unfold gexports. cbn [flat_map].
  rewrite concat_app. f_equal. destruct (group_to_ldif E a); cbn; rewrite ?app_nil_r; reflexivity.
Qed.
Lemma contacts_step E rev : sane E -> dt_valid rev = true -> forall l, Forall (exportable E) l -> forall k b cs gs,
  exists ess, Forall2 block (exports E l) ess /\
  exists bs k' b', process_events E rev (flat_map ended ess) (r_start E rev k b cs gs) = r_start E rev k' b' (cs ++ bs) gs
    /\ Forall2 (fun a x => came_back E rev a x /\ nothing_else x) (filter named (exported l)) bs
    /\ map (fun x => dt_date (a_birthday x)) bs = birthdays_after b (exported l)
    /\ Forall (fun x => a_bdaytime x = false) bs.
Proof.
  intros S V. induction l as [|a l IH]; intros FA k b cs gs.
  - exists []. split; [constructor|]. exists [], k, b. rewrite app_nil_r. repeat split; constructor.
  - inversion FA as [|? ? XA XL]; subst. unfold exports, exported. cbn [flat_map filter].
    destruct (a_empty a) eqn:NE.
    + assert (NT : addressee_to_ldif E a = None) by (unfold addressee_to_ldif; rewrite NE; reflexivity). rewrite NT. cbn [app negb]. apply IH, XL.
    + assert (XA' := XA). destruct XA' as (W & R & BD). destruct (contact_block E a (sane_char E S) NE W) as (text & es & T & BK & H). rewrite T. cbn [negb app flat_map].
      destruct (IH XL (r_k (read_state E rev k b [] [] a)) (birth_after b a) (cs ++ (if named a then [back_of E rev k b a] else [])) gs) as (ess & FB & bs & k' & b' & PR & F2 & BM & BT).
      exists (es :: ess). split; [constructor; assumption|].
      destruct (contact_back E rev k b a S XA) as (CB & NO & BI & BF).
      exists ((if named a then [back_of E rev k b a] else []) ++ bs), k', b'.
      split; [|split; [|split]].
      * cbn [flat_map]. specialize (H rev (r_start E rev k b cs gs)). unfold process_events in *. rewrite fold_left_app, H.
        rewrite contact_state, end_contact by exact V. rewrite app_assoc. rewrite <- PR. f_equal. f_equal.
        rewrite <- (birth_back b a BD). unfold read_state. destruct (fold_left (pstep E) _ _). cbn [St r_bday r_bmon r_byear].
        destruct (birth_lines b a) as [[? ?] ?]. reflexivity.
      * cbn [filter]. destruct (named a); [|exact F2]. cbn [app]. constructor; [split; assumption|exact F2].
      * cbn [birthdays_after]. rewrite map_app. f_equal; [|exact BM]. destruct (named a); [|reflexivity]. cbn [map]. rewrite BI. reflexivity.
      * apply Forall_app. split; [|exact BT]. destruct (named a); constructor; [exact BF|constructor].
Qed.
Lemma groups_step E rev : sane E -> dt_valid rev = true -> forall l, Forall group_exportable l -> forall k b cs gs,
  exists ess, Forall2 block (gexports E l) ess /\
  exists hs k', process_events E rev (flat_map ended ess) (r_start E rev k b cs gs) = r_start E rev k' b cs (gs ++ hs)
    /\ Forall2 group_back (nonempty_groups l) hs.
Proof.
  intros S V. induction l as [|g l IH]; intros FA k b cs gs.
  - exists []. split; [constructor|]. exists [], k. rewrite app_nil_r. split; [reflexivity|constructor].
  - inversion FA as [|? ? XA XL]; subst. unfold gexports, nonempty_groups. cbn [flat_map filter].
    destruct (isnil (cg_data g)) eqn:NE.
    + assert (NT : group_to_ldif E g = None) by (unfold group_to_ldif; rewrite NE; reflexivity). rewrite NT. cbn [app negb]. apply IH, XL.
    + assert (NG : cg_data g <> []) by (intros C; rewrite C in NE; discriminate).
      assert (TX : forallb (fun p => text_ok (snd p)) (group_pairs g) = true).
      { apply forallb_forall. intros p I. apply in_map_iff in I. destruct I as (d & <- & I). unfold group_exportable in XA. rewrite Forall_forall in XA. exact (proj1 (XA d I)). }
      destruct (group_block E g (sane_char E S) NG TX) as (text & es & T & BK & H). rewrite T. cbn [negb app flat_map].
      destruct (IH XL (k + 4) b cs (gs ++ [group_of E k g])) as (ess & FB & hs & k' & PR & F2).
      exists (es :: ess). split; [constructor; assumption|]. exists (group_of E k g :: hs), k'. split.
      * cbn [flat_map]. specialize (H rev (r_start E rev k b cs gs)). unfold process_events in *. rewrite fold_left_app, H, group_step by assumption.
        rewrite PR, <- app_assoc. reflexivity.
      * constructor; [apply group_came_back, XA|exact F2].
Qed.
Lemma Forall2_app_two {A C} (R : A -> C -> Prop) a b c d : Forall2 R a b -> Forall2 R c d -> Forall2 R (a ++ c) (b ++ d).
Proof. apply Forall2_app. Qed.
Theorem all_back E dt l gs : sane E -> Forall (exportable E) l -> Forall group_exportable gs -> dt_valid dt = true \/ dt_valid (le_now E) = true ->
  let rev := if dt_valid dt then dt else le_now E in
  exists bs hs, ldif_to_addressee E (snd (all_to_ldif E l gs [])) dt [] [] = Some (bs, hs)
    /\ Forall2 (fun a x => came_back E rev a x /\ nothing_else x) (filter named (exported l)) bs
    /\ map (fun x => dt_date (a_birthday x)) bs = birthdays_after no_birth (exported l)
    /\ Forall2 group_back (nonempty_groups gs) hs.
Proof.
  intros S F FG VV rev. assert (V : dt_valid rev = true) by (unfold rev; destruct (dt_valid dt) eqn:D; [exact D|destruct VV; congruence]).
  destruct (contacts_step E rev S V l F 0 no_birth [] []) as (ess & FB & bs & k' & b' & PR & C1 & C2 & _).
  destruct (groups_step E rev S V gs FG k' b' ([] ++ bs) []) as (ess' & FB' & hs & k'' & PR' & G1). exists bs, hs.
  split; [|split; [exact C1|split; [exact C2|exact G1]]].
  assert (TX : snd (all_to_ldif E l gs []) = flat_map (fun a => or_nothing (addressee_to_ldif E a)) l ++ flat_map (fun g => or_nothing (group_to_ldif E g)) gs).
  { unfold all_to_ldif, addressees_to_ldif, groups_to_ldif. cbn [app]. destruct gs; [cbn [isnil snd flat_map]; rewrite app_nil_r|]; reflexivity. }
  rewrite TX. set (text := flat_map _ l ++ _) in *. assert (L : to_latin1 text = concat (exports E l ++ gexports E gs)) by (unfold text; rewrite latin1_app, latin1_concat, glatin1_concat, concat_app; reflexivity).
  pose proof (blocks_evs _ _ (Forall2_app FB FB')) as EV.
  assert (P : process_events E rev (evs (to_latin1 text)) (r_start E rev 0 no_birth [] []) = r_start E rev k'' b' bs hs).
  { rewrite L, EV, flat_map_app. unfold process_events in *. rewrite fold_left_app, PR. exact PR'. }
  clearbody text. destruct text as [|c t].
  - change (evs (to_latin1 [])) with (@nil (pval * list N * list N)) in P.
    pose proof (f_equal r_contacts P) as Q1. pose proof (f_equal r_groups P) as Q2. cbn in Q1, Q2. rewrite <- Q1, <- Q2. reflexivity.
  - rewrite ldif_to_addressee_evs by discriminate. fold rev. cbv zeta. rewrite P. reflexivity.
Qed.
