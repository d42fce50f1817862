(** Lemmas for C81: whole entries and whole texts. *)
From Verif Require Import Base BaseFacts Utf8 Utf8Facts QtText M_ParamMap M_Values M_Date M_Addressee M_ContactGroup M_Ldif S_Ldif S_LdifContact P_Types P_Lists P_Date P_Ldif P_LdifEntry P_LdifConv P_LdifText P_LdifRead S_DateText P_Addressee P_AddrEq P_Card S_LdifMeaning P_LdifMeaning P_LdifMeaning2.
From Verif Require P_LdifBack.
Local Open Scope list_scope.
Local Open Scope nat_scope.

Definition evaluated (E : LdifExt) (ps : attrs) (r : rstate) : rstate := fold_left (fun r p => evaluate_pair E (fst p) (snd p) r) ps r.
Lemma start_SU E rev k b cs gs : dt_valid rev = true ->
  r_start E rev k b cs gs = SU (le_newid E k) [] [] [] [] [] [] rev [] [] [] [] [] [] [] None
    (address_new (le_newid E (k + 1)) aHome) (address_new (le_newid E (k + 2)) aWork) (fst (fst b)) (snd (fst b)) (snd b)
    (cgroup_new (le_newid E (k + 3))) (k + 4) cs gs.
Proof. intros V. rewrite start_St by exact V. reflexivity. Qed.

Lemma entry_end E rev ps k b cs gs :
  (forall i j, le_newid E i = le_newid E j -> i = j) -> url_valid (env_url (le_env E)) [] = false -> dt_valid rev = true ->
  exists k' a g, end_entry E rev (evaluated E ps (r_start E rev k b cs gs)) =
      r_start E rev k' (birth_said b ps) (cs ++ (if negb (has_member ps) && uses_name ps then [a] else [])) (gs ++ (if has_member ps then [g] else []))
    /\ says_contact E rev ps a /\ nothing_else a /\ dt_date (a_birthday a) = birthday_said b ps /\ a_bdaytime a = false
    /\ says_group ps g.
Proof.
  intros I NU V. rewrite start_SU by exact V. unfold evaluated. rewrite fold_SU.
  set (ph := fold_left (pk_step E) ps ([], k + 4)).
  assert (PH : map (fun q => (ph_type q, ph_number q)) (fst ph) = phones_said ps) by (apply (over_phones E ps I); constructor).
  rewrite !over_last, over_note, !over_int, over_bat, (over_url E ps NU) by exact Logic.I. 
  destruct (home_parts E ps (le_newid E (k + 1))) as (HI & HT & HE & HP). destruct (work_parts E ps (le_newid E (k + 2))) as (WI & WT & WE & WP).
  destruct (over_group ps (cgroup_new (le_newid E (k + 3)))) as (GN & GD & GR & GG). cbv zeta in *.
  set (home := over (u_home E) ps _) in *. set (work := over (u_work E) ps _) in *. set (g := over u_group ps _) in *.
  pose proof (over_text ["title"]%string ps []) as TI. pose proof (over_text ["ou"]%string ps []) as RO.
  pose proof (over_text ["o"; "organization"; "organizationname"]%string ps []) as OG.
  pose proof (over_text ["nickname"; "xmozillanickname"; "mozillanickname"]%string ps []) as NI.
  pose proof (over_mail ps []) as EM. cbn [map app] in EM.
  pose proof (fun os F => over_rev E ps os F rev rev (dt_eq_refl _ _)) as RV.
  set (ti := over (u_text ["title"]%string) ps []) in *. set (ro := over (u_text ["ou"]%string) ps []) in *. set (og := over (u_text ["o"; "organization"; "organizationname"]%string) ps []) in *.
  set (ni := over (u_text ["nickname"; "xmozillanickname"; "mozillanickname"]%string) ps []) in *.
  set (em := over u_mail ps []) in *. set (rv := over (u_rev E) ps rev) in *.
  set (us := match filter _ _ with [] => [] | u :: _ => [mkRurl [] u] end).
  set (bat := last _ None). fold (bat_birthday ps) in bat.
  set (uid := last _ (le_newid E k)).
  set (r := SU _ _ _ _ _ _ _ _ _ _ _ _ _ _ _ _ _ _ _ _ _ _ _ _ _).
  set (a1 := match birth_date (birth_said b ps) with Some d => set_birthday_date (Some d) (r_a r) | None => r_a r end).
  set (a2 := if ad_empty home then a1 else insert_address home a1).
  set (a3 := if ad_empty work then a2 else insert_address work a2).
  assert (B1 : a1 = r_a (SU uid (last (all_of ["cn"]%string ps) []) (last (all_of ["sn"]%string ps) []) (last (all_of ["givenname"]%string ps) [])
     (last (all_of ["vocation"]%string ps) []) (last (all_of ["department"]%string ps) []) (note_of ps) rv (fst ph) em us ti ro og ni
     (birthday_said b ps) home work 0 0 0 g 0 cs gs)).
  { unfold a1, birthday_said. destruct (birth_date (birth_said b ps)) as [d|]; [|reflexivity].
    pose proof (bat_case) as _. unfold set_birthday_date. destruct (date_eqb (Some d) (dt_date (a_birthday (r_a r))) && negb (a_bdaytime (r_a r))) eqn:Q; [|reflexivity].
    apply andb_prop in Q as [Q _]. unfold r in Q. cbn [r_a SU a_birthday] in Q. fold bat in Q. destruct bat as [x|] eqn:BX; [|discriminate].
    cbn [dt_date date_eqb] in Q. unfold r. fold bat. try rewrite BX.
    destruct d as [dy dm dd], x as [xy xm xd]. cbn [d_year d_month d_day] in Q. apply andb_prop in Q as [Q Q3]. apply andb_prop in Q as [Q1 Q2]. apply Z.eqb_eq in Q1, Q2, Q3. subst. reflexivity. }
  assert (A3 : exists al, a3 = put_addresses al a1 /\ map (fun x => (ad_type x, parts_of x)) al = addresses_said E ps).
  { unfold a3, a2, addresses_said, insert_address. rewrite <- HE, <- WE.
    destruct (ad_empty home) eqn:E1; destruct (ad_empty work) eqn:E2; rewrite ?E1, ?E2.
    - exists []. split; [rewrite B1; reflexivity|reflexivity].
    - exists [work]. split; [rewrite B1; reflexivity|]. cbn [map app]. rewrite WT, WP. reflexivity.
    - exists [home]. split; [rewrite B1; reflexivity|]. cbn [map app]. rewrite HT, HP. reflexivity.
    - exists [home; work]. split; [|cbn [map app]; rewrite HT, HP, WT, WP; reflexivity]. rewrite B1.
      assert (N : leqb (ad_id home) (ad_id work) = false) by (apply leqb_neq; rewrite HI, WI; intros H; apply I in H; lia).
      assert (RF : replace_or (fun q => leqb (ad_id q) (ad_id work)) work true [home] = [home; work]) by (rewrite replace_fresh by (constructor; [exact N|constructor]); reflexivity).
      match goal with |- _ = ?z => transitivity (put_addresses (replace_or (fun q => leqb (ad_id q) (ad_id work)) work true [home]) z) end; [reflexivity|].
      rewrite RF. reflexivity. }
  exists (snd ph), a3, g. split; [|split; [|split; [|split; [|split]]]].
  - unfold end_entry. change (r_group r) with g. unfold cg_count. rewrite GR, GD. cbn [cg_refs cg_data cgroup_new length app Nat.add].
    rewrite map_length. unfold has_member. destruct (all_of ["member"]%string ps) as [|m ms] eqn:M.
    + cbn [length Nat.eqb isnil negb]. rewrite app_nil_r.
      change (mk_date (r_byear r) (r_bmon r) (r_bday r)) with (birth_date (birth_said b ps)). fold a1.
      change (r_home r) with home. change (r_work r) with work. fold a2. fold a3.
      assert (U : negb (isnil (a_formatted a1)) || negb (isnil (a_name a1)) || negb (isnil (a_family a1)) = uses_name ps).
      { rewrite B1. cbn [r_a SU a_formatted a_name a_family isnil negb]. rewrite orb_false_r. reflexivity. }
      rewrite U. destruct (uses_name ps); cbn [andb negb].
      * reflexivity.
      * rewrite app_nil_r. reflexivity.
    + cbn [length Nat.eqb isnil negb andb]. rewrite app_nil_r. reflexivity.
  - destruct A3 as (al & -> & AD). rewrite B1. constructor; try reflexivity; try assumption.
    + unfold uid. destruct (all_of ["uid"]%string ps) as [|u l]; [exists k; reflexivity|]. cbn [r_a SU put_addresses a_uid]. rewrite !last_cons. reflexivity.
    + unfold emails_of. cbn [r_a SU put_addresses a_emails]. rewrite EM. 
      assert (X : forall l : list ustring, filter (fun y => negb (contains y [])) l = l) by (induction l as [|? ? IH]; [reflexivity|cbn; f_equal; exact IH]).
      apply X.
  - destruct A3 as (al & -> & AD). rewrite B1. constructor; reflexivity.
  - destruct A3 as (al & -> & AD). rewrite B1. cbn [r_a SU put_addresses a_birthday]. destruct (birthday_said b ps); reflexivity.
  - destruct A3 as (al & -> & AD). rewrite B1. reflexivity.
  - constructor.
    + exact GN.
    + rewrite GD. cbn [cg_data cgroup_new app]. rewrite map_map. apply map_ext. intros v. apply member_reads.
    + split; [|rewrite GR, GG; reflexivity]. rewrite GD. cbn [cg_data cgroup_new app]. apply Forall_map. apply Forall_forall. intros v _. apply member_reads.
Qed.

Lemma process_entries E rev :
  (forall i j, le_newid E i = le_newid E j -> i = j) -> url_valid (env_url (le_env E)) [] = false -> dt_valid rev = true ->
  forall es cur k b cs gs, exists cur' k' b' bs hs,
    process_events E rev es (evaluated E (attributes cur) (r_start E rev k b cs gs)) = evaluated E (attributes cur') (r_start E rev k' b' (cs ++ bs) (gs ++ hs))
    /\ Forall2 (fun e x => says_contact E rev (attributes e) x /\ nothing_else x) (filter is_contact (entries_of cur es)) bs
    /\ map (fun x => dt_date (a_birthday x)) bs = birthdays_said b (entries_of cur es)
    /\ Forall (fun x => a_bdaytime x = false) bs
    /\ Forall2 (fun e g => says_group (attributes e) g) (filter is_group (entries_of cur es)) hs.
Proof.
  intros I NU V. induction es as [|[[v f] x] es IH]; intros cur k b cs gs.
  - exists cur, k, b, [], []. rewrite !app_nil_r. repeat split; constructor.
  - unfold process_events. cbn [fold_left]. change (fold_left (ev_step E rev) es ?x) with (process_events E rev es x).
    unfold ev_step. cbn [fst snd].
    destruct v; try (apply IH).
    + destruct (entry_end E rev (attributes cur) k b cs gs I NU V) as (k1 & a & g & EE & SC & NE & BD & BT & SG). rewrite EE. cbn [entries_of].
      destruct (IH [] k1 (birth_said b (attributes cur)) (cs ++ (if negb (has_member (attributes cur)) && uses_name (attributes cur) then [a] else []))
        (gs ++ (if has_member (attributes cur) then [g] else []))) as (cur' & k' & b' & bs & hs & P & F & M & T & G).
      cbn [filter birthdays_said].
      exists cur', k', b', ((if negb (has_member (attributes cur)) && uses_name (attributes cur) then [a] else []) ++ bs), ((if has_member (attributes cur) then [g] else []) ++ hs).
      split; [|split; [|split; [|split]]].
      * rewrite !app_assoc. exact P.
      * unfold is_contact at 1. destruct (negb (has_member (attributes cur)) && uses_name (attributes cur)); [|exact F]. constructor; [split; assumption|exact F].
      * unfold is_contact at 1. destruct (negb (has_member (attributes cur)) && uses_name (attributes cur)); [|exact M]. cbn [app map]. f_equal; [exact BD|exact M].
      * destruct (negb (has_member (attributes cur)) && uses_name (attributes cur)); [|exact T]. constructor; assumption.
      * unfold is_group at 1. destruct (has_member (attributes cur)); [|exact G]. constructor; assumption.
    + replace (evaluate_pair E (to_lower f) (from_utf8 x) (evaluated E (attributes cur) (r_start E rev k b cs gs)))
        with (evaluated E (attributes (cur ++ [(f, x)])) (r_start E rev k b cs gs)).
      * cbn [entries_of]. apply IH.
      * unfold evaluated, attributes. rewrite map_app, fold_left_app. reflexivity.
Qed.
Lemma evaluated_lists E rev ps k b cs gs : dt_valid rev = true ->
  r_contacts (evaluated E ps (r_start E rev k b cs gs)) = cs /\ r_groups (evaluated E ps (r_start E rev k b cs gs)) = gs.
Proof. intros V. rewrite start_SU by exact V. unfold evaluated. rewrite fold_SU. split; reflexivity. Qed.

Theorem text_means E dt str cs gs :
  (forall i j, le_newid E i = le_newid E j -> i = j) -> url_valid (env_url (le_env E)) [] = false -> dt_valid dt = true \/ dt_valid (le_now E) = true ->
  let rev := if dt_valid dt then dt else le_now E in
  exists es bs hs, all_reports (to_latin1 str) = Some es
    /\ ldif_to_addressee E str dt cs gs = Some (cs ++ bs, gs ++ hs)
    /\ Forall2 (fun e x => says_contact E rev (attributes e) x /\ nothing_else x) (filter is_contact (entries_of [] es)) bs
    /\ map (fun x => dt_date (a_birthday x)) bs = birthdays_said no_birth (entries_of [] es)
    /\ Forall (fun x => a_bdaytime x = false) bs
    /\ Forall2 (fun e g => says_group (attributes e) g) (filter is_group (entries_of [] es)) hs.
Proof.
  intros I NU D rev. assert (V : dt_valid rev = true) by (unfold rev; destruct (dt_valid dt) eqn:X; [exact X|]; destruct D as [D|D]; [congruence|exact D]).
  exists (evs (to_latin1 str)).
  destruct str as [|c s].
  - exists [], []. rewrite all_reports_evs. split; [reflexivity|]. rewrite !app_nil_r. split; [reflexivity|].
    rewrite (P_LdifBack.evs_nil : evs (to_latin1 []) = []). cbn. repeat split; constructor.
  - destruct (process_entries E rev I NU V (evs (to_latin1 (c :: s))) [] 0 no_birth cs gs) as (cur & k & b & bs & hs & P & F & M & T & G).
    exists bs, hs. rewrite all_reports_evs, ldif_to_addressee_evs by discriminate. split; [reflexivity|]. cbv zeta. fold rev.
    change (evaluated E (attributes []) (r_start E rev 0 no_birth cs gs)) with (r_start E rev 0 no_birth cs gs) in P. rewrite P.
    destruct (evaluated_lists E rev (attributes cur) k b (cs ++ bs) (gs ++ hs) V) as (-> & ->).
    split; [reflexivity|]. repeat (split; [assumption|]). exact G.
Qed.

(** ** Texts of entries *)
Lemma run_entries3 sc len es : forall s, forallb entry_ok es = true -> mode (snd (commit [] s)) = ENone ->
  fst (run (flat_map (entry_text sc len) es ++ [cLF; cLF; cLF]) (pending [] s)) = emit (commit [] s) ++ flat_map entry_events es.
Proof.
  induction es as [|e es IH]; intros s H M.
  - cbn [flat_map app]. rewrite run_lf3, app_nil_r. reflexivity.
  - cbn [forallb] in H. apply andb_true_iff in H. destruct H as [He Hes]. cbn [flat_map].
    destruct (run_entry_text sc len e [] s He M) as (s' & R & M').
    rewrite <- app_assoc, run_app, R. cbn [fst snd].
    destruct (commit_end s' M') as (s2 & C & A1 & A2 & M2).
    rewrite IH by (try assumption; rewrite C; assumption). rewrite C. unfold emit at 2. cbn [fst snd is_none]. rewrite A1, A2.
    unfold entry_events at 2. rewrite <- !app_assoc. cbn [app]. rewrite <- app_assoc. reflexivity.
Qed.
Lemma evs_entries sc len es : forallb entry_ok es = true -> evs (flat_map (entry_text sc len) es) = flat_map entry_events es.
Proof.
  intros H. destruct es as [|e es]; [reflexivity|]. unfold evs.
  set (text := flat_map (entry_text sc len) (e :: es) ++ [cLF; cLF; cLF]).
  assert (exists c r, text = c :: r /\ starter c = true) as (c & r & E & S).
  { assert (LD : line_ok (assemble_line sc (B "dn") (fst e) len false) (B "dn") (fst e)).
    { apply assemble_line_ok; [reflexivity|]. cbn [forallb] in H. unfold entry_ok in H. rewrite !andb_true_iff in H. tauto. }
    destruct (line_ok_start _ _ _ LD) as (c & r & E & S). unfold text. cbn [flat_map]. unfold entry_text at 1, line_of at 1.
    cbn [fst snd]. rewrite E. cbn [app]. eauto. }
  rewrite E at 1. rewrite run_start by assumption. rewrite <- E. unfold text.
  rewrite run_entries3 by (try assumption; rewrite commit_start; reflexivity). rewrite commit_start. reflexivity.
Qed.
Lemma entries_items ps : forall cur r, entries_of cur (map (fun p : ustring * bytes => (PItem, fst p, snd p)) ps ++ (PEndEntry, [], []) :: r) = (cur ++ ps) :: entries_of [] r.
Proof.
  induction ps as [|p ps IH]; intros cur r; [cbn; rewrite app_nil_r; reflexivity|]. cbn [map app entries_of]. rewrite IH, <- app_assoc. destruct p; reflexivity.
Qed.
Lemma entries_events es : entries_of [] (flat_map entry_events es) = map snd es.
Proof.
  induction es as [|e es IH]; [reflexivity|]. cbn [flat_map map]. unfold entry_events at 1. cbn [app entries_of].
  rewrite <- app_assoc. cbn [app]. rewrite entries_items, IH. reflexivity.
Qed.
