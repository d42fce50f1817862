(** What the written LDIF says: lemmas for C82. *)
From Verif Require Import Base BaseFacts Utf8 Utf8Facts QtText M_ParamMap M_Values M_Date M_Addressee M_ContactGroup M_Ldif S_Ldif P_Ldif P_LdifEntry P_LdifConv P_LdifText S_DateText S_LdifMeaning S_LdifWritten P_Date P_Written4 Prop_Ldif P_LdifRead P_LdifBack P_LdifMeaning2.
Local Open Scope list_scope.
Local Open Scope nat_scope.

(** ** Lines of a text *)

Lemma unfolded_line t u r : folded t u -> match r with c :: _ => N.eqb c cSP = false | [] => True end ->
  unfolded (t ++ cLF :: r) = u ++ cLF :: unfolded r.
Proof.
  intros H R. induction H as [|c t u E F IH|t u F IH].
  - cbn [app]. destruct r as [|d r]; [reflexivity|]. change (unfolded (cLF :: d :: r)) with (if N.eqb cLF cLF && N.eqb d cSP then unfolded r else cLF :: unfolded (d :: r)).
    rewrite R, andb_false_r. reflexivity.
  - cbn [app]. rewrite <- IH. unfold is_eol in E. apply orb_false_iff in E. destruct E as [E _]. destruct (t ++ cLF :: r) as [|d q]; [reflexivity|].
    change (unfolded (c :: d :: q)) with (if N.eqb c cLF && N.eqb d cSP then unfolded q else c :: unfolded (d :: q)). rewrite E. reflexivity.
  - cbn [app]. change (unfolded (cLF :: cSP :: t ++ cLF :: r)) with (unfolded (t ++ cLF :: r)). exact IH.
Qed.
Lemma folded_noeol t u : folded t u -> noeol u.
Proof. induction 1; [constructor|constructor; assumption|assumption]. Qed.
Lemma noeol_nolf u : noeol u -> ~ In cLF u.
Proof. intros H I. unfold noeol in H. rewrite Forall_forall in H. specialize (H _ I). discriminate. Qed.
Definition no_sp (r : bytes) : Prop := match r with c :: _ => N.eqb c cSP = false | [] => True end.
Lemma logical_line t u r : folded t u -> no_sp r -> split cLF (unfolded (t ++ cLF :: r)) = u :: split cLF (unfolded r).
Proof. intros H R. rewrite (unfolded_line t u r H R). apply split_app, noeol_nolf, (folded_noeol t u H). Qed.
Definition raw (p : ustring * bytes) : bytes := raw_line true (fst p) (snd p).
Lemma line_no_sp p r : pair_ok p = true -> no_sp (line_of true 72 p ++ r).
Proof.
  intros H. unfold pair_ok in H. apply andb_true_iff in H. destruct H as [F V].
  pose proof (assemble_line_ok true (fst p) (snd p) 72 F V) as (c & t & u & X & S & _). unfold line_of. rewrite X. cbn [app no_sp].
  apply starter_spec in S. tauto.
Qed.
Lemma lines_raw ps r : forallb pair_ok ps = true -> no_sp r ->
  split cLF (unfolded (flat_map (line_of true 72) ps ++ r)) = map raw ps ++ split cLF (unfolded r) /\ no_sp (flat_map (line_of true 72) ps ++ r).
Proof.
  intros H R. induction ps as [|p ps IH]; [split; [reflexivity|exact R]|]. cbn [forallb] in H. apply andb_true_iff in H. destruct H as [P H].
  destruct (IH H) as [IH1 IH2]. cbn [flat_map map]. rewrite <- app_assoc. split; [|apply line_no_sp, P].
  cbn [app]. rewrite <- IH1. unfold line_of. rewrite <- app_assoc. cbn [app].
  apply logical_line; [|exact IH2]. unfold pair_ok in P. apply andb_true_iff in P. destruct P as [F V]. apply assemble_folded; [apply attr_ok_chars, F|exact V].
Qed.

(** ** Safe values *)

Lemma first_byte s : no_blank s = true -> match to_utf8 s with c :: _ => N.eqb c 32 = false | [] => True end.
Proof.
  destruct s as [|c s]; [intros _; exact Logic.I|]. cbn [no_blank to_utf8]. intros H. apply negb_true_iff in H.
  destruct (N.ltb_spec c 0x80); [exact H|]. destruct (N.ltb_spec c 0x800); [cbn [enc2 app]; apply N.eqb_neq; lia|].
  destruct (negb (is_surr c)); [cbn [enc3 app]; apply N.eqb_neq; lia|]. destruct (is_high c); [|reflexivity].
  destruct s as [|d s]; [reflexivity|]. destruct (is_low d); [cbn [enc4 app]; apply N.eqb_neq; lia|reflexivity].
Qed.
Lemma safe_rfc v : match v with c :: _ => N.eqb c 32 = false | [] => True end -> safe_value true false v = rfc_safe v.
Proof.
  destruct v as [|c r]; [reflexivity|]. intros H. unfold rfc_safe. cbn [safe_value forallb]. rewrite H. cbn [negb andb].
  assert (G : forallb (safe_char true false) r = forallb (fun c => N.ltb 0 c && N.ltb c 128 && negb (N.eqb c 10) && negb (N.eqb c 13)) r).
  { clear. induction r as [|d r IH]; [reflexivity|]. cbn [forallb]. rewrite IH. f_equal. unfold safe_char, char_pos, cCR, cLF. cbn [negb andb orb].
    destruct (N.ltb 0 d), (N.ltb d 128), (N.eqb d 10), (N.eqb d 13); reflexivity. }
  rewrite G. unfold safe_init, char_pos, cCR, cLF, cCOLON. cbn [negb orb].
  destruct (N.ltb 0 c), (N.ltb c 128), (N.eqb c 10), (N.eqb c 13), (N.eqb c 58), (N.eqb c 60); cbn [negb andb]; rewrite ?andb_true_r, ?andb_false_r; reflexivity.
Qed.
Lemma raw_rfc p : plain_name (fst p) = true -> no_blank (snd p) = true -> raw (fst p, to_utf8 (snd p)) = rfc_line p.
Proof.
  intros F NB. destruct p as [f v]. cbn [fst snd] in *. unfold plain_name in F. apply andb_true_iff in F. destruct F as [F D].
  apply negb_true_iff in D. unfold raw, raw_line, rfc_line. cbn [fst snd]. rewrite D, (attr_ascii f (attr_ok_chars f F)), (safe_rfc _ (first_byte v NB)). reflexivity.
Qed.

(** ** The name of the entry *)

Lemma ascii_to_utf8 s : ascii_text s = true -> to_utf8 s = s.
Proof. induction s as [|c s IH]; [reflexivity|]. cbn [ascii_text forallb to_utf8]. intros H. apply andb_true_iff in H. destruct H as [H1 H2]. change 0x80%N with 128%N. rewrite H1. cbn [enc1 app]. f_equal. apply IH, H2. Qed.
Lemma dn_safe v : ascii_text v = true -> safe_value true true v = safe_value true false v.
Proof.
  intros H. destruct v as [|c r]; [reflexivity|]. cbn [safe_value]. cbn [ascii_text forallb] in H. apply andb_true_iff in H. destruct H as [_ H]. f_equal.
  induction r as [|d r IH]; [reflexivity|]. cbn [forallb] in *. apply andb_true_iff in H. destruct H as [H1 H2]. rewrite (IH H2). f_equal.
  unfold safe_char, char_pos. cbn [negb andb orb]. rewrite H1. destruct d; reflexivity.
Qed.
Lemma dn_folded v : ascii_text v = true -> no_blank v = true -> is_bytes (to_utf8 v) = true ->
  let t := to_latin1 (from_utf8 (assemble_line true (B "dn") (to_utf8 v) 72 false)) in folded t (rfc_line (B "dn", v)).
Proof.
  intros A NB V t. assert (F : folded (assemble_line true (B "dn") (to_utf8 v) 72 false) (rfc_line (B "dn", v))).
  { pose proof (assemble_folded true (B "dn") (to_utf8 v) 72 eq_refl V) as F. unfold raw_line in F. change (leqb (to_lower (B "dn")) (B "dn")) with true in F.
    unfold rfc_line. cbn [fst snd]. rewrite (ascii_to_utf8 v A) in *. rewrite (dn_safe v A), safe_rfc in F; [exact F|].
    destruct v; [exact Logic.I|]. cbn [no_blank] in NB. apply negb_true_iff in NB. exact NB. }
  unfold t. assert (AS : ascii (assemble_line true (B "dn") (to_utf8 v) 72 false)).
  { eapply folded_ascii; [exact F|]. unfold rfc_line. cbn [fst snd]. rewrite (ascii_to_utf8 v A).
    destruct (rfc_safe v); (apply ascii_app; [repeat constructor|]); (apply ascii_app; [repeat constructor|]).
    - apply Forall_forall. intros c I. unfold ascii_text in A. rewrite forallb_forall in A. specialize (A c I). lia.
    - apply b64_ascii. rewrite <- (ascii_to_utf8 v A). exact V. }
  rewrite ascii_utf8 by exact AS. rewrite ascii_latin1 by exact AS. exact F.
Qed.

(** ** The attributes *)

Lemma all_of_app names p q : all_of names (p ++ q) = all_of names p ++ all_of names q.
Proof. unfold all_of. rewrite filter_app, map_app. reflexivity. Qed.
Definition filled (p : ustring * ustring) : bool := negb (isnil (snd p)).
Lemma all_of_filled names ps : all_of names (filter filled ps) = filter (fun v => negb (isnil v)) (all_of names ps).
Proof.
  unfold all_of. induction ps as [|[f v] ps IH]; [reflexivity|]. cbn [filter]. unfold filled at 1. cbn [snd].
  destruct (isnil v) eqn:V; cbn [negb filter]; destruct (called names (f, v)); cbn [map filter snd]; rewrite ?V; cbn [negb]; rewrite ?IH; reflexivity.
Qed.
Lemma all_of_none names ps : forallb (fun p => negb (called names p)) ps = true -> all_of names ps = [].
Proof.
  unfold all_of. induction ps as [|p ps IH]; [reflexivity|]. cbn [forallb filter]. intros H. apply andb_true_iff in H. destruct H as [H1 H2].
  apply negb_true_iff in H1. rewrite H1. apply IH, H2.
Qed.
Lemma first_line_nth s : M_Ldif.first_line s = nth_line 0 s.
Proof. unfold M_Ldif.first_line, nth_line. destruct (split cLF s); reflexivity. Qed.
Lemma second_line_nth s : second_line s = nth_line 1 s.
Proof. unfold second_line, nth_line. destruct (split cLF s) as [|x [|y l]]; reflexivity. Qed.
Lemma preferred_hd a : preferred_email a = hd [] (emails_of a).
Proof. unfold preferred_email, emails_of. destruct (a_emails a); reflexivity. Qed.
Lemma mails_other n l : leqb (B "mozillasecondemail") (B n) = false -> leqb (B "othermailbox") (B n) = false -> all_of [n] (emails_pairs l) = [].
Proof.
  intros H1 H2. apply all_of_none. destruct l as [|x [|y l]]; [reflexivity|reflexivity|]. cbn [emails_pairs forallb]. unfold called at 1. cbn [existsb fst]. rewrite H1. cbn [orb negb andb].
  apply forallb_forall. intros p I. apply in_map_iff in I. destruct I as (z & <- & _). unfold called. cbn [existsb fst]. rewrite H2. reflexivity.
Qed.
Definition birth_pairs (a : addressee) : list (ustring * ustring) :=
  match dt_date (a_birthday a) with
  | None => []
  | Some d => (if (0 <? d_year d)%Z then [(B "birthyear", decimal (Z.to_N (d_year d)))] else [])
              ++ [(B "birthmonth", decimal (Z.to_N (d_month d))); (B "birthday", decimal (Z.to_N (d_day d)))]
  end.
Lemma birth_other n a : leqb (B "birthyear") (B n) = false -> leqb (B "birthmonth") (B n) = false -> leqb (B "birthday") (B n) = false -> all_of [n] (birth_pairs a) = [].
Proof.
  intros H1 H2 H3. apply all_of_none. unfold birth_pairs. destruct (dt_date (a_birthday a)) as [d|]; [|reflexivity]. destruct (0 <? d_year d)%Z; cbn [app forallb];
  unfold called; cbn [existsb fst]; rewrite ?H1, H2, H3; reflexivity.
Qed.
Lemma ne_given v : filter (fun v : ustring => negb (isnil v)) [v] = given v.
Proof. destruct v; reflexivity. Qed.
Definition department_of (a : addressee) : ustring := if negb (isnil (a_department a)) then a_department a else custom vendor_id (B "X-Department") a.
Lemma department_is a : (if isnil (a_department a) then custom (B "KADDRESSBOOK") (B "X-Department") a else a_department a) = department_of a.
Proof. unfold department_of. destruct (isnil (a_department a)); reflexivity. Qed.

Ltac names := let n := fresh "n" in let I := fresh "I" in intros n I; cbn [fst snd] in I |- *;
  repeat (destruct I as [I|I]; [subst n|]); [..|destruct I].
Ltac cut_pairs := match goal with |- context [all_of ?l (contact_pairs ?E ?a)] => let H := fresh in
  eassert (H : contact_pairs E a = _ ++ emails_pairs (emails_of a) ++ _ ++ birth_pairs a) by (unfold contact_pairs; cbv zeta; reflexivity); rewrite H; clear H end.
Ltac row v := names; rewrite all_of_filled; cut_pairs;
  rewrite !all_of_app, mails_other by reflexivity; rewrite birth_other by reflexivity; rewrite !app_nil_r;
  change (filter (fun z : ustring => negb (isnil z)) [v] = given v); apply ne_given.
Lemma contact_rows E a : Forall (fun row => forall n, In n (fst row) -> all_of [n] (filter filled (contact_pairs E a)) = given (snd row)) (rows E a).
Proof.
  unfold rows. cbv zeta. rewrite department_is, <- !first_line_nth, <- !second_line_nth, <- !preferred_hd.
  repeat match goal with
  | |- Forall _ [] => apply Forall_nil
  | |- Forall _ (?x :: _) => apply Forall_cons; [try (let v := eval cbn [snd] in (snd x) in row v)|]
  end.
  - names. rewrite all_of_filled. cut_pairs. rewrite !all_of_app. rewrite birth_other by reflexivity. rewrite app_nil_r.
    destruct (emails_of a) as [|x [|y l]]; [reflexivity|reflexivity|].
    change (filter (fun v : ustring => negb (isnil v)) ([y] ++ all_of ["mozillasecondemail"%string] (map (fun x => (B "othermailbox", x)) l)) = given y).
    rewrite all_of_none; [apply ne_given|]. apply forallb_forall. intros p I. apply in_map_iff in I. destruct I as (z & <- & _). reflexivity.
  - names. rewrite all_of_filled. cut_pairs. rewrite !all_of_app, mails_other by reflexivity.
    change (filter (fun v : ustring => negb (isnil v)) (all_of ["birthday"%string] (birth_pairs a)) = given (match dt_date (a_birthday a) with Some d => decimal (Z.to_N (d_day d)) | None => [] end)).
    unfold birth_pairs. destruct (dt_date (a_birthday a)) as [d|]; [|reflexivity]. destruct (0 <? d_year d)%Z; apply ne_given.
  - names. rewrite all_of_filled. cut_pairs. rewrite !all_of_app, mails_other by reflexivity.
    change (filter (fun v : ustring => negb (isnil v)) (all_of ["birthmonth"%string] (birth_pairs a)) = given (match dt_date (a_birthday a) with Some d => decimal (Z.to_N (d_month d)) | None => [] end)).
    unfold birth_pairs. destruct (dt_date (a_birthday a)) as [d|]; [|reflexivity]. destruct (0 <? d_year d)%Z; apply ne_given.
  - names. rewrite all_of_filled. cut_pairs. rewrite !all_of_app, mails_other by reflexivity.
    change (filter (fun v : ustring => negb (isnil v)) (all_of ["birthyear"%string] (birth_pairs a)) = given (match dt_date (a_birthday a) with Some d => if (0 <? d_year d)%Z then decimal (Z.to_N (d_year d)) else [] | None => [] end)).
    unfold birth_pairs. destruct (dt_date (a_birthday a)) as [d|]; [|reflexivity]. destruct (0 <? d_year d)%Z; [apply ne_given|reflexivity].
Qed.
Lemma contact_mails E a : all_of ["othermailbox"%string] (filter filled (contact_pairs E a)) = filter (fun v => negb (isnil v)) (skipn 2 (emails_of a)).
Proof.
  rewrite all_of_filled. cut_pairs. rewrite !all_of_app. rewrite birth_other by reflexivity.
  destruct (emails_of a) as [|x [|y l]]; [reflexivity|reflexivity|].
  change (filter (fun v : ustring => negb (isnil v)) (all_of ["othermailbox"%string] (map (fun x => (B "othermailbox", x)) l) ++ []) = filter (fun v => negb (isnil v)) l).
  rewrite app_nil_r. f_equal. induction l as [|z l IH]; [reflexivity|]. cbn [map]. rewrite <- IH at 2. reflexivity.
Qed.
Lemma contact_revision E a d t : dt_date (a_revision a) = Some d -> dt_time (a_revision a) = Some t -> (0 <= d_year d < 10000)%Z ->
  date_ok (d_year d) (d_month d) (d_day d) = true -> time_ok (t_hour t) (t_min t) (t_sec t) (t_msec t) = true ->
  all_of ["modifytimestamp"%string] (filter filled (contact_pairs E a)) =
    [four (d_year d) ++ two (d_month d) ++ two (d_day d) ++ B "T" ++ two (t_hour t) ++ two (t_min t) ++ two (t_sec t) ++ B "Z"].
Proof.
  intros D T Y DO TO. rewrite all_of_filled. cut_pairs. rewrite !all_of_app, mails_other by reflexivity. rewrite birth_other by reflexivity.
  change (filter (fun z : ustring => negb (isnil z)) [if dt_valid (a_revision a) then date_to_string (a_revision a) else []] =
    [four (d_year d) ++ two (d_month d) ++ two (d_day d) ++ B "T" ++ two (t_hour t) ++ two (t_min t) ++ two (t_sec t) ++ B "Z"]).
  unfold dt_valid, date_to_string. rewrite D, T. unfold date_ok in DO. rewrite !andb_true_iff in DO. unfold time_ok in TO. rewrite !andb_true_iff in TO.
  assert (month_days (d_year d) (d_month d) <= 31)%Z by apply month_days_le.
  unfold year4. destruct (Z.ltb_spec (d_year d) 0); [lia|]. rewrite zpad4_four by exact Y. rewrite !zpad2_two by lia. reflexivity.
Qed.
Lemma contact_others E a p : In p (filter filled (contact_pairs E a)) ->
  exists n, fst p = B n /\ In n ("othermailbox" :: "modifytimestamp" :: flat_map fst (rows E a))%string.
Proof.
  intros I. apply filter_In in I. destruct I as [I _].
  assert (G : forallb (fun p => existsb (fun n => leqb (fst p) (B n)) ("othermailbox" :: "modifytimestamp" :: flat_map fst (rows E a))%string) (contact_pairs E a) = true).
  { change (flat_map fst (rows E a)) with (ltac:(let l := eval vm_compute in (flat_map fst (rows Prop_Ldif.ex_ldif (addressee_new []))) in exact l)).
    unfold contact_pairs. cbv zeta. rewrite forallb_app. apply andb_true_iff. split; [reflexivity|].
    rewrite forallb_app. apply andb_true_iff. split.
    { unfold emails_pairs. destruct (emails_of a) as [|x [|y l]]; try reflexivity. cbn [forallb fst]. apply andb_true_iff. split; [reflexivity|].
      apply forallb_forall. intros q J. apply in_map_iff in J. destruct J as (z & <- & _). reflexivity. }
    rewrite forallb_app. apply andb_true_iff. split; [reflexivity|].
    destruct (dt_date (a_birthday a)) as [d|]; [|reflexivity]. destruct (0 <? d_year d)%Z; reflexivity. }
  rewrite forallb_forall in G. specialize (G p I). apply existsb_exists in G. destruct G as (n & J & H). apply leqb_eq in H. exists n. auto.
Qed.

(** ** The values *)

Lemma digits_fine s : forallb (fun c => N.ltb c 128) s = true -> valid_utf16 s = true.
Proof.
  induction s as [|c s IH]; [reflexivity|]. cbn [forallb valid_utf16]. intros H. apply andb_true_iff in H. destruct H as [H1 H2].
  assert (is_high c = false) by (unfold is_high; lia). rewrite H. rewrite (IH H2). unfold is_low. lia.
Qed.
Lemma decimal_ascii n : forallb (fun c => N.ltb c 128) (decimal n) = true.
Proof.
  destruct (decimal_spec n) as (H & _). rewrite forallb_forall in *. intros c I. specialize (H c I). unfold is_digit in H. lia.
Qed.
Lemma decimal_nonblank n r : no_blank (decimal n ++ r) = true.
Proof.
  destruct (decimal_spec n) as (H & _). pose proof (P_LdifRead.decimal_nonnil n) as NN. destruct (decimal n) as [|c s]; [discriminate|].
  cbn [forallb] in H. apply andb_true_iff in H. destruct H as [H _]. cbn [app no_blank]. unfold is_digit in H. apply negb_true_iff, N.eqb_neq. lia.
Qed.
Lemma padded_ascii w n : forallb (fun c => N.ltb c 128) (padded w n) = true.
Proof.
  unfold padded. rewrite forallb_app, decimal_ascii, andb_true_r. apply forallb_forall. intros c I. apply repeat_spec in I. subst. reflexivity.
Qed.
Lemma padded_nonblank w n r : no_blank (padded w n ++ r) = true.
Proof.
  unfold padded. rewrite <- app_assoc. destruct (w - length (decimal n)); [apply decimal_nonblank|reflexivity].
Qed.
Lemma revision_fine x : fine (if dt_valid x then date_to_string x else []) = true.
Proof.
  destruct (dt_valid x); [|reflexivity]. unfold date_to_string. destruct (dt_date x) as [d|]; [|reflexivity]. destruct (dt_time x) as [t|]; [|reflexivity].
  unfold fine. apply andb_true_iff. split.
  - apply digits_fine. unfold zpad. rewrite !forallb_app, !padded_ascii. unfold year4. destruct (d_year d <? 0)%Z; [cbn [forallb]|]; unfold zpad; rewrite padded_ascii; reflexivity.
  - unfold year4. destruct (d_year d <? 0)%Z; [reflexivity|]. apply padded_nonblank.
Qed.
Lemma contact_fine E a : forallb fine (texts E a) = true -> forallb (fun p => fine (snd p)) (contact_pairs E a) = true.
Proof.
  intros H. assert (G : forall v, In v (texts E a) -> fine v = true) by (intros v; rewrite forallb_forall in H; apply H).
  unfold texts, rows in G. cbv zeta in G. cbn [map snd] in G. rewrite department_is, <- !first_line_nth, <- !second_line_nth, <- !preferred_hd in G.
  assert (GE : forall v, In v (emails_of a) -> fine v = true) by (intros v J; apply G; apply in_or_app; right; exact J).
  unfold contact_pairs. cbv zeta. rewrite !forallb_app. apply andb_true_iff. split; [|apply andb_true_iff; split; [|apply andb_true_iff; split]].
  - cbn [forallb snd]. rewrite !andb_true_iff. repeat split; apply G; apply in_or_app; left; cbn [In]; tauto.
  - unfold emails_pairs. destruct (emails_of a) as [|x [|y l]]; try reflexivity. cbn [forallb snd]. apply andb_true_iff. split; [apply GE; right; left; reflexivity|].
    apply forallb_forall. intros q J. apply in_map_iff in J. destruct J as (z & <- & J). apply GE. right. right. exact J.
  - cbn [forallb snd]. rewrite !andb_true_iff. repeat split; try apply revision_fine; apply G; apply in_or_app; left; cbn [In]; unfold department_of, url_text; tauto.
  - destruct (dt_date (a_birthday a)) as [d|]; [|reflexivity].
    assert (DF : forall n, fine (decimal n) = true) by (intros n; unfold fine; apply andb_true_iff; split; [apply digits_fine, decimal_ascii|rewrite <- (app_nil_r (decimal n)); apply decimal_nonblank]).
    destruct (0 <? d_year d)%Z; cbn [app forallb snd]; rewrite !DF; reflexivity.
Qed.

(** ** The text *)

Lemma fine_valid ps : forallb (fun p : ustring * ustring => fine (snd p)) ps = true -> forallb (fun p => valid_utf16 (snd p)) ps = true.
Proof. intros H. rewrite forallb_forall in *. intros p I. specialize (H p I). unfold fine in H. apply andb_true_iff in H. tauto. Qed.
Lemma written_rfc ps : forallb (fun p => plain_name (fst p)) ps = true -> forallb (fun p => fine (snd p)) ps = true ->
  map raw (written ps) = map rfc_line (filter filled ps).
Proof.
  intros P F. unfold written. rewrite map_map. apply map_ext_in. intros p I. apply filter_In in I. destruct I as [I _].
  rewrite forallb_forall in P, F. specialize (P p I). specialize (F p I). unfold fine in F. apply andb_true_iff in F. exact (raw_rfc p P (proj2 F)).
Qed.
Lemma pairs_logical E ps r : le_signed E = true -> forallb (fun p => plain_name (fst p)) ps = true -> forallb (fun p => fine (snd p)) ps = true -> no_sp r ->
  let t := to_latin1 (flat_map (fun p => ldif_out E (fst p) (snd p)) ps) ++ r in
  split cLF (unfolded t) = map rfc_line (filter filled ps) ++ split cLF (unfolded r) /\ no_sp t.
Proof.
  intros SG P F R t. unfold t. rewrite (pairs_lines E ps SG P (fine_valid ps F)).
  destruct (lines_raw (written ps) r (written_ok ps P (fine_valid ps F)) R) as [X Y]. split; [|exact Y]. rewrite X. rewrite (written_rfc ps P F). reflexivity.
Qed.
Lemma fixed_line l r : noeol l -> no_sp r -> split cLF (unfolded (l ++ cLF :: r)) = l :: split cLF (unfolded r).
Proof. intros N R. apply logical_line; [apply folded_refl, N|exact R]. Qed.
Lemma ascii_noeol (s : bytes) : forallb (fun c => negb (is_eol c)) s = true -> noeol s.
Proof. intros H. rewrite forallb_forall in H. apply Forall_forall. intros c I. specialize (H c I). apply negb_true_iff in H. exact H. Qed.

Theorem contact_tells E a : le_signed E = true -> a_empty a = false -> forallb fine (texts E a) = true ->
  exists text dn ps, addressee_to_ldif E a = Some text
    /\ logical_lines text = dn :: B "objectclass: top" :: B "objectclass: person" :: B "objectclass: organizationalPerson" :: map rfc_line ps ++ [[]; []]
    /\ (ascii_text (dn_text a) = true -> dn = rfc_line (B "dn", dn_text a))
    /\ tells_contact E a ps.
Proof.
  intros SG NE F. pose proof (contact_fine E a F) as FP. unfold addressee_to_ldif. rewrite NE.
  set (r0 := B "objectclass: top" ++ [cLF] ++ B "objectclass: person" ++ [cLF] ++ B "objectclass: organizationalPerson" ++ [cLF] ++ flat_map (fun p => ldif_out E (fst p) (snd p)) (contact_pairs E a) ++ [cLF]).
  set (r1 := to_latin1 (flat_map (fun p => ldif_out E (fst p) (snd p)) (contact_pairs E a)) ++ [cLF]).
  assert (R0 : to_latin1 r0 = B "objectclass: top" ++ cLF :: B "objectclass: person" ++ cLF :: B "objectclass: organizationalPerson" ++ cLF :: r1).
  { unfold r0, r1. rewrite !latin1_app. reflexivity. }
  destruct (pairs_logical E (contact_pairs E a) [cLF] SG (contact_names E a) FP eq_refl) as [X NS]. fold r1 in X, NS.
  assert (RR : split cLF (unfolded (to_latin1 r0)) = B "objectclass: top" :: B "objectclass: person" :: B "objectclass: organizationalPerson" :: map rfc_line (filter filled (contact_pairs E a)) ++ [[]; []]).
  { rewrite R0. rewrite fixed_line; [|apply ascii_noeol; reflexivity|reflexivity]. f_equal. rewrite fixed_line; [|apply ascii_noeol; reflexivity|reflexivity]. f_equal.
    rewrite fixed_line; [|apply ascii_noeol; reflexivity|exact NS]. f_equal. exact X. }
  assert (DV : cn_mail (simplified (a_formatted a)) (preferred_email a) = dn_text a) by (unfold cn_mail, dn_text; rewrite preferred_hd; reflexivity).
  assert (VD : valid_utf16 (dn_text a) = true).
  { assert (G : forall v, In v (texts E a) -> valid_utf16 v = true).
    { intros v I. rewrite forallb_forall in F. specialize (F v I). unfold fine in F. apply andb_true_iff in F. tauto. }
    unfold dn_text. apply valid_utf16_app; [reflexivity|]. apply valid_utf16_app; [apply G; apply in_or_app; left; do 2 right; left; reflexivity|].
    apply valid_utf16_app; [reflexivity|]. apply G. apply in_or_app. left. do 11 right. left. reflexivity. }
  assert (BD : is_bytes (to_utf8 (dn_text a)) = true) by (eapply to_utf8_is_bytes; [reflexivity|exact VD]).
  set (t := to_latin1 (from_utf8 (assemble_line true (B "dn") (to_utf8 (dn_text a)) 72 false))).
  assert (T : to_latin1 (ldif_out E (B "dn") (dn_text a) ++ r0) = t ++ cLF :: to_latin1 r0).
  { rewrite latin1_app. unfold ldif_out. rewrite SG. change (isnil (dn_text a)) with false. cbv iota. rewrite latin1_app, <- app_assoc. reflexivity. }
  assert (NS0 : no_sp (to_latin1 r0)) by (rewrite R0; reflexivity).
  assert (FD : exists dn, folded t dn /\ (ascii_text (dn_text a) = true -> dn = rfc_line (B "dn", dn_text a))).
  { destruct (ascii_text (dn_text a)) eqn:A.
    - exists (rfc_line (B "dn", dn_text a)). split; [apply dn_folded; [exact A|reflexivity|exact BD]|auto].
    - destruct (dn_line_ok _ BD) as (w & c & t' & u & X1 & X2 & X3 & _). exists (c :: u). split; [|discriminate]. fold t in X1. rewrite X1.
      constructor; [|exact X3]. apply starter_spec in X2. unfold is_eol. destruct X2 as (-> & -> & _). reflexivity. }
  destruct FD as (dn & FD & DD). exists (ldif_out E (B "dn") (dn_text a) ++ r0), dn, (filter filled (contact_pairs E a)).
  split; [rewrite DV; reflexivity|]. split.
  - unfold logical_lines. rewrite T. rewrite (logical_line t dn _ FD NS0). f_equal. exact RR.
  - split; [exact DD|]. constructor; [apply contact_rows|apply contact_mails|apply contact_revision|apply contact_others].
Qed.

Theorem group_tells E g : le_signed E = true -> cg_data g <> [] -> forallb (fun d => valid_utf16 (cd_name d) && valid_utf16 (cd_email d)) (cg_data g) = true ->
  exists text, group_to_ldif E g = Some text
    /\ logical_lines text = B "objectclass: top" :: B "objectclass: groupOfNames" :: map rfc_line (member_rows g) ++ [[]; []].
Proof.
  intros SG NN V. unfold group_to_ldif. destruct (isnil (cg_data g)) eqn:NE; [destruct (cg_data g); [congruence|discriminate]|].
  eexists. split; [reflexivity|]. unfold logical_lines.
  set (ms := member_rows g).
  assert (M : flat_map (fun d => ldif_out E (B "member") (cn_mail (cd_name d) (cd_email d))) (cg_data g) = flat_map (fun p => ldif_out E (fst p) (snd p)) ms).
  { unfold ms, member_rows. induction (cg_data g) as [|d l IH]; [reflexivity|]. cbn [flat_map map]. f_equal. clear -IH V. destruct l; [reflexivity|]. apply IH; [discriminate| |reflexivity].
    cbn [forallb] in V. apply andb_true_iff in V. tauto. }
  rewrite M.
  assert (PN : forallb (fun p => plain_name (fst p)) ms = true) by (apply forallb_forall; intros p I; apply in_map_iff in I; destruct I as (d & <- & _); reflexivity).
  assert (FN : forallb (fun p => fine (snd p)) ms = true).
  { apply forallb_forall. intros p I. apply in_map_iff in I. destruct I as (d & <- & I). rewrite forallb_forall in V. specialize (V d I). apply andb_true_iff in V.
    unfold fine. cbn [snd]. apply andb_true_iff. split; [|reflexivity]. apply valid_utf16_app; [reflexivity|]. apply valid_utf16_app; [tauto|]. apply valid_utf16_app; [reflexivity|tauto]. }
  assert (FF : filter filled ms = ms).
  { unfold ms, member_rows. clear. induction (cg_data g) as [|d l IH]; [reflexivity|]. cbn [map filter]. unfold filled at 1. cbn [snd app isnil negb]. change (isnil (B "cn=" ++ cd_name d ++ B ",mail=" ++ cd_email d)) with false. cbn [negb]. f_equal. exact IH. }
  destruct (pairs_logical E ms [cLF] SG PN FN eq_refl) as [X NS]. rewrite FF in X.
  set (r1 := to_latin1 (flat_map (fun p => ldif_out E (fst p) (snd p)) ms) ++ [cLF]) in *.
  assert (R : to_latin1 (B "objectclass: top" ++ [cLF] ++ B "objectclass: groupOfNames" ++ [cLF] ++ flat_map (fun p => ldif_out E (fst p) (snd p)) ms ++ [cLF]) =
    B "objectclass: top" ++ cLF :: B "objectclass: groupOfNames" ++ cLF :: r1) by (unfold r1; rewrite !latin1_app; reflexivity).
  rewrite R. rewrite fixed_line; [|apply ascii_noeol; reflexivity|reflexivity]. f_equal. rewrite fixed_line; [|apply ascii_noeol; reflexivity|exact NS]. f_equal. exact X.
Qed.
