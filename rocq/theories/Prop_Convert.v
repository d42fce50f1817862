(** C54-C57: drag and drop, date helpers, messaging names in vCards, messaging services. *)
From Verif Require Import Base BaseFacts QtText Utf8 M_ParamMap M_VCard M_VCardText S_Escape S_Card S_Parse S_RoundTrip S_Split P_Split
  P_RoundTrip3 M_Split M_Values M_Date S_Date M_Addressee M_VCardTool S_Contact P_Lines P_Contact P_Contact2 P_ContactCase Prop_Contact Prop_Contact2
  M_Ldif M_Convert S_Convert P_LdifBack P_Convert P_Convert2.

(** ** C54: drag and drop *)

(** What one program puts on the clipboard or drags, another one (or the same) gets:
    whatever the mime data held before, whatever the MIME database [kind] says. *)
Theorem C54_drag_drop :
  forall (T : Tool) (E : Ext) (kind : ustring -> bool) (l old : list addressee) (m : mimedata),
    l <> [] -> Forall (fits T V30) l -> Forall (safe30 T) l -> fresh_ids T ->
    exists m', populate T E l m = (true, m') /\ can_decode kind (Some m') = true /\
      exists n res, Forall2 same30 l res /\ forall fuel, n <= fuel -> from_mime T E kind fuel (Some m') old = Done (true, res).
Proof.
  intros T E kind l old m Hl Hf Hs HT. eexists. split; [apply populate_one; exact Hl|]. split; [unfold can_decode; rewrite mime_set; reflexivity|].
  destruct (C44_whole_contact T E false l Hf Hs HT) as (res & [n Hn] & H2). exists n, res. split; [exact H2|].
  intros fuel Hfu. rewrite from_mime_set, (Hn fuel Hfu). destruct l; [congruence|]. inversion H2; subst. reflexivity.
Qed.
Print Assumptions C54_drag_drop.
Example C54_case : [ex_contact2] <> [] /\ Forall (fits exT V30) [ex_contact2] /\ Forall (safe30 exT) [ex_contact2].
Proof. destruct C44_case as [H1 H2]. split; [discriminate|]. split; constructor; auto. Qed.

(** Data of other formats stays; an empty list puts nothing and changes nothing. *)
Theorem C54_other_formats :
  forall (T : Tool) (E : Ext) (l : list addressee) (m : mimedata) (f : ustring), f <> B "text/directory" ->
    md_data f (snd (populate T E l m)) = md_data f m /\ md_has f (snd (populate T E l m)) = md_has f m.
Proof.
  intros T E l m f H. destruct l as [|a l].
  - unfold populate. rewrite create_text_nil. auto.
  - rewrite populate_one by discriminate. cbn [snd]. apply md_set_other. exact H.
Qed.
Print Assumptions C54_other_formats.
Theorem C54_empty : forall (T : Tool) (E : Ext) (l : list addressee) (m : mimedata),
    (fst (populate T E l m) = true <-> l <> []) /\ populate T E [] m = (false, m).
Proof.
  intros T E l m. split; [|unfold populate; rewrite create_text_nil; reflexivity]. split.
  - intros H ->. unfold populate in H. rewrite create_text_nil in H. discriminate.
  - intros H. rewrite populate_one by exact H. reflexivity.
Qed.
Print Assumptions C54_empty.
(** The raw text that was put is the raw text that is read. *)
Theorem C54_raw : forall (kind : ustring -> bool) (d old : bytes) (m : mimedata),
    exists m', populate_bytes d m = (true, m') /\ from_mime_bytes kind (Some m') old = (negb (isnil d), d).
Proof.
  intros kind d old m. exists (md_set vcard_mime d m). split; [reflexivity|]. unfold from_mime_bytes. rewrite mime_set.
  change vcard_mime with (116%N :: skipn 1 vcard_mime) at 1. cbv iota. change (116%N :: skipn 1 vcard_mime) with vcard_mime. rewrite md_set_data. reflexivity.
Qed.
Print Assumptions C54_raw.
(** Which of the offered formats is read: text/directory if it is offered, else the
    first one that is a kind of vCard; reading fails exactly when there is none. *)
Theorem C54_choice : forall (kind : ustring -> bool) (m : mimedata) (old : bytes), kind [] = false ->
    (md_has (B "text/directory") m = true -> can_decode kind (Some m) = true /\ snd (from_mime_bytes kind (Some m) old) = md_data (B "text/directory") m) /\
    (forall m1 f d m2, md_has (B "text/directory") m = false -> m = m1 ++ (f, d) :: m2 -> kind f = true -> (forall e, In e m1 -> kind (fst e) = false) ->
       can_decode kind (Some m) = true /\ snd (from_mime_bytes kind (Some m) old) = md_data f m) /\
    (md_has (B "text/directory") m = false -> (forall e, In e m -> kind (fst e) = false) ->
       can_decode kind (Some m) = false /\ from_mime_bytes kind (Some m) old = (false, old)).
Proof.
  intros kind m old K0. destruct (find_mime_spec kind m) as [F1 F2]. cbn zeta in F1, F2. change (B "text/directory") with vcard_mime. split; [|split].
  - intros H. specialize (F1 H). unfold can_decode, from_mime_bytes. rewrite F1. split; reflexivity.
  - intros m1 f d m2 H Em Kf Hm. assert (F : find_mime kind (Some m) = f).
    { unfold find_mime. rewrite H, Em. clear - Kf Hm. induction m1 as [|e m1 IH]; cbn [app find fst]; [rewrite Kf; reflexivity|].
      rewrite (Hm e (or_introl eq_refl)). apply IH. intros e' He. apply Hm. right. exact He. }
    unfold can_decode, from_mime_bytes. rewrite F. destruct f; [congruence|]. split; reflexivity.
  - intros H Hm. specialize (F2 H) as [(m1 & d & m2 & Q & Kf & _)|[F _]].
    + exfalso. specialize (Hm (find_mime kind (Some m), d)). cbn [fst] in Hm. rewrite Hm in Kf; [discriminate|].
      assert (J : forall x, m = m1 ++ x :: m2 -> In x m) by (intros x ->; apply in_elt). apply J. exact Q.
    + unfold can_decode, from_mime_bytes. rewrite F. split; reflexivity.
Qed.
Print Assumptions C54_choice.
Example C54_choice_case :
  let kind := fun f => leqb f (B "text/vcard") || leqb f (B "text/x-vcard") in
  let m := [(B "text/plain", B "p"); (B "text/x-vcard", B "x"); (B "text/vcard", B "v")] in
  from_mime_bytes kind (Some m) (B "o") = (true, B "x") /\ from_mime_bytes kind (Some (m ++ [(B "text/directory", B "d")])) (B "o") = (true, B "d")
  /\ from_mime_bytes kind (Some [(B "text/plain", B "p")]) (B "o") = (false, B "o").
Proof. repeat split. Qed.
(** The list is only decoded when [canDecode] says so, and the contacts are those in
    the bytes of the format chosen. *)
Theorem C54_list : forall (T : Tool) (E : Ext) (kind : ustring -> bool) (fuel : nat) (md : option mimedata) (old : list addressee),
    (can_decode kind md = false -> from_mime T E kind fuel md old = Done (false, old)) /\
    (can_decode kind md = true -> forall raw l, snd (from_mime_bytes kind md []) = raw -> parse_text T E fuel raw = Done l ->
       from_mime T E kind fuel md old = Done (negb (isnil l), l)).
Proof.
  intros T E kind fuel md old. unfold can_decode, from_mime, from_mime_bytes. destruct (find_mime kind md) as [|c f] eqn:F; split; intros H; try discriminate; [reflexivity|].
  destruct md as [m|]; [|discriminate]. cbn [snd]. intros raw l <- HP. rewrite HP. reflexivity.
Qed.
Print Assumptions C54_list.
(** A drop that is refused after the format was accepted has already emptied the list. *)
Theorem C54_refused_keeps_refuted :
  forall (T : Tool) (E : Ext) (kind : ustring -> bool) (a : addressee), exists m,
    exists n, forall fuel, n <= fuel -> from_mime T E kind fuel (Some m) [a] = Done (false, []).
Proof.
  intros T E kind a. exists (md_set vcard_mime [] []). destruct (trip_exists E T V30 false [] (Forall_nil _)) as (res & [n Hn] & H2).
  inversion H2; subst. exists n. intros fuel H. rewrite from_mime_set. specialize (Hn fuel H). change (create_text T E V30 false []) with (@nil N) in Hn.
  rewrite Hn. reflexivity.
Qed.
Print Assumptions C54_refused_keeps_refuted.

(** ** C55: dates as texts *)
Theorem C55_date_time : forall (d : date) (t : time) (z : tspec), four_digits d -> time_valid t ->
    string_to_date (date_to_string (mkDt (Some d) (Some t) z)) = mkDt (Some d) (Some (mkTime (t_hour t) (t_min t) (t_sec t) 0)) TLocal.
Proof. intros d t z [D Y] Ht. exact (proj2 (proj2 (revision_text d t z D Y Ht))). Qed.
Print Assumptions C55_date_time.
Theorem C55_day : forall d : date, four_digits d -> string_to_date (day_to_string (Some d)) = mkDt (Some d) (Some (mkTime 0 0 0 0)) TLocal.
Proof. exact day_text. Qed.
Print Assumptions C55_day.
(** The written texts are different for different days and different for different
    seconds. *)
Theorem C55_texts_differ : forall d d' t t' z z', four_digits d -> four_digits d' -> time_valid t -> time_valid t' ->
    (day_to_string (Some d) = day_to_string (Some d') -> d = d') /\
    (date_to_string (mkDt (Some d) (Some t) z) = date_to_string (mkDt (Some d') (Some t') z') ->
       d = d' /\ t_hour t = t_hour t' /\ t_min t = t_min t' /\ t_sec t = t_sec t').
Proof.
  intros d d' t t' z z' H H' Ht Ht'. split; intros K.
  - apply (f_equal string_to_date) in K. rewrite !day_text in K by assumption. congruence.
  - apply (f_equal string_to_date) in K. rewrite !C55_date_time in K by assumption. injection K as -> -> -> ->. auto.
Qed.
Print Assumptions C55_texts_differ.
(** Dashes and colons do not matter; what is read is a date of the calendar with a time of
    the day, or not valid. *)
Theorem C55_separators : forall s s', compact s = compact s' -> string_to_date s = string_to_date s'.
Proof. intros s s' H. rewrite <- (string_compact s), <- (string_compact s'), H. reflexivity. Qed.
Print Assumptions C55_separators.
Theorem C55_only_dates : forall s d t, dt_date (string_to_date s) = Some d -> dt_time (string_to_date s) = Some t ->
    date_ok (d_year d) (d_month d) (d_day d) = true /\ time_valid t.
Proof.
  intros s d t. unfold string_to_date, mk_dt. cbn [dt_date dt_time].
  match goal with |- (if ?b then mk_date ?x ?y ?z else None) = _ -> _ => set (D := if b then mk_date x y z else None) end.
  match goal with |- context [if ?b then mk_time ?x ?y ?z ?w else None] => set (M := if b then mk_time x y z w else None) end.
  assert (HD : forall d, D = Some d -> date_ok (d_year d) (d_month d) (d_day d) = true).
  { intros x. subst D. unfold mk_date. destruct (8 <=? _); [|discriminate]. destruct (date_ok _ _ _) eqn:Q; [|discriminate]. intros K. injection K as <-. exact Q. }
  assert (HM : forall t, M = Some t -> time_valid t).
  { intros x. subst M. unfold mk_time. destruct (_ && _); [|discriminate]. destruct (time_ok _ _ _ _) eqn:Q; [|discriminate]. intros K. injection K as <-. exact Q. }
  intros K. rewrite K. destruct M as [m|] eqn:EM; intros L; injection L as <-; split; auto. reflexivity.
Qed.
Print Assumptions C55_only_dates.
Example C55_case :
  four_digits (mkDate 2024 2 29) /\ time_valid (mkTime 23 59 58 7)
  /\ date_to_string (mkDt (Some (mkDate 2024 2 29)) (Some (mkTime 23 59 58 7)) TUtc) = B "20240229T235958Z"
  /\ string_to_date (B "2024-02-29T23:59:58Z") = mkDt (Some (mkDate 2024 2 29)) (Some (mkTime 23 59 58 0)) TLocal
  /\ dt_valid (string_to_date (B "20230229")) = false /\ compact (B "2024-02-29") = compact (B "2024:0229").
Proof. repeat split; vm_compute; reflexivity. Qed.
(** The letter Z is written behind the wall-clock time of any zone and ignored when
    reading: a time in UTC comes back as the same time of the local zone. *)
Theorem C55_zone_refuted : exists x, dt_valid x = true /\ dt_spec x = TUtc /\
    last (date_to_string x) 0%N = 90%N /\ dt_spec (string_to_date (date_to_string x)) = TLocal /\
    date_to_string x = date_to_string (mkDt (dt_date x) (dt_time x) (TOffset 3600)).
Proof. exists (mkDt (Some (mkDate 2024 2 29)) (Some (mkTime 12 0 0 0)) TUtc). repeat split. Qed.
Print Assumptions C55_zone_refuted.
(** Outside the years 1 to 9999 another date comes back. *)
Theorem C55_years_refuted :
  (exists d, date_ok (d_year d) (d_month d) (d_day d) = true /\ (d_year d < 0)%Z /\ dt_date (string_to_date (day_to_string (Some d))) = Some (mkDate 44 3 15)) /\
  (exists d, date_ok (d_year d) (d_month d) (d_day d) = true /\ (10000 <= d_year d)%Z /\ dt_date (string_to_date (day_to_string (Some d))) = Some (mkDate 1234 10 10)).
Proof. split; [exists (mkDate (-44) 3 15)|exists (mkDate 12341 1 2)]; repeat split; vm_compute; congruence. Qed.
Print Assumptions C55_years_refuted.

(** ** C56: [adaptIMAttributes] *)
Theorem C56_adapt : forall s t : bytes, t = adapt_im s <-> adapted im_names s t.
Proof. intros s t. symmetry. apply adapted_iff. Qed.
Print Assumptions C56_adapt.
Theorem C56_gone : forall (s p r : bytes), In (p, r) im_names -> ~ inside p (adapt_im s).
Proof. intros s p r H. exact (adapted_gone s _ p r (adapted_adapt s) H). Qed.
Print Assumptions C56_gone.
Theorem C56_untouched : forall s : bytes, (forall p r, In (p, r) im_names -> ~ inside p s) -> adapt_im s = s.
Proof. intros s H. symmetry. apply adapted_iff, adapted_same. exact H. Qed.
Print Assumptions C56_untouched.
Theorem C56_again : forall s : bytes, adapt_im (adapt_im s) = adapt_im s.
Proof. intros s. apply C56_untouched. intros p r H. exact (C56_gone s p r H). Qed.
Print Assumptions C56_again.
(** line by line *)
Theorem C56_lines : forall s t : bytes, adapt_im (s ++ cLF :: t) = adapt_im s ++ cLF :: adapt_im t.
Proof.
  intros s t. symmetry. apply adapted_iff. apply adapted_app; try apply adapted_adapt.
  - assert (H : forallb (fun e => negb (mem cLF (fst e))) im_names = true) by (vm_compute; reflexivity). rewrite forallb_forall in H.
    intros q r Hin. apply H in Hin. cbn [fst] in Hin. apply mem_false. apply negb_true_iff. exact Hin.
  - intros q r Hin. exact (proj1 (im_forms q r Hin)).
Qed.
Print Assumptions C56_lines.
(** The short form of a name is read into a contact like the name itself, with any letter
    case. *)
Theorem C56_same_reading : forall (T : Tool) (l : vline) (a : addressee) (p r id : bytes), In (p, r) im_names -> to_lower id = to_lower r ->
    read_custom T (mkVline id (vl_group l) (vl_params l) (vl_value l) (vl_b64 l)) a = read_custom T (mkVline p (vl_group l) (vl_params l) (vl_value l) (vl_b64 l)) a.
Proof.
  intros T l a p r id Hin Hid.
  assert (H : forallb (fun e => leqb (spelled import_names (to_lower (snd e)) []) (fst e) && leqb (spelled import_names (to_lower (fst e)) (fst e)) (fst e)) im_names = true) by (vm_compute; reflexivity).
  rewrite forallb_forall in H. specialize (H _ Hin). cbn [fst snd] in H. rewrite andb_true_iff, !leqb_eq in H. destruct H as [H1 H2].
  assert (HP : p <> []) by (intros ->; apply im_forms in Hin as [Q _]; discriminate).
  assert (K : forall tab lower g, p <> [] -> spelled tab lower [] = p -> spelled tab lower g = p).
  { clear. intros tab lower g Hp. induction tab as [|[x y] tab IH]; cbn [spelled]; [congruence|]. destruct (leqb lower x); auto. }
  unfold read_custom. cbn [vl_id vl_params]. rewrite Hid, (K import_names (to_lower r) id HP H1), H2. reflexivity.
Qed.
Print Assumptions C56_same_reading.
Example C56_case :
  adapt_im (B "X-messaging/aim-All:a" ++ [cLF] ++ B "NOTE:XX-messaging/xmpp-AllX-messaging/icq-al") = B "X-AIM:a" ++ [cLF] ++ B "NOTE:XX-JABBERX-messaging/icq-al"
  /\ to_lower (B "x-Gtalk") = to_lower (B "X-GTALK") /\ In (B "X-messaging/googletalk-All", B "X-GTALK") im_names.
Proof. split; [vm_compute; reflexivity|]. split; [reflexivity|]. repeat (left; reflexivity) || (repeat (try (left; reflexivity); right)). Qed.
(** It is the whole text that is changed, not only the names of lines: a note that
    mentions a name does not survive. *)
Theorem C56_values_refuted : forall t : bytes, ~ In 88%N t ->
    adapt_im (B "NOTE:" ++ B "X-messaging/sms-All" ++ t) = B "NOTE:X-SMS" ++ t.
Proof.
  intros t H. symmetry. apply adapted_iff.
  assert (P : forall x c, N.eqb c 88 = false -> forall p r u, In (p, r) im_names -> c :: x <> p ++ u).
  { intros x c Hc p r u Hin K. destruct (headed_spec p (proj1 (im_forms p r Hin))) as (p0 & -> & _). injection K as -> _. discriminate. }
  change (B "NOTE:X-SMS" ++ t) with (78 :: 79 :: 84 :: 69 :: 58 :: B "X-SMS" ++ t)%N.
  change (B "NOTE:" ++ B "X-messaging/sms-All" ++ t) with (78 :: 79 :: 84 :: 69 :: 58 :: B "X-messaging/sms-All" ++ t)%N.
  do 5 (apply ad_char; [apply P; reflexivity|]). apply ad_name.
  - do 8 right. left. reflexivity.
  - apply adapted_same. intros q r Hin (u & v & ->). apply H. destruct (headed_spec q (proj1 (im_forms q r Hin))) as (q0 & -> & _).
    apply in_or_app. right. left. reflexivity.
Qed.
Print Assumptions C56_values_refuted.

(** ** C57: messaging services *)
Theorem C57_types : forall X : ImExt, sorted (service_types X) /\
    forall t, In t (service_types X) <-> exists files f, In files (ix_dirs X) /\ In f files /\ service_file f t.
Proof.
  intros X. split; [apply increasing_sorted, unique_increasing, sort_ascending|]. intros t. apply types_in.
Qed.
Print Assumptions C57_types.
Definition ex_services : ImExt := {|
  ix_dirs := [[B "xmpp.desktop"; B "readme.txt"; B "my.own.desktop"]; [B "aim.desktop"; B "xmpp.desktop"; B ".desktop"; B "desktop"]];
  ix_located := fun t => if leqb t (B "xmpp") then Some (B "/home/u/xmpp.desktop") else None;
  ix_name := fun p => if leqb p (B "/home/u/xmpp.desktop") then B "Jabber" else [];
  ix_upper := fun c => if (97 <=? c)%N && (c <=? 122)%N then (c - 32)%N else c |}.
Example C57_case : service_types ex_services = [[]; B "aim"; B "my"; B "xmpp"] /\ service_label ex_services (B "xmpp") = B "Jabber"
  /\ service_label ex_services (B "foo") = B "Foo".
Proof. repeat split. Qed.
(** Every non-empty service has a label; it is the name in the file of the user or the system
    if there is one, else the name in the file of the library, else the service
    itself with a capital. *)
Theorem C57_label : forall (X : ImExt) (c : N) (r : ustring),
    let t := c :: r in
    service_label X t <> [] /\
    (forall f, ix_located X t = Some f -> f <> [] -> ix_name X f <> [] -> service_label X t = ix_name X f) /\
    (forall n, ix_located X t = None \/ ix_located X t = Some [] -> n = ix_name X (B ":/org.kde.kcontacts/improtocols/" ++ t ++ B ".desktop") -> n <> [] -> service_label X t = n) /\
    ((forall f, ix_name X f = []) -> service_label X t = ix_upper X c :: r).
Proof.
  intros X c r t. subst t. unfold service_label, protocol_file. split; [|split; [|split]].
  - destruct (ix_name X _) eqn:Q; cbn [isnil]; discriminate.
  - intros f Hf Hn Hl. rewrite Hf. destruct f; [congruence|]. cbn [isnil]. destruct (ix_name X _) eqn:Q; [congruence|reflexivity].
  - intros n Hf -> Hl. destruct Hf as [Hf|Hf]; rewrite Hf; cbn [isnil]; (destruct (ix_name X _) eqn:Q; [congruence|reflexivity]).
  - intros H. rewrite H. reflexivity.
Qed.
Print Assumptions C57_label.
(** A desktop file with two dots offers a service whose own file is not that file. *)
Theorem C57_two_dots_refuted : exists X t, In t (service_types X) /\
    forall files, In files (ix_dirs X) -> ~ In (t ++ B ".desktop") files.
Proof.
  exists ex_services, (B "my"). split; [cbv; tauto|]. intros files H. cbn in H. destruct H as [<-|[<-|[]]]; cbv; intuition discriminate.
Qed.
Print Assumptions C57_two_dots_refuted.
