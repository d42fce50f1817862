(** C77: what a card says is what the contact says. *)
From Verif Require Import Base BaseFacts QtText Utf8 M_ParamMap M_VCard M_VCardText M_Values M_Date M_Addressee M_VCardTool S_Contact S_Escape S_Parse P_Parse P_Parse2 S_Soft P_Soft P_SoftLoop
  Prop_Soft P_ContactCase S_Order P_CardOrder P_Unknown Prop_Order S_Case P_Case S_Coding P_Coding Prop_Coding S_Split S_DateText S_Meaning P_Meaning P_Meaning2 P_Meaning3.

(** The properties with one text: the last one counts. *)
Theorem C77_texts :
  forall (T : Tool) (E : Ext) (ps : list said), reads_as_contact T E ps (fun a =>
    (alike_in_case "fn" ps -> a_formatted a = last_text "fn" ps) /\
    (alike_in_case "note" ps -> a_note a = last_text "note" ps) /\
    (alike_in_case "mailer" ps -> a_mailer a = last_text "mailer" ps) /\
    (alike_in_case "name" ps -> a_name a = last_text "name" ps) /\
    (alike_in_case "prodid" ps -> a_prodid a = last_text "prodid" ps) /\
    (alike_in_case "kind" ps -> a_kind a = last_text "kind" ps) /\
    (alike_in_case "uid" ps -> of_name "uid" ps <> [] -> a_uid a = last_text "uid" ps)).
Proof. exact texts_said. Qed.
Print Assumptions C77_texts.

(** N: family name; given name; additional names; prefixes; suffixes. *)
Theorem C77_name :
  forall (T : Tool) (E : Ext) (ps : list said) (ls : list (list ustring)),
    alike_in_case "n" ps -> Forall2 (fun p l => in_parts 59 l (sd_text p)) (of_name "n" ps) ls ->
    reads_as_contact T E ps (fun a =>
      a_family a = last_at 0 ls /\ a_given a = last_at 1 ls /\ a_additional a = last_at 2 ls /\
      a_prefix a = last_at 3 ls /\ a_suffix a = last_at 4 ls).
Proof. exact name_said. Qed.
Print Assumptions C77_name.

(** ORG: organisation; department. *)
Theorem C77_organisations :
  forall (T : Tool) (E : Ext) (ps : list said) (ls : list (list ustring)),
    alike_in_case "org" ps -> Forall2 (fun p l => in_parts 59 l (sd_text p)) (of_name "org" ps) ls ->
    reads_as_contact T E ps (fun a => map pt_text (a_orgs a) = filter not_empty (map (hd []) ls) /\ a_department a = last_at 1 ls).
Proof. exact org_said. Qed.
Print Assumptions C77_organisations.

(** TEL: the number, and a flag for each known type. *)
Theorem C77_phones :
  forall (T : Tool) (E : Ext) (ps : list said), fresh_ids T -> alike_in_case "tel" ps -> reads_as_contact T E ps (fun a =>
    Forall2 (fun p x => ph_number x = simplified (sd_text p) /\ (untyped p -> ph_type x = tUndefined) /\ (~ untyped p -> flags_of phone_flags p (ph_type x)))
      (filter (fun p => visible (sd_text p)) (of_name "tel" ps)) (a_phones a)).
Proof. exact phones_said. Qed.
Print Assumptions C77_phones.

(** ADR: post office box; extended; street; locality; region; postal code; country, and a
    flag for each known type. *)
Theorem C77_addresses :
  forall (T : Tool) (E : Ext) (ps : list said), fresh_ids T -> alike_in_case "adr" ps -> of_name "label" ps = [] -> reads_as_contact T E ps (fun a =>
    Forall2 (fun p x => flags_of address_flags p (ad_type x) /\
        forall l, in_parts 59 l (sd_text p) ->
          [ad_pobox x; ad_extended x; ad_street x; ad_locality x; ad_region x; ad_postal x; ad_country x] = firstn 7 (l ++ repeat [] 7))
      (of_name "adr" ps) (a_addresses a)).
Proof. exact addresses_said. Qed.
Print Assumptions C77_addresses.

(** Lists of texts. *)
Theorem C77_lists :
  forall (T : Tool) (E : Ext) (ps : list said), reads_as_contact T E ps (fun a =>
    (alike_in_case "nickname" ps -> map pt_text (a_nicks a) = filter not_empty (map sd_text (of_name "nickname" ps))) /\
    (alike_in_case "title" ps -> map pt_text (a_titles a) = filter not_empty (map sd_text (of_name "title" ps))) /\
    (alike_in_case "role" ps -> map pt_text (a_roles a) = filter not_empty (map sd_text (of_name "role" ps))) /\
    (alike_in_case "clientpidmap" ps -> map pt_text (a_pidmaps a) = filter not_empty (map sd_text (of_name "clientpidmap" ps))) /\
    (forall t, In t (map em_mail (a_emails a)) <-> In t (map sd_text (of_name "email" ps))) /\
    (forall t, In t (map pt_text (a_related a)) <-> In t (map sd_text (of_name "related" ps))) /\
    (forall t, In t (a_members a) <-> In t (map sd_text (of_name "member" ps))) /\
    (forall t, In t (map pt_text (a_langs a)) <-> In t (filter visible (map sd_text (of_name "lang" ps))))).
Proof. exact lists_said. Qed.
Print Assumptions C77_lists.

(** Categories, class, gender and time zone (what follows the offset is the text of vCard 3.0,
    as in [-05:00; EST; Raleigh/North America]). *)
Theorem C77_values :
  forall (T : Tool) (E : Ext) (ps : list said), reads_as_contact T E ps (fun a =>
    (forall qs p l, alike_in_case "categories" ps -> of_name "categories" ps = qs ++ [p] -> in_parts 44 l (sd_text p) -> a_categories a = l) /\
    (forall qs p, alike_in_case "class" ps -> of_name "class" ps = qs ++ [p] ->
       (forall w s, In (w, s) classes -> to_lower (sd_text p) = B w -> a_secrecy a = s) /\
       ((forall w s, In (w, s) classes -> to_lower (sd_text p) <> B w) -> a_secrecy a = SInvalid)) /\
    (forall qs p c r, alike_in_case "gender" ps -> of_name "gender" ps = qs ++ [p] -> c <> 59%N ->
       (sd_text p = [c] -> a_gender a = mkGender [c] []) /\ (sd_text p = c :: 59%N :: r -> a_gender a = mkGender [c] r) /\
       (sd_text p = 59%N :: r -> a_gender a = mkGender [] r)) /\
    (forall p (east : bool) h m rest, of_name "tz" ps = [p] -> (0 <= h < 100)%Z -> (0 <= m < 100)%Z ->
       sd_text p = (if east then 43%N else 45%N) :: two h ++ [58%N] ++ two m ++ rest ->
       a_tz a = mkTz (if east then h * 60 + m else - (h * 60 + m)) true)%Z).
Proof. exact plain_said. Qed.
Print Assumptions C77_values.

(** BDAY, DEATHDATE and REV. *)
Theorem C77_dates :
  forall (T : Tool) (E : Ext) (ps : list said), reads_as_contact T E ps (fun a =>
    forall p d ds, real_date d -> date_text d ds ->
      (sd_text p = ds ->
         (of_name "bday" ps = [p] -> dt_date (a_birthday a) = Some d /\ a_bdaytime a = false) /\
         (of_name "deathdate" ps = [p] -> dt_date (a_deathdate a) = Some d) /\
         (of_name "rev" ps = [p] -> dt_date (a_revision a) = Some d)) /\
      (forall t z ts zs, real_time t -> time_text t ts -> zone_text z zs -> sd_text p = ds ++ 84%N :: ts ++ zs ->
         (of_name "bday" ps = [p] -> a_birthday a = mkDt (Some d) (Some t) z /\ a_bdaytime a = true) /\
         (of_name "deathdate" ps = [p] -> a_deathdate a = mkDt (Some d) (Some t) z) /\
         (of_name "rev" ps = [p] -> a_revision a = mkDt (Some d) (Some t) z))).
Proof. exact dates_said. Qed.
Print Assumptions C77_dates.

(** URL, SOURCE and the calendar addresses. *)
Theorem C77_urls :
  forall (T : Tool) (E : Ext) (ps : list said), reads_as_contact T E ps (fun a =>
    let U := env_url (t_env T) in
    let urls f := map (fun p => url_parse U (sd_text p)) (of_name f ps) in
    let calendars t := map cu_url (filter (fun c => caltype_eq (cu_type c) t) (a_calurls a)) in
    (alike_in_case "url" ps -> map ru_url (a_urls a) = filter (url_valid U) (urls "url"%string)) /\
    (alike_in_case "source" ps -> a_sources a = urls "source"%string) /\
    (alike_in_case "fburl" ps -> calendars CalFBUrl = filter (url_valid U) (urls "fburl"%string)) /\
    (alike_in_case "caluri" ps -> calendars CalCALUri = filter (url_valid U) (urls "caluri"%string)) /\
    (alike_in_case "caladruri" ps -> calendars CalCALADRUri = filter (url_valid U) (urls "caladruri"%string))).
Proof. exact urls_said. Qed.
Print Assumptions C77_urls.

(** Extensions: [X-app-name] is the entry [name] of the program [app], when all properties
    for that entry agree. *)
Theorem C77_extensions :
  forall (T : Tool) (E : Ext) (ps : list said), reads_as_contact T E ps (fun a =>
    forall app name p, In p ps -> extension app name p -> sd_text p <> [] ->
      (forall q, In q ps -> names_entry (sd_name q) app name -> sd_text q = sd_text p) -> custom app name a = sd_text p).
Proof. exact extensions_said. Qed.
Print Assumptions C77_extensions.

(** A card with most of these properties. *)
Definition C77_ps : list said :=
  [mkSaid (B "FN") [] (B "Jane Doe"); mkSaid (B "n") [] (B "Doe\;X;Jane;Q."); mkSaid (B "ORG") [] (B "KDE;PIM"); mkSaid (B "ORG") [] (B "Home");
   mkSaid (B "TEL") [B "TYPE=Home,pref"; B "FAX"] (B "1  23"); mkSaid (B "TEL") [] (B " "); mkSaid (B "TEL") [] (B "456");
   mkSaid (B "ADR") [B "type=work"] (B ";;Main St. 1;Town;;12345"); mkSaid (B "Title") [] (B "Dr"); mkSaid (B "EMAIL") [] (B "j@x.org");
   mkSaid (B "CATEGORIES") [] (B "a,b"); mkSaid (B "CLASS") [] (B "Private"); mkSaid (B "BDAY") [] (B "1985-04-12"); mkSaid (B "TZ") [] (B "-05:30");
   mkSaid (B "SOURCE") [] (B "http:x")].
Definition C77_block (p : said) : block := (sd_name p ++ flat_map (fun q => 59%N :: q) (sd_params p) ++ 58%N :: escaped (sd_text p), []).
Definition good_said (p : said) : bool :=
  match sd_name p with c :: _ => negb (is_space c) | [] => false end &&
  forallb (fun l => negb (mem 10 l) && negb (mem 13 l)) (block_lines (C77_block p)) &&
  negb (is_begin (fst (C77_block p))) && negb (is_end (fst (C77_block p))) &&
  negb (mem 58 (sd_name p)) && negb (mem 59 (sd_name p)) && negb (mem 46 (sd_name p)) &&
  forallb (fun q => negb (mem 58 q) && negb (mem 59 q) && negb (mem 34 q) && negb (about_coding q)) (sd_params p) &&
  negb (P_Escape.adj 92 110 (sd_text p)) && negb (P_Escape.adj 92 78 (sd_text p)) && negb (P_Escape.adj 92 114 (sd_text p)) &&
  leqb (sd_text p) (from_utf8 (sd_text p)).
Lemma ex_said p : good_said p = true -> expressed exQ (C77_block p) p.
Proof.
  assert (Hn : forall c s, negb (mem c s) = true -> ~ In c s).
  { intros c s H K. apply mem_In in K. rewrite K in H. discriminate H. }
  unfold good_said. rewrite !andb_true_iff. intros (((((((((((A1 & A2) & A3) & A4) & A5) & A6) & A7) & A8) & A9) & A10) & A11) & A12). split.
  - intros c Hc. repeat split; intros ->; revert Hc; apply Hn; assumption.
  - unfold C77_block in *. destruct (sd_name p) as [|x r] eqn:En; [discriminate A1|]. cbn [app] in *.
    apply (says_case _ _ _ _ _ _ _ Plain None (escaped (sd_text p)) (sd_text p)).
    + destruct (is_space x); [discriminate|reflexivity].
    + exact A2.
    + destruct (is_begin _); [discriminate|reflexivity].
    + destruct (is_end _); [discriminate|reflexivity].
    + unfold content. cbn. rewrite app_nil_r. reflexivity.
    + rewrite forallb_forall in A8. split; [|split; [|split; [congruence|discriminate]]]; apply Forall_forall; intros q Hq; specialize (A8 q Hq);
        rewrite !andb_true_iff in A8; destruct A8 as (((B1 & B2) & B3) & B4).
      * left. split; [|split]; apply Hn; assumption.
      * left. destruct (about_coding q); [discriminate|reflexivity].
    + apply P_Unescape.escaped_unescapes. intros K. apply P_Escape.ambiguous_adj in K as [K|[K|K]]; rewrite K in *; discriminate.
    + apply leqb_eq. exact A12.
    + discriminate.
Qed.
Lemma all_expressed ps : forallb good_said ps = true -> Forall2 (expressed exQ) (map C77_block ps) ps.
Proof.
  intros H. rewrite forallb_forall in H. induction ps as [|p ps IH]; [constructor|]. cbn [map]. constructor; [apply ex_said, H; left; reflexivity|].
  apply IH. intros q Hq. apply H. right. exact Hq.
Qed.
Definition read_of (s : list said) : outcome (list addressee) :=
  parse_text exT exQ 40 (card_in crlf [] (B "BEGIN:VCARD") (map C77_block s) (B "END:VCARD") []).
Lemma read_of_case ps (P : addressee -> Prop) : reads_as_contact exT exQ ps P -> forallb good_said ps = true ->
  (of_name "photo" ps ++ of_name "logo" ps <> []) \/
  exists a, (exists k, parse_text exT exQ (40 + k) (card_in crlf [] (B "BEGIN:VCARD") (map C77_block ps) (B "END:VCARD") []) = Done [a]) /\ P a.
Proof.
  intros H G. destruct (H crlf (B "BEGIN:VCARD") (map C77_block ps) (B "END:VCARD")) as (k & K).
  - right. reflexivity.
  - split; not_in.
  - split; not_in.
  - exists (B "BEGIN:VCARD"), []. split; reflexivity.
  - exists (B "END:VCARD"), []. split; reflexivity.
  - apply all_expressed. exact G.
  - destruct (K (40 + k)) as [(_ & X)|(a & Ha & X)]; [lia|left; exact X|right; eauto].
Qed.
Lemma C77_expressed : Forall2 (expressed exQ) (map C77_block C77_ps) C77_ps.
Proof. apply all_expressed. vm_compute. reflexivity. Qed.
Example C77_case : exists a, read_of C77_ps = Done [a] /\
  a_formatted a = B "Jane Doe" /\ a_family a = B "Doe;X" /\ a_given a = B "Jane" /\ a_additional a = B "Q." /\
  map pt_text (a_orgs a) = [B "KDE"; B "Home"] /\ a_department a = B "PIM" /\
  map (fun x => (ph_number x, ph_type x)) (a_phones a) = [(B "1 23", 41%N); (B "456", tUndefined)] /\
  map (fun x => (ad_type x, ad_street x, ad_locality x, ad_postal x)) (a_addresses a) = [(32%N, B "Main St. 1", B "Town", B "12345")] /\
  map pt_text (a_titles a) = [B "Dr"] /\ map em_mail (a_emails a) = [B "j@x.org"] /\ a_categories a = [B "a"; B "b"] /\ a_secrecy a = SPrivate /\
  dt_date (a_birthday a) = Some (mkDate 1985 4 12) /\ a_tz a = mkTz (-330) true /\ a_sources a = [url_parse (env_url (t_env exT)) (B "http:x")].
Proof. eexists. split; [vm_compute; reflexivity|]. repeat (split; [reflexivity|]). reflexivity. Qed.

(** extensions *)
Definition C77_ext : list said :=
  [mkSaid (B "X-Shop-card-no") [] (B "A 12"); mkSaid (B "x-mood") [] (B "fine"); mkSaid (B "X-Shop-since") [] (B "2001"); mkSaid (B "X-AIM") [] (B "jane")].
Example C77_extensions_case : forallb good_said C77_ext = true /\
  extension (B "Shop") (B "card-no") (mkSaid (B "X-Shop-card-no") [] (B "A 12")) /\ extension (B "mood") (B "mood") (mkSaid (B "x-mood") [] (B "fine")) /\
  exists a, read_of C77_ext = Done [a] /\ custom (B "Shop") (B "card-no") a = B "A 12" /\ custom (B "mood") (B "mood") a = B "fine" /\ custom (B "Shop") (B "since") a = B "2001".
Proof.
  split; [vm_compute; reflexivity|]. repeat split.
  - exists 88%N. split; [auto|left; reflexivity].
  - discriminate.
  - discriminate.
  - not_in.
  - intros [I|(r & I)]; [cbv in I; intuition discriminate|discriminate I].
  - exists 120%N. split; [auto|right; split; reflexivity].
  - discriminate.
  - discriminate.
  - not_in.
  - intros [I|(r & I)]; [cbv in I; intuition discriminate|discriminate I].
  - eexists. split; [vm_compute; reflexivity|]. split; [reflexivity|]. split; reflexivity.
Qed.

(** types in quotes *)
Definition C77_quoted : said := mkSaid (B "TEL") [B "TYPE=cell," ++ 34%N :: B "Voice,home" ++ [34%N]; B "X=" ++ 34%N :: B "b;c:d,FAX" ++ [34%N]; B "pref"] (B "12").
Example C77_quoted_case : expressed exQ (C77_block C77_quoted) C77_quoted /\ exists a, read_of [C77_quoted] = Done [a] /\
  map (fun x => (ph_number x, ph_type x)) (a_phones a) = [(B "12", 1 + 8 + 16 + 64)%N].
Proof.
  split.
  - split; [plain_name|]. apply (says_case _ _ _ _ _ _ _ Plain None (B "12") (B "12")); try reflexivity; [|apply P_Unescape.plain_unescapes; not_in|discriminate].
    split; [|split; [repeat (apply Forall_cons; [left; reflexivity|]); apply Forall_nil|split; [congruence|discriminate]]].
    apply Forall_cons; [right; exists (B "TYPE"), [B "cell"], (B "Voice,home")|apply Forall_cons; [right; exists (B "X"), [], (B "b;c:d,FAX")|params]].
    + split; [reflexivity|]. split; [repeat split; not_in|]. split; [not_in|]. split; [|not_in]. apply Forall_cons; [|apply Forall_nil]. split; [repeat split; not_in|not_in].
    + split; [reflexivity|]. split; [repeat split; not_in|]. split; [not_in|]. split; [apply Forall_nil|not_in].
  - eexists. split; [vm_compute; reflexivity|reflexivity].
Qed.

(** The claim for time zones in the form of version 4, without a colon, is false: the minutes
    are not read. *)
Theorem C77_zone_refuted :
  ~ (forall (T : Tool) (E : Ext) (ps : list said), reads_as_contact T E ps (fun a =>
       forall p (east : bool) h m, of_name "tz" ps = [p] -> (0 <= h < 24)%Z -> (0 <= m < 60)%Z ->
         sd_text p = (if east then 43%N else 45%N) :: two h ++ two m ->
         a_tz a = mkTz (if east then h * 60 + m else - (h * 60 + m)) true)%Z).
Proof.
  intros H. pose (ps := [mkSaid (B "TZ") [] (B "-0530")]).
  destruct (read_of_case ps _ (H exT exQ ps) eq_refl) as [X|(a & (k & Ha) & P)]; [destruct (X eq_refl)|].
  vm_compute in Ha. injection Ha as <-. specialize (P (mkSaid (B "TZ") [] (B "-0530")) false 5%Z 30%Z eq_refl). vm_compute in P.
  discriminate P; auto; split; congruence.
Qed.
Print Assumptions C77_zone_refuted.
Example C77_zone : exists a, read_of [mkSaid (B "TZ") [] (B "-0530")] = Done [a] /\ a_tz a = mkTz (-300) true.
Proof. eexists. split; [vm_compute; reflexivity|reflexivity]. Qed.

(** Likewise the parts of an organisation after the second one are lost. *)
Theorem C77_units_refuted :
  ~ (forall (T : Tool) (E : Ext) (ps : list said), reads_as_contact T E ps (fun a =>
       forall p o d u, of_name "org" ps = [p] -> in_parts 59 [o; d; u] (sd_text p) ->
         exists x y, a_department a ++ flat_map pt_text (a_orgs a) = x ++ u ++ y)).
Proof.
  intros H. pose (ps := [mkSaid (B "ORG") [] (B "KDE;PIM;contacts")]).
  destruct (read_of_case ps _ (H exT exQ ps) eq_refl) as [X|(a & (k & Ha) & P)]; [destruct (X eq_refl)|].
  vm_compute in Ha. injection Ha as <-. specialize (P (mkSaid (B "ORG") [] (B "KDE;PIM;contacts")) (B "KDE") (B "PIM") (B "contacts") eq_refl).
  destruct P as (x & y & P).
  { split; [discriminate|]. split; [|reflexivity]. intros before p q after E. pose proof (in_elt p before (q :: after)) as I. rewrite <- E in I.
    destruct I as [<-|[<-|[<-|[]]]]; apply not_last; reflexivity. }
  apply (f_equal (@List.length N)) in P. rewrite !app_length in P. vm_compute (List.length (B "contacts")) in P. cbn in P. lia.
Qed.
Print Assumptions C77_units_refuted.
Example C77_units : exists a, read_of [mkSaid (B "ORG") [] (B "KDE;PIM;contacts")] = Done [a] /\ map pt_text (a_orgs a) = [B "KDE"] /\ a_department a = B "PIM".
Proof. eexists. split; [vm_compute; reflexivity|]. split; reflexivity. Qed.

(** And of several values in quotes the second one is not read: a colon in it ends the
    parameters. *)
Definition quoted_twice (n k q1 q2 v : bytes) : bytes :=
  card_in crlf [] (B "BEGIN:VCARD") [(n ++ 59%N :: k ++ 61%N :: 34%N :: q1 ++ 34%N :: 44%N :: 34%N :: q2 ++ 34%N :: 58%N :: v, [])] (B "END:VCARD") [].
Theorem C77_quotes_refuted :
  ~ (forall (T : Tool) (E : Ext) (fuel : nat) (q1 q2 v : bytes) (a : addressee),
       Forall (fun c => c <> 34 /\ 32 <= c <= 126)%N (q1 ++ q2) -> Forall (fun c => 97 <= c <= 122)%N v ->
       parse_text T E fuel (quoted_twice (B "NOTE") (B "X") q1 q2 v) = Done [a] -> a_note a = v).
Proof.
  intros H.
  pose (f := fun o : outcome (list addressee) => match o with Done [a] => a | _ => addressee_new [] end).
  pose (a := f (parse_text exT exQ 20 (quoted_twice (B "NOTE") (B "X") (B "a") (B "b:c") (B "text")))).
  specialize (H exT exQ 20 (B "a") (B "b:c") (B "text") a).
  assert (H1 : Forall (fun c => c <> 34 /\ 32 <= c <= 126)%N (B "a" ++ B "b:c")) by (repeat (apply Forall_cons; [cbv; repeat split; discriminate|]); apply Forall_nil).
  assert (H2 : Forall (fun c => 97 <= c <= 122)%N (B "text")) by (repeat (apply Forall_cons; [cbv; repeat split; discriminate|]); apply Forall_nil).
  specialize (H H1 H2). vm_compute in H. specialize (H eq_refl). discriminate H.
Qed.
Print Assumptions C77_quotes_refuted.
Example C77_quotes : exists a b,
  parse_text exT exQ 20 (quoted_twice (B "NOTE") (B "X") (B "a") (B "b:c") (B "text")) = Done [a] /\ a_note a = B "c" ++ 34%N :: B ":text" /\
  parse_text exT exQ 20 (quoted_twice (B "TEL") (B "TYPE") (B "home") (B "work") (B "12")) = Done [b] /\ map ph_type (a_phones b) = [1%N].
Proof. eexists. eexists. split; [vm_compute; reflexivity|]. split; [reflexivity|]. split; [vm_compute; reflexivity|reflexivity]. Qed.

(** A name as RFC 6350 writes it, with an escaped semicolon inside a component and an
    escaped comma: both are read. *)
Definition C77_rfc : said := mkSaid (B "N") [] (B "Doe\;Roe;Ann,Bea;;;").
Example C77_rfc_case : expressed exQ (B "N:Doe\;Roe;Ann\,Bea;;;", []) C77_rfc /\
  in_parts 59 [B "Doe;Roe"; B "Ann,Bea"; []; []; []] (sd_text C77_rfc) /\
  exists a, parse_text exT exQ 20 (card_in crlf [] (B "BEGIN:VCARD") [(B "N:Doe\;Roe;Ann\,Bea;;;", [])] (B "END:VCARD") []) = Done [a] /\
    a_family a = B "Doe;Roe" /\ a_given a = B "Ann,Bea".
Proof.
  split; [|split].
  - split; [plain_name|]. apply (says_case _ _ _ _ _ _ _ Plain None (B "Doe\;Roe;Ann\,Bea;;;") (B "Doe\;Roe;Ann,Bea;;;")); try reflexivity; [| |discriminate].
    + split; [apply Forall_nil|]. split; [apply Forall_nil|]. split; [congruence|discriminate].
    + do 3 (apply S_Coding.un_char; [discriminate|]). apply S_Coding.un_other; [not_in|]. do 7 (apply S_Coding.un_char; [discriminate|]). apply S_Coding.un_comma.
      apply P_Unescape.plain_unescapes. not_in.
  - split; [discriminate|]. split; [|reflexivity]. intros before p q after E. pose proof (in_elt p before (q :: after)) as I. rewrite <- E in I.
    destruct I as [<-|[<-|[<-|[<-|[<-|[]]]]]]; apply not_last; reflexivity.
  - eexists. split; [vm_compute; reflexivity|]. split; reflexivity.
Qed.

(** The escapes of RFC 6350: also a semicolon may be escaped in any text (section 3.4),
    but outside structured values the backslash stays in the text. *)
Definition rfc_escaped (s : bytes) : bytes :=
  flat_map (fun c => if (c =? 92)%N then [92; 92]%N else if (c =? 44)%N then [92; 44]%N else if (c =? 59)%N then [92; 59]%N
                     else if (c =? 10)%N then [92; 110]%N else [c]) s.
Definition C77_one (n v : bytes) : bytes := card_in crlf [] (B "BEGIN:VCARD") [(n ++ 58%N :: v, [])] (B "END:VCARD") [].
Theorem C77_semicolons_refuted :
  ~ (forall (T : Tool) (E : Ext) (fuel : nat) (s : bytes) (a : addressee),
       Forall (fun c => 32 <= c <= 126)%N s -> ~ ambiguous s ->
       parse_text T E fuel (C77_one (B "NOTE") (rfc_escaped s)) = Done [a] -> a_note a = s).
Proof.
  intros H.
  pose (f := fun o : outcome (list addressee) => match o with Done [a] => a | _ => addressee_new [] end).
  specialize (H exT exQ 20 (B "a;b") (f (parse_text exT exQ 20 (C77_one (B "NOTE") (B "a\;b"))))).
  assert (H1 : Forall (fun c => 32 <= c <= 126)%N (B "a;b")) by (repeat (apply Forall_cons; [cbv; repeat split; discriminate|]); apply Forall_nil).
  assert (H2 : ~ ambiguous (B "a;b")) by (intros K; apply P_Escape.ambiguous_adj in K as [K|[K|K]]; vm_compute in K; discriminate K).
  specialize (H H1 H2). vm_compute in H. specialize (H eq_refl). discriminate H.
Qed.
Print Assumptions C77_semicolons_refuted.
(** An escaped comma inside a category separates two categories. *)
Theorem C77_commas_refuted :
  ~ (forall (T : Tool) (E : Ext) (fuel : nat) (l : list bytes) (a : addressee),
       Forall (Forall (fun c => 97 <= c <= 122 \/ c = 44)%N) l ->
       parse_text T E fuel (C77_one (B "CATEGORIES") (join [44%N] (map rfc_escaped l))) = Done [a] -> a_categories a = l).
Proof.
  intros H.
  pose (f := fun o : outcome (list addressee) => match o with Done [a] => a | _ => addressee_new [] end).
  specialize (H exT exQ 20 [B "a,b"] (f (parse_text exT exQ 20 (C77_one (B "CATEGORIES") (B "a\,b"))))).
  assert (H1 : Forall (Forall (fun c => 97 <= c <= 122 \/ c = 44)%N) [B "a,b"]).
  { apply Forall_cons; [|apply Forall_nil]. apply Forall_cons; [left; split; discriminate|]. apply Forall_cons; [right; reflexivity|].
    apply Forall_cons; [left; split; discriminate|apply Forall_nil]. }
  specialize (H H1). vm_compute in H. specialize (H eq_refl). discriminate H.
Qed.
Print Assumptions C77_commas_refuted.
Example C77_escapes : exists a b,
  parse_text exT exQ 20 (C77_one (B "NOTE") (B "a\;b")) = Done [a] /\ a_note a = B "a\;b" /\
  parse_text exT exQ 20 (C77_one (B "CATEGORIES") (B "a\,b,c")) = Done [b] /\ a_categories b = [B "a"; B "b"; B "c"].
Proof. eexists. eexists. split; [vm_compute; reflexivity|]. split; [reflexivity|]. split; [vm_compute; reflexivity|reflexivity]. Qed.
