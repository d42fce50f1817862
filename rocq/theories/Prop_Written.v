(** C80: what the text written for a contact says.  The reader of cards is not used here:
    the text is taken apart as RFC 6350 and its predecessors say ([S_Written]). *)
From Coq Require Import Permutation.
From Verif Require Import Base BaseFacts QtText Utf8 M_ParamMap M_VCard M_VCardText S_Parse M_Split M_Values M_Date M_Addressee M_VCardTool S_Contact S_Soft S_Order S_Coding S_Meaning S_DateText S_Date S_Written
  P_RoundTrip3 P_Contact2 P_ReadBack P_Written P_Written2 P_Written3 P_Written4 P_Written5 P_Written6 P_Written7 P_Written8 P_ContactCase Prop_Whole Prop_Orderly.
From Coq Require Import Lia ZArith.

(** ** The names of the properties; VERSION is the first one *)
Theorem C80_names :
  forall (T : Tool) (E : Ext) (v : version) (export : bool) (a : addressee), fits T v a ->
    writes_as T E v export a (fun ps =>
      (exists p rest, ps = p :: rest /\ sd_name p = B "VERSION" /\ sd_params p = [] /\ sd_text p = match v with V21 => B "2.1" | V30 => B "3.0" | V40 => B "4.0" end) /\
      forall p, In p ps ->
        In (sd_name p) (map B ["VERSION"; "ADR"; "ANNIVERSARY"; "BDAY"; "DEATHDATE"; "CATEGORIES"; "FBURL"; "CALADRURI"; "CALURI"; "IMPP"; "CLASS"; "GENDER"; "LANG"; "EMAIL"; "KIND"; "FN"; "GEO"; "KEY"; "LABEL"; "LOGO";
                               "MAILER"; "N"; "NAME"; "NICKNAME"; "NOTE"; "ORG"; "PHOTO"; "PRODID"; "REV"; "ROLE"; "SORT-STRING"; "SOUND"; "TEL"; "TITLE"; "TZ"; "UID"; "URL"; "SOURCE"; "MEMBER"; "RELATED"; "CLIENTPIDMAP"]%string)
        \/ (exists q, sd_name p = B "X-" ++ q) \/ In 46%N (sd_name p)).
Proof.
  intros T E v export a Hf. apply writes_from; [exact Hf|]. split; [exact (put_version T E v export a)|]. intros p Hp. exact (put_kinds T E v export a p Hf Hp).
Qed.
Print Assumptions C80_names.

(** ** Texts *)
Theorem C80_texts :
  forall (T : Tool) (E : Ext) (v : version) (export : bool) (a : addressee), fits T v a ->
    writes_as T E v export a (fun ps =>
      only_texts "fn" [a_formatted a] ps /\ only_texts "note" [a_note a] ps /\ only_texts "uid" [a_uid a] ps /\ only_texts "source" (a_sources a) ps /\
      only_texts "mailer" (match v with V40 => [] | _ => [a_mailer a] end) ps /\
      only_texts "name" (match v with V40 => [] | _ => [a_name a] end) ps /\
      only_texts "prodid" (match v with V21 => [] | _ => [a_prodid a] end) ps /\
      only_texts "sort-string" (match v with V30 => [a_sortstring a] | _ => [] end) ps /\
      only_texts "kind" (match v with V40 => [a_kind a] | _ => [] end) ps /\
      only_texts "member" (match v with V40 => if leqb (to_lower (a_kind a)) (B "group") then a_members a else [] | _ => [] end) ps /\
      only_texts "version" [match v with V21 => B "2.1" | V30 => B "3.0" | V40 => B "4.0" end] ps).
Proof.
  intros T E v export a Hf. apply writes_from; [exact Hf|]. destruct (put_texts T E v export a Hf) as (H1 & H2 & H3 & H4 & H5 & H6 & H7 & H8 & H9 & H10 & H11).
  destruct v; repeat split; assumption.
Qed.
Print Assumptions C80_texts.

(** ** Lists of texts with parameters *)
Theorem C80_lists :
  forall (T : Tool) (E : Ext) (v : version) (export : bool) (a : addressee), fits T v a ->
    writes_as T E v export a (fun ps =>
      only_entries "email" em_mail em_params (a_emails a) ps /\ only_entries "url" ru_url ru_params (a_urls a) ps /\
      only_entries "role" pt_text pt_params (a_roles a) ps /\ only_entries "title" pt_text pt_params (a_titles a) ps /\
      only_entries "nickname" pt_text pt_params (match v with V21 => [] | _ => a_nicks a end) ps /\
      only_entries "lang" pt_text pt_params (match v with V40 => a_langs a | _ => [] end) ps /\
      only_entries "clientpidmap" pt_text pt_params (match v with V40 => a_pidmaps a | _ => [] end) ps /\
      only_entries "impp" im_address (fun x => filter (fun kv => negb (leqb (fst kv) (B "x-service-type"))) (im_params x)) (a_impps a) ps).
Proof.
  intros T E v export a Hf. apply writes_from; [exact Hf|]. destruct (put_lists T E v export a Hf) as (H1 & H2 & H3 & H4 & H5 & H6 & H7 & H8).
  destruct v; repeat split; assumption.
Qed.
Print Assumptions C80_lists.

(** ** The name *)
Theorem C80_name :
  forall (T : Tool) (E : Ext) (v : version) (export : bool) (a : addressee), fits T v a ->
    Forall (fun s => ~ In 59%N s) [a_family a; a_given a; a_additional a; a_prefix a; a_suffix a] ->
    writes_as T E v export a (fun ps =>
      exists p, of_name "n" ps = [p] /\ holds_parts 59 p [a_family a; a_given a; a_additional a; a_prefix a; a_suffix a] /\
        sd_params p = match v, a_sortstring a with V40, [] => [] | V40, s => [B "SORT-AS=" ++ s] | _, _ => [] end).
Proof.
  intros T E v export a Hf Hn. apply writes_from; [exact Hf|]. destruct (put_n T E v export a Hf Hn) as (p & H1 & H2 & H3). exists p. split; [exact H1|]. split; [exact H2|].
  rewrite H3. destruct v; try reflexivity. destruct (a_sortstring a); reflexivity.
Qed.
Print Assumptions C80_name.

(** ** Organisations: the name and the department *)
Theorem C80_organisations :
  forall (T : Tool) (E : Ext) (v : version) (export : bool) (a : addressee), fits T v a ->
    writes_as T E v export a (fun ps =>
      Forall2 (fun p o => sd_params p = map param_of (pt_params o) /\
                 (~ In 59%N (pt_text o) -> ~ In 59%N (a_department a) -> holds_parts 59 p (pt_text o :: match a_department a with [] => [] | d => [d] end)))
        (of_name "org" ps) (filter (fun o => not_empty (pt_text o) || not_empty (a_department a)) (a_orgs a))).
Proof.
  intros T E v export a Hf. apply writes_from; [exact Hf|]. eapply P_Contact2.Forall2_imp; [|exact (put_orgs T E v export a Hf)]. cbv beta. intros p o _ [H1 H2]. split; [exact H1|].
  intros N1 N2. specialize (H2 N1 N2). destruct (a_department a); exact H2.
Qed.
Print Assumptions C80_organisations.

(** ** Telephone numbers *)
Theorem C80_telephones :
  forall (T : Tool) (E : Ext) (v : version) (export : bool) (a : addressee), fits T v a ->
    writes_as T E v export a (fun ps =>
      Forall2 (fun p x => holds_text p (ph_number x) /\ flags_told phone_flags (ph_type x) p /\ only_flags phone_flags p /\
                 (forall kv, In kv (ph_params x) -> fst kv <> B "type" -> In (param_of kv) (sd_params p)) /\
                 (forall q, In q (sd_params p) -> (exists kv, In kv (ph_params x) /\ fst kv <> B "type" /\ q = param_of kv) \/ ~ In 61%N q \/ exists r, q = B "TYPE=" ++ r))
        (of_name "tel" ps) (filter (fun x => not_empty (ph_number x)) (a_phones a))).
Proof. intros T E v export a Hf. apply writes_from; [exact Hf|]. exact (put_phones T E v export a Hf). Qed.
Print Assumptions C80_telephones.

(** ** Addresses and their labels *)
Definition adr_parts (x : address) : list ustring := [ad_pobox x; ad_extended x; ad_street x; ad_locality x; ad_region x; ad_postal x; ad_country x].
Theorem C80_addresses :
  forall (T : Tool) (E : Ext) (v : version) (export : bool) (a : addressee), fits T v a ->
    writes_as T E v export a (fun ps =>
      Forall2 (fun p x => (Forall (fun s => ~ In 59%N s) (adr_parts x) -> holds_parts 59 p (adr_parts x)) /\
                 flags_told address_flags (ad_type x) p /\
                 (v = V21 \/ (exists w j, In (w, j) address_flags /\ N.testbit (ad_type x) j = true) -> only_flags address_flags p) /\
                 (v = V40 -> ad_label x <> [] -> In (B "LABEL=""" ++ ad_label x ++ [34%N]) (sd_params p)) /\
                 (v = V40 -> geo_valid (ad_geo x) = true -> In (B "GEO=""geo:" ++ t_fmt6 T (g_lat (ad_geo x)) ++ [44%N] ++ t_fmt6 T (g_lon (ad_geo x)) ++ [34%N]) (sd_params p)))
        (of_name "adr" ps) (filter (fun x => existsb not_empty (adr_parts x)) (a_addresses a)) /\
      Forall2 (fun p x => holds_text p (ad_label x) /\ flags_told address_flags (ad_type x) p)
        (of_name "label" ps) (match v with V40 => [] | _ => filter (fun x => not_empty (ad_label x)) (a_addresses a) end)).
Proof. intros T E v export a Hf. apply writes_from; [exact Hf|]. exact (put_addresses T E v export a Hf). Qed.
Print Assumptions C80_addresses.

(** ** Categories, secrecy, gender, time zone, position *)
Theorem C80_values :
  forall (T : Tool) (E : Ext) (v : version) (export : bool) (a : addressee), fits T v a ->
    writes_as T E v export a (fun ps =>
      (Forall (fun s => ~ In 44%N s) (a_categories a) ->
         Forall2 (fun p l => sd_params p = [] /\ holds_parts 44 p l) (of_name "categories" ps) (match v, a_categories a with V21, _ | _, [] | _, [[]] => [] | _, l => [l] end)) /\
      only_texts "class" (match v, a_secrecy a with V30, SPublic => [B "PUBLIC"] | V30, SPrivate => [B "PRIVATE"] | V30, SConfidential => [B "CONFIDENTIAL"] | _, _ => [] end) ps /\
      (~ In 59%N (ge_gender (a_gender a)) -> ~ In 59%N (ge_comment (a_gender a)) ->
         Forall2 (fun p l => sd_params p = [] /\ holds_parts 59 p l) (of_name "gender" ps)
           (match v, ge_gender (a_gender a), ge_comment (a_gender a) with V40, [], [] => [] | V40, g, [] => [[g]] | V40, g, c => [[g; c]] | _, _, _ => [] end)) /\
      ((tz_valid (a_tz a) = true -> -6000 < tz_offset (a_tz a) < 6000)%Z ->
         Forall2 (fun p o => sd_params p = [] /\ exists s, says_offset o s /\ holds_text p s) (of_name "tz" ps) (if tz_valid (a_tz a) then [tz_offset (a_tz a)] else [])) /\
      (~ In 59%N (t_fmt6 T (g_lat (a_geo a))) -> ~ In 59%N (t_fmt6 T (g_lon (a_geo a))) ->
         Forall2 (fun p (x : ustring * ustring) => sd_params p = [] /\ match v with V40 => holds_text p (B "geo:" ++ fst x ++ [44%N] ++ snd x) | _ => holds_parts 59 p [fst x; snd x] end)
           (of_name "geo" ps) (if geo_valid (a_geo a) then [(t_fmt6 T (g_lat (a_geo a)), t_fmt6 T (g_lon (a_geo a)))] else []))).
Proof. intros T E v export a Hf. apply writes_from; [exact Hf|]. exact (put_values T E v export a Hf). Qed.
Print Assumptions C80_values.

(** ** Dates *)
Definition date_stored (d : datetime) (with_time : bool) : Prop :=
  forall x, dt_date d = Some x -> storable_date x /\ (with_time = true -> (exists t, dt_time d = Some t /\ storable_time t) /\ storable_spec (dt_spec d)).
Theorem C80_dates :
  forall (T : Tool) (E : Ext) (v : version) (export : bool) (a : addressee), fits T v a ->
    writes_as T E v export a (fun ps =>
      (date_stored (a_birthday a) (a_bdaytime a) -> only_date "bday" (match v with V40 => [B "VALUE=DATE"] | _ => [] end) (a_birthday a) (a_bdaytime a) ps) /\
      (date_stored (a_revision a) true -> only_date "rev" [] (a_revision a) true ps) /\
      (date_stored (a_deathdate a) true -> only_date "deathdate" [] (match v with V40 => a_deathdate a | _ => mkDt None None TLocal end) true ps) /\
      (Forall (fun e : ustring * ustring => to_lower (fst e) = B "kaddressbook-x-anniversary" -> exists d, t_iso_date T (snd e) = Some d /\ storable_date d) (a_customs a) ->
       Forall2 (fun p (e : ustring * ustring) => exists d s, t_iso_date T (snd e) = Some d /\ says_date (mkDt (Some d) (Some (mkTime 0 0 0 0)) TLocal) true s /\ sd_params p = [B "VALUE=DATE"] /\ holds_text p s)
         (of_name "anniversary" ps) (match v with V40 => filter (fun e : ustring * ustring => not_empty (snd e) && leqb (to_lower (fst e)) (B "kaddressbook-x-anniversary")) (a_customs a) | _ => [] end))).
Proof.
  intros T E v export a Hf. apply writes_from; [exact Hf|]. destruct (put_dates T E v export a Hf) as (H1 & H2 & H3).
  assert (Hd : forall d w, date_stored d w -> date_fits d w) by (intros d w H; unfold date_fits; destruct (dt_date d) as [x|] eqn:Ed; [apply H; exact Ed|exact I]).
  split; [intros H; apply H1; auto|]. split; [intros H; apply H2; auto|]. split; [intros H; apply H3; auto|]. exact (put_anniversary T E v export a Hf).
Qed.
Print Assumptions C80_dates.

(** ** Relations and calendars *)
Theorem C80_related :
  forall (T : Tool) (E : Ext) (v : version) (export : bool) (a : addressee), fits T v a ->
    writes_as T E v export a (fun ps =>
      only_entries "related" pt_text pt_params
        (a_related a ++ match v with
                        | V40 => map (fun e => mkPtext [(B "TYPE", [B "spouse"]); (B "VALUE", [snd e])] (B ";")) (filter (fun e => not_empty (snd e) && leqb (to_lower (fst e)) (B "kaddressbook-x-spousesname")) (a_customs a))
                        | _ => []
                        end) ps /\
      forall f t, In (f, t) [("fburl"%string, CalFBUrl); ("caluri"%string, CalCALUri); ("caladruri"%string, CalCALADRUri)] ->
        only_entries f (fun c => t_display T (cu_url c)) cu_params
          (match v with V40 => filter (fun c => caltype_eq (cu_type c) t && calurl_valid (env_url (t_env T)) c) (a_calurls a) | _ => [] end) ps).
Proof. intros T E v export a Hf. apply writes_from; [exact Hf|]. split; [exact (put_related T E v export a Hf)|exact (put_calurls T E v export a Hf)]. Qed.
Print Assumptions C80_related.

(** ** Keys, sounds and pictures *)
Theorem C80_data :
  forall (T : Tool) (E : Ext) (v : version) (export : bool) (a : addressee), fits T v a ->
    writes_as T E v export a (fun ps =>
      ((v = V21 -> Forall (fun k => ke_isbin k = false) (a_keys a)) ->
         Forall2 (fun p k => (if ke_isbin k then holds_data p (ke_bin k) else holds_text p (ke_text k)) /\
                    forall s, s <> [] -> s = (match v, ke_type k with V40, KX509 => B "application/x-x509-ca-cert" | V40, KPGP => B "application/pgp-keys" | _, KX509 => B "X509" | _, KPGP => B "PGP" | _, KCustom => ke_custom k end) ->
                    In ((match v with V40 => B "MEDIATYPE=" | _ => B "TYPE=" end) ++ s) (sd_params p))
           (of_name "key" ps) (filter (fun k => not_empty (if ke_isbin k then ke_bin k else ke_text k)) (a_keys a))) /\
      ((v = V21 -> Forall (fun x => so_intern x = false) (a_sound a :: a_xsounds a)) ->
         Forall2 (fun p x => if so_intern x then holds_data p (so_data x) else sd_params p = [B "VALUE=URI"] /\ holds_text p (so_url x))
           (of_name "sound" ps) (match v with V40 => [] | _ => filter (fun x => not_empty (if so_intern x then so_data x else so_url x)) (a_sound a :: a_xsounds a) end)) /\
      (forall f l, In (f, l) [("photo"%string, a_photo a :: a_xphotos a); ("logo"%string, a_logo a :: a_xlogos a)] -> (v = V21 -> Forall (fun x => pi_intern x = false) l) ->
         exists m, Permutation m (filter (fun x => not_empty (if pi_intern x then pi_raw_of (env_img (t_env T)) x else pi_url x)) l) /\
           Forall2 (holds_picture v (env_img (t_env T))) (of_name f ps) m)).
Proof.
  intros T E v export a Hf. apply writes_from; [exact Hf|]. split; [exact (put_keys T E v export a Hf)|]. split; [exact (put_sounds T E v export a Hf)|].
  intros f l [H|[H|[]]] H21; injection H as <- <-.
  - exact (put_pictures T E v export a (B "PHOTO") Hf (or_introl eq_refl) H21).
  - exact (put_pictures T E v export a (B "LOGO") Hf (or_intror (or_introl eq_refl)) H21).
Qed.
Print Assumptions C80_data.

(** ** Fields of the user and grouped properties *)
Theorem C80_extensions :
  forall (T : Tool) (E : Ext) (v : version) (export : bool) (a : addressee), fits T v a ->
    writes_as T E v export a (fun ps =>
      (exists m, Permutation m (filter (fun e => not_empty (snd e) && match v with V40 => negb (leqb (to_lower (fst e)) (B "kaddressbook-x-anniversary")) && negb (leqb (to_lower (fst e)) (B "kaddressbook-x-spousesname")) | _ => true end) (a_customs a)) /\
         Forall2 (fun p e => custom_name export (fst e) (sd_name p) /\ sd_params p = [] /\ holds_text p (snd e))
           (filter (fun p => starts_with (B "X-") (sd_name p) && negb (mem 46 (sd_name p))) ps) m) /\
      (exists m, Permutation m (filter (fun f => not_empty (fg_value f)) (a_fgroups a)) /\
         Forall2 (fun p f => sd_name p = fg_name f /\ sd_params p = map param_of (fg_params f) /\ holds_text p (fg_value f))
           (filter (fun p => mem 46 (sd_name p)) ps) m)).
Proof. intros T E v export a Hf. apply writes_from; [exact Hf|]. split; [exact (put_customs T E v export a Hf)|exact (put_groups T E v export a Hf)]. Qed.
Print Assumptions C80_extensions.

(** ** The hypotheses are met *)
Example C80_fits_case : fits exT V30 ex_contact /\ fits exT V40 ex_whole.
Proof. split; [apply fits_spec; vm_compute; reflexivity|exact (proj1 C44_case40)]. Qed.

Definition ex_written : addressee :=
  M_Addressee.put_uid (B "u") (M_Addressee.put_formatted (B "A, B\") (M_Addressee.put_family (B "Bo") (M_Addressee.put_given (B "An") (M_Addressee.put_categories [B "x"; B "y z"]
  (M_Addressee.put_phones [mkPhone [] (B "+1 2") (N.lor tHome tFax) [(B "label", [B "l"])]]
  (M_Addressee.put_addresses [mkAddress false [] aWork geo_new [] [] (B "S, 1") (B "L") [] [] (B "C") (B "lab")]
  (M_Addressee.put_birthday (mkDt (Some (mkDate 1970 2 28)) (Some midnight) TLocal) (M_Addressee.put_bdaytime false
  (M_Addressee.put_photo (mkPicture [] (B "png") None [0; 255]%N true)
  (M_Addressee.put_customs [(B "messaging/xmpp-All", B "me")] (M_Addressee.put_fgroups [mkFgroup [] (B "item1.X-ABLABEL") (B "v")]
  (addressee_new [])))))))))))).
Example C80_case40 : fits exT V40 ex_written /\ writes_as exT noE V40 true ex_written (fun ps => ps =
  [mkSaid (B "VERSION") [] (B "4.0"); mkSaid (B "ADR") [B "LABEL=""lab"""; B "TYPE=work"] (B ";;S\, 1;L;;;C"); mkSaid (B "BDAY") [B "VALUE=DATE"] (B "19700228");
   mkSaid (B "CATEGORIES") [] (B "x,y z"); mkSaid (B "FN") [] (B "A\, B\\"); mkSaid (B "N") [] (B "Bo;An;;;"); mkSaid (B "PHOTO") [] (B "data:image/png;base64,AP8=");
   mkSaid (B "TEL") [B "TYPE=""fax,home"""; B "LABEL=l"] (B "+1 2"); mkSaid (B "UID") [] (B "u"); mkSaid (B "X-JABBER") [] (B "me"); mkSaid (B "item1.X-ABLABEL") [] (B "v")]).
Proof. assert (Hf : fits exT V40 ex_written) by (apply fits_spec; vm_compute; reflexivity). split; [exact Hf|]. apply writes_from; [exact Hf|]. vm_compute. reflexivity. Qed.
Example C80_case30 : fits exT V30 ex_written /\ writes_as exT noE V30 false ex_written (fun ps => ps =
  [mkSaid (B "VERSION") [] (B "3.0"); mkSaid (B "ADR") [B "TYPE=work"] (B ";;S\, 1;L;;;C"); mkSaid (B "BDAY") [] (B "1970-02-28");
   mkSaid (B "CATEGORIES") [] (B "x,y z"); mkSaid (B "FN") [] (B "A\, B\\"); mkSaid (B "LABEL") [B "TYPE=work"] (B "lab"); mkSaid (B "N") [] (B "Bo;An;;;"); mkSaid (B "PHOTO") [B "ENCODING=b"; B "TYPE=png"] (B "AP8=");
   mkSaid (B "TEL") [B "TYPE=FAX,HOME"; B "LABEL=l"] (B "+1 2"); mkSaid (B "UID") [] (B "u"); mkSaid (B "X-messaging/xmpp-All") [] (B "me"); mkSaid (B "item1.X-ABLABEL") [] (B "v")]).
Proof. assert (Hf : fits exT V30 ex_written) by (apply fits_spec; vm_compute; reflexivity). split; [exact Hf|]. apply writes_from; [exact Hf|]. vm_compute. reflexivity. Qed.

(** ** Separators in components are lost *)
Theorem C80_separators_refuted :
  exists (T : Tool) (E : Ext) (a : addressee), fits T V30 a /\ a_family a = B "a;b" /\ a_given a = B "c" /\ a_categories a = [B "d,e"] /\
    writes_as T E V30 false a (fun ps =>
      (exists p, of_name "n" ps = [p] /\ holds_parts 59 p [B "a\"; B "b"; B "c"; []; []; []]) /\
      (exists p, of_name "categories" ps = [p] /\ holds_parts 44 p [B "d\"; B "e"])).
Proof.
  exists exT, noE, (M_Addressee.put_family (B "a;b") (M_Addressee.put_given (B "c") (M_Addressee.put_categories [B "d,e"] (addressee_new [])))).
  assert (Hf : fits exT V30 (M_Addressee.put_family (B "a;b") (M_Addressee.put_given (B "c") (M_Addressee.put_categories [B "d,e"] (addressee_new []))))) by (apply fits_spec; vm_compute; reflexivity).
  split; [exact Hf|]. do 3 (split; [reflexivity|]). apply writes_from; [exact Hf|]. split.
  - exists (mkSaid (B "N") [] (B "a\\;b;c;;;")). split; [vm_compute; reflexivity|]. split; [constructor|]. exists (map B ["a\\"; "b"; "c"; ""; ""; ""]%string). split; [reflexivity|].
    repeat (apply Forall2_cons; [split; [cbv; intuition discriminate|]|]); try apply Forall2_nil;
      repeat first [apply de_end | apply de_char; [discriminate|] | apply (de_escape 92 92); [cbv; auto|]].
  - exists (mkSaid (B "CATEGORIES") [] (B "d\\,e")). split; [vm_compute; reflexivity|]. split; [constructor|]. exists (map B ["d\\"; "e"]%string). split; [reflexivity|].
    repeat (apply Forall2_cons; [split; [cbv; intuition discriminate|]|]); try apply Forall2_nil;
      repeat first [apply de_end | apply de_char; [discriminate|] | apply (de_escape 92 92); [cbv; auto|]].
Qed.
Print Assumptions C80_separators_refuted.

(** ** An address without types gets a type all the same *)
Theorem C80_types_refuted :
  exists (T : Tool) (E : Ext) (a : addressee) (x : address), fits T V30 a /\ a_addresses a = [x] /\ ad_type x = 0%N /\
    writes_as T E V30 false a (fun ps => exists p, of_name "adr" ps = [p] /\ sd_params p = [B "TYPE"] /\ ~ only_flags address_flags p).
Proof.
  set (x := mkAddress false [] 0 geo_new [] [] (B "S") [] [] [] [] []). exists exT, noE, (M_Addressee.put_addresses [x] (addressee_new [])), x.
  assert (Hf : fits exT V30 (M_Addressee.put_addresses [x] (addressee_new []))) by (apply fits_spec; vm_compute; reflexivity).
  split; [exact Hf|]. do 2 (split; [reflexivity|]). apply writes_from; [exact Hf|]. exists (mkSaid (B "ADR") [B "TYPE"] (B ";;S;;;;")). split; [vm_compute; reflexivity|]. split; [reflexivity|].
  intros H. destruct (H (B "TYPE")) as (w & i & Hw & Hi).
  - exists (B "TYPE"). split; [left; reflexivity|]. left. split; [cbv; intuition discriminate|]. split; [discriminate|]. split; [discriminate|reflexivity].
  - cbn [address_flags In] in Hw. repeat (destruct Hw as [Hw|Hw]; [injection Hw as <- <-; discriminate Hi|]). exact Hw.
Qed.
Print Assumptions C80_types_refuted.

(** ** A date with a time is declared to be a date *)
Theorem C80_value_date_refuted :
  exists (T : Tool) (E : Ext) (a : addressee), fits T V40 a /\ a_bdaytime a = true /\
    writes_as T E V40 false a (fun ps => exists p, of_name "bday" ps = [p] /\ sd_params p = [B "VALUE=DATE"] /\ sd_text p = B "19700228T235958Z").
Proof.
  set (a := M_Addressee.put_bdaytime true (M_Addressee.put_birthday (mkDt (Some (mkDate 1970 2 28)) (Some (mkTime 23 59 58 0)) TUtc) (addressee_new []))). exists exT, noE, a.
  assert (Hf : fits exT V40 a) by (apply fits_spec; vm_compute; reflexivity).
  split; [exact Hf|]. split; [reflexivity|]. apply writes_from; [exact Hf|]. exists (mkSaid (B "BDAY") [B "VALUE=DATE"] (B "19700228T235958Z")). split; [vm_compute; reflexivity|]. split; reflexivity.
Qed.
Print Assumptions C80_value_date_refuted.
