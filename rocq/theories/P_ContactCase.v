(** A concrete library and a concrete contact, used in the examples of C11-C13,
    C37-C40 and C44. *)
From Verif Require Import Base BaseFacts QtText Utf8 M_ParamMap M_VCard M_VCardText S_Card S_Parse P_Parse2
  M_Split M_Values M_Date M_Addressee M_VCardTool S_Contact P_RoundTrip3 P_ReadBack P_Contact P_Contact2.

(** URLs are their own texts; the scheme ends at the first colon *)
Definition ex_scheme (u : qurl) : ustring := match index_of cCOLON u with Some i => firstn i u | None => u end.
Definition ex_url : UrlExt := {| url_parse := fun s => s; url_valid := fun u => negb (isnil u); url_scheme := ex_scheme |}.
Definition ex_img : ImgExt := {| img_load := fun b => Some b; img_save := fun px _ => px |}.
Definition ex_env : Env := {| env_url := ex_url; env_img := ex_img; env_instant := fun _ => 0%Z |}.
Definition exT : Tool := {|
  t_env := ex_env;
  t_set_scheme := fun s u => s ++ cCOLON :: match index_of cCOLON u with Some i => skipn (S i) u | None => u end;
  t_set_path := fun p u => ex_scheme u ++ cCOLON :: p;
  t_display := fun u => u;
  t_fmt6 := fun _ => B "1.500000";
  t_float := fun _ => Fin (QArith_base.Qmake 3 2);
  t_double := fun _ => Fin (QArith_base.Qmake 3 2);
  t_date_iso := fun _ => [];
  t_iso_date := fun _ => None;
  t_newid := fun c i => [N.of_nat c; N.of_nat i]
|}.
Lemma ex_fresh : fresh_ids exT.
Proof. intros c i j H. cbn [exT t_newid] in H. injection H as H. apply Nat2N.inj. exact H. Qed.
Lemma ex_scheme_app s p : ~ In cCOLON s -> ex_scheme (s ++ cCOLON :: p) = s.
Proof. intros H. unfold ex_scheme. rewrite index_of_app_notin by exact H. rewrite firstn_app, Nat.sub_diag, firstn_all. cbn [firstn]. apply app_nil_r. Qed.
Lemma ex_scheme_no u : ~ In cCOLON (ex_scheme u).
Proof.
  unfold ex_scheme. destruct (index_of cCOLON u) as [i|] eqn:E; [|apply index_of_None; exact E].
  apply index_of_Some in E as (p & t & -> & Hp & <-). rewrite firstn_app, Nat.sub_diag, firstn_all. cbn [firstn]. rewrite app_nil_r. exact Hp.
Qed.
Lemma ex_paths : paths_replace exT.
Proof. intros p q u. cbn [exT t_set_path]. rewrite ex_scheme_app by apply ex_scheme_no. reflexivity. Qed.

(** reading the lines settles the round trip *)
Lemma trip_at T E v export l res : Forall (fits T v) l ->
  read_cards T 0 (map (fun a => reread_card E (create_card T v export a)) l) = Some res -> round_trip T E v export l res.
Proof.
  intros Hf Hp. destruct (cards_reread E _ (trip_cards E T v export l (fits_all E T v l Hf))) as [n Hn]. exists n. intros fuel Hge.
  unfold parse_text, create_text. rewrite (Hn fuel Hge), map_map, Hp. reflexivity.
Qed.

(** a contact with semicolons, commas, a line break, letters outside ASCII, several
    addresses and telephone numbers *)
Definition ex_address : address :=
  mkAddress false (B "id7") (N.lor aHome aPref) geo_new (B "PO 1; x") [] (B "Main St. 5, back") (B "K" ++ [246%N] ++ B "ln") [] (B "50667") (B "Germany") (B "a" ++ [10%N] ++ B "b").
Definition ex_address2 : address :=
  mkAddress false (B "id8") aWork geo_new [] [] (B "2nd;") [] (B "R") [] [] (B "w").
Definition ex_photo : picture := mkPicture [] (B "jpeg") None [0; 10; 255; 92; 44; 1]%N true.
Definition ex_sound : sound := mkSound [] (B "wav") [1; 2; 0; 13; 10; 58]%N true.
Definition ex_key : key := mkKey (B "k") [250; 0; 1]%N [] (B "MyKey") KCustom true.
Definition ex_contact : addressee :=
  put_uid (B "u-1") (put_name (B "n,m") (put_formatted (B "Dr. J" ++ [246%N] ++ B "rg; x") (put_family (B "Mus;t" ) (put_given (B "J" ++ [246%N] ++ B ",rg")
  (put_additional (B "\;") (put_prefix (B "Dr.") (put_suffix []
  (put_birthday (mkDt (Some (mkDate 1970 2 28)) (Some midnight) TLocal) (put_mailer (B "m") (put_note (B "line 1" ++ [10%N] ++ B "line 2, end;" ++ repeat 228%N 60)
  (put_prodid (B "p") (put_revision (mkDt (Some (mkDate 2024 2 29)) (Some (mkTime 23 59 58 0)) TUtc) (put_sortstring (B "sort")
  (put_department (B "Dep; 1") (put_orgs [mkPtext [(B "label", [B "x"])] (B "Org,;"); mkPtext [] (B "Second")]
  (put_titles [mkPtext [] (B "T1"); mkPtext [(B "language", [B "de"; B "en"])] (B "T2")] (put_roles [mkPtext [] (B "R,")] (put_nicks [mkPtext [] (B "nick")]
  (put_categories [B "Friends, old"; B "a;b"; B "c"]
  (put_emails [mkEmail [(B "pref", [B "1"])] (B "a@b"); mkEmail [(B "type", [B "work"])] (B "c@d")]
  (put_phones [mkPhone (B "p1") (B "+49 30 1") (N.lor tHome (N.lor tVoice tPref)) [(B "label", [B "x y"])]; mkPhone (B "p2") (B "112") tCell []]
  (put_addresses [ex_address; ex_address2]
  (put_urls [mkRurl [] (B "http://x.y/;z")]
  (put_customs [(B "KADDRESSBOOK-BlogFeed", B "http://f, g"); (B "MyApp-Color", B "re;d"); (B "messaging/aim-All", B "joe" ++ [57344%N] ++ B "jim")]
  (put_impps [mkImpp [(B "x-service-type", [B "Jabber"])] (B "xmpp:me@x")]
  (put_secrecy SConfidential (put_photo ex_photo (put_sound ex_sound (put_keys [ex_key]
  (addressee_new [])))))))))))))))))))))))))))))).
(** the same without the messaging field *)
Definition ex_contact2 : addressee := put_customs [(B "KADDRESSBOOK-BlogFeed", B "http://f, g"); (B "MyApp-Color", B "re;d")] ex_contact.
Lemma ex_fits30 : Forall (fits exT V30) [ex_contact; ex_contact2].
Proof. constructor; [apply fits_spec; vm_compute; reflexivity|]. constructor; [apply fits_spec; vm_compute; reflexivity|constructor]. Qed.
