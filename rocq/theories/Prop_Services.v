(** C89: the messaging services that come with the library. *)
From Verif Require Import Base BaseFacts QtText M_Values M_Addressee M_VCardText M_VCardTool M_Convert M_Services
  S_Parse S_Soft S_Order S_Case S_Foreign S_Convert S_Services P_Convert P_ContactCase Prop_Foreign Prop_Convert.
From Coq Require Import String.
Open Scope list_scope.

(** a check of every service *)
Lemma each_service (P : string -> string -> string -> bool) :
  forallb (fun e => P (fst e) (fst (snd e)) (snd (snd e))) bundled_services = true -> forall t n i, ships_service t n i -> P t n i = true.
Proof. intros H t n i K. rewrite forallb_forall in H. exact (H _ K). Qed.
Definition scheme_formb (s : ustring) : bool :=
  match s with
  | [] => false
  | c :: r => (97 <=? c)%N && (c <=? 122)%N && forallb (fun d => ((97 <=? d)%N && (d <=? 122)%N) || ((48 <=? d)%N && (d <=? 57)%N)) r
  end.
Lemma scheme_formb_ok s : scheme_formb s = true -> scheme_form s.
Proof.
  destruct s as [|c r]; [discriminate|]. cbn [scheme_formb]. rewrite !andb_true_iff, forallb_forall. intros [[H1 H2] H3].
  exists c, r. split; [reflexivity|]. split; [unfold small_letter; lia|]. apply Forall_forall. intros d Hd. specialize (H3 d Hd).
  unfold small_letter. rewrite orb_true_iff, !andb_true_iff in H3. lia.
Qed.

(** Every service of the library is offered, its name is the scheme of a URI, and reading a vCard does not rename it. *)
Theorem C89_types : forall X icon t n i, services_installed X icon -> ships_service t n i ->
  In (B t) (service_types X) /\ scheme_form (B t) /\ normalize_impp (B t) = B t.
Proof.
  intros X icon t n i S K.
  assert (F : scheme_form (B t)).
  { apply scheme_formb_ok. revert t n i K. apply (each_service (fun t _ _ => scheme_formb (B t))). vm_compute. reflexivity. }
  split; [|split; [exact F|]].
  - apply (proj2 (C57_types X)). destruct (si_files _ _ S) as (files & H1 & H2). exists files, (B t ++ B ".desktop").
    split; [exact H1|]. split; [exact (H2 t n i K)|]. split; [exists (B t); reflexivity|]. split.
    + destruct F as (c & r & -> & Hc & Hr). intros [H|H]; [unfold small_letter, cDOT in *; lia|].
      rewrite Forall_forall in Hr. specialize (Hr _ H). unfold small_letter in Hr. unfold cDOT in *. lia.
    + exists (B "desktop"). reflexivity.
  - clear F. apply leqb_eq. revert t n i K. apply (each_service (fun t _ _ => leqb (normalize_impp (B t)) (B t))). vm_compute. reflexivity.
Qed.
Print Assumptions C89_types.

(** Unless the user or the system has a file for it, a service is shown with its own name and icon; no two services have
    the same name. *)
Theorem C89_label : forall X icon t n i, services_installed X icon -> ships_service t n i -> not_overridden X t ->
  service_label X (B t) = B n /\ service_icon X icon (B t) = B i.
Proof.
  intros X icon t n i S K O.
  assert (N : B n <> []).
  { assert (H : negb (isnil (B n)) = true).
    { clear O. revert t n i K. apply (each_service (fun _ n _ => negb (isnil (B n)))). vm_compute. reflexivity. }
    intros E. rewrite E in H. discriminate. }
  destruct (proj1 (proj2 (C89_types X icon t n i S K))) as (c & r & E & _ & _).
  unfold service_icon, service_label, protocol_file. unfold not_overridden in O. rewrite O.
  change (B ":/org.kde.kcontacts/improtocols/" ++ B t ++ B ".desktop") with (service_resource t).
  rewrite (si_icon _ _ S t n i K). split; [|reflexivity].
  rewrite (si_name _ _ S t n i K). rewrite E. destruct (B n); [congruence|reflexivity].
Qed.
Print Assumptions C89_label.
Theorem C89_distinct : forall t n i t' i', ships_service t n i -> ships_service t' n i' -> t = t' /\ i = i'.
Proof.
  assert (H : forallb (fun e => forallb (fun e' => negb (String.eqb (fst (snd e)) (fst (snd e'))) ||
      (String.eqb (fst e) (fst e') && String.eqb (snd (snd e)) (snd (snd e')))) bundled_services) bundled_services = true) by (vm_compute; reflexivity).
  intros t n i t' i' K K'. rewrite forallb_forall in H. specialize (H _ K). rewrite forallb_forall in H. specialize (H _ K').
  cbn [fst snd] in H. rewrite String.eqb_refl in H. cbn [negb orb] in H. rewrite andb_true_iff in H. destruct H as [H1 H2].
  split; apply String.eqb_eq; assumption.
Qed.
Print Assumptions C89_distinct.

(** The services behind the old extensions of vCards are services of the library, and so are those that IMPP lines name
    Jabber, Yahoo or GaduGadu. *)
Theorem C89_extensions : forall n s, In (n, s) messengers \/ (In n [B "jabber"; B "yahoo"; B "gadugadu"] /\ s = normalize_impp n) ->
  exists t l i, s = B t /\ ships_service t l i.
Proof.
  assert (D : forall s, existsb (fun e => leqb s (B (fst e))) bundled_services = true -> exists t l i, s = B t /\ ships_service t l i).
  { intros s H. apply existsb_exists in H. destruct H as ([t [l i]] & H1 & H2). exists t, l, i. split; [apply leqb_eq, H2|exact H1]. }
  intros n s [H|[H ->]]; apply D.
  - assert (K : forallb (fun e => existsb (fun f => leqb (snd e) (B (fst f))) bundled_services) messengers = true) by (vm_compute; reflexivity).
    rewrite forallb_forall in K. exact (K _ H).
  - assert (K : forallb (fun n => existsb (fun f => leqb (normalize_impp n) (B (fst f))) bundled_services) [B "jabber"; B "yahoo"; B "gadugadu"] = true) by (vm_compute; reflexivity).
    rewrite forallb_forall in K. exact (K _ H).
Qed.
Print Assumptions C89_extensions.

(** So an address that another program wrote with such an extension is shown with the name of a service of the library. *)
Theorem C89_read : forall (X : ImExt) icon (T : Tool) (E : Ext) (nl b : bytes) (bs : list block) (e m s v : bytes),
  newline nl -> plain_bytes b -> plain_bytes e -> begin_line b -> end_line e -> Forall block_ok bs ->
  In (m ++ 58%N :: v, []) bs -> In (to_lower m, s) messengers -> plain_value v ->
  scheme_kept (env_url (t_env T)) (t_set_scheme T) (t_set_path T) ->
  services_installed X icon -> (forall t, not_overridden X t) ->
  exists t n i, ships_service t n i /\ s = B t /\ exists k, forall fuel, k <= fuel ->
    parse_text T E fuel (card_in nl [] b bs e []) = Undefined \/
    exists a p, parse_text T E fuel (card_in nl [] b bs e []) = Done [a] /\ In p (a_impps a) /\
      im_address p = t_set_path T v (t_set_scheme T s []) /\ service_label X (url_scheme (env_url (t_env T)) (im_address p)) = B n.
Proof.
  intros X icon T E nl b bs e m s v H1 H2 H3 H4 H5 H6 H7 H8 H9 U S O.
  destruct (C89_extensions _ s (or_introl H8)) as (t & n & i & Es & K). exists t, n, i. split; [exact K|]. split; [exact Es|].
  destruct (C89_types X icon t n i S K) as (_ & F & _). destruct (U (B t) v F) as [U1 U2].
  assert (V : impp_valid (env_url (t_env T)) (mkImpp [] (t_set_path T v (t_set_scheme T s []))) = true).
  { unfold impp_valid. cbn [im_address]. rewrite Es, U1. destruct F as (c & r & F & _). rewrite F in U2 |- *.
    destruct (t_set_path T v (t_set_scheme T (c :: r) [])); [congruence|reflexivity]. }
  destruct (C71_messengers T E nl b bs e m s v H1 H2 H3 H4 H5 H6 H7 H8 H9 V) as (k & Q). exists k. intros fuel Hf.
  destruct (Q fuel Hf) as [Z|(a & Z1 & Z2)]; [left; exact Z|right]. eexists. eexists. split; [exact Z1|]. split; [exact Z2|]. split; [reflexivity|].
  cbn [im_address]. rewrite Es, U1. exact (proj1 (C89_label X icon t n i S K (O t))).
Qed.
Print Assumptions C89_read.

(** Not every service of the library has an icon: five have none. *)
Theorem C89_icons_refuted : forall X icon, services_installed X icon -> (forall t, not_overridden X t) ->
  forall t n i, ships_service t n i -> (service_icon X icon (B t) = [] <-> In t ["matrix"; "rocketchat"; "signal"; "telegram"; "threema"]%string).
Proof.
  intros X icon S O t n i K. rewrite (proj2 (C89_label X icon t n i S K (O t))).
  assert (H : Bool.eqb (isnil (B i)) (existsb (String.eqb t) ["matrix"; "rocketchat"; "signal"; "telegram"; "threema"]%string) = true).
  { revert t n i K. apply (each_service (fun t _ i => Bool.eqb (isnil (B i)) (existsb (String.eqb t) ["matrix"; "rocketchat"; "signal"; "telegram"; "threema"]%string))). vm_compute. reflexivity. }
  apply Bool.eqb_prop in H. split; intros Q.
  - rewrite Q in H. symmetry in H. apply existsb_exists in H. destruct H as (x & Hx & Hq). apply String.eqb_eq in Hq. subst. exact Hx.
  - assert (R : existsb (String.eqb t) ["matrix"; "rocketchat"; "signal"; "telegram"; "threema"]%string = true)
      by (apply existsb_exists; exists t; split; [exact Q|apply String.eqb_refl]). rewrite R in H. destruct (B i); [reflexivity|discriminate].
Qed.
Print Assumptions C89_icons_refuted.

(** A world with nothing but the files of the library. *)
Definition lookup_service (p : ustring) (part : string * string -> string) : ustring :=
  match find (fun e => leqb p (service_resource (fst e))) bundled_services with Some e => B (part (snd e)) | None => [] end.
Definition ex_installed : ImExt := {|
  ix_dirs := [map (fun e => B (fst e) ++ B ".desktop") bundled_services]; ix_located := fun _ => None;
  ix_name := fun p => lookup_service p fst; ix_upper := fun c => if (97 <=? c)%N && (c <=? 122)%N then (c - 32)%N else c |}.
Definition ex_icon (p : ustring) : ustring := lookup_service p snd.
Lemma C89_installed : services_installed ex_installed ex_icon.
Proof.
  split.
  - eexists. split; [left; reflexivity|]. intros t n i K. apply (in_map (fun e => B (fst e) ++ B ".desktop")) in K. exact K.
  - intros t n i K. apply leqb_eq. revert t n i K. apply (each_service (fun t n _ => leqb (ix_name ex_installed (service_resource t)) (B n))). vm_compute. reflexivity.
  - intros t n i K. apply leqb_eq. revert t n i K. apply (each_service (fun t _ i => leqb (ex_icon (service_resource t)) (B i))). vm_compute. reflexivity.
Qed.
(** An address read from X-GADUGADU is of no service that the library knows. *)
Theorem C89_gadu_refuted : forall E : Ext, exists a p,
  parse_text C71_T E 20 (card_in crlf [] (B "BEGIN:VCARD") [(B "X-GADUGADU:123", [])] (B "END:VCARD") []) = Done [a] /\ a_impps a = [p] /\
  ~ In (url_scheme C71_url (im_address p)) (service_types ex_installed) /\
  service_label ex_installed (url_scheme C71_url (im_address p)) = B "Gadu" /\ service_label ex_installed (B "gg") = B "Gadu-Gadu".
Proof.
  intros E. eexists. eexists. split; [cbv - [qp_decode charset_decode]; reflexivity|]. split; [reflexivity|].
  split; [|split; vm_compute; reflexivity]. intros H. cbn [im_address] in H.
  assert (K : existsb (leqb (B "gadu")) (service_types ex_installed) = false) by (vm_compute; reflexivity).
  assert (K' : existsb (leqb (B "gadu")) (service_types ex_installed) = true) by (apply existsb_exists; eexists; split; [exact H|reflexivity]). congruence.
Qed.
Print Assumptions C89_gadu_refuted.

Example C89_case : ships_service "xmpp" "Jabber" "im-jabber" /\ not_overridden ex_installed "xmpp" /\
  List.length (service_types ex_installed) = 28 /\ service_label ex_installed (B "xmpp") = B "Jabber" /\ service_icon ex_installed ex_icon (B "xmpp") = B "im-jabber" /\
  In (to_lower (B "X-Jabber"), B "xmpp") messengers /\ In (B "X-Jabber:bee@x.org", [] : list bytes) [(B "FN:Bee", []); (B "X-Jabber:bee@x.org", [])] /\
  scheme_kept (env_url (t_env C71_T)) (t_set_scheme C71_T) (t_set_path C71_T).
Proof.
  split; [cbv; intuition|]. split; [reflexivity|]. split; [vm_compute; reflexivity|]. split; [vm_compute; reflexivity|]. split; [vm_compute; reflexivity|].
  split; [cbv; intuition|]. split; [cbn; auto|].
  intros s v (c & r & -> & Hc & Hr).
  assert (N : ~ In cCOLON (c :: r)).
  { rewrite Forall_forall in Hr. unfold small_letter in *. intros [H|H]; [unfold cCOLON in *; lia|]. specialize (Hr _ H). unfold cCOLON in *. lia. }
  cbn [C71_T t_set_scheme t_set_path exT index_of C71_url url_scheme t_env env_url]. rewrite ex_scheme_app by exact N. split.
  - rewrite index_of_app_notin by exact N. rewrite firstn_app, Nat.sub_diag, firstn_all. cbn [firstn]. apply app_nil_r.
  - discriminate.
Qed.
