(** C71: the extensions of other programs. *)
From Verif Require Import Base BaseFacts Utf8 M_ParamMap M_VCard M_VCardText M_Values M_Addressee M_VCardTool S_Parse P_Parse P_Parse2 S_Soft P_Soft P_SoftLoop
  Prop_Soft P_ContactCase S_Order P_CardOrder P_Unknown Prop_Order S_Case P_Case S_Foreign P_Foreign.

(** An extension of another program can be exchanged for another extension that
    stands for the same field, in any case, as long as the names keep their alphabetical
    order: the text is read into the same contacts. *)
Theorem C71_names :
  forall (T : Tool) (E : Ext) (nl : bytes) (before : list bytes) (b : bytes) (ts : list spellings) (e : bytes) (after : list bytes),
    newline nl -> Forall plain_bytes (before ++ b :: e :: after) -> Forall no_soft before ->
    begin_line b -> end_line e -> Forall block_ok (map spelt1 ts ++ map spelt2 ts) ->
    Forall (fun t => same_letters t \/ same_field t) ts -> same_rank ts ->
    settled (card_in nl before b (map spelt1 ts) e after) ->
    exists result n, result <> Running /\ forall fuel, n <= fuel ->
      parse_text T E fuel (card_in nl before b (map spelt1 ts) e after) = result /\
      parse_text T E fuel (card_in nl before b (map spelt2 ts) e after) = result.
Proof.
  intros T E nl before b ts e after H1 H2 H3 H4 H5 H6 H7 H8 H9. apply Forall_app in H6 as [H6 H6'].
  apply respelt_text; auto; [unfold one_card_text; auto 10|]. eapply Forall_impl; [|exact H7].
  intros t [Ht|Ht]; [apply same_letters_swappable|apply same_field_swappable]; exact Ht.
Qed.
Print Assumptions C71_names.

(** The value of an extension is the value of the field, if the card has no other
    property for the field. *)
Theorem C71_fields :
  forall (T : Tool) (E : Ext) (nl b : bytes) (bs : list block) (e n f v : bytes),
    newline nl -> plain_bytes b -> plain_bytes e -> begin_line b -> end_line e -> Forall block_ok bs ->
    let p := (n ++ 58%N :: v, []) in
    In p bs -> extension_of f n -> plain_value v ->
    Forall (fun c => c = p \/ exists m, named m c /\ ~ extension_of f m /\ ~ (f = B "X-Anniversary" /\ to_lower m = B "anniversary")) bs ->
    exists k, forall fuel, k <= fuel ->
      parse_text T E fuel (card_in nl [] b bs e []) = Undefined \/
      exists a, parse_text T E fuel (card_in nl [] b bs e []) = Done [a] /\ custom (B "KADDRESSBOOK") f a = v.
Proof. intros T E nl b bs e n f v H1 H2 H3 H4 H5 H6 p H7 H8 H9 H10. exact (field_text T E nl b bs e n f v H1 H2 H3 H4 H5 H8 H9 H7 H6 H10). Qed.
Print Assumptions C71_fields.

(** The old messaging extensions are read as messaging addresses of their service. *)
Theorem C71_messengers :
  forall (T : Tool) (E : Ext) (nl b : bytes) (bs : list block) (e n s v : bytes),
    newline nl -> plain_bytes b -> plain_bytes e -> begin_line b -> end_line e -> Forall block_ok bs ->
    In (n ++ 58%N :: v, []) bs -> In (to_lower n, s) messengers -> plain_value v ->
    let i := mkImpp [] (t_set_path T v (t_set_scheme T s [])) in impp_valid (env_url (t_env T)) i = true ->
    exists k, forall fuel, k <= fuel ->
      parse_text T E fuel (card_in nl [] b bs e []) = Undefined \/
      exists a, parse_text T E fuel (card_in nl [] b bs e []) = Done [a] /\ In i (a_impps a).
Proof. intros T E nl b bs e n s v H1 H2 H3 H4 H5 H6 H7 H8 H9 i Hi. exact (messenger_text T E nl b bs e n s v H1 H2 H3 H4 H5 H8 H9 H7 H6 Hi). Qed.
Print Assumptions C71_messengers.

Definition C71_bs : list block := [(B "X-Spouse:Ann", []); (B "FN:Bee", []); (B "X-EVOLUTION-MANAGER:Cid", []); (B "X-Yahoo:bee7", [])].
Definition C71_ts : list spellings := [(B "X-SPOUSE", B "X-Kaddressbook-X-SpousesName", (B ":Ann", [])); (B "FN", B "Fn", (B ":Bee", []))].
Lemma C71_ext : extension_of (B "X-SpousesName") (B "X-Spouse") /\ extension_of (B "X-ManagersName") (B "X-EVOLUTION-MANAGER").
Proof. split; eexists; (split; [cbv; intuition|cbv; intuition]). Qed.
Ltac not_ext := let ns := fresh in let H := fresh in let K := fresh in intros (ns & H & K); cbv in H;
  repeat (destruct H as [H|H]; [try discriminate H; injection H as <-; cbv in K; repeat (destruct K as [K|K]; [discriminate K|]); destruct K|]); destruct H.
Example C71_case :
  Forall block_ok C71_bs /\ extension_of (B "X-SpousesName") (B "X-Spouse") /\ plain_value (B "Ann") /\ plain_value (B "bee7") /\
  In (to_lower (B "X-Yahoo"), B "ymsgr") messengers /\ impp_valid (env_url (t_env exT)) (mkImpp [] (B "ymsgr:bee7")) = true /\
  Forall (fun c => c = (B "X-Spouse:Ann", []) \/ exists m, named m c /\ ~ extension_of (B "X-SpousesName") m /\
            ~ (B "X-SpousesName" = B "X-Anniversary" /\ to_lower m = B "anniversary")) C71_bs /\
  forall E, exists a, parse_text exT E 20 (card_in crlf [] (B "BEGIN:VCARD") C71_bs (B "END:VCARD") []) = Done [a] /\
    custom (B "KADDRESSBOOK") (B "X-SpousesName") a = B "Ann" /\ custom (B "KADDRESSBOOK") (B "X-ManagersName") a = B "Cid" /\
    map im_address (a_impps a) = [B "ymsgr:bee7"].
Proof.
  split; [repeat good; apply Forall_nil|]. split; [apply C71_ext|].
  assert (Hp : forall v, v <> [] -> forallb (fun c => (32 <=? c) && (c <? 127) && negb (c =? 92))%N v = true -> plain_value v).
  { intros v H K. split; [exact H|]. intros c Hc. rewrite forallb_forall in K. specialize (K c Hc). lia. }
  split; [apply Hp; [discriminate|reflexivity]|]. split; [apply Hp; [discriminate|reflexivity]|]. split; [cbv; intuition|]. split; [reflexivity|]. split.
  { assert (Hn : forall n d r fs, (d = 58 \/ d = 59)%N -> forallb (fun c => negb (mem c [58; 59; 46]%N)) n = true -> named n (n ++ d :: r, fs)).
    { intros n d r fs Hd Hc. exists [], d, r. split; [reflexivity|]. split; [exact Hd|]. split; [auto|]. split; [intros c []|].
      intros c Hin. rewrite forallb_forall in Hc. specialize (Hc c Hin). split; [|split]; intros ->; discriminate. }
    apply Forall_cons; [left; reflexivity|].
    apply Forall_cons; [right; exists (B "FN"); split; [apply (Hn (B "FN") 58%N (B "Bee")); [auto|reflexivity]|split; [not_ext|intros [H _]; discriminate H]]|].
    apply Forall_cons; [right; exists (B "X-EVOLUTION-MANAGER"); split; [apply (Hn (B "X-EVOLUTION-MANAGER") 58%N (B "Cid")); [auto|reflexivity]|split; [not_ext|intros [H _]; discriminate H]]|].
    apply Forall_cons; [right; exists (B "X-Yahoo"); split; [apply (Hn (B "X-Yahoo") 58%N (B "bee7")); [auto|reflexivity]|split; [not_ext|intros [H _]; discriminate H]]|].
    apply Forall_nil. }
  intros E. eexists. split; [cbv - [qp_decode charset_decode]; reflexivity|]. split; [reflexivity|]. split; reflexivity.
Qed.
Example C71_names_case :
  Forall (fun t => same_letters t \/ same_field t) C71_ts /\ same_rank C71_ts /\ Forall block_ok (map spelt1 C71_ts ++ map spelt2 C71_ts).
Proof.
  split.
  { apply Forall_cons; [right; split; [exists (B "X-SpousesName"); split; eexists; (split; [cbv; intuition|cbv; intuition])|eexists; eexists; split; [reflexivity|auto]]|].
    apply Forall_cons; [left; split; [split; [plain_name|intros [r H]; cbv in H; discriminate H]|]; split;
      [split; [plain_name|intros [r H]; cbv in H; discriminate H]|]; split; [reflexivity|eexists; eexists; split; [reflexivity|auto]]|]. apply Forall_nil. }
  split; [|cbn [map app C71_ts spelt1 spelt2 titled fst snd]; repeat good; apply Forall_nil].
  intros s t Hs Ht. cbv in Hs, Ht. destruct Hs as [<-|[<-|[]]]; destruct Ht as [<-|[<-|[]]]; reflexivity.
Qed.
(** The extension for Gadu-Gadu is not read as an address of the service that the IMPP
    property with that service type stands for. *)
Definition C71_url : UrlExt := {| url_parse := fun s => s; url_valid := fun u => negb (isnil u);
  url_scheme := fun u => match index_of cCOLON u with Some i => firstn i u | None => [] end |}.
Definition C71_T : Tool := Build_Tool {| env_url := C71_url; env_img := env_img (t_env exT); env_instant := env_instant (t_env exT) |}
  (t_set_scheme exT) (t_set_path exT) (t_display exT) (t_fmt6 exT) (t_float exT) (t_double exT) (t_date_iso exT) (t_iso_date exT) (t_newid exT).
Theorem C71_gadu_refuted :
  forall E : Ext, exists a b,
    parse_text C71_T E 20 (card_in crlf [] (B "BEGIN:VCARD") [(B "X-GADUGADU:123", [])] (B "END:VCARD") []) = Done [a] /\
    parse_text C71_T E 20 (card_in crlf [] (B "BEGIN:VCARD") [(B "IMPP;X-SERVICE-TYPE=GaduGadu:123", [])] (B "END:VCARD") []) = Done [b] /\
    map im_address (a_impps a) = [B "gadu:123"] /\ map im_address (a_impps b) = [B "gg:123"].
Proof.
  intros E. eexists. eexists. split; [cbv - [qp_decode charset_decode]; reflexivity|]. split; [cbv - [qp_decode charset_decode]; reflexivity|]. split; reflexivity.
Qed.
Print Assumptions C71_gadu_refuted.
