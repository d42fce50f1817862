(** Proofs about the debug texts (C84). *)
From Verif Require Import Base BaseFacts Utf8 Utf8Facts QtText M_ParamMap M_Values M_Date M_Addressee M_Access M_Debug S_Debug.
Import ListNotations.

(** ** [arg] *)
Lemma pieces_app s t : ~ In 37%N s -> pieces (s ++ t) = map Ch s ++ pieces t.
Proof.
  induction s as [|c s IH]; intros H; [reflexivity|]. cbn [app pieces map].
  destruct (N.eqb_spec c 37) as [->|_]; [destruct H; left; reflexivity|]. rewrite IH by (intros K; apply H; right; exact K). reflexivity.
Qed.
Lemma pieces_plain s : ~ In 37%N s -> pieces s = map Ch s.
Proof. intros H. rewrite <- (app_nil_r s) at 1. rewrite pieces_app by exact H. apply app_nil_r. Qed.
Lemma lowest_ch s ps : lowest (map Ch s ++ ps) = lowest ps.
Proof. unfold lowest. rewrite fold_left_app. f_equal. induction s as [|c s IH]; [reflexivity|exact IH]. Qed.
Lemma ch_text s f : flat_map (fun p => match p with Ch c => [c] | Mark n raw => f n raw end) (map Ch s) = s.
Proof. induction s as [|c s IH]; [reflexivity|]. cbn. f_equal. exact IH. Qed.
Lemma arg_one a b x : ~ In 37%N a -> ~ In 37%N b -> match b with c :: _ => is_digit c = false | [] => True end ->
  arg (a ++ [37%N; 49%N] ++ b) x = a ++ x ++ b.
Proof.
  intros Ha Hb Hd. assert (P : pieces (a ++ [37%N; 49%N] ++ b) = map Ch a ++ Mark 1 [37%N; 49%N] :: map Ch b).
  { rewrite pieces_app by exact Ha. f_equal. destruct b as [|c b]; [reflexivity|].
    rewrite <- (pieces_plain (c :: b)) by exact Hb. cbn [app pieces is_digit]. change (N.eqb 37 37) with true. cbn [is_digit].
    change (is_digit 49) with true. cbv iota. rewrite Hd. reflexivity. }
  unfold arg. rewrite P, lowest_ch. unfold lowest at 1. cbn [fold_left].
  assert (L : forall s (o : option N), fold_left (fun o p => match p, o with Ch _, _ => o | Mark n _, None => Some n | Mark n _, Some m => Some (N.min n m) end) (map Ch s) o = o)
    by (induction s as [|c s IH]; intros o; [reflexivity|apply IH]).
  rewrite L. rewrite flat_map_app. cbn [flat_map]. rewrite !ch_text. change (N.eqb 1 1) with true. reflexivity.
Qed.
Lemma arg_row (t : string) pre x : ln t = pre ++ [37%N; 49%N] ++ [cLF] -> forallb (fun c => negb (N.eqb c 37)) pre = true -> arg (ln t) x = pre ++ x ++ [cLF].
Proof.
  intros -> H. apply arg_one; [|intros [K|[]]; discriminate K|reflexivity].
  intros K. rewrite forallb_forall in H. specialize (H _ K). discriminate H.
Qed.
Ltac rows := repeat match goal with |- context [arg (ln ?t) ?x] =>
  let pre := eval vm_compute in (removelast (removelast (B t))) in rewrite (arg_row t pre x) by reflexivity end.
Ltac lay := unfold sheet, row, ln, truth, yes_no; cbn [concat]; repeat rewrite <- app_assoc; reflexivity.

Section Layout.
Variable X : DebugExt.
Lemma params_layout m : params_string m = concat (params_row m).
Proof.
  destruct m as [|e m]; [reflexivity|]. unfold params_string, params_row. cbn [isnil concat]. rewrite flat_map_concat_map. unfold row. rewrite app_nil_r. repeat rewrite <- app_assoc. reflexivity.
Qed.
Lemma geo_layout g : geo_string X g = sheet "Geo" [row "  Valid" (yes_no (geo_valid g)); row "  Latitude" (dx_num X (g_lat g)); row "  Longitude" (dx_num X (g_lon g))].
Proof. unfold geo_string. rows. lay. Qed.
Lemma tz_layout z : tz_string z = sheet "TimeZone" [row "  Offset" (int_text (tz_offset z))].
Proof. unfold tz_string. rows. lay. Qed.
Lemma gender_layout g : gender_string g = sheet "Gender" [row "    gender" (ge_gender g); row "    comment" (ge_comment g)].
Proof. unfold gender_string. rows. lay. Qed.
Lemma secrecy_layout s : secrecy_string X s = sheet "Secrecy" [row "  Type" (secrecy_label (dx_tr X) s)].
Proof. unfold secrecy_string. rows. lay. Qed.
Lemma address_layout a : address_string X a = sheet "Address"
  [row "  IsEmpty" (yes_no (ad_empty a)); row "  Id" (ad_id a); row "  Type" (address_type_label (dx_tr X) (ad_type a));
   row "  Post office box" (ad_pobox a); row "  Extended" (ad_extended a); row "  Street" (ad_street a);
   row "  Locality" (ad_locality a); row "  Region" (ad_region a); row "  Postal code" (ad_postal a);
   row "  Country" (ad_country a); row "  Label" (ad_label a); row "  Geo" (geo_string X (ad_geo a))].
Proof. unfold address_string. rows. lay. Qed.
Lemma email_layout e : email_string e = sheet "Email" (row "    mail" (em_mail e) :: params_row (em_params e)).
Proof. unfold email_string. rewrite params_layout. rows. lay. Qed.
Lemma key_layout k : key_string X k = sheet "Key"
  ([row "  Id" (ke_id k); row "  Type" (key_type_label (dx_tr X) (ke_type k))]
   ++ match ke_type k with KCustom => [row "  CustomType" (ke_custom k)] | _ => [] end
   ++ [row "  IsBinary" (yes_no (ke_isbin k)); if ke_isbin k then row "  Binary" (to_base64 (ke_bin k)) else row "  Text" (ke_text k)]).
Proof. unfold key_string. rows. destruct (ke_type k), (ke_isbin k); cbn [app]; lay. Qed.
Lemma picture_layout p : picture_string X p = sheet "Picture"
  [row "  Type" (pi_type p); row "  IsIntern" (yes_no (pi_intern p)); data_row (pi_intern p) (pi_raw_of (env_img (dx_env X)) p) (pi_url p)].
Proof. unfold picture_string, data_row. rows. destruct (pi_intern p); lay. Qed.
Lemma sound_layout s : sound_string s = sheet "Sound"
  [row "  Type" (so_type s); row "  IsIntern" (yes_no (so_intern s)); data_row (so_intern s) (so_data s) (so_url s)].
Proof. unfold sound_string, data_row. rows. destruct (so_intern s); lay. Qed.
Lemma calurl_layout c : calurl_string c = sheet "CalendarUrl" (row "    url" (cu_url c) :: row "    type" (caltype_string (cu_type c)) :: params_row (cu_params c)).
Proof. unfold calurl_string. rewrite params_layout. rows. lay. Qed.
Lemma rurl_layout r : rurl_string r = sheet "ResourceLocatorUrl" (row "    url" (ru_url r) :: params_row (ru_params r)).
Proof. unfold rurl_string. rewrite params_layout. rows. lay. Qed.
Lemma impp_layout i : impp_string X i = sheet "Impp" (row "    type" (url_scheme (env_url (dx_env X)) (im_address i)) :: row "    address" (im_address i) :: params_row (im_params i)).
Proof. unfold impp_string. rewrite params_layout. rows. lay. Qed.
Lemma ptext_layouts p :
  title_string p = sheet "Title" (row "    title" (pt_text p) :: params_row (pt_params p)) /\
  role_string p = sheet "Role" (row "    role" (pt_text p) :: params_row (pt_params p)) /\
  org_string p = sheet "Org" (row "    organization" (pt_text p) :: params_row (pt_params p)) /\
  nick_string p = sheet "NickName" (row "    nickname" (pt_text p) :: params_row (pt_params p)) /\
  note_string p = sheet "Note" (row "    note" (pt_text p) :: params_row (pt_params p)) /\
  related_string p = sheet "Related" (row "    relatedTo" (pt_text p) :: params_row (pt_params p)) /\
  lang_string p = sheet "Lang" (row "    language" (pt_text p) :: params_row (pt_params p)) /\
  pidmap_string p = sheet "ClientPidMap" (row "    clientpidmap" (pt_text p) :: params_row (pt_params p)).
Proof.
  unfold title_string, role_string, org_string, nick_string, note_string, related_string, lang_string, pidmap_string, ptext_string. rewrite params_layout.
  rows. repeat split; lay.
Qed.
Lemma fgroup_layout f : ~ In 37%N (fg_name f) ->
  fgroup_string f = sheet "FieldGroup" (row "    FieldGroupName" (fg_name f ++ B " Value " ++ fg_value f) :: params_row (fg_params f)).
Proof.
  intros H. unfold fgroup_string. rewrite params_layout.
  assert (E : arg (ln "    FieldGroupName: %1 Value %2") (fg_name f) = (B "    FieldGroupName: " ++ fg_name f ++ B " Value ") ++ [37%N; 50%N] ++ [cLF]).
  { repeat rewrite <- app_assoc. reflexivity. }
  rewrite E. clear E.
  assert (P : pieces ((B "    FieldGroupName: " ++ fg_name f ++ B " Value ") ++ [37%N; 50%N] ++ [cLF]) = map Ch (B "    FieldGroupName: " ++ fg_name f ++ B " Value ") ++ Mark 2 [37%N; 50%N] :: map Ch [cLF]).
  { rewrite pieces_app; [reflexivity|]. intros K. apply in_app_iff in K as [K|K]; [vm_compute in K; intuition discriminate|].
    apply in_app_iff in K as [K|K]; [exact (H K)|vm_compute in K; intuition discriminate]. }
  unfold arg. rewrite P, lowest_ch. change (lowest (Mark 2 [37%N; 50%N] :: map Ch [cLF])) with (Some 2%N). cbv iota beta.
  rewrite flat_map_app. cbn [flat_map]. rewrite !ch_text. change (N.eqb 2 2) with true. cbv iota. unfold sheet, row, ln. cbn [concat]. repeat rewrite <- app_assoc. reflexivity.
Qed.
(** a field group whose name contains a place marker *)
Lemma digit_is d : (d < 10)%N -> is_digit (48 + d)%N = true.
Proof. intros H. unfold is_digit. rewrite andb_true_iff, !N.leb_le. lia. Qed.
Lemma dval_is d : dval (48 + d)%N = d.
Proof. unfold dval. lia. Qed.
Lemma pieces_marker m n r : place_marker m n -> match r with c :: _ => is_digit c = false | [] => True end -> pieces (m ++ r) = Mark n m :: pieces r.
Proof.
  intros H Hr. destruct H as [l d [->| ->] Hd|l d e [->| ->] Hd He]; cbn [app].
  - cbn [pieces]. change (N.eqb 37 37) with true. cbv iota. rewrite (digit_is d Hd), dval_is. destruct r as [|c r]; [reflexivity|]. rewrite Hr. reflexivity.
  - cbn [pieces]. change (N.eqb 37 37) with true. change (is_digit 76) with false. change (N.eqb 76 76) with true. cbv iota.
    rewrite (digit_is d Hd), dval_is. destruct r as [|c r]; [reflexivity|]. rewrite Hr. reflexivity.
  - cbn [pieces]. change (N.eqb 37 37) with true. cbv iota. rewrite (digit_is d Hd), (digit_is e He), !dval_is. reflexivity.
  - cbn [pieces]. change (N.eqb 37 37) with true. change (is_digit 76) with false. change (N.eqb 76 76) with true. cbv iota.
    rewrite (digit_is d Hd), (digit_is e He), !dval_is. reflexivity.
Qed.
Lemma fgroup_marker f p m n q : place_marker m n -> ~ In 37%N p -> ~ In 37%N q -> match q with c :: _ => is_digit c = false | [] => True end ->
  fg_name f = p ++ m ++ q ->
  exists shown, fgroup_string f = sheet "FieldGroup" (row "    FieldGroupName" shown :: params_row (fg_params f)) /\
    ((n < 2)%N -> shown = p ++ fg_value f ++ q ++ B " Value %2") /\
    (n = 2%N -> shown = p ++ fg_value f ++ q ++ B " Value " ++ fg_value f) /\
    ((2 < n)%N -> shown = fg_name f ++ B " Value " ++ fg_value f).
Proof.
  intros M Hp Hq Hd Hn. unfold fgroup_string. rewrite params_layout.
  assert (E : arg (ln "    FieldGroupName: %1 Value %2") (fg_name f) = (B "    FieldGroupName: " ++ p) ++ m ++ (q ++ B " Value ") ++ [37%N; 50%N] ++ [cLF]).
  { rewrite Hn. repeat rewrite <- app_assoc. unfold arg. vm_compute pieces. cbn [lowest fold_left N.min]. vm_compute lowest. cbv iota.
    cbn [flat_map app]. vm_compute N.eqb. cbv iota. repeat rewrite <- app_assoc. reflexivity. }
  rewrite E. clear E.
  assert (P : pieces ((B "    FieldGroupName: " ++ p) ++ m ++ (q ++ B " Value ") ++ [37%N; 50%N] ++ [cLF])
    = map Ch (B "    FieldGroupName: " ++ p) ++ Mark n m :: map Ch (q ++ B " Value ") ++ Mark 2 [37%N; 50%N] :: map Ch [cLF]).
  { rewrite pieces_app; [|intros K; apply in_app_iff in K as [K|K]; [vm_compute in K; intuition discriminate|exact (Hp K)]]. f_equal.
    rewrite (pieces_marker m n); [|exact M|destruct q; [reflexivity|exact Hd]]. f_equal.
    rewrite pieces_app; [reflexivity|]. intros K; apply in_app_iff in K as [K|K]; [exact (Hq K)|vm_compute in K; intuition discriminate]. }
  assert (L : lowest (map Ch (B "    FieldGroupName: " ++ p) ++ Mark n m :: map Ch (q ++ B " Value ") ++ Mark 2 [37%N; 50%N] :: map Ch [cLF]) = Some (N.min 2 n)).
  { rewrite lowest_ch. unfold lowest. cbn [fold_left].
    assert (Q : forall s o ps, fold_left (fun o p => match p, o with Ch _, _ => o | Mark n _, None => Some n | Mark n _, Some m => Some (N.min n m) end) (map Ch s ++ ps) o
      = fold_left (fun o p => match p, o with Ch _, _ => o | Mark n _, None => Some n | Mark n _, Some m => Some (N.min n m) end) ps o)
      by (induction s as [|c s IH]; intros o ps; [reflexivity|apply IH]).
    rewrite Q. reflexivity. }
  unfold arg. rewrite P, L. rewrite flat_map_app. cbn [flat_map]. rewrite flat_map_app. cbn [flat_map]. rewrite !ch_text.
  destruct (N.lt_trichotomy n 2) as [H|[H|H]].
  - replace (N.min 2 n) with n by lia. rewrite N.eqb_refl. replace (N.eqb 2 n) with false by (symmetry; apply N.eqb_neq; lia).
    exists (p ++ fg_value f ++ q ++ B " Value %2"). split; [|split; [auto|split; intros K; lia]].
    unfold sheet, row, ln. cbn [concat]. change (B " Value %2") with (B " Value " ++ [37; 50]%N). repeat rewrite <- app_assoc. reflexivity.
  - subst n. change (N.min 2 2) with 2%N. change (N.eqb 2 2) with true. cbv iota.
    exists (p ++ fg_value f ++ q ++ B " Value " ++ fg_value f). split; [|split; [intros K; lia|split; [auto|intros K; lia]]].
    unfold sheet, row, ln. cbn [concat]. repeat rewrite <- app_assoc. reflexivity.
  - replace (N.min 2 n) with 2%N by lia. change (N.eqb 2 2) with true. replace (N.eqb n 2) with false by (symmetry; apply N.eqb_neq; lia). cbv iota.
    exists (fg_name f ++ B " Value " ++ fg_value f). split; [|split; [intros K; lia|split; [intros K; lia|auto]]].
    rewrite Hn. unfold sheet, row, ln. cbn [concat]. repeat rewrite <- app_assoc. reflexivity.
Qed.
Lemma phone_layout p : phone_string X p = concat (params_row (ph_params p)) ++ row "    Number" (ph_number p) ++ B "}" ++ [cLF].
Proof. unfold phone_string. rewrite params_layout. rows. lay. Qed.
Lemma contact_layout a : contact_string X a = sheet "Addressee"
  [row "  Uid" (a_uid a); row "  Name" (a_name a); row "  FormattedName" (a_formatted a); row "  FamilyName" (a_family a);
   row "  GivenName" (a_given a); row "  AdditionalName" (a_additional a); row "  Prefix" (a_prefix a); row "  Suffix" (a_suffix a);
   row "  NickName" (nickname a); row "  Birthday" (dx_time X (a_birthday a)); row "  Mailer" (a_mailer a);
   row "  TimeZone" (tz_string (a_tz a)); row "  Geo" (geo_string X (a_geo a)); row "  Title" (title a); row "  Role" (role a);
   row "  Organization" (organization a); row "  Department" (a_department a); row "  Note" (a_note a);
   row "  ProductId" (a_prodid a); row "  Revision" (dx_time X (a_revision a)); row "  SortString" (a_sortstring a);
   row "  Url" (ru_url (main_url a)); row "  Secrecy" (secrecy_string X (a_secrecy a)); row "  Logo" (picture_string X (a_logo a));
   row "  Photo" (picture_string X (a_photo a)); row "  Sound" (sound_string (a_sound a)); row "  Gender" (gender_string (a_gender a));
   row "  Kind" (a_kind a);
   B "  Emails {" ++ [cLF] ++ concat (map email_string (a_emails a)) ++ B "  }" ++ [cLF];
   B "  Langs {" ++ [cLF] ++ concat (map lang_string (a_langs a)) ++ B "  }" ++ [cLF];
   B "  PhoneNumbers {" ++ [cLF] ++ concat (map (phone_string X) (a_phones a)) ++ B "  }" ++ [cLF];
   B "  Addresses {" ++ [cLF] ++ concat (map (address_string X) (a_addresses a)) ++ B "  }" ++ [cLF];
   B "  Keys {" ++ [cLF] ++ concat (map (key_string X) (a_keys a)) ++ B "  }" ++ [cLF]].
Proof. unfold contact_string. rewrite !flat_map_concat_map. rows. lay. Qed.
End Layout.

(** ** Telling values apart *)
Definition weave (L v : list ustring) : ustring := flat_map (fun p => fst p ++ snd p ++ [cLF]) (combine L v).
Lemma line_inv s t r q : one_line s -> one_line t -> s ++ cLF :: r = t ++ cLF :: q -> s = t /\ r = q.
Proof.
  revert t. induction s as [|c s IH]; intros [|d t] Hs Ht E; cbn [app] in E.
  - injection E as ->. auto.
  - injection E as <- _. destruct Ht. left. reflexivity.
  - injection E as -> _. destruct Hs. left. reflexivity.
  - injection E as -> E. destruct (IH t) as [-> ->]; auto; [intros K; apply Hs; right; exact K|intros K; apply Ht; right; exact K].
Qed.
Lemma row_inv l v w r s : one_line v -> one_line w -> row l v ++ r = row l w ++ s -> v = w /\ r = s.
Proof. intros Hv Hw E. unfold row in E. repeat rewrite <- app_assoc in E. do 2 apply app_inv_head in E. apply line_inv in E; auto. Qed.
Lemma weave_inv L : forall v w r s, length v = length L -> length w = length L -> Forall one_line v -> Forall one_line w ->
  weave L v ++ r = weave L w ++ s -> v = w /\ r = s.
Proof.
  induction L as [|l L IH]; intros [|x v] [|y w] r s Lv Lw Fv Fw E; try discriminate; [auto|].
  apply Forall_cons_iff in Fv as [Hx Fv]. apply Forall_cons_iff in Fw as [Hy Fw]. unfold weave in E. cbn [combine flat_map fst snd] in E. fold (weave L v) in E. fold (weave L w) in E.
  repeat rewrite <- app_assoc in E. apply app_inv_head in E. cbn [app] in E. apply line_inv in E as [-> E]; [|exact Hx|exact Hy].
  apply IH in E as [-> ->]; auto.
Qed.

(** [T] shows [V x] and can be read off the front of a text. *)
Definition reads {A C} (T : A -> ustring) (V : A -> C) (ok : A -> Prop) : Prop :=
  forall x y r s, ok x -> ok y -> T x ++ r = T y ++ s -> V x = V y /\ r = s.
Lemma reads_list {A C} (T : A -> ustring) (V : A -> C) ok (t : ustring) :
  reads T V ok -> (forall x r s, T x ++ r <> t ++ s) -> reads (fun l => flat_map T l ++ t) (map V) (Forall ok).
Proof.
  intros R N l. induction l as [|x l IH]; intros [|y m] r s Ol Om E; cbn [flat_map app map] in E |- *.
  - apply app_inv_head in E. auto.
  - repeat rewrite <- app_assoc in E. symmetry in E. destruct (N _ _ _ E).
  - repeat rewrite <- app_assoc in E. destruct (N _ _ _ E).
  - apply Forall_cons_iff in Ol as [Ox Ol]. apply Forall_cons_iff in Om as [Oy Om]. repeat rewrite <- app_assoc in E.
    apply R in E as [-> E]; auto. rewrite !(app_assoc (flat_map T _)) in E. apply IH in E as [-> ->]; auto.
Qed.
Ltac fin E := repeat apply app_inv_head in E; cbn [app B] in E; repeat match type of E with _ :: _ = _ :: _ => injection E as E end.
Lemma reads_weave {A} (T : A -> ustring) (V : A -> list ustring) L t :
  (forall x, T x = weave L (V x) ++ t) -> (forall x, length (V x) = length L) -> reads T V (fun x => Forall one_line (V x)).
Proof.
  intros HT HL x y r s Ox Oy E. rewrite !HT in E. repeat rewrite <- app_assoc in E. apply weave_inv in E as [E1 E2]; auto.
  apply app_inv_head in E2. auto.
Qed.
Ltac woven := unfold weave, sheet, row; cbn [combine flat_map fst snd concat]; repeat rewrite <- app_assoc; reflexivity.

Definition address_labels : list ustring :=
  [ln "Address {" ++ B "  IsEmpty: "; B "  Id: "; B "  Type: "; B "  Post office box: "; B "  Extended: "; B "  Street: "; B "  Locality: ";
   B "  Region: "; B "  Postal code: "; B "  Country: "; B "  Label: "; B "  Geo: Geo {" ++ [cLF] ++ B "  Valid: "; B "  Latitude: "; B "  Longitude: "].
Definition picture_labels (n : string) : list ustring := [B n ++ B ": Picture {" ++ [cLF] ++ B "  Type: "; B "  IsIntern: "; B "  "].
Definition contact_labels : list ustring :=
  [ln "Addressee {" ++ B "  Uid: "; B "  Name: "; B "  FormattedName: "; B "  FamilyName: "; B "  GivenName: "; B "  AdditionalName: ";
   B "  Prefix: "; B "  Suffix: "; B "  NickName: "; B "  Birthday: "; B "  Mailer: "; B "  TimeZone: TimeZone {" ++ [cLF] ++ B "  Offset: ";
   B "}" ++ [cLF; cLF] ++ B "  Geo: Geo {" ++ [cLF] ++ B "  Valid: "; B "  Latitude: "; B "  Longitude: ";
   B "}" ++ [cLF; cLF] ++ B "  Title: "; B "  Role: "; B "  Organization: "; B "  Department: "; B "  Note: "; B "  ProductId: ";
   B "  Revision: "; B "  SortString: "; B "  Url: "; B "  Secrecy: Secrecy {" ++ [cLF] ++ B "  Type: ";
   B "}" ++ [cLF; cLF] ++ B "  Logo: Picture {" ++ [cLF] ++ B "  Type: "; B "  IsIntern: "; B "  ";
   B "}" ++ [cLF; cLF] ++ B "  Photo: Picture {" ++ [cLF] ++ B "  Type: "; B "  IsIntern: "; B "  ";
   B "}" ++ [cLF; cLF] ++ B "  Sound: Sound {" ++ [cLF] ++ B "  Type: "; B "  IsIntern: "; B "  ";
   B "}" ++ [cLF; cLF] ++ B "  Gender: Gender {" ++ [cLF] ++ B "    gender: "; B "    comment: ";
   B "}" ++ [cLF; cLF] ++ B "  Kind: "].

Section Apart.
Variable X : DebugExt.
Lemma address_woven a : address_string X a = weave address_labels (address_shown X a) ++ B "}" ++ [cLF; cLF] ++ B "}" ++ [cLF].
Proof. rewrite address_layout, geo_layout. unfold address_labels, address_shown. woven. Qed.
Lemma address_reads : reads (address_string X) (address_shown X) (fun a => Forall one_line (address_shown X a)).
Proof. eapply reads_weave; [apply address_woven|reflexivity]. Qed.

Lemma params_reads q (m m' : pmap) r s : (match q with c :: _ => c <> cSP | [] => False end) ->
  Forall one_line (params_shown m) -> Forall one_line (params_shown m') ->
  concat (params_row m) ++ q ++ r = concat (params_row m') ++ q ++ s -> params_shown m = params_shown m' /\ r = s.
Proof.
  destruct q as [|c q]; [intros []|]. intros Nc Om Om' E. destruct m as [|e m], m' as [|e' m']; cbn [params_row params_shown concat app] in *.
  - injection E as E. apply app_inv_head in E. auto.
  - unfold row in E. cbn in E. injection E as -> _. destruct Nc. reflexivity.
  - unfold row in E. cbn in E. injection E as E _. destruct Nc. symmetry. exact E.
  - rewrite !app_nil_r in E. unfold row in E. repeat rewrite <- app_assoc in E. do 2 apply app_inv_head in E. cbn [app] in E.
    apply Forall_cons_iff in Om as [Om _]. apply Forall_cons_iff in Om' as [Om' _].
    apply line_inv in E as [E1 E2]; [|exact Om|exact Om']. injection E2 as E2. apply app_inv_head in E2. rewrite E1. auto.
Qed.
Lemma sheet_reads {A} (T : A -> ustring) (f : A -> ustring) (g : A -> pmap) class label :
  (forall x, T x = sheet class (row label (f x) :: params_row (g x))) ->
  reads T (fun x => f x :: params_shown (g x)) (fun x => Forall one_line (f x :: params_shown (g x))).
Proof.
  intros HT x y r s Ox Oy E. apply Forall_cons_iff in Ox as [Ox Px]. apply Forall_cons_iff in Oy as [Oy Py]. rewrite !HT in E. unfold sheet, row in E. cbn [concat] in E. repeat rewrite <- app_assoc in E.
  do 5 apply app_inv_head in E. cbn [app] in E. apply line_inv in E as [E1 E2]; [|exact Ox|exact Oy].
  apply (params_reads (B "}" ++ [cLF])) in E2 as [E2 E3]; [|discriminate|exact Px|exact Py]. rewrite E1, E2. auto.
Qed.
Lemma email_reads : reads email_string email_shown (fun e => Forall one_line (email_shown e)).
Proof. exact (sheet_reads _ _ _ _ _ (email_layout)). Qed.
Lemma lang_reads : reads lang_string lang_shown (fun e => Forall one_line (lang_shown e)).
Proof. refine (sheet_reads _ _ _ "Lang" "    language" _). intros x. apply ptext_layouts. Qed.
Lemma phone_reads : reads (phone_string X) phone_shown (fun e => Forall one_line (phone_shown e)).
Proof.
  intros x y r s Ox Oy E. unfold phone_shown in *. apply Forall_cons_iff in Ox as [Ox Px]. apply Forall_cons_iff in Oy as [Oy Py]. rewrite !phone_layout in E. unfold row in E. repeat rewrite <- app_assoc in E.
  destruct (ph_params x) as [|e m], (ph_params y) as [|e' m']; cbn [params_row params_shown concat app] in *.
  - do 2 apply app_inv_head in E. apply line_inv in E as [E1 E2]; [|exact Ox|exact Oy]. fin E2. rewrite E1. auto.
  - discriminate E.
  - discriminate E.
  - rewrite !app_nil_r in E. unfold row in E. repeat rewrite <- app_assoc in E. do 2 apply app_inv_head in E. cbn [app] in E.
    apply Forall_cons_iff in Px as [Px _]. apply Forall_cons_iff in Py as [Py _]. apply line_inv in E as [E0 E]; [|exact Px|exact Py].
    do 2 apply app_inv_head in E. apply line_inv in E as [E1 E2]; [|exact Ox|exact Oy]. fin E2. rewrite E0, E1. auto.
Qed.
Lemma key_tail (b c : bool) v w r s : one_line v -> one_line w ->
  row "  IsBinary" (yes_no b) ++ (if b then row "  Binary" v else row "  Text" v) ++ B "}" ++ [cLF] ++ r
  = row "  IsBinary" (yes_no c) ++ (if c then row "  Binary" w else row "  Text" w) ++ B "}" ++ [cLF] ++ s -> b = c /\ v = w /\ r = s.
Proof.
  intros Ov Ow E. destruct b, c; try discriminate E; apply app_inv_head in E; unfold row in E; repeat rewrite <- app_assoc in E;
    do 2 apply app_inv_head in E; apply line_inv in E as [E1 E2]; auto; fin E2; auto.
Qed.
Lemma key_reads : reads (key_string X) (key_shown X) (fun e => Forall one_line (key_shown X e)).
Proof.
  intros x y r s Ox Oy E. rewrite !key_layout in E. unfold key_shown in *.
  set (tx := key_type_label (dx_tr X) (ke_type x)) in *. set (ty := key_type_label (dx_tr X) (ke_type y)) in *. clearbody tx ty.
  apply Forall_app in Ox as [Ox Qx]. apply Forall_app in Oy as [Oy Qy]. repeat rewrite Forall_cons_iff in Ox. repeat rewrite Forall_cons_iff in Oy.
  destruct Ox as (O1 & O2 & O3 & O4 & _), Oy as (U1 & U2 & U3 & U4 & _).
  assert (Ix : (if ke_isbin x then row "  Binary" (to_base64 (ke_bin x)) else row "  Text" (ke_text x)) = (if ke_isbin x then row "  Binary" (if ke_isbin x then to_base64 (ke_bin x) else ke_text x) else row "  Text" (if ke_isbin x then to_base64 (ke_bin x) else ke_text x))) by (destruct (ke_isbin x); reflexivity).
  assert (Iy : (if ke_isbin y then row "  Binary" (to_base64 (ke_bin y)) else row "  Text" (ke_text y)) = (if ke_isbin y then row "  Binary" (if ke_isbin y then to_base64 (ke_bin y) else ke_text y) else row "  Text" (if ke_isbin y then to_base64 (ke_bin y) else ke_text y))) by (destruct (ke_isbin y); reflexivity).
  rewrite Ix, Iy in E. clear Ix Iy. set (dx := if ke_isbin x then to_base64 (ke_bin x) else ke_text x) in *. set (dy := if ke_isbin y then to_base64 (ke_bin y) else ke_text y) in *.
  unfold sheet in E. rewrite !concat_app in E. repeat rewrite <- app_assoc in E.
  assert (E0 : ke_id x = ke_id y /\ tx = ty /\
    (concat match ke_type x with KCustom => [row "  CustomType" (ke_custom x)] | _ => [] end ++ row "  IsBinary" (yes_no (ke_isbin x)) ++ (if ke_isbin x then row "  Binary" dx else row "  Text" dx) ++ B "}" ++ [cLF] ++ r
     = concat match ke_type y with KCustom => [row "  CustomType" (ke_custom y)] | _ => [] end ++ row "  IsBinary" (yes_no (ke_isbin y)) ++ (if ke_isbin y then row "  Binary" dy else row "  Text" dy) ++ B "}" ++ [cLF] ++ s)).
  { do 3 apply app_inv_head in E. cbn [concat] in E. rewrite !app_nil_r in E. repeat rewrite <- app_assoc in E.
    apply row_inv in E as [E1 E]; [|exact O1|exact U1]. apply row_inv in E as [E2 E]; [|exact O2|exact U2]. split; [exact E1|]. split; [exact E2|]. exact E. }
  destruct E0 as (-> & -> & E0). clear E. clearbody dx dy.
  destruct (ke_type x), (ke_type y); cbn [concat app] in E0 |- *; try discriminate E0; try (apply key_tail in E0 as (-> & -> & ->); auto; fail).
  rewrite !app_nil_r in E0. apply Forall_cons_iff in Qx as [Qx _]. apply Forall_cons_iff in Qy as [Qy _].
  apply row_inv in E0 as [-> E0]; auto. apply key_tail in E0 as (-> & -> & ->); auto.
Qed.

Definition lists_string (a : addressee) : ustring :=
  B "  Emails {" ++ [cLF] ++ (flat_map email_string (a_emails a) ++ B "  }" ++ [cLF])
  ++ B "  Langs {" ++ [cLF] ++ (flat_map lang_string (a_langs a) ++ B "  }" ++ [cLF])
  ++ B "  PhoneNumbers {" ++ [cLF] ++ (flat_map (phone_string X) (a_phones a) ++ B "  }" ++ [cLF])
  ++ B "  Addresses {" ++ [cLF] ++ (flat_map (address_string X) (a_addresses a) ++ B "  }" ++ [cLF])
  ++ B "  Keys {" ++ [cLF] ++ (flat_map (key_string X) (a_keys a) ++ B "  }" ++ [cLF]) ++ B "}" ++ [cLF].
Lemma data_row_shown i d u : data_row i d u = B "  " ++ source_shown i d u ++ [cLF].
Proof. unfold data_row, source_shown, row. destruct i; repeat rewrite <- app_assoc; reflexivity. Qed.
Lemma contact_woven a : contact_string X a = weave contact_labels (contact_shown X a) ++ lists_string a.
Proof.
  rewrite contact_layout, geo_layout, tz_layout, secrecy_layout, !picture_layout, sound_layout, gender_layout. unfold contact_labels, lists_string.
  let l := eval cbv [contact_shown picture_shown sound_shown app] in (contact_shown X a) in change (contact_shown X a) with l.
  rewrite !flat_map_concat_map, !data_row_shown. woven.
Qed.

Theorem contact_apart a b : all_one_line (contact_all X a) -> all_one_line (contact_all X b) ->
  contact_string X a = contact_string X b -> contact_all X a = contact_all X b.
Proof.
  intros (A0 & A1 & A2 & A3 & A4 & A5) (B0 & B1 & B2 & B3 & B4 & B5) E. cbn [contact_all sh_rows sh_emails sh_langs sh_phones sh_addresses sh_keys] in *.
  rewrite !contact_woven in E. apply weave_inv in E as [E0 E]; [|reflexivity|reflexivity|exact A0|exact B0]. unfold lists_string in E. repeat rewrite Forall_map in *.
  do 2 apply app_inv_head in E.
  apply (reads_list _ _ _ _ email_reads) in E as [E1 E]; [|intros x r s; rewrite email_layout; discriminate|exact A1|exact B1]. do 2 apply app_inv_head in E.
  apply (reads_list _ _ _ _ lang_reads) in E as [E2 E]; [|intros x r s; destruct (ptext_layouts x) as (_ & _ & _ & _ & _ & _ & -> & _); discriminate|exact A2|exact B2]. do 2 apply app_inv_head in E.
  apply (reads_list _ _ _ _ phone_reads) in E as [E3 E]; [|intros x r s; rewrite phone_layout; destruct (ph_params x); discriminate|exact A3|exact B3]. do 2 apply app_inv_head in E.
  apply (reads_list _ _ _ _ address_reads) in E as [E4 E]; [|intros x r s; rewrite address_layout; discriminate|exact A4|exact B4]. do 2 apply app_inv_head in E.
  apply (reads_list _ _ _ _ key_reads) in E as [E5 E]; [|intros x r s; rewrite key_layout; discriminate|exact A5|exact B5].
  unfold contact_all. congruence.
Qed.
End Apart.
