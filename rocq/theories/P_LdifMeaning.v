(** Lemmas for C81: what every attribute of an entry does to the variables of
    [LDIFToAddressee]. *)
From Verif Require Import Base BaseFacts Utf8 Utf8Facts QtText M_ParamMap M_Values M_Date M_Addressee M_ContactGroup M_Ldif S_Ldif S_LdifContact P_Types P_Lists P_Date P_Ldif P_LdifEntry P_LdifConv P_LdifText P_LdifRead S_LdifMeaning.
Local Open Scope list_scope.
Local Open Scope nat_scope.

(** all names *)
Definition known_names : list string :=
  ["dn"; "givenname"; "xmozillanickname"; "nickname"; "mozillanickname"; "sn"; "uid"; "mail"; "mozillasecondemail"; "othermailbox";
   "title"; "vocation"; "cn"; "o"; "organization"; "organizationname"; "description"; "mozillacustom1"; "mozillacustom2";
   "mozillacustom3"; "mozillacustom4"; "custom1"; "custom2"; "custom3"; "custom4"; "homeurl"; "workurl"; "mozillahomeurl";
   "homephone"; "telephonenumber"; "mobile"; "cellphone"; "pager"; "pagerphone"; "facsimiletelephonenumber"; "xmozillaanyphone";
   "streethomeaddress"; "mozillahomestreet"; "street"; "postaladdress"; "mozillapostaladdress2"; "mozillaworkstreet2";
   "postalcode"; "postofficebox"; "homepostaladdress"; "mozillahomepostaladdress2"; "mozillahomelocalityname"; "mozillahomestate";
   "mozillahomepostalcode"; "mozillahomecountryname"; "locality"; "streetaddress"; "countryname"; "c"; "l"; "st"; "ou";
   "department"; "member"; "modifytimestamp"; "display-name"; "objectclass"; "birthyear"; "birthmonth"; "birthday"; "xbatbirthday"]%string.
Lemma one_of_In l f : one_of l f = true <-> exists s, In s l /\ f = B s.
Proof.
  unfold one_of. rewrite existsb_exists. split; intros (s & I & H); exists s; (split; [exact I|]); [apply leqb_eq in H|apply leqb_eq]; exact H.
Qed.
Lemma one_of_sub l m f : (forall s, In s l -> In s m) -> one_of m f = false -> one_of l f = false.
Proof.
  intros S F. destruct (one_of l f) eqn:O; [|reflexivity]. apply one_of_In in O as (s & I & ->).
  enough (X : one_of m (B s) = true) by congruence. apply one_of_In. exists s. auto.
Qed.
Definition sub_names (l : list string) : bool := forallb (fun s => existsb (String.eqb s) known_names) l.
Lemma one_of_known l f : sub_names l = true -> one_of known_names f = false -> one_of l f = false.
Proof.
  intros S. apply one_of_sub. intros s I. unfold sub_names in S. rewrite forallb_forall in S. specialize (S s I).
  apply existsb_exists in S as (t & J & H). apply String.eqb_eq in H. subst. exact J.
Qed.
Lemma evaluate_unknown E f v r : one_of known_names f = false ->
  evaluate_pair E f v r = if isnil f && negb (isnil (a_note (r_a r))) then r_set_a (set_note (a_note (r_a r) ++ cLF :: v) (r_a r)) r else r.
Proof.
  intros U. unfold evaluate_pair, evaluate_rest. cbv zeta.
  repeat match goal with |- context [one_of ?l f] => rewrite (one_of_known l f eq_refl U) end.
  destruct f as [|c f]; [reflexivity|]. cbn [isnil andb]. destruct (first_is 35 (c :: f)); reflexivity.
Qed.

(** ** The variables *)

Definition SU (uid fo fam giv pre dep note : ustring) (rev : datetime) (ph : list phone) (em : list email) (us : list rurl)
    (ti ro og ni : list ptext) (bday : option date) (home work : address) (bd bm by_ : Z) (g : cgroup) (k : nat) (cs : list addressee) (gs : list cgroup) : rstate :=
  mkR (mkAddressee uid [] fo fam giv [] pre [] (match bday with Some d => mkDt (Some d) (Some midnight) TLocal | None => dt_null end) [] tz_new geo_new dep note [] rev [] SInvalid picture_new picture_new sound_new dt_null
         ph [] [] em [] [] gender_new [] [] [] [] [] [] [] us [] [] [] [] ti ro og ni [] false false false)
    home work bd bm by_ g k cs gs.

Definition u_last (names : list string) (p : ustring * ustring) (x : ustring) : ustring := if called names p then snd p else x.
Definition u_text (names : list string) (p : ustring * ustring) (l : list ptext) : list ptext :=
  if called names p then match l with t :: r => ptext_set (snd p) t :: r | [] => if isnil (snd p) then [] else [ptext_of (snd p)] end else l.
Definition u_note (p : ustring * ustring) (n : ustring) : ustring :=
  if called note_names p || isnil (fst p) && negb (isnil n) then (if isnil n then snd p else n ++ cLF :: snd p) else n.
Definition u_mail (p : ustring * ustring) (l : list email) : list email :=
  if called ["mail"; "mozillasecondemail"; "othermailbox"]%string p then
    if contains (snd p) (map em_mail l) then l else l ++ [email_of (snd p)]
  else l.
Definition kind_of (p : ustring * ustring) : list N := flat_map (fun k => if leqb (fst p) (B (fst k)) then [snd k] else []) phone_kinds.
Definition u_phone (E : LdifExt) (k : nat) (p : ustring * ustring) (l : list phone) : list phone :=
  match kind_of p with
  | t :: _ => replace_or (fun q => leqb (ph_id q) (le_newid E k)) (phone_of (le_newid E k) (snd p) t) (negb (isnil (simplified (simplified (snd p))))) l
  | [] => l
  end.
Definition u_k (p : ustring * ustring) (k : nat) : nat := match kind_of p with _ :: _ => S k | [] => k end.
Definition u_url (E : LdifExt) (p : ustring * ustring) (l : list rurl) : list rurl :=
  if called ["homeurl"; "workurl"; "mozillahomeurl"]%string p
     && isnil (match l with [] => [] | u :: _ => ru_url u end) && url_valid (env_url (le_env E)) (url_parse (env_url (le_env E)) (snd p))
  then l ++ [mkRurl [] (url_parse (env_url (le_env E)) (snd p))] else l.
Definition u_rev (E : LdifExt) (p : ustring * ustring) (x : datetime) : datetime :=
  if called ["modifytimestamp"]%string p then
    if leqb (snd p) (B "0Z") || negb (dt_valid (string_to_date (snd p))) || dt_eq (le_env E) (string_to_date (snd p)) x then x
    else string_to_date (snd p)
  else x.
Definition u_bat (p : ustring * ustring) (x : option date) : option date :=
  if called ["xbatbirthday"]%string p then match eight (snd p) with Some d => Some d | None => x end else x.
Definition u_home (E : LdifExt) (p : ustring * ustring) (x : address) : address :=
  if called home_names p then
    mkAddress false (ad_id x) (ad_type x) (ad_geo x) (ad_pobox x) (ad_extended x)
      (if called ["streethomeaddress"; "mozillahomestreet"; "homepostaladdress"]%string p then snd p
       else if called ["mozillahomepostaladdress2"]%string p then ad_street x ++ cLF :: snd p else ad_street x)
      (u_last ["mozillahomelocalityname"]%string p (ad_locality x)) (u_last ["mozillahomestate"]%string p (ad_region x))
      (u_last ["mozillahomepostalcode"]%string p (ad_postal x))
      (if called ["mozillahomecountryname"]%string p then read_country E (snd p) else ad_country x) (ad_label x)
  else x.
Definition u_work (E : LdifExt) (p : ustring * ustring) (x : address) : address :=
  if called work_names p then
    mkAddress false (ad_id x) (ad_type x) (ad_geo x) (u_last ["postofficebox"]%string p (ad_pobox x)) (ad_extended x)
      (if called ["street"; "postaladdress"; "streetaddress"]%string p then snd p
       else if called ["mozillapostaladdress2"; "mozillaworkstreet2"]%string p then ad_street x ++ cLF :: snd p else ad_street x)
      (u_last ["l"; "locality"]%string p (ad_locality x)) (u_last ["st"]%string p (ad_region x))
      (u_last ["postalcode"]%string p (ad_postal x))
      (if called ["c"; "countryname"]%string p then read_country E (snd p) else ad_country x) (ad_label x)
  else x.
Definition u_int (bad : Z) (names : list string) (p : ustring * ustring) (x : Z) : Z :=
  if called names p then match to_int_ok (snd p) with Some n => n | None => bad end else x.
Definition u_group (p : ustring * ustring) (g : cgroup) : cgroup :=
  if called ["member"]%string p then cg_append_data (member_data (snd p)) g
  else if called ["display-name"]%string p then cg_set_name (snd p) g else g.

Lemma to_int_bad v : to_int v = match to_int_ok v with Some n => n | None => 0%Z end.
Proof.
  unfold to_int, to_int_ok. destruct (utrimmed v) as [|c r].
  - destruct (all_digits []); [|reflexivity]. destruct (_ && _)%bool; reflexivity.
  - destruct (N.eqb c 45); [|destruct (N.eqb c 43)]; (destruct (all_digits _); [|reflexivity]); destruct (_ && _)%bool; reflexivity.
Qed.

Lemma su_text get put v E f uid fo fam giv pre dep note rev ph em us ti ro og ni bday home work bd bm by_ g k cs gs X :
  (forall x, put (get x) x = x) ->
  let r := SU uid fo fam giv pre dep note rev ph em us ti ro og ni bday home work bd bm by_ g k cs gs in
  evaluate_pair E f v r = r_set_a (set_text get put v (r_a r)) r -> r_set_a (put v (r_a r)) r = X -> evaluate_pair E f v r = X.
Proof. intros P r H <-. rewrite H. f_equal. apply guarded_text; [exact P|reflexivity|reflexivity]. Qed.

Ltac text_case get put := refine (su_text get put _ _ _ _ _ _ _ _ _ _ _ _ _ _ _ _ _ _ _ _ _ _ _ _ _ _ _ _ _ _ _ _); [intros []; reflexivity|reflexivity|reflexivity].

Lemma mail_case v uid fo fam giv pre dep note rev ph em us ti ro og ni bday home work bd bm by_ g k cs gs :
  let r := SU uid fo fam giv pre dep note rev ph em us ti ro og ni bday home work bd bm by_ g k cs gs in
  (if contains v (map em_mail em) then r else r_set_a (add_email (email_of v) (r_a r)) r) =
  SU uid fo fam giv pre dep note rev ph (if contains v (map em_mail em) then em else em ++ [email_of v]) us ti ro og ni bday home work bd bm by_ g k cs gs.
Proof.
  intros r. destruct (contains v (map em_mail em)) eqn:C; [reflexivity|]. unfold add_email. change (a_emails (r_a r)) with em.
  change (em_mail (email_of v)) with v. rewrite not_has in C. rewrite C, add_new by exact C. reflexivity.
Qed.
Lemma note_case v uid fo fam giv pre dep note rev ph em us ti ro og ni bday home work bd bm by_ g k cs gs :
  let r := SU uid fo fam giv pre dep note rev ph em us ti ro og ni bday home work bd bm by_ g k cs gs in
  (let a1 := if isnil note then r_a r else set_note (note ++ [cLF]) (r_a r) in r_set_a (set_note (a_note a1 ++ v) a1) r) =
  SU uid fo fam giv pre dep (if isnil note then v else note ++ cLF :: v) rev ph em us ti ro og ni bday home work bd bm by_ g k cs gs.
Proof.
  intros r. unfold set_note. destruct note as [|nc nr]; cbn [isnil]; cbv zeta.
  - rewrite (guarded_text a_note put_note) by (try reflexivity; intros []; reflexivity). reflexivity.
  - rewrite (guarded_text a_note put_note (_ ++ [_])) by (try reflexivity; intros []; reflexivity).
    rewrite (guarded_text a_note put_note) by (try reflexivity; intros []; reflexivity).
    change (a_note (put_note ((nc :: nr) ++ [cLF]) (r_a r))) with ((nc :: nr) ++ [cLF]). rewrite <- app_assoc. reflexivity.
Qed.
Lemma url_case E v uid fo fam giv pre dep note rev ph em us ti ro og ni bday home work bd bm by_ g k cs gs :
  let r := SU uid fo fam giv pre dep note rev ph em us ti ro og ni bday home work bd bm by_ g k cs gs in
  (if isnil (match us with [] => [] | u :: _ => ru_url u end) then r_set_a (insert_url (le_env E) (mkRurl [] (url_parse (env_url (le_env E)) v)) (r_a r)) r else r) =
  SU uid fo fam giv pre dep note rev ph em (if isnil (match us with [] => [] | u :: _ => ru_url u end) && url_valid (env_url (le_env E)) (url_parse (env_url (le_env E)) v) then us ++ [mkRurl [] (url_parse (env_url (le_env E)) v)] else us) ti ro og ni bday home work bd bm by_ g k cs gs.
Proof.
  intros r. destruct (isnil (match us with [] => [] | u :: _ => ru_url u end)); [|reflexivity]. unfold insert_url, rurl_valid. cbn [ru_url andb].
  destruct (url_valid _ _); reflexivity.
Qed.
Lemma rev_case E v uid fo fam giv pre dep note rev ph em us ti ro og ni bday home work bd bm by_ g k cs gs :
  let r := SU uid fo fam giv pre dep note rev ph em us ti ro og ni bday home work bd bm by_ g k cs gs in
  (if leqb v (B "0Z") then r else if dt_valid (string_to_date v) then r_set_a (set_revision (le_env E) (string_to_date v) (r_a r)) r else r) =
  SU uid fo fam giv pre dep note (if leqb v (B "0Z") || negb (dt_valid (string_to_date v)) || dt_eq (le_env E) (string_to_date v) rev then rev else string_to_date v) ph em us ti ro og ni bday home work bd bm by_ g k cs gs.
Proof.
  intros r. destruct (leqb v (B "0Z")); [reflexivity|]. cbn [orb]. destruct (dt_valid (string_to_date v)); [|reflexivity]. cbn [negb orb].
  unfold set_revision, guarded. change (a_revision (r_a r)) with rev. destruct (dt_eq _ _ _); reflexivity.
Qed.
Lemma bat_case v uid fo fam giv pre dep note rev ph em us ti ro og ni bday home work bd bm by_ g k cs gs :
  let r := SU uid fo fam giv pre dep note rev ph em us ti ro og ni bday home work bd bm by_ g k cs gs in
  match eight v with Some d => r_set_a (set_birthday_date (Some d) (r_a r)) r | None => r end =
  SU uid fo fam giv pre dep note rev ph em us ti ro og ni (match eight v with Some d => Some d | None => bday end) home work bd bm by_ g k cs gs.
Proof.
  intros r. destruct (eight v) as [d|]; [|reflexivity]. unfold set_birthday_date. destruct (date_eqb (Some d) (dt_date (a_birthday (r_a r))) && negb (a_bdaytime (r_a r))) eqn:D; [|reflexivity].
  apply andb_prop in D as [D _]. destruct bday as [x|]; [|discriminate]. cbn [r r_a SU a_birthday dt_date date_eqb] in D.
  destruct d, x. cbn in D. apply andb_prop in D as [D D3]. apply andb_prop in D as [D1 D2]. apply Z.eqb_eq in D1, D2, D3. subst. reflexivity.
Qed.

Lemma evaluate_SU E f v uid fo fam giv pre dep note rev ph em us ti ro og ni bday home work bd bm by_ g k cs gs :
  let p := (f, v) in
  evaluate_pair E f v (SU uid fo fam giv pre dep note rev ph em us ti ro og ni bday home work bd bm by_ g k cs gs) =
  SU (u_last ["uid"]%string p uid) (u_last ["cn"]%string p fo) (u_last ["sn"]%string p fam) (u_last ["givenname"]%string p giv)
    (u_last ["vocation"]%string p pre) (u_last ["department"]%string p dep) (u_note p note) (u_rev E p rev) (u_phone E k p ph) (u_mail p em)
    (u_url E p us) (u_text ["title"]%string p ti) (u_text ["ou"]%string p ro) (u_text ["o"; "organization"; "organizationname"]%string p og)
    (u_text ["nickname"; "xmozillanickname"; "mozillanickname"]%string p ni) (u_bat p bday) (u_home E p home) (u_work E p work)
    (u_int 0 ["birthday"]%string p bd) (u_int 0 ["birthmonth"]%string p bm) (u_int (-1) ["birthyear"]%string p by_)
    (u_group p g) (u_k p k) cs gs.
Proof.
  intros p. destruct (one_of known_names f) eqn:K.
  2:{ rewrite evaluate_unknown by exact K. subst p.
      assert (C : forall l, sub_names l = true -> called l (f, v) = false) by (intros l S; exact (one_of_known l f S K)).
      assert (KO : kind_of (f, v) = []).
      { unfold kind_of. assert (X : forall n, In n (map fst phone_kinds) -> leqb f (B n) = false).
        { intros n I. pose proof (one_of_known (map fst phone_kinds) f eq_refl K) as Y. destruct (leqb f (B n)) eqn:L; [|reflexivity].
          enough (one_of (map fst phone_kinds) f = true) by congruence. apply one_of_In. exists n. split; [exact I|]. apply leqb_eq. exact L. }
        revert X. generalize phone_kinds. intros l X. induction l as [|x l IH]; [reflexivity|]. cbn [flat_map fst]. rewrite X by (left; reflexivity).
        apply IH. intros n I. apply X. right. exact I. }
      unfold u_last, u_note, u_rev, u_phone, u_k, u_mail, u_url, u_text, u_bat, u_home, u_work, u_int, u_group. rewrite KO, !C by reflexivity.
      cbn [orb andb fst snd]. change (a_note (r_a (SU uid fo fam giv pre dep note rev ph em us ti ro og ni bday home work bd bm by_ g k cs gs))) with note.
      destruct (isnil f && negb (isnil note)) eqn:Z; [|reflexivity]. apply andb_prop in Z as [_ Z]. destruct (isnil note); [discriminate|].
      unfold set_note. rewrite (guarded_text a_note put_note); [reflexivity|intros []; reflexivity|reflexivity|reflexivity]. }
  apply one_of_In in K as (s & I & ->). cbv [known_names In] in I.
  repeat match type of I with _ \/ _ => destruct I as [<-|I] | False => destruct I end.
  all: try reflexivity.
  all: try text_case a_given put_given.
  all: try text_case a_family put_family.
  all: try text_case a_formatted put_formatted.
  all: try text_case a_uid put_uid.
  all: try text_case a_prefix put_prefix.
  all: try text_case a_department put_department.
  all: try (destruct ni; [destruct v|]; reflexivity).
  all: try (destruct ti; [destruct v|]; reflexivity).
  all: try (destruct ro; [destruct v|]; reflexivity).
  all: try (destruct og; [destruct v|]; reflexivity).
  all: try exact (mail_case v uid fo fam giv pre dep note rev ph em us ti ro og ni bday home work bd bm by_ g k cs gs).
  all: try exact (note_case v uid fo fam giv pre dep note rev ph em us ti ro og ni bday home work bd bm by_ g k cs gs).
  all: try exact (url_case E v uid fo fam giv pre dep note rev ph em us ti ro og ni bday home work bd bm by_ g k cs gs).
  all: try exact (rev_case E v uid fo fam giv pre dep note rev ph em us ti ro og ni bday home work bd bm by_ g k cs gs).
  all: try exact (bat_case v uid fo fam giv pre dep note rev ph em us ti ro og ni bday home work bd bm by_ g k cs gs).
  all: match goal with |- evaluate_pair _ _ _ ?r = _ => unfold u_int end.
  - change (called ["birthmonth"%string] p) with true. cbv iota. change (snd p) with v. rewrite <- to_int_bad. reflexivity.
  - change (called ["birthday"%string] p) with true. cbv iota. change (snd p) with v. rewrite <- to_int_bad. reflexivity.
Qed.
