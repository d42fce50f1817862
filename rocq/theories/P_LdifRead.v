(** What the lines of an exported contact do to the variables of [LDIFToAddressee],
    one line after the other: lemmas for C28. *)
From Verif Require Import Base BaseFacts Utf8 Utf8Facts QtText M_ParamMap M_Values M_Date M_Addressee M_ContactGroup M_Ldif S_Ldif S_LdifContact P_Types P_Lists P_Date P_Ldif P_LdifEntry P_LdifConv P_LdifText.
Local Open Scope list_scope.
Local Open Scope nat_scope.

(** the variables with the members that the lines change as parameters *)
Definition St (uid fo fam giv pre dep note : ustring) (rev : datetime) (ph : list phone) (em : list email) (us : list rurl)
    (ti ro og ni : list ptext) (home work : address) (bd bm by_ : Z) (g : cgroup) (k : nat) (cs : list addressee) (gs : list cgroup) : rstate :=
  mkR (mkAddressee uid [] fo fam giv [] pre [] dt_null [] tz_new geo_new dep note [] rev [] SInvalid picture_new picture_new sound_new dt_null
         ph [] [] em [] [] gender_new [] [] [] [] [] [] [] us [] [] [] [] ti ro og ni [] false false false)
    home work bd bm by_ g k cs gs.
Definition or_ (v x : ustring) : ustring := if isnil v then x else v.
Definition tset (v : ustring) (l : list ptext) : list ptext :=
  if isnil v then l else match l with t :: r => ptext_set v t :: r | [] => [ptext_of v] end.
Definition eadd (v : ustring) (l : list email) : list email :=
  if isnil v || contains v (map em_mail l) then l else l ++ [email_of v].
Definition padd (E : LdifExt) (v : ustring) (t : N) (k : nat) (l : list phone) : list phone :=
  if isnil v then l else
  replace_or (fun q => leqb (ph_id q) (le_newid E k)) (phone_of (le_newid E k) v t) (negb (isnil (simplified v))) l.
Definition kadd (v : ustring) (k : nat) : nat := if isnil v then k else S k.
Definition nadd (v n : ustring) : ustring := if isnil v then n else if isnil n then v else n ++ cLF :: v.
Definition uadd (E : LdifExt) (v : ustring) (l : list rurl) : list rurl :=
  if isnil v then l else
  if isnil (match l with [] => [] | u :: _ => ru_url u end) && url_valid (env_url (le_env E)) (url_parse (env_url (le_env E)) v)
  then l ++ [mkRurl [] (url_parse (env_url (le_env E)) v)] else l.
Definition radd (E : LdifExt) (v : ustring) (x : datetime) : datetime :=
  if isnil v || leqb v (B "0Z") || negb (dt_valid (string_to_date v)) || dt_eq (le_env E) (string_to_date v) x then x
  else string_to_date v.
Definition aset (f : ustring -> address -> address) (v : ustring) (x : address) : address := if isnil v then x else f v x.
Definition ad_add_line (v : ustring) (x : address) : address := ad_set_street (ad_street x ++ cLF :: v) x.

(** ** One lemma for each line *)

Lemma guarded_text get put v a : (forall x, put (get x) x = x) -> a_empty a = false -> put_empty false a = a ->
  set_text get put v a = put v a.
Proof.
  intros P _ T. unfold set_text, guarded, touch. rewrite T. destruct (leqb v (get a)) eqn:L; [|reflexivity].
  apply leqb_eq in L. rewrite L. symmetry. apply P.
Qed.
Ltac settext setter get put := 
  match goal with |- take ?E ?r (?f, ?v) = _ => destruct v as [|vc vr]; [reflexivity|];
    change (take E r (f, vc :: vr)) with (r_set_a (setter (vc :: vr) (r_a r)) r);
    unfold setter; rewrite (guarded_text get put) by (try reflexivity; intros []; reflexivity); reflexivity end.
Ltac direct := match goal with |- take ?E ?r (?f, ?v) = _ => destruct v as [|vc vr]; reflexivity end.

Lemma st_given E uid fo fam giv pre dep note rev ph em us ti ro og ni home work bd bm by_ g k cs gs v :
  take E (St uid fo fam giv pre dep note rev ph em us ti ro og ni home work bd bm by_ g k cs gs) (B "givenname", v) = St uid fo fam (or_ v giv) pre dep note rev ph em us ti ro og ni home work bd bm by_ g k cs gs.
Proof. settext set_given a_given put_given. Qed.
Lemma st_family E uid fo fam giv pre dep note rev ph em us ti ro og ni home work bd bm by_ g k cs gs v :
  take E (St uid fo fam giv pre dep note rev ph em us ti ro og ni home work bd bm by_ g k cs gs) (B "sn", v) = St uid fo (or_ v fam) giv pre dep note rev ph em us ti ro og ni home work bd bm by_ g k cs gs.
Proof. settext set_family a_family put_family. Qed.
Lemma st_cn E uid fo fam giv pre dep note rev ph em us ti ro og ni home work bd bm by_ g k cs gs v :
  take E (St uid fo fam giv pre dep note rev ph em us ti ro og ni home work bd bm by_ g k cs gs) (B "cn", v) = St uid (or_ v fo) fam giv pre dep note rev ph em us ti ro og ni home work bd bm by_ g k cs gs.
Proof. settext set_formatted a_formatted put_formatted. Qed.
Lemma st_uid E uid fo fam giv pre dep note rev ph em us ti ro og ni home work bd bm by_ g k cs gs v :
  take E (St uid fo fam giv pre dep note rev ph em us ti ro og ni home work bd bm by_ g k cs gs) (B "uid", v) = St (or_ v uid) fo fam giv pre dep note rev ph em us ti ro og ni home work bd bm by_ g k cs gs.
Proof. settext set_uid a_uid put_uid. Qed.
Lemma st_vocation E uid fo fam giv pre dep note rev ph em us ti ro og ni home work bd bm by_ g k cs gs v :
  take E (St uid fo fam giv pre dep note rev ph em us ti ro og ni home work bd bm by_ g k cs gs) (B "vocation", v) = St uid fo fam giv (or_ v pre) dep note rev ph em us ti ro og ni home work bd bm by_ g k cs gs.
Proof. settext set_prefix a_prefix put_prefix. Qed.
Lemma st_department E uid fo fam giv pre dep note rev ph em us ti ro og ni home work bd bm by_ g k cs gs v :
  take E (St uid fo fam giv pre dep note rev ph em us ti ro og ni home work bd bm by_ g k cs gs) (B "department", v) = St uid fo fam giv pre (or_ v dep) note rev ph em us ti ro og ni home work bd bm by_ g k cs gs.
Proof. settext set_department a_department put_department. Qed.
Ltac settexts l setter := match goal with |- take ?E ?r (?f, ?v) = _ => destruct v as [|vc vr]; [reflexivity|];
    change (take E r (f, vc :: vr)) with (r_set_a (setter (vc :: vr) (r_a r)) r); destruct l; reflexivity end.
Lemma st_nickname E uid fo fam giv pre dep note rev ph em us ti ro og ni home work bd bm by_ g k cs gs v :
  take E (St uid fo fam giv pre dep note rev ph em us ti ro og ni home work bd bm by_ g k cs gs) (B "nickname", v) = St uid fo fam giv pre dep note rev ph em us ti ro og (tset v ni) home work bd bm by_ g k cs gs.
Proof. settexts ni set_nickname. Qed.
Lemma st_xmozillanickname E uid fo fam giv pre dep note rev ph em us ti ro og ni home work bd bm by_ g k cs gs v :
  take E (St uid fo fam giv pre dep note rev ph em us ti ro og ni home work bd bm by_ g k cs gs) (B "xmozillanickname", v) = St uid fo fam giv pre dep note rev ph em us ti ro og (tset v ni) home work bd bm by_ g k cs gs.
Proof. settexts ni set_nickname. Qed.
Lemma st_mozillanickname E uid fo fam giv pre dep note rev ph em us ti ro og ni home work bd bm by_ g k cs gs v :
  take E (St uid fo fam giv pre dep note rev ph em us ti ro og ni home work bd bm by_ g k cs gs) (B "mozillanickname", v) = St uid fo fam giv pre dep note rev ph em us ti ro og (tset v ni) home work bd bm by_ g k cs gs.
Proof. settexts ni set_nickname. Qed.
Lemma st_title E uid fo fam giv pre dep note rev ph em us ti ro og ni home work bd bm by_ g k cs gs v :
  take E (St uid fo fam giv pre dep note rev ph em us ti ro og ni home work bd bm by_ g k cs gs) (B "title", v) = St uid fo fam giv pre dep note rev ph em us (tset v ti) ro og ni home work bd bm by_ g k cs gs.
Proof. settexts ti set_title. Qed.
Lemma st_ou E uid fo fam giv pre dep note rev ph em us ti ro og ni home work bd bm by_ g k cs gs v :
  take E (St uid fo fam giv pre dep note rev ph em us ti ro og ni home work bd bm by_ g k cs gs) (B "ou", v) = St uid fo fam giv pre dep note rev ph em us ti (tset v ro) og ni home work bd bm by_ g k cs gs.
Proof. settexts ro set_role. Qed.
Lemma st_o E uid fo fam giv pre dep note rev ph em us ti ro og ni home work bd bm by_ g k cs gs v :
  take E (St uid fo fam giv pre dep note rev ph em us ti ro og ni home work bd bm by_ g k cs gs) (B "o", v) = St uid fo fam giv pre dep note rev ph em us ti ro (tset v og) ni home work bd bm by_ g k cs gs.
Proof. settexts og set_organization. Qed.
Lemma st_organization E uid fo fam giv pre dep note rev ph em us ti ro og ni home work bd bm by_ g k cs gs v :
  take E (St uid fo fam giv pre dep note rev ph em us ti ro og ni home work bd bm by_ g k cs gs) (B "organization", v) = St uid fo fam giv pre dep note rev ph em us ti ro (tset v og) ni home work bd bm by_ g k cs gs.
Proof. settexts og set_organization. Qed.
Lemma st_organizationname E uid fo fam giv pre dep note rev ph em us ti ro og ni home work bd bm by_ g k cs gs v :
  take E (St uid fo fam giv pre dep note rev ph em us ti ro og ni home work bd bm by_ g k cs gs) (B "organizationname", v) = St uid fo fam giv pre dep note rev ph em us ti ro (tset v og) ni home work bd bm by_ g k cs gs.
Proof. settexts og set_organization. Qed.
Lemma not_has v l : contains v (map em_mail l) = has_email v l.
Proof.
  unfold has_email, contains. induction l as [|e l IH]; [reflexivity|]. cbn [map existsb]. rewrite <- IH. f_equal.
Qed.
Lemma add_new v l : has_email v l = false -> add_email_list (email_of v) l = l ++ [email_of v].
Proof.
  intros H. unfold add_email_list. cbn [em_mail email_of]. destruct (find_split _ l) as [[[b x] t]|] eqn:F; [|reflexivity].
  apply find_split_Some in F. destruct F as (-> & X & _). unfold has_email in H. rewrite existsb_app in H. cbn [existsb] in H.
  cbv beta in X. rewrite X in H. cbn [orb] in H. rewrite orb_true_r in H. discriminate.
Qed.
Ltac setmail em := match goal with |- take ?E ?r (?f, ?v) = _ => destruct v as [|vc vr]; [reflexivity|];
    change (take E r (f, vc :: vr)) with (if contains (vc :: vr) (map em_mail em) then r else r_set_a (add_email (email_of (vc :: vr)) (r_a r)) r);
    unfold eadd; cbn [isnil orb]; destruct (contains (vc :: vr) (map em_mail em)) eqn:C; [reflexivity|];
    unfold add_email; change (a_emails (r_a r)) with em; change (em_mail (email_of (vc :: vr))) with (vc :: vr);
    rewrite not_has in C; rewrite C, add_new by exact C; reflexivity end.
Lemma st_mail E uid fo fam giv pre dep note rev ph em us ti ro og ni home work bd bm by_ g k cs gs v :
  take E (St uid fo fam giv pre dep note rev ph em us ti ro og ni home work bd bm by_ g k cs gs) (B "mail", v) = St uid fo fam giv pre dep note rev ph (eadd v em) us ti ro og ni home work bd bm by_ g k cs gs.
Proof. setmail em. Qed.
Lemma st_mozillasecondemail E uid fo fam giv pre dep note rev ph em us ti ro og ni home work bd bm by_ g k cs gs v :
  take E (St uid fo fam giv pre dep note rev ph em us ti ro og ni home work bd bm by_ g k cs gs) (B "mozillasecondemail", v) = St uid fo fam giv pre dep note rev ph (eadd v em) us ti ro og ni home work bd bm by_ g k cs gs.
Proof. setmail em. Qed.
Lemma st_othermailbox E uid fo fam giv pre dep note rev ph em us ti ro og ni home work bd bm by_ g k cs gs v :
  take E (St uid fo fam giv pre dep note rev ph em us ti ro og ni home work bd bm by_ g k cs gs) (B "othermailbox", v) = St uid fo fam giv pre dep note rev ph (eadd v em) us ti ro og ni home work bd bm by_ g k cs gs.
Proof. setmail em. Qed.
Ltac setphone := match goal with |- take ?E ?r (?f, ?v) = _ => destruct v as [|vc vr]; [reflexivity|];
  unfold padd; rewrite <- (simplified_idem (vc :: vr)); reflexivity end.
Lemma st_telephonenumber E uid fo fam giv pre dep note rev ph em us ti ro og ni home work bd bm by_ g k cs gs v :
  take E (St uid fo fam giv pre dep note rev ph em us ti ro og ni home work bd bm by_ g k cs gs) (B "telephonenumber", v) = St uid fo fam giv pre dep note rev (padd E v tWork k ph) em us ti ro og ni home work bd bm by_ g (kadd v k) cs gs.
Proof. setphone. Qed.
Lemma st_facsimiletelephonenumber E uid fo fam giv pre dep note rev ph em us ti ro og ni home work bd bm by_ g k cs gs v :
  take E (St uid fo fam giv pre dep note rev ph em us ti ro og ni home work bd bm by_ g k cs gs) (B "facsimiletelephonenumber", v) = St uid fo fam giv pre dep note rev (padd E v tFax k ph) em us ti ro og ni home work bd bm by_ g (kadd v k) cs gs.
Proof. setphone. Qed.
Lemma st_homephone E uid fo fam giv pre dep note rev ph em us ti ro og ni home work bd bm by_ g k cs gs v :
  take E (St uid fo fam giv pre dep note rev ph em us ti ro og ni home work bd bm by_ g k cs gs) (B "homephone", v) = St uid fo fam giv pre dep note rev (padd E v tHome k ph) em us ti ro og ni home work bd bm by_ g (kadd v k) cs gs.
Proof. setphone. Qed.
Lemma st_mobile E uid fo fam giv pre dep note rev ph em us ti ro og ni home work bd bm by_ g k cs gs v :
  take E (St uid fo fam giv pre dep note rev ph em us ti ro og ni home work bd bm by_ g k cs gs) (B "mobile", v) = St uid fo fam giv pre dep note rev (padd E v tCell k ph) em us ti ro og ni home work bd bm by_ g (kadd v k) cs gs.
Proof. setphone. Qed.
Lemma st_cellphone E uid fo fam giv pre dep note rev ph em us ti ro og ni home work bd bm by_ g k cs gs v :
  take E (St uid fo fam giv pre dep note rev ph em us ti ro og ni home work bd bm by_ g k cs gs) (B "cellphone", v) = St uid fo fam giv pre dep note rev (padd E v tCell k ph) em us ti ro og ni home work bd bm by_ g (kadd v k) cs gs.
Proof. setphone. Qed.
Lemma st_pager E uid fo fam giv pre dep note rev ph em us ti ro og ni home work bd bm by_ g k cs gs v :
  take E (St uid fo fam giv pre dep note rev ph em us ti ro og ni home work bd bm by_ g k cs gs) (B "pager", v) = St uid fo fam giv pre dep note rev (padd E v tPager k ph) em us ti ro og ni home work bd bm by_ g (kadd v k) cs gs.
Proof. setphone. Qed.
Lemma st_pagerphone E uid fo fam giv pre dep note rev ph em us ti ro og ni home work bd bm by_ g k cs gs v :
  take E (St uid fo fam giv pre dep note rev ph em us ti ro og ni home work bd bm by_ g k cs gs) (B "pagerphone", v) = St uid fo fam giv pre dep note rev (padd E v tPager k ph) em us ti ro og ni home work bd bm by_ g (kadd v k) cs gs.
Proof. setphone. Qed.
Lemma st_streethomeaddress E uid fo fam giv pre dep note rev ph em us ti ro og ni home work bd bm by_ g k cs gs v :
  take E (St uid fo fam giv pre dep note rev ph em us ti ro og ni home work bd bm by_ g k cs gs) (B "streethomeaddress", v) = St uid fo fam giv pre dep note rev ph em us ti ro og ni (aset ad_set_street v home) work bd bm by_ g k cs gs.
Proof. direct. Qed.
Lemma st_postalcode E uid fo fam giv pre dep note rev ph em us ti ro og ni home work bd bm by_ g k cs gs v :
  take E (St uid fo fam giv pre dep note rev ph em us ti ro og ni home work bd bm by_ g k cs gs) (B "postalcode", v) = St uid fo fam giv pre dep note rev ph em us ti ro og ni home (aset ad_set_postal v work) bd bm by_ g k cs gs.
Proof. direct. Qed.
Lemma st_postofficebox E uid fo fam giv pre dep note rev ph em us ti ro og ni home work bd bm by_ g k cs gs v :
  take E (St uid fo fam giv pre dep note rev ph em us ti ro og ni home work bd bm by_ g k cs gs) (B "postofficebox", v) = St uid fo fam giv pre dep note rev ph em us ti ro og ni home (aset ad_set_pobox v work) bd bm by_ g k cs gs.
Proof. direct. Qed.
Lemma st_homepostaladdress E uid fo fam giv pre dep note rev ph em us ti ro og ni home work bd bm by_ g k cs gs v :
  take E (St uid fo fam giv pre dep note rev ph em us ti ro og ni home work bd bm by_ g k cs gs) (B "homepostaladdress", v) = St uid fo fam giv pre dep note rev ph em us ti ro og ni (aset ad_set_street v home) work bd bm by_ g k cs gs.
Proof. direct. Qed.
Lemma st_mozillahomepostaladdress2 E uid fo fam giv pre dep note rev ph em us ti ro og ni home work bd bm by_ g k cs gs v :
  take E (St uid fo fam giv pre dep note rev ph em us ti ro og ni home work bd bm by_ g k cs gs) (B "mozillahomepostaladdress2", v) = St uid fo fam giv pre dep note rev ph em us ti ro og ni (aset ad_add_line v home) work bd bm by_ g k cs gs.
Proof. direct. Qed.
Lemma st_mozillahomelocalityname E uid fo fam giv pre dep note rev ph em us ti ro og ni home work bd bm by_ g k cs gs v :
  take E (St uid fo fam giv pre dep note rev ph em us ti ro og ni home work bd bm by_ g k cs gs) (B "mozillahomelocalityname", v) = St uid fo fam giv pre dep note rev ph em us ti ro og ni (aset ad_set_locality v home) work bd bm by_ g k cs gs.
Proof. direct. Qed.
Lemma st_mozillahomestate E uid fo fam giv pre dep note rev ph em us ti ro og ni home work bd bm by_ g k cs gs v :
  take E (St uid fo fam giv pre dep note rev ph em us ti ro og ni home work bd bm by_ g k cs gs) (B "mozillahomestate", v) = St uid fo fam giv pre dep note rev ph em us ti ro og ni (aset ad_set_region v home) work bd bm by_ g k cs gs.
Proof. direct. Qed.
Lemma st_mozillahomepostalcode E uid fo fam giv pre dep note rev ph em us ti ro og ni home work bd bm by_ g k cs gs v :
  take E (St uid fo fam giv pre dep note rev ph em us ti ro og ni home work bd bm by_ g k cs gs) (B "mozillahomepostalcode", v) = St uid fo fam giv pre dep note rev ph em us ti ro og ni (aset ad_set_postal v home) work bd bm by_ g k cs gs.
Proof. direct. Qed.
Lemma st_mozillahomecountryname E uid fo fam giv pre dep note rev ph em us ti ro og ni home work bd bm by_ g k cs gs v :
  take E (St uid fo fam giv pre dep note rev ph em us ti ro og ni home work bd bm by_ g k cs gs) (B "mozillahomecountryname", v) = St uid fo fam giv pre dep note rev ph em us ti ro og ni (aset (fun v => ad_set_country (read_country E v)) v home) work bd bm by_ g k cs gs.
Proof. direct. Qed.
Lemma st_locality E uid fo fam giv pre dep note rev ph em us ti ro og ni home work bd bm by_ g k cs gs v :
  take E (St uid fo fam giv pre dep note rev ph em us ti ro og ni home work bd bm by_ g k cs gs) (B "locality", v) = St uid fo fam giv pre dep note rev ph em us ti ro og ni home (aset ad_set_locality v work) bd bm by_ g k cs gs.
Proof. direct. Qed.
Lemma st_streetaddress E uid fo fam giv pre dep note rev ph em us ti ro og ni home work bd bm by_ g k cs gs v :
  take E (St uid fo fam giv pre dep note rev ph em us ti ro og ni home work bd bm by_ g k cs gs) (B "streetaddress", v) = St uid fo fam giv pre dep note rev ph em us ti ro og ni home (aset ad_set_street v work) bd bm by_ g k cs gs.
Proof. direct. Qed.
Lemma st_street E uid fo fam giv pre dep note rev ph em us ti ro og ni home work bd bm by_ g k cs gs v :
  take E (St uid fo fam giv pre dep note rev ph em us ti ro og ni home work bd bm by_ g k cs gs) (B "street", v) = St uid fo fam giv pre dep note rev ph em us ti ro og ni home (aset ad_set_street v work) bd bm by_ g k cs gs.
Proof. direct. Qed.
Lemma st_mozillaworkstreet2 E uid fo fam giv pre dep note rev ph em us ti ro og ni home work bd bm by_ g k cs gs v :
  take E (St uid fo fam giv pre dep note rev ph em us ti ro og ni home work bd bm by_ g k cs gs) (B "mozillaworkstreet2", v) = St uid fo fam giv pre dep note rev ph em us ti ro og ni home (aset ad_add_line v work) bd bm by_ g k cs gs.
Proof. direct. Qed.
Lemma st_countryname E uid fo fam giv pre dep note rev ph em us ti ro og ni home work bd bm by_ g k cs gs v :
  take E (St uid fo fam giv pre dep note rev ph em us ti ro og ni home work bd bm by_ g k cs gs) (B "countryname", v) = St uid fo fam giv pre dep note rev ph em us ti ro og ni home (aset (fun v => ad_set_country (read_country E v)) v work) bd bm by_ g k cs gs.
Proof. direct. Qed.
Lemma st_l E uid fo fam giv pre dep note rev ph em us ti ro og ni home work bd bm by_ g k cs gs v :
  take E (St uid fo fam giv pre dep note rev ph em us ti ro og ni home work bd bm by_ g k cs gs) (B "l", v) = St uid fo fam giv pre dep note rev ph em us ti ro og ni home (aset ad_set_locality v work) bd bm by_ g k cs gs.
Proof. direct. Qed.
Lemma st_c E uid fo fam giv pre dep note rev ph em us ti ro og ni home work bd bm by_ g k cs gs v :
  take E (St uid fo fam giv pre dep note rev ph em us ti ro og ni home work bd bm by_ g k cs gs) (B "c", v) = St uid fo fam giv pre dep note rev ph em us ti ro og ni home (aset (fun v => ad_set_country (read_country E v)) v work) bd bm by_ g k cs gs.
Proof. direct. Qed.
Lemma st_st E uid fo fam giv pre dep note rev ph em us ti ro og ni home work bd bm by_ g k cs gs v :
  take E (St uid fo fam giv pre dep note rev ph em us ti ro og ni home work bd bm by_ g k cs gs) (B "st", v) = St uid fo fam giv pre dep note rev ph em us ti ro og ni home (aset ad_set_region v work) bd bm by_ g k cs gs.
Proof. direct. Qed.
Ltac seturl us := match goal with |- take ?E ?r (?f, ?v) = _ => destruct v as [|vc vr]; [reflexivity|];
    change (take E r (f, vc :: vr)) with (if isnil (match us with [] => [] | u :: _ => ru_url u end)
       then r_set_a (insert_url (le_env E) (mkRurl [] (url_parse (env_url (le_env E)) (vc :: vr))) (r_a r)) r else evaluate_rest E f (vc :: vr) r);
    unfold uadd; cbn [isnil]; destruct (isnil match us with [] => [] | u :: _ => ru_url u end); [|reflexivity];
    unfold insert_url, rurl_valid; cbn [ru_url andb]; destruct (url_valid _ _); reflexivity end.
Lemma st_workurl E uid fo fam giv pre dep note rev ph em us ti ro og ni home work bd bm by_ g k cs gs v :
  take E (St uid fo fam giv pre dep note rev ph em us ti ro og ni home work bd bm by_ g k cs gs) (B "workurl", v) = St uid fo fam giv pre dep note rev ph em (uadd E v us) ti ro og ni home work bd bm by_ g k cs gs.
Proof. seturl us. Qed.
Lemma st_homeurl E uid fo fam giv pre dep note rev ph em us ti ro og ni home work bd bm by_ g k cs gs v :
  take E (St uid fo fam giv pre dep note rev ph em us ti ro og ni home work bd bm by_ g k cs gs) (B "homeurl", v) = St uid fo fam giv pre dep note rev ph em (uadd E v us) ti ro og ni home work bd bm by_ g k cs gs.
Proof. seturl us. Qed.
Lemma st_mozillahomeurl E uid fo fam giv pre dep note rev ph em us ti ro og ni home work bd bm by_ g k cs gs v :
  take E (St uid fo fam giv pre dep note rev ph em us ti ro og ni home work bd bm by_ g k cs gs) (B "mozillahomeurl", v) = St uid fo fam giv pre dep note rev ph em (uadd E v us) ti ro og ni home work bd bm by_ g k cs gs.
Proof. seturl us. Qed.
Lemma st_description E uid fo fam giv pre dep note rev ph em us ti ro og ni home work bd bm by_ g k cs gs v :
  take E (St uid fo fam giv pre dep note rev ph em us ti ro og ni home work bd bm by_ g k cs gs) (B "description", v) = St uid fo fam giv pre dep (nadd v note) rev ph em us ti ro og ni home work bd bm by_ g k cs gs.
Proof. match goal with |- take ?E ?r (?f, ?v) = _ => destruct v as [|vc vr]; [reflexivity|];
    change (take E r (f, vc :: vr)) with (let a1 := if isnil note then r_a r else set_note (note ++ [cLF]) (r_a r) in r_set_a (set_note (a_note a1 ++ vc :: vr) a1) r) end.
  unfold set_note, nadd. cbn [isnil]. destruct note as [|nc nr]; cbn [isnil].
  - rewrite (guarded_text a_note put_note) by (try reflexivity; intros []; reflexivity). reflexivity.
  - rewrite (guarded_text a_note put_note (_ ++ [_])) by (try reflexivity; intros []; reflexivity).
    rewrite (guarded_text a_note put_note) by (try reflexivity; intros []; reflexivity).
    cbn [a_note put_note St r_a]. rewrite <- app_assoc. reflexivity. Qed.
Lemma st_modifytimestamp E uid fo fam giv pre dep note rev ph em us ti ro og ni home work bd bm by_ g k cs gs v :
  take E (St uid fo fam giv pre dep note rev ph em us ti ro og ni home work bd bm by_ g k cs gs) (B "modifytimestamp", v) = St uid fo fam giv pre dep note (radd E v rev) ph em us ti ro og ni home work bd bm by_ g k cs gs.
Proof. match goal with |- take ?E ?r (?f, ?v) = _ => destruct v as [|vc vr]; [reflexivity|];
    change (take E r (f, vc :: vr)) with (if leqb (vc :: vr) (B "0Z") then r else if dt_valid (string_to_date (vc :: vr)) then
      r_set_a (set_revision (le_env E) (string_to_date (vc :: vr)) (r_a r)) r else r) end.
  unfold radd. cbn [isnil orb]. destruct (leqb _ _); [reflexivity|]. cbn [orb]. destruct (dt_valid _); [|reflexivity]. cbn [negb orb].
  unfold set_revision, guarded. change (a_revision (r_a (St uid fo fam giv pre dep note rev ph em us ti ro og ni home work bd bm by_ g k cs gs))) with rev.
  destruct (dt_eq _ _ _); reflexivity. Qed.
Lemma st_birthyear E uid fo fam giv pre dep note rev ph em us ti ro og ni home work bd bm by_ g k cs gs v :
  take E (St uid fo fam giv pre dep note rev ph em us ti ro og ni home work bd bm by_ g k cs gs) (B "birthyear", v) = St uid fo fam giv pre dep note rev ph em us ti ro og ni home work bd bm (if isnil v then by_ else match to_int_ok v with Some y => y | None => (-1)%Z end) g k cs gs.
Proof. direct. Qed.
Lemma st_birthmonth E uid fo fam giv pre dep note rev ph em us ti ro og ni home work bd bm by_ g k cs gs v :
  take E (St uid fo fam giv pre dep note rev ph em us ti ro og ni home work bd bm by_ g k cs gs) (B "birthmonth", v) = St uid fo fam giv pre dep note rev ph em us ti ro og ni home work bd (if isnil v then bm else to_int v) by_ g k cs gs.
Proof. direct. Qed.
Lemma st_birthday E uid fo fam giv pre dep note rev ph em us ti ro og ni home work bd bm by_ g k cs gs v :
  take E (St uid fo fam giv pre dep note rev ph em us ti ro og ni home work bd bm by_ g k cs gs) (B "birthday", v) = St uid fo fam giv pre dep note rev ph em us ti ro og ni home work (if isnil v then bd else to_int v) bm by_ g k cs gs.
Proof. direct. Qed.

(** ** The lines of a contact *)

Definition home_back (E : LdifExt) (id : ustring) (x : address) : address :=
  aset (fun v => ad_set_country (read_country E v)) (le_country E (ad_country x))
    (aset ad_set_postal (ad_postal x) (aset ad_set_region (ad_region x) (aset ad_set_locality (ad_locality x)
      (aset ad_add_line (second_line (ad_street x)) (aset ad_set_street (M_Ldif.first_line (ad_street x))
        (aset ad_set_street (ad_street x) (address_new id aHome))))))).
Definition work_back (E : LdifExt) (id : ustring) (x : address) : address :=
  aset ad_set_region (ad_region x) (aset (fun v => ad_set_country (read_country E v)) (le_country E (ad_country x))
    (aset ad_set_locality (ad_locality x) (aset (fun v => ad_set_country (read_country E v)) (le_country E (ad_country x))
      (aset ad_add_line (second_line (ad_street x)) (aset ad_set_street (M_Ldif.first_line (ad_street x))
        (aset ad_set_street (ad_street x) (aset ad_set_locality (ad_locality x)
          (aset ad_set_pobox (ad_pobox x) (aset ad_set_postal (ad_postal x) (address_new id aWork)))))))))).
(** the numbers in the order of the lines *)
Definition number_lines (a : addressee) : list (N * ustring) :=
  map (fun t => (t, ph_number (phone_number [] t a))) [tWork; tFax; tHome; tCell; tCell; tPager; tPager].
Definition pstep (E : LdifExt) (s : list phone * nat) (q : N * ustring) : list phone * nat :=
  (padd E (snd q) (fst q) (snd s) (fst s), kadd (snd q) (snd s)).
Definition birth_lines (b : Z * Z * Z) (a : addressee) : Z * Z * Z :=
  match dt_date (a_birthday a) with
  | None => b
  | Some d => (to_int (decimal (Z.to_N (d_day d))), to_int (decimal (Z.to_N (d_month d))),
      if (0 <? d_year d)%Z then match to_int_ok (decimal (Z.to_N (d_year d))) with Some y => y | None => (-1)%Z end else snd b)
  end.
Definition read_state (E : LdifExt) (rev : datetime) (k : nat) (b : Z * Z * Z) (cs : list addressee) (gs : list cgroup) (a : addressee) : rstate :=
  let '(ph, k') := fold_left (pstep E) (number_lines a) ([], k + 4) in
  let b' := birth_lines b a in
  St (or_ (a_uid a) (le_newid E k)) (simplified (a_formatted a)) (a_family a) (a_given a) (a_prefix a)
    (carried_department a) (a_note a)
    (radd E (if dt_valid (a_revision a) then date_to_string (a_revision a) else []) rev)
    ph (fold_left (fun l v => eadd v l) (emails_of a) [])
    (uadd E (url_text E a) (uadd E (url_text E a) (uadd E (url_text E a) [])))
    (tset (title a) []) (tset (role a) []) (tset (organization a) []) (tset (nickname a) [])
    (home_back E (le_newid E (k + 1)) (address_of [] aHome a)) (work_back E (le_newid E (k + 2)) (address_of [] aWork a))
    (fst (fst b')) (snd (fst b')) (snd b') (cgroup_new (le_newid E (k + 3))) k' cs gs.

Lemma start_St E rev k b cs gs : dt_valid rev = true ->
  r_start E rev k b cs gs = St (le_newid E k) [] [] [] [] [] [] rev [] [] [] [] [] [] []
    (address_new (le_newid E (k + 1)) aHome) (address_new (le_newid E (k + 2)) aWork) (fst (fst b)) (snd (fst b)) (snd b)
    (cgroup_new (le_newid E (k + 3))) (k + 4) cs gs.
Proof.
  intros V. unfold r_start, r_reset, set_revision, guarded, dt_eq. cbn [a_revision addressee_new]. rewrite V. reflexivity.
Qed.
Lemma or_nil v : or_ v [] = v. Proof. destruct v; reflexivity. Qed.
Lemma nadd_nil v : nadd v [] = v. Proof. destruct v; reflexivity. Qed.
Lemma tset_tset v l : tset v (tset v l) = tset v l.
Proof. unfold tset. destruct v; [reflexivity|]. cbn [isnil]. destruct l as [|[] l]; reflexivity. Qed.
Lemma other_mails E l : forall uid fo fam giv pre dep note rev ph em us ti ro og ni home work bd bm by_ g k cs gs,
  fold_left (take E) (map (fun x => (B "othermailbox", x)) l) (St uid fo fam giv pre dep note rev ph em us ti ro og ni home work bd bm by_ g k cs gs)
  = St uid fo fam giv pre dep note rev ph (fold_left (fun l v => eadd v l) l em) us ti ro og ni home work bd bm by_ g k cs gs.
Proof. induction l as [|x l IH]; intros; [reflexivity|]. cbn [map fold_left]. rewrite st_othermailbox. apply IH. Qed.
Lemma decimal_nonnil n : isnil (decimal n) = false.
Proof. destruct (decimal_spec n) as (_ & _ & L). specialize (L (N.to_nat n)). destruct (decimal n); [|reflexivity]. cbn in L.
  assert (n < 10 ^ N.of_nat (S (N.to_nat n)))%N; [|lia]. rewrite Nat2N.inj_succ, N2Nat.id.
  pose proof (N.pow_gt_lin_r 10 (N.succ n) ltac:(lia)). lia. Qed.

Lemma contact_state E rev k b cs gs a : dt_valid rev = true ->
  fold_left (take E) (contact_pairs E a) (r_start E rev k b cs gs) = read_state E rev k b cs gs a.
Proof.
  intros V. rewrite start_St by exact V. unfold contact_pairs. cbv zeta. rewrite !fold_left_app. 
  cbn [fold_left].
  rewrite st_given, st_family, st_cn, st_uid, st_nickname, st_xmozillanickname, st_mozillanickname, st_mail.
  rewrite !tset_tset, !or_nil.
  match goal with |- context [fold_left (take E) (emails_pairs (emails_of a)) (St ?uid ?fo ?fam ?giv ?pre ?dep ?note ?rev ?ph ?em ?us ?ti ?ro ?og ?ni ?home ?work ?bd ?bm ?by_ ?g ?k ?cs ?gs)] =>
    assert (EM : fold_left (take E) (emails_pairs (emails_of a)) (St uid fo fam giv pre dep note rev ph em us ti ro og ni home work bd bm by_ g k cs gs) =
      St uid fo fam giv pre dep note rev ph (fold_left (fun l v => eadd v l) (emails_of a) []) us ti ro og ni home work bd bm by_ g k cs gs) end.
  { unfold emails_of, preferred_email, emails_pairs. destruct (a_emails a) as [|e [|e2 l]]; try reflexivity. cbn [map fold_left].
    rewrite st_mozillasecondemail, other_mails. reflexivity. }
  rewrite EM. clear EM.
  rewrite st_telephonenumber, st_facsimiletelephonenumber, st_homephone, st_mobile, st_cellphone, st_pager, st_pagerphone,
    st_streethomeaddress, st_postalcode, st_postofficebox, st_homepostaladdress, st_mozillahomepostaladdress2, st_mozillahomelocalityname,
    st_mozillahomestate, st_mozillahomepostalcode, st_mozillahomecountryname, st_locality, st_streetaddress, st_street, st_mozillaworkstreet2,
    st_countryname, st_l, st_c, st_st, st_title, st_vocation, st_ou, st_o, st_organization, st_organizationname, st_department,
    st_workurl, st_homeurl, st_mozillahomeurl, st_description, st_modifytimestamp.
  rewrite !tset_tset, !or_nil, nadd_nil.
  unfold read_state, number_lines. cbn [map fold_left]. unfold pstep. cbn [fst snd].
  replace (if negb (isnil (a_department a)) then a_department a else custom vendor_id (B "X-Department") a) with (carried_department a)
    by (unfold carried_department; destruct (isnil (a_department a)); reflexivity).
  unfold birth_lines. destruct (dt_date (a_birthday a)) as [d|]; [|reflexivity].
  destruct (0 <? d_year d)%Z; cbn [app fold_left]; [rewrite st_birthyear|]; rewrite st_birthmonth, st_birthday, !decimal_nonnil; reflexivity.
Qed.
