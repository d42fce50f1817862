(** C61: the properties of a contact are variables.

    [field], [read], [write], [kept], [equal_to], [writable], [calls] (S_Api);
    [edit], [do_edit] (S_Orderly). *)
From Verif Require Import Base BaseFacts QtText M_ParamMap M_Values M_Date M_Addressee S_Card S_Addressee P_Addressee M_Api S_Api S_Orderly P_Api.
Import ListNotations.

(** A getter returns what the last call of its setter was given, whatever other setters
    were called before or after it. *)
Theorem C61_last_write :
  forall (L : Lib) (a : addressee) (before after : list call) (f : field) (v : value_of f),
    increasing (map fst (a_customs a)) -> writable L f v -> Forall (fun c => projT1 c <> f) after ->
    let x := read L f (calls L (before ++ set_to f v :: after) a) in
    x = kept f v \/ equal_to L f v x.
Proof.
  intros L a before after f v Hi Hw Ha x. unfold x. clear x. rewrite calls_app. change (set_to f v :: after) with ([set_to f v] ++ after). rewrite calls_app.
  pose proof (calls_ok L before a Hi) as Hb. rewrite calls_untouched; [|apply calls_ok; exact Hb|exact Ha].
  exact (write_read_same L f v _ Hb Hw).
Qed.
Print Assumptions C61_last_write.
(** and what it returned before if its setter was not called *)
Theorem C61_untouched :
  forall (L : Lib) (a : addressee) (cs : list call) (f : field),
    increasing (map fst (a_customs a)) -> Forall (fun c => projT1 c <> f) cs -> read L f (calls L cs a) = read L f a.
Proof. intros L a cs f Hi. apply calls_untouched. exact Hi. Qed.
Print Assumptions C61_untouched.
(** the five texts among the custom entries are visible under their names *)
Theorem C61_custom_entries :
  forall (L : Lib) (a : addressee) (v : ustring), increasing (map fst (a_customs a)) ->
    custom (B "KADDRESSBOOK") (B "X-AssistantsName") (write L FAssistant v a) = v /\
    custom (B "KADDRESSBOOK") (B "X-ManagersName") (write L FManager v a) = v /\
    custom (B "KADDRESSBOOK") (B "X-Office") (write L FOffice v a) = v /\
    custom (B "KADDRESSBOOK") (B "X-Profession") (write L FProfession v a) = v /\
    custom (B "KADDRESSBOOK") (B "X-SpousesName") (write L FSpouse v a) = v /\
    custom (B "KADDRESSBOOK") (B "BlogFeed") (write L FBlogfeed v a) = v.
Proof.
  intros L a v Hi. repeat split;
    match goal with |- custom _ _ (write L ?f v a) = v => rewrite custom_stored; fold vendor_id; pose proof (stored_write L f v a (custom_key f) Hi eq_refl) as Hs end;
    unfold at_key in Hs; cbn [custom_key custom_call] in Hs; unfold qualified, x_assistants, x_managers, x_office, x_profession, x_spouses, x_blogfeed in *;
    rewrite Hs; destruct v; reflexivity.
Qed.
Print Assumptions C61_custom_entries.

(** The property [birthday] of the meta object system has no argument for the time; what
    is read is the value that was set, or an equal one. *)
Theorem C61_birthday_property :
  forall (V : Env) (d : date) (t : time) (z : tspec) (a : addressee),
    (0 <= t_hour t /\ 0 <= t_min t /\ 0 <= t_sec t /\ 0 <= t_msec t)%Z ->
    let x := a_birthday (set_birthday_property V (mkDt (Some d) (Some t) z) a) in
    x = mkDt (Some d) (Some t) z \/ dt_eq V (mkDt (Some d) (Some t) z) x = true.
Proof.
  intros V d t z a Ht x. unfold x, set_birthday_property, set_birthday. cbn [dt_time].
  destruct (dt_eq _ _ _ && _) eqn:E; [right; apply andb_true_iff in E; apply E|]. left.
  destruct (Z.eqb_spec ((t_hour t * 3600 + t_min t * 60 + t_sec t) * 1000 + t_msec t) 0) as [H|H]; cbn [negb]; [|reflexivity].
  cbn. unfold dt_set_time, mk_dt. cbn [dt_date dt_spec]. f_equal. f_equal. destruct t; cbn in *. unfold midnight. f_equal; lia.
Qed.
Print Assumptions C61_birthday_property.

(** [setBirthday] with a date alone: that date, without a time, and nothing else. *)
Theorem C61_birthday_date :
  forall (L : Lib) (d : option date) (a : addressee),
    let b := set_birthday_date d a in
    dt_date (a_birthday b) = d /\ a_bdaytime b = false /\ (b = a \/ a_empty b = false) /\
    forall f, f <> FBirthday -> read L f b = read L f a.
Proof.
  intros L d a b. unfold b, set_birthday_date. destruct (date_eqb d (dt_date (a_birthday a)) && negb (a_bdaytime a)) eqn:E.
  - apply andb_true_iff in E as (E & F). apply negb_true_iff in F. split; [|split; [exact F|split; [left; reflexivity|reflexivity]]].
    destruct d as [[y m x]|], (dt_date (a_birthday a)) as [[y' m' x']|]; try discriminate; [|reflexivity]. cbn in E.
    apply andb_true_iff in E as (E & E3). apply andb_true_iff in E as (E1 & E2). apply Z.eqb_eq in E1, E2, E3. congruence.
  - split; [destruct d; reflexivity|]. split; [reflexivity|]. split; [right; reflexivity|]. intros f Hf. destruct f; try reflexivity. destruct Hf. reflexivity.
Qed.
Print Assumptions C61_birthday_date.
Example C61_birthday_date_case :
  let a := put_bdaytime true (put_birthday (mkDt (Some (mkDate 2000 1 2)) (Some (mkTime 1 0 0 0)) TUtc) (addressee_new [])) in
  let b := set_birthday_date (Some (mkDate 2000 1 2)) a in
  a_birthday b = mkDt (Some (mkDate 2000 1 2)) (Some midnight) TLocal /\ a_bdaytime b = false /\ b <> a.
Proof. vm_compute. repeat split; discriminate. Qed.

(** A contact counts as empty exactly if nothing has been stored in it: then it is the
    contact as it was created. *)
Theorem C61_empty :
  forall (V : Env) (uid : ustring) (es : list edit),
    Forall (fun e => match e with EText set _ => In set text_setters | _ => True end) es ->
    let a := fold_left (fun a e => do_edit V e a) es (addressee_new uid) in
    a_empty a = true <-> a = addressee_new uid.
Proof. intros V uid es H. split; [exact (empty_edits V es uid H)|]. cbv zeta. intros ->. reflexivity. Qed.
Print Assumptions C61_empty.

(** ** Where the value is not the one that was set *)
Definition noV : Env := {| env_url := {| url_parse := fun u => u; url_valid := fun u => negb (isnil u); url_scheme := fun _ => [] |};
  env_img := {| img_load := fun _ => None; img_save := fun _ _ => [] |};
  env_instant := fun d => match dt_date d, dt_time d with
                          | Some x, Some t => (d_day x * 24 + t_hour t - (match dt_spec d with TUtc => 0 | _ => 2 end))%Z | _, _ => 0%Z end |}.
Definition exL : Lib := {| l_env := noV; l_iso := fun d => B "2001-02-0" ++ [Z.to_N (48 + d_day d)];
  l_from_iso := fun s => match nth_error s 9 with Some c => Some (mkDate 2001 2 (Z.of_N c - 48)) | None => None end |}.
(** a moment is not replaced by the same moment in another zone *)
Theorem C61_zone_refuted :
  exists V (a : addressee) (d : datetime), a_revision (set_revision V d a) <> d /\ dt_spec d = TUtc /\ dt_spec (a_revision (set_revision V d a)) = TLocal.
Proof.
  exists noV, (put_revision (mkDt (Some (mkDate 2000 1 2)) (Some (mkTime 1 0 0 0)) TLocal) (addressee_new [])),
    (mkDt (Some (mkDate 2000 1 1)) (Some (mkTime 23 0 0 0)) TUtc). vm_compute. split; [discriminate|auto].
Qed.
Print Assumptions C61_zone_refuted.
(** so a birthday can stay that of the next day *)
Theorem C61_birthday_refuted :
  exists V (a : addressee) (d : datetime), let b := set_birthday V d false a in
    option_map d_day (dt_date d) = Some 1%Z /\ option_map d_day (dt_date (a_birthday b)) = Some 2%Z.
Proof.
  exists noV, (set_birthday_date (Some (mkDate 2000 1 2)) (addressee_new [])), (mkDt (Some (mkDate 2000 1 1)) (Some (mkTime 22 0 0 0)) TUtc).
  vm_compute. auto.
Qed.
Print Assumptions C61_birthday_refuted.

Example C61_case :
  let before := [set_to FOffice (B "12"); set_to FAnniversary (Some (mkDate 2001 2 3)); set_to FName (B "x")] in
  let after := [set_to FName []; set_to FProfession (B "p"); set_to FPhones []; set_to FOffice []] in
  let a := calls exL (before ++ set_to FAnniversary (Some (mkDate 2001 2 5)) :: after) (addressee_new []) in
  writable exL FAnniversary (Some (mkDate 2001 2 5)) /\ Forall (fun c => projT1 c <> FAnniversary) after /\
  read exL FAnniversary a = Some (mkDate 2001 2 5) /\ read exL FProfession a = B "p" /\ read exL FOffice a = [] /\ writable exL FBlogfeed (B "http://b") /\
  increasing (map fst (a_customs a)).
Proof. vm_compute. repeat split; repeat constructor; discriminate. Qed.
Example C61_empty_case :
  let es := [ENoEmail (B "x"); EText set_name []; ETitle (ptext_of [])] in
  a_empty (fold_left (fun a e => do_edit noV e a) es (addressee_new [])) = true /\
  a_empty (fold_left (fun a e => do_edit noV e a) (es ++ [EText set_name (B "n"); EText set_name []]) (addressee_new [])) = false.
Proof. vm_compute. auto. Qed.
