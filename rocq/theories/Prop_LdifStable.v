(** C90: exporting to LDIF what was imported from LDIF. *)
From Verif Require Import Base Utf8 QtText M_ParamMap M_Values M_Date M_Addressee M_ContactGroup M_Ldif S_Ldif S_LdifContact S_LdifStable P_Date P_LdifBack P_LdifStreet P_LdifStable Prop_Ldif Prop_Ldif2.
Local Open Scope list_scope.
Local Open Scope nat_scope.

(** Every steady list of contacts and groups: all of them are read back from the export,
    in order, and exporting what was read gives the same text. *)
Theorem C90_text :
  forall (E : LdifExt) (dt : datetime) (l : list addressee) (gs : list cgroup),
    sane E -> dt_valid dt = true -> steady E dt l -> steady_groups gs ->
    exists bs hs, ldif_to_addressee E (snd (all_to_ldif E l gs [])) dt [] [] = Some (bs, hs)
      /\ map a_uid bs = map a_uid l /\ length hs = length gs
      /\ snd (all_to_ldif E bs hs []) = snd (all_to_ldif E l gs []).
Proof. intros E dt l gs S V H G. destruct (steady_again E dt l gs S V H G) as (bs & hs & I & T & _ & _ & U & N). exists bs, hs. auto. Qed.
Print Assumptions C90_text.

(** Any number of exports and imports: it never fails, contacts and groups stay, and the
    text is always that of the first export. *)
Theorem C90_often :
  forall (E : LdifExt) (dt : datetime) (n : nat) (l : list addressee) (gs : list cgroup),
    sane E -> dt_valid dt = true -> steady E dt l -> steady_groups gs ->
    (exists r hs, ldif_trips E dt n l gs r hs)
    /\ forall r hs, ldif_trips E dt n l gs r hs ->
         map a_uid r = map a_uid l /\ length hs = length gs /\ snd (all_to_ldif E r hs []) = snd (all_to_ldif E l gs []).
Proof.
  intros E dt n l gs S V. revert l gs. induction n as [|n IH]; intros l gs H G.
  - split; [exists l, gs; constructor|]. intros r hs K. inversion K; subst. auto.
  - destruct (steady_again E dt l gs S V H G) as (bs & ks & I & T & HB & GB & U & N). destruct (IH bs ks HB GB) as ((r & hs & R) & A). split.
    + exists r, hs. econstructor; eassumption.
    + intros x xs K. inversion K as [|? ? ? m ms ? ? I' K']; subst. rewrite I in I'. injection I' as <- <-. destruct (A x xs K') as (A1 & A2 & A3).
      split; [rewrite A1; exact U|]. split; [rewrite A2; exact N|rewrite A3; exact T].
Qed.
Print Assumptions C90_often.

(** ** Lists that are not steady *)

(** An environment with a clock: seconds of the wall-clock time, months of 31 days. *)
Definition ex_seconds (x : datetime) : Z :=
  match dt_date x, dt_time x with
  | Some d, Some t => (((((d_year d * 12 + d_month d) * 31 + d_day d) * 24 + t_hour t) * 60 + t_min t) * 60 + t_sec t)%Z
  | _, _ => 0%Z
  end.
Definition ex_clock : LdifExt :=
  {| le_env := {| env_url := env_url ex_env; env_img := env_img ex_env; env_instant := ex_seconds |}; le_display := fun u => u;
     le_country := fun c => c; le_signed := true; le_now := ex_now; le_newid := fun k => decimal (N.of_nat k) |}.
Definition again (l : list addressee) : list addressee :=
  match ldif_to_addressee ex_clock (snd (addressees_to_ldif ex_clock l [])) ex_now [] [] with Some (bs, _) => bs | None => [] end.
Definition ex_dated (a : addressee) : addressee :=
  set_revision (le_env ex_clock) (mkDt (Some (mkDate 2020 2 29)) (Some (mkTime 23 59 58 999)) TUtc) a.
(** A street with an empty first line gets longer with every export and import. *)
Theorem C90_street_refuted :
  exists (a : addressee), exportable ex_clock a /\ a_empty a = false /\ named a = true /\ dt_valid (a_revision a) = true /\
    map (fun b => map ad_street (a_addresses b)) (again [a]) = [[nl ++ B "Back" ++ nl ++ B "Back"]] /\
    map (fun b => map ad_street (a_addresses b)) (again (again [a])) = [[nl ++ B "Back" ++ nl ++ B "Back" ++ nl ++ B "Back"]].
Proof.
  exists (ex_dated (insert_address (ad_set_street (nl ++ B "Back") (address_new (B "i") aHome)) (plain_contact [] (B "B") []))).
  split; [split; [vm_compute; reflexivity|split; vm_compute; auto]|]. repeat split; vm_compute; reflexivity.
Qed.
Print Assumptions C90_street_refuted.
(** The first export of a contact without date of revision has none; the next one has
    the date of the import. *)
Theorem C90_revision_refuted :
  exists (a : addressee), exportable ex_clock a /\ a_empty a = false /\ named a = true /\ length (again [a]) = 1 /\
    snd (addressees_to_ldif ex_clock (again [a]) []) <> snd (addressees_to_ldif ex_clock [a] []).
Proof.
  exists (plain_contact [] (B "B") []).
  split; [split; [vm_compute; reflexivity|split; vm_compute; auto]|]. repeat split; vm_compute; congruence.
Qed.
Print Assumptions C90_revision_refuted.

(** ** A list that meets the hypotheses *)

Definition ex_second : addressee :=
  ex_dated (insert_phone (phone_of (B "q") (B "7 8") tCell) (insert_phone (phone_of (B "p") (B "+49 30 1") tWork)
   (insert_address (ad_set_country (B "Germany") (ad_set_street (B "Main street 1" ++ nl ++ B "Back") (address_new (B "w") aWork)))
    (insert_url ex_env (mkRurl [] (B "https://kde.org")) (set_department (B "R&D")
     (set_birthday_date (Some (mkDate 1999 12 31))
      (add_email (email_of (B "b@kde.org")) (add_email (email_of (B "a@kde.org")) (plain_contact (B "Ann") [77; 252; 108]%N (B "Ann  M.")))))))))).
Lemma ex_clock_sane : sane ex_clock.
Proof.
  split; try reflexivity. intros i j H. cbn [ex_clock le_newid] in H.
  destruct (decimal_spec (N.of_nat i)) as (_ & A & _). destruct (decimal_spec (N.of_nat j)) as (_ & C & _). rewrite H in A. lia.
Qed.
Ltac by_parts := first [vm_compute; reflexivity | vm_compute; congruence].
Example C90_case :
  sane ex_clock /\ dt_valid ex_now = true /\ steady ex_clock ex_now [ex_dated (plain_contact [] (B "B") []); ex_second]
  /\ steady_groups [one_member (B "Ann") []; one_member [] (B "a@kde.org")]
  /\ length (a_phones ex_second) = 2 /\ map (fun b => length (a_phones b)) (again [ex_dated (plain_contact [] (B "B") []); ex_second]) = [0; 3].
Proof.
  split; [exact ex_clock_sane|]. split; [reflexivity|]. split; [|split; [|split; vm_compute; reflexivity]]; [split; [|split]|].
  - repeat constructor; vm_compute; auto.
  - constructor; [|constructor; [|constructor]]; split; try by_parts.
    + split; [vm_compute; constructor|vm_compute; auto].
    + split; left; vm_compute; reflexivity.
    + split; vm_compute; reflexivity.
    + split; [vm_compute; repeat constructor; cbn; intuition congruence|vm_compute; intuition congruence].
    + intros t I. cbn [In] in I. repeat (destruct I as [<-|I]; [vm_compute; reflexivity|]). destruct I.
    + split; [left; vm_compute; reflexivity|]. right; right. exists (B "Main street 1"), (B "Back"). split; [vm_compute; reflexivity|].
      repeat split; try (vm_compute; congruence); vm_compute; intuition congruence.
    + split; vm_compute; reflexivity.
    + split; vm_compute; reflexivity.
    + intros d H. vm_compute in H. injection H as <-. reflexivity.
  - constructor; [|constructor; [constructor|constructor]]. constructor; [|constructor]. vm_compute. congruence.
  - split; (constructor; [|constructor; [|constructor]]).
    + constructor; [|constructor]. split; [vm_compute; reflexivity|split; vm_compute; intuition discriminate].
    + constructor; [|constructor]. split; [vm_compute; reflexivity|split; vm_compute; intuition discriminate].
    + split; [discriminate|]. constructor; [|constructor]. split; [reflexivity|split; [reflexivity|right; reflexivity]].
    + split; [discriminate|]. constructor; [|constructor]. split; [reflexivity|split; [reflexivity|left; reflexivity]].
Qed.
