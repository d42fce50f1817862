(** C75: the text of a formatted address, exactly. *)
From Verif Require Import Base BaseFacts M_Values M_AddressFormat S_AddressFormat P_AddressFormat P_AddressFormat3 P_AddressFormat4 S_FormatText P_FormatText Prop_AddressFormat.
Open Scope N_scope.

(** [formatted] gives the text that the format of the country, the style and the contents
    of the address determine, and no other. *)
Theorem C75_text :
  forall (X : FmtExt) (a : address) (style : fstyle) (name org t : ustring),
    (forall s, fx_upper X s = [] -> s = []) ->
    (formatted X a style name org = Some t <-> address_text X a style name org t).
Proof.
  intros X a style name org t U. unfold formatted, format_address, address_text.
  set (fp := match style with Postal => if isnil org then Generic else Business | _ => Generic end).
  set (sp := match detect (fx_script X) a with O => Latin | _ => Local end).
  assert (F : format_for_address X a fp = format_for_country X (country_code X a) sp fp) by (unfold format_for_address; rewrite code_of; reflexivity).
  rewrite F. rewrite format_lines_spec by (auto; apply proper_es).
  rewrite (lines_same X a name org style sp fp), (force_same X a style sp fp).
  assert (E : af_elements (format_for_country X (country_code X a) sp fp)
              = parse_elements (chosen X (country_code X a) (Nat.eqb (script_of X a) 0) (match style with Postal => negb (isnil org) | _ => false end))).
  { cbn [format_for_country af_elements]. rewrite chosen_string. do 2 f_equal.
    - unfold sp. rewrite script_detect. destruct (script_of X a); reflexivity.
    - unfold fp. destruct style; try reflexivity. destruct (isnil org); reflexivity. }
  rewrite E.
  assert (S : forall s, separator X a style = Some s <-> between X a style s).
  { intros s. unfold separator, between. rewrite script_detect. destruct style; cbn [st_sep single map_query];
      (split; [intros K; try exact K; inversion K; reflexivity|intros K; try exact K; subst; reflexivity]). }
  split.
  - destruct (separator X a style) as [sep|] eqn:Q; [|discriminate]. intros K. inversion K; subst.
    exists (parse_elements (chosen X (country_code X a) (Nat.eqb (script_of X a) 0) (match style with Postal => negb (isnil org) | _ => false end))).
    exists (parse_elements (chosen X (fx_own X) false false)), sep. repeat split. apply S, eq_refl.
  - intros (es & home & sep & <- & <- & B1 & ->). apply S in B1. rewrite B1. reflexivity.
Qed.
Print Assumptions C75_text.

(** There is such a text for every address. *)
Theorem C75_every :
  forall (X : FmtExt) (a : address) (style : fstyle) (name org : ustring),
    (forall s, fx_upper X s = [] -> s = []) -> (forall c, (fx_script X c < 4)%nat) ->
    exists t, address_text X a style name org t.
Proof.
  intros X a style name org U S. destruct (format_total X a name org (format_for_address X a (match style with Postal => if isnil org then Generic else Business | _ => Generic end)) style S) as [t H].
  exists t. apply C75_text; [exact U|exact H].
Qed.
Print Assumptions C75_every.

(** A country whose format begins with a literal does not come first. *)
Definition C75_world : FmtExt :=
  {| fx_config := fun c k => if leqb c (B "JP") && leqb k (B "AddressFormat") then Some (B "T%Z%n%S%n%A%n%O%n%N") else fx_config demo c k;
     fx_alpha2 := fx_alpha2 demo; fx_byname := fx_byname demo; fx_own := B "JP"; fx_name := fx_name demo; fx_upper := fx_upper demo; fx_script := fx_script demo |}.
Definition C75_a : address := ad_set_country (B "DE") (ad_set_extended (B "3rd floor") (ad_set_street (B "Street 1") (ad_set_locality (B "Town") (address_new [] 0)))).
Example C75_case :
  address_text C75_world C75_a Postal (B "Eva") [] (B "Eva
3rd floor
Street 1
Town

Germany") /\
  address_text C75_world C75_a SingleInternational (B "Eva") [] (B "Eva, 3rd floor, Street 1, Town, Germany") /\
  address_text C75_world C75_a GeoQuery (B "Eva") [] (B "Street 1,Town,DE").
Proof.
  split; [|split]; apply C75_text; try (vm_compute; reflexivity).
  all: intros s H; destruct s; [reflexivity|discriminate H].
Qed.
