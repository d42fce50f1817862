(** What address format strings and formatted addresses mean, stated without
    reference to the parser's and the formatter's loops. *)
From Verif Require Import Base M_Values M_AddressFormat.
Open Scope N_scope.

(** ** Format strings *)

(** the letter of each field *)
Definition letter (f : N) : N :=
  if f =? fStreet then 65 else if f =? fLocality then 67 else if f =? fDependent then 68
  else if f =? fName then 78 else if f =? fOrg then 79 else if f =? fPobox then 80
  else if f =? fCountry then 82 else if f =? fRegion then 83 else if f =? fSorting then 88
  else 90.
Definition known_letters : ustring := B "ACDNOPRSXZ".
Definition is_letter (c : N) : bool := existsb (N.eqb c) known_letters.

(** an element written as in a format string *)
Definition show (e : elem) : ustring :=
  if is_field e then [cPERCENT; letter (e_field e)]
  else if is_lit e then e_lit e
  else [cPERCENT; cNN].
Definition show_all (es : list elem) : ustring := concat (map show es).

(** every percent sign that has a next character starts a known field or a line
    separator *)
Fixpoint only_known (s : ustring) : bool :=
  match s with
  | [] => true
  | c :: s' =>
      match s' with
      | d :: s'' => if c =? cPERCENT then (is_letter d || (d =? cNN)) && only_known s'' else only_known s'
      | [] => true
      end
  end.

(** the text does not end inside such a pair *)
Fixpoint closed (s : ustring) : bool :=
  match s with
  | [] => true
  | c :: s' =>
      match s' with
      | _ :: s'' => if c =? cPERCENT then closed s'' else closed s'
      | [] => negb (c =? cPERCENT)
      end
  end.

(** exactly one of: a field of the table, a literal, a separator *)
Definition proper (e : elem) : Prop :=
  (e_lit e = [] /\ (e_field e = 0 \/ In (e_field e) (map snd field_map))) \/ (e_field e = 0 /\ e_lit e <> []).
(** element lists a format string without unknown letters can denote: proper
    elements, literals are maximal, and a percent sign occurs in a literal only
    as the very last character of the whole format *)
Fixpoint canonical (es : list elem) : Prop :=
  match es with
  | [] => True
  | e :: es' =>
      proper e
      /\ (is_lit e = true ->
          match es' with
          | [] => ~ In cPERCENT (removelast (e_lit e))
          | e' :: _ => is_lit e' = false /\ ~ In cPERCENT (e_lit e)
          end)
      /\ canonical es'
  end.

(** ** Formatted addresses *)

(** [w] occurs in [s] *)
Definition occurs (w s : ustring) : Prop := exists p q, s = p ++ w ++ q.

(** the lines of a format: its elements between the separators *)
Fixpoint segments (es : list elem) : list (list elem) :=
  match es with
  | [] => [[]]
  | e :: es' =>
      if is_sep e then [] :: segments es'
      else match segments es' with g :: gs => (e :: g) :: gs | [] => [[e]] end
  end.

Section Expected.
  Variable X : FmtExt.
  Variable a : address.
  Variables name org : ustring.
  Variable fmt : aformat.
  Variable style : fstyle.

  Let empty := field_empty a name org style.
  Let value f := cased X fmt style f (field_value X a name org fmt style f).

  (** the text of one line: included fields contribute their values; a literal
      is kept when it starts the line or follows a non-empty field of the line,
      and the next element is not an empty field *)
  Fixpoint line_text (first seen : bool) (g : list elem) : ustring :=
    match g with
    | [] => []
    | e :: g' =>
        (if is_field e then (if has (st_fields style) (e_field e) then value (e_field e) else [])
         else if (first || seen)
                 && negb match g' with e' :: _ => is_field e' && empty (e_field e') | [] => false end
              then e_lit e else [])
        ++ line_text false (seen || (is_field e && negb (empty (e_field e)))) g'
    end.
  Definition seg_text (g : list elem) : ustring := line_text true false g.

  (** the extended address has a line of its own next to a street *)
  Definition extended_line : list ustring :=
    if negb (isnil (ad_street a)) && negb (isnil (ad_extended a)) && negb (is_geo style)
       && has (st_fields style) fStreet
    then [ad_extended a] else [].
  Definition is_street (e : elem) : bool := e_field e =? fStreet.

  (** lines produced by one segment *)
  Definition seg_lines (blank : bool) (g : list elem) : list ustring :=
    let text := if isnil (seg_text g) then (if blank && isnil g then [[]] else []) else [seg_text g] in
    if reverse_order (af_elements fmt)
    then text ++ (if existsb is_street g then extended_line else [])
    else flat_map (fun e => if is_street e then extended_line else []) g ++ text.

  (** a blank line of the format is kept in the multi line styles, unless it is
      the first or the last one *)
  Fixpoint rest_lines (gs : list (list elem)) : list ustring :=
    match gs with
    | [] => []
    | [g] => seg_lines false g
    | g :: gs' => seg_lines (is_newline style) g ++ rest_lines gs'
    end.
  Definition expected_lines (gs : list (list elem)) : list ustring :=
    match gs with
    | [] => []
    | g :: gs' => seg_lines false g ++ rest_lines gs'
    end.
End Expected.

(** which components of an address a style may show *)
Definition shows (style : fstyle) (fmt : aformat) (f : N) : bool :=
  has (st_fields style) f && existsb (fun e => e_field e =? f) (af_elements fmt).
(** two addresses (with name and organization) agree on everything that the
    format and style show *)
Definition same_shown (style : fstyle) (fmt : aformat)
    (a1 a2 : address) (name1 name2 org1 org2 : ustring) : Prop :=
  (shows style fmt fName = true -> name1 = name2)
  /\ (shows style fmt fOrg = true -> org1 = org2)
  /\ (shows style fmt fPobox = true -> ad_pobox a1 = ad_pobox a2)
  /\ (shows style fmt fStreet = true -> ad_street a1 = ad_street a2 /\ ad_extended a1 = ad_extended a2)
  /\ (shows style fmt fPostal = true -> ad_postal a1 = ad_postal a2)
  /\ (shows style fmt fLocality = true -> ad_locality a1 = ad_locality a2)
  /\ (shows style fmt fRegion = true -> ad_region a1 = ad_region a2)
  /\ (shows style fmt fCountry = true \/ st_force style = true ->
      isnil (ad_country a1) = isnil (ad_country a2)).

(** a line that shows nothing without content: it is not blank, and if it starts
    with a literal, a field follows at once *)
Definition lean_line (g : list elem) : bool :=
  match g with
  | [] => false
  | e :: g' => negb (is_lit e) || match g' with e' :: _ => is_field e' | [] => false end
  end.

(** the components of an address with the field that shows them *)
Definition components (a : address) (name org : ustring) : list (N * ustring) :=
  [ (fName, name); (fOrg, org); (fPobox, ad_pobox a); (fStreet, ad_street a);
    (fPostal, ad_postal a); (fLocality, ad_locality a); (fRegion, ad_region a) ].
