(** Specification vocabulary for the order of properties and for unknown
    properties (C66, C67, C68). *)
From Verif Require Import Base Utf8 M_VCard M_VCardText M_VCardTool S_Parse S_Soft.

(** A property of a vCard text: a line and the folded lines that continue it. *)
Definition block := (bytes * list bytes)%type.
Definition block_lines (b : block) : list bytes := fst b :: map (cons 32%N) (snd b).
Definition content (b : block) : bytes := fst b ++ concat (snd b).
Definition plain_bytes (l : bytes) : Prop := ~ In 10%N l /\ ~ In 13%N l.

(** The name of a property, after an optional group. *)
Definition named (n : bytes) (b : block) : Prop :=
  exists g d r, fst b = g ++ n ++ d :: r /\ (d = 58 \/ d = 59)%N /\
    (g = [] \/ exists g', g = g' ++ [46%N]) /\
    (forall c, In c g -> c <> 58%N /\ c <> 59%N) /\ (forall c, In c n -> c <> 58%N /\ c <> 59%N /\ c <> 46%N).
Definition ungrouped (n : bytes) (b : block) : Prop :=
  exists d r, fst b = n ++ d :: r /\ (d = 58 \/ d = 59)%N /\ (forall c, In c n -> c <> 58%N /\ c <> 59%N /\ c <> 46%N).

Definition block_ok (b : block) : Prop :=
  (exists c r, fst b = c :: r /\ is_space c = false) /\ Forall plain_bytes (block_lines b) /\
  ~ begin_line (fst b) /\ ~ end_line (fst b) /\ ~ (exists q, content b = q ++ [61%N]).

(** A card in a text: other lines, then the properties between BEGIN:VCARD and
    END:VCARD, then other lines. *)
Definition card_in (nl : bytes) (before : list bytes) (b : bytes) (bs : list block) (e : bytes) (after : list bytes) : bytes :=
  text_of nl (before ++ b :: flat_map block_lines bs ++ e :: after).

(** The same properties in an order that differs only between different names. *)
Definition same_order (ps qs : list (bytes * block)) : Prop :=
  forall n, filter (fun p => leqb (fst p) n) ps = filter (fun p => leqb (fst p) n) qs.

(** Embedded picture data shorter than the 22 bytes that are skipped to find the data. *)
Definition has_part (p s : list N) : Prop := exists a b, s = a ++ p ++ b.
Definition value_bytes (l : vline) (v : bytes) : Prop :=
  vl_value l = QBytes v \/ exists s, vl_value l = QStr s /\ v = to_utf8 s.
Definition short_data (l : vline) : Prop :=
  vl_group l = [] /\ (to_lower (vl_id l) = B "photo" \/ to_lower (vl_id l) = B "logo") /\ vl_param_list l = [] /\
  exists v, value_bytes l v /\ has_part (B "data:") v /\ has_part (B ";base64,") v /\ length v < 22.

(** The property names that are read. *)
Definition known_names : list bytes :=
  map B ["adr"; "anniversary"; "bday"; "deathdate"; "categories"; "fburl"; "caladruri"; "caluri"; "impp"; "class"; "gender";
         "lang"; "email"; "kind"; "fn"; "geo"; "key"; "label"; "logo"; "mailer"; "n"; "name"; "nickname"; "note"; "org";
         "photo"; "prodid"; "rev"; "role"; "sort-string"; "sound"; "tel"; "title"; "tz"; "uid"; "url"; "source"; "member";
         "related"; "clientpidmap"]%string.
Definition unknown (n : bytes) : Prop :=
  ~ In (to_lower n) known_names /\ ~ (exists r, to_lower n = B "x-" ++ r).
(** [cs] is [bs] without some of the properties with a name that is not read. *)
Inductive thinned : list block -> list block -> Prop :=
| thin_nil : thinned [] []
| thin_keep b bs cs : thinned bs cs -> thinned (b :: bs) (b :: cs)
| thin_drop n b bs cs : ungrouped n b -> unknown n -> thinned bs cs -> thinned (b :: bs) cs.

(** The same world, but other random identifiers. *)
Definition other_ids (f : nat -> nat -> nat) (T : Tool) : Tool :=
  Build_Tool (t_env T) (t_set_scheme T) (t_set_path T) (t_display T) (t_fmt6 T) (t_float T) (t_double T)
    (t_date_iso T) (t_iso_date T) (fun card k => t_newid T card (f card k)).
Definition increasing_fun (f : nat -> nat) : Prop := forall i j, i < j -> f i < f j.
