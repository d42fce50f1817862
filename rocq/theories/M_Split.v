(** Model of [VCardTool::splitString], vcardtool.cpp:1579-1612, and of the
    composition of structured values (vcardtool.cpp:130-143, 236-239, 489-496). *)
From Verif Require Import Base.

(** [value.indexOf(sep, from)]; [None] is -1. *)
Definition index_from (sep : N) (v : ustring) (from : nat) : option nat :=
  option_map (fun k => from + k) (index_of sep (skipn from v)).

(** The [while] loop, vcardtool.cpp:1587-1602, with the final part 1604-1611.
    [value] is the working copy, [start] the start of the current part, [pos] the
    position of the separator to treat.  [None] stands for running out of fuel;
    [split_string] supplies enough (lemma [split_loop_total] in P_Split). *)
Fixpoint split_loop (fuel : nat) (sep : N) (value : ustring) (start : nat)
         (pos : option nat) (acc : list ustring) : option (list ustring) :=
  match pos with
  | None =>
      (* 1604-1611 *)
      let l := length value in
      Some (acc ++ [mid_len start (l - start) value])
  | Some p =>
      match fuel with
      | O => None
      | S f =>
          if Nat.eqb p 0 || negb (N.eqb (nth (p - 1) value 0%N) cBS) then
            (* 1588-1596 *)
            let part := if Nat.ltb start p && Nat.leb p (length value)
                        then mid_len start (p - start) value else [] in
            let start' := p + 1 in
            split_loop f sep value start' (index_from sep value start') (acc ++ [part])
          else
            (* 1597-1600 *)
            let value' := firstn (p - 1) value ++ [sep] ++ skipn (p + 1) value in
            split_loop f sep value' start (index_from sep value' p) acc
      end
  end.

(** [VCardTool::splitString] *)
Definition split_string (sep : N) (str : ustring) : option (list ustring) :=
  split_loop (length str) sep str 0 (index_from sep str 0) [].

(** [s.replace(sep, "\<sep>")] as applied to each component
    (vcardtool.cpp:131-137 for ADR, 489-493 for N, 424 for CATEGORIES) *)
Definition escape_sep (sep : N) (s : ustring) : ustring := replace_ch sep [cBS; sep] s.

(** composition of a structured value *)
Definition join_components (sep : N) (l : list ustring) : ustring :=
  join [sep] (map (escape_sep sep) l).
