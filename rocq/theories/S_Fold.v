(** Specification vocabulary for line folding (properties C03-C05). *)
From Verif Require Import Base Utf8.

(** The physical lines of a text: the parts between CR LF pairs. *)
Fixpoint crlf_lines (s : bytes) : list bytes :=
  match s with
  | [] => [[]]
  | c :: t =>
      match t with
      | d :: t' =>
          if N.eqb c 13 && N.eqb d 10 then [] :: crlf_lines t'
          else match crlf_lines t with l :: ls => (c :: l) :: ls | [] => [[c]] end
      | [] => [[c]]
      end
  end.

(** Unfolding (RFC 6350 3.2): every CR LF followed by one space is removed. *)
Fixpoint unfold_text (s : bytes) : bytes :=
  match s with
  | [] => []
  | c :: t =>
      match t with
      | d :: e :: t' =>
          if N.eqb c 13 && N.eqb d 10 && N.eqb e 32 then unfold_text t' else c :: unfold_text t
      | _ => c :: unfold_text t
      end
  end.

(** A byte string that is the UTF-8 encoding of some well-formed text. *)
Definition valid_utf8 (b : bytes) : Prop :=
  exists u : ustring, valid_utf16 u = true /\ b = to_utf8 u.

(** Text all of whose characters need at most three bytes: no surrogates. *)
Definition bmp_text (u : ustring) : bool :=
  forallb (fun c => N.ltb c 65536 && negb (is_surr c)) u.
