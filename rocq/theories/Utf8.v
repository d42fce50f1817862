(** Model of the Qt 6 character set conversions used by the code
    (trusted base): [QString::toUtf8], [QString::fromUtf8],
    [QString::toLatin1], [QString::fromLatin1], and base64. *)
From Verif Require Import Base.
Local Open Scope N_scope.

(** ** UTF-16 surrogates *)
Definition is_high (c : N) : bool := (0xD800 <=? c) && (c <? 0xDC00).
Definition is_low (c : N) : bool := (0xDC00 <=? c) && (c <? 0xE000).
Definition is_surr (c : N) : bool := is_high c || is_low c.

(** [QString::toUtf8]: lone surrogates become '?'. *)
Definition enc1 (c : N) : bytes := [c].
Definition enc2 (c : N) : bytes := [0xC0 + c / 64; 0x80 + c mod 64].
Definition enc3 (c : N) : bytes := [0xE0 + c / 4096; 0x80 + (c / 64) mod 64; 0x80 + c mod 64].
Definition enc4 (u : N) : bytes :=
  [0xF0 + u / 262144; 0x80 + (u / 4096) mod 64; 0x80 + (u / 64) mod 64; 0x80 + u mod 64].
Definition surr_cp (h l : N) : N := 0x10000 + (h - 0xD800) * 1024 + (l - 0xDC00).

Fixpoint to_utf8 (s : ustring) : bytes :=
  match s with
  | [] => []
  | c :: t =>
      if c <? 0x80 then enc1 c ++ to_utf8 t
      else if c <? 0x800 then enc2 c ++ to_utf8 t
      else if negb (is_surr c) then enc3 c ++ to_utf8 t
      else if is_high c then
        match t with
        | d :: t' => if is_low d then enc4 (surr_cp c d) ++ to_utf8 t' else 63 :: to_utf8 t
        | [] => [63]
        end
      else 63 :: to_utf8 t
  end.

(** One decoding step: the code units produced and the remaining input, or
    [None] on an error at this byte. *)
Definition is_cont (b : N) : bool := (0x80 <=? b) && (b <? 0xC0).

Definition dec1 (s : bytes) : option (ustring * bytes) :=
  match s with
  | [] => None
  | b0 :: t =>
      if b0 <? 0x80 then Some ([b0], t)
      else if b0 <? 0xC2 then None
      else if b0 <? 0xE0 then
        match t with
        | b1 :: t1 => if is_cont b1 then Some ([(b0 - 0xC0) * 64 + (b1 - 0x80)], t1) else None
        | _ => None
        end
      else if b0 <? 0xF0 then
        match t with
        | b1 :: b2 :: t2 =>
            if is_cont b1 && is_cont b2 then
              let u := (b0 - 0xE0) * 4096 + (b1 - 0x80) * 64 + (b2 - 0x80) in
              if (u <? 0x800) || is_surr u then None else Some ([u], t2)
            else None
        | _ => None
        end
      else if b0 <? 0xF5 then
        match t with
        | b1 :: b2 :: b3 :: t3 =>
            if is_cont b1 && is_cont b2 && is_cont b3 then
              let u := (b0 - 0xF0) * 262144 + (b1 - 0x80) * 4096 + (b2 - 0x80) * 64 + (b3 - 0x80) in
              if (u <? 0x10000) || (0x10FFFF <? u) then None
              else Some ([0xD800 + (u - 0x10000) / 1024; 0xDC00 + (u - 0x10000) mod 1024], t3)
            else None
        | _ => None
        end
      else None
  end.

(** The decoding loop; every undecodable byte becomes U+FFFD.  Each round
    consumes at least one byte, so [length s] rounds always suffice. *)
Fixpoint utf8_loop (n : nat) (s : bytes) : ustring :=
  match n with
  | O => []
  | S n' =>
      match s with
      | [] => []
      | _ :: t =>
          match dec1 s with
          | Some (us, r) => us ++ utf8_loop n' r
          | None => 0xFFFD :: utf8_loop n' t
          end
      end
  end.

(** [QString::fromUtf8]: a leading byte order mark is skipped. *)
Definition skip_bom (s : bytes) : bytes :=
  match s with
  | b0 :: b1 :: b2 :: t =>
      if (b0 =? 0xEF) && (b1 =? 0xBB) && (b2 =? 0xBF) then t else s
  | _ => s
  end.
Definition from_utf8 (s : bytes) : ustring :=
  let s' := skip_bom s in utf8_loop (length s') s'.

(** [QString::toLatin1], [QString::fromLatin1]. *)
Definition to_latin1 (s : ustring) : bytes := map (fun c => if c <? 256 then c else 63) s.
Definition from_latin1 (s : bytes) : ustring := s.

(** ** base64 ([QByteArray::toBase64], [QByteArray::fromBase64]) *)
Definition b64_char (d : N) : N :=
  if d <? 26 then 65 + d
  else if d <? 52 then 97 + (d - 26)
  else if d <? 62 then 48 + (d - 52)
  else if d =? 62 then 43 else 47.

Definition b64_val (c : N) : option N :=
  if (65 <=? c) && (c <=? 90) then Some (c - 65)
  else if (97 <=? c) && (c <=? 122) then Some (c - 97 + 26)
  else if (48 <=? c) && (c <=? 57) then Some (c - 48 + 52)
  else if c =? 43 then Some 62
  else if c =? 47 then Some 63
  else None.

Fixpoint to_base64 (s : bytes) : bytes :=
  match s with
  | [] => []
  | [a] => [b64_char (a / 4); b64_char ((a mod 4) * 16); 61; 61]
  | [a; b] => [b64_char (a / 4); b64_char ((a mod 4) * 16 + b / 16); b64_char ((b mod 16) * 4); 61]
  | a :: b :: c :: t =>
      b64_char (a / 4) :: b64_char ((a mod 4) * 16 + b / 16)
      :: b64_char ((b mod 16) * 4 + c / 64) :: b64_char (c mod 64) :: to_base64 t
  end.

(** Characters outside the alphabet (including '=') are skipped; leftover bits
    are dropped. *)
Fixpoint from_base64_aux (buf nbits : N) (s : bytes) : bytes :=
  match s with
  | [] => []
  | c :: t =>
      match b64_val c with
      | None => from_base64_aux buf nbits t
      | Some d =>
          let buf := buf * 64 + d in
          let nbits := nbits + 6 in
          if 8 <=? nbits then
            let nbits := nbits - 8 in
            buf / 2 ^ nbits :: from_base64_aux (buf mod 2 ^ nbits) nbits t
          else from_base64_aux buf nbits t
      end
  end.
Definition from_base64 (s : bytes) : bytes := from_base64_aux 0 0 s.

(** ** Validity *)

(** well-formed UTF-16: surrogates occur in pairs, code units below 65536 *)
Fixpoint valid_utf16 (s : ustring) : bool :=
  match s with
  | [] => true
  | c :: t =>
      if is_high c then
        match t with d :: t' => is_low d && valid_utf16 t' | [] => false end
      else negb (is_low c) && (c <? 65536) && valid_utf16 t
  end.
Definition no_bom (s : ustring) : bool :=
  match s with c :: _ => negb (c =? 0xFEFF) | [] => true end.
(** text that survives the encoding: well-formed and no leading U+FEFF *)
Definition text_ok (s : ustring) : bool := valid_utf16 s && no_bom s.
Definition is_bytes (s : bytes) : bool := forallb (fun b => b <? 256) s.
Definition is_latin1 (s : ustring) : bool := forallb (fun b => b <? 256) s.
