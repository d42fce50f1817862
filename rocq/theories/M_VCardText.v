(** Model of [/repo/src/vcardparser/vcardparser.cpp]. *)
From Verif Require Import Base Utf8 M_ParamMap M_VCard.

(** Functions of other libraries that the parser calls; every theorem holds for
    all choices of them. *)
Record Ext := {
  qp_decode : bytes -> bytes;      (* KCodecs::quotedPrintableDecode *)
  qp_encode : bytes -> bytes;      (* KCodecs::quotedPrintableEncode(.., false) *)
  charset_decode : bytes -> option (bytes -> ustring);   (* QStringDecoder(name), if valid *)
  charset_encode : bytes -> option (ustring -> bytes)    (* QStringEncoder(name), if valid *)
}.

(** ** Escaping *)

(** [addEscapes], vcardparser.cpp:40-48 *)
Definition add_escapes (exclude_comma : bool) (s : bytes) : bytes :=
  let s := replace_ch cBS [cBS; cBS] s in
  let s := if exclude_comma then s else replace_ch cCOMMA [cBS; cCOMMA] s in
  let s := replace_ch cCR [cBS; 114%N] s in
  replace_ch cLF [cBS; 110%N] s.

(** [removeEscapes], vcardparser.cpp:50-61 *)
Definition remove_escapes (s : bytes) : bytes :=
  if negb (mem cBS s) then s
  else
    let s := replace2 cBS 110%N [cLF] s in
    let s := replace2 cBS 78%N [cLF] s in
    let s := replace2 cBS 114%N [cCR] s in
    let s := replace2 cBS cCOMMA [cCOMMA] s in
    replace2 cBS cBS [cBS] s.

(** ** One property line *)

(** states of the scanner, vcardparser.cpp:104-111 ([StateValue] ends the scan) *)
Inductive pstate := PInitial | PParamKey | PParamValue | PQuotedValue | PAfterParamValue.

(** [px_acc] is [currentLine.mid(start, pos - start)]. *)
Record pctx := mkPctx {
  px_state : pstate;
  px_acc : bytes;
  px_key : bytes;           (* paramKey *)
  px_line : vline;          (* *m_vCardLine *)
  px_enc : bytes;           (* m_encoding *)
  px_charset : bytes        (* m_charset *)
}.

(** [VCardLineParser::addParameter], vcardparser.cpp:86-95 *)
Definition px_add_param (key value : bytes) (x : pctx) : pctx :=
  mkPctx (px_state x) (px_acc x) (px_key x)
         (vl_add_param (from_latin1 key) (from_latin1 value) (px_line x))
         (if leqb key (B "encoding") then to_lower value else px_enc x)
         (if leqb key (B "encoding") then px_charset x
          else if leqb key (B "charset") then to_lower value else px_charset x).

Definition px_goto (st : pstate) (acc : bytes) (x : pctx) : pctx :=
  mkPctx st acc (px_key x) (px_line x) (px_enc x) (px_charset x).
Definition px_set_key (k : bytes) (x : pctx) : pctx :=
  mkPctx (px_state x) (px_acc x) k (px_line x) (px_enc x) (px_charset x).
Definition px_set_line (l : vline) (x : pctx) : pctx :=
  mkPctx (px_state x) (px_acc x) (px_key x) l (px_enc x) (px_charset x).

(** lines 182-192, shared by [StateParamValue] and [StateAfterParamValue];
    [None] means that the value begins after this character *)
Definition px_after (ch : N) (x : pctx) : option pctx :=
  if N.eqb ch cSEMI then Some (px_goto PParamKey [] x)
  else if N.eqb ch cCOLON then None
  else if isnil (px_acc x) && N.eqb ch cDQ then Some (px_goto PQuotedValue [] x)
  else Some (px_goto (px_state x) (px_acc x ++ [ch]) x).

(** One iteration of the loop at vcardparser.cpp:119-201.  The second component
    is [false] when [state] became [StateValue]. *)
Definition px_step (ch : N) (x : pctx) : pctx * bool :=
  let colon_or_semi := (N.eqb ch cSEMI || N.eqb ch cCOLON)%bool in
  match px_state x with
  | PInitial =>
      if N.eqb ch cSEMI then
        (px_goto PParamKey [] (px_set_line (vl_set_id (from_latin1 (px_acc x)) (px_line x)) x), true)
      else if N.eqb ch cCOLON then
        (px_goto PInitial [] (px_set_line (vl_set_id (from_latin1 (px_acc x)) (px_line x)) x), false)
      else if N.eqb ch cDOT then
        (px_goto PInitial [] (px_set_line (vl_set_group (from_latin1 (px_acc x)) (px_line x)) x), true)
      else (px_goto PInitial (px_acc x ++ [ch]) x, true)
  | PParamKey =>
      if colon_or_semi then
        let value := px_acc x in
        let lower := to_lower value in
        let key := if leqb lower (B "quoted-printable") || leqb lower (B "base64")
                   then B "encoding" else B "type" in
        (px_goto PParamKey [] (px_add_param key value (px_set_key key x)), N.eqb ch cSEMI)
      else if N.eqb ch cEQ then
        (px_goto PParamValue [] (px_set_key (px_acc x) x), true)
      else (px_goto PParamKey (px_acc x ++ [ch]) x, true)
  | PQuotedValue =>
      if N.eqb ch cDQ then
        (px_goto PAfterParamValue [] (px_add_param (to_lower (px_key x)) (px_acc x) x), true)
      else if N.eqb ch cCOMMA && leqb (to_lower (px_key x)) (B "type") then
        (px_goto PQuotedValue [] (px_add_param (to_lower (px_key x)) (px_acc x) x), true)
      else (px_goto PQuotedValue (px_acc x ++ [ch]) x, true)
  | PParamValue =>
      if colon_or_semi || N.eqb ch cCOMMA then
        (* start = pos + 1, so "pos == start" is false in the shared code *)
        let x' := px_goto PParamValue [] (px_add_param (to_lower (px_key x)) (px_acc x) x) in
        if N.eqb ch cSEMI then (px_goto PParamKey [] x', true)
        else if N.eqb ch cCOLON then (x', false)
        else (x', true)
      else
        match px_after ch x with Some x' => (x', true) | None => (x, false) end
  | PAfterParamValue =>
      match px_after ch x with Some x' => (x', true) | None => (x, false) end
  end.

(** The loop.  [Some rest]: the value text after the ':'; [None]: no ':'. *)
Fixpoint px_run (s : bytes) (x : pctx) : pctx * option bytes :=
  match s with
  | [] => (x, None)
  | ch :: t =>
      let (x', go) := px_step ch x in
      if go then px_run t x' else (x', Some t)
  end.

Definition px_init : pctx := mkPctx PInitial [] [] vline_empty [] [].

(** ** Physical lines *)

(** [text.indexOf('\n', from)] as a Qt index; -1 if there is none. *)
Definition index_from (c : N) (from : Z) (s : bytes) : Z :=
  match index_of c (skipn (Z.to_nat from) s) with
  | Some i => (Z.max 0 from + Z.of_nat i)%Z
  | None => (-1)%Z
  end.

(** [text.mid(pos, len)]; a negative length means "to the end". *)
Definition qmid (pos len : Z) (s : bytes) : bytes :=
  let t := skipn (Z.to_nat pos) s in
  if (len <? 0)%Z then t else firstn (Z.to_nat len) t.

(** lines 274-277 and 298-300: remove one trailing CR *)
Definition strip_cr (s : bytes) : bytes := if ends_with [cCR] s then chop1 s else s.

(** The variables captured by [fetchAnotherLine]. *)
Record fstate := mkF { f_start : Z; f_end : Z; f_cur : bytes }.

(** [fetchAnotherLine], vcardparser.cpp:291-303 *)
Definition fetch (text : bytes) (f : fstate) : bytes * fstate :=
  let start := (f_end f + 1)%Z in
  let e := index_from cLF start text in
  (f_cur f, mkF start e (if (e =? -1)%Z then f_cur f
                         else strip_cr (qmid start (e - start) text))).

(** The soft line break loop, vcardparser.cpp:220-223; [None]: not finished
    within the given number of rounds. *)
Fixpoint qp_join (fuel : nat) (text : bytes) (v : bytes) (f : fstate) : option (bytes * fstate) :=
  if ends_with [cEQ] v then
    match fuel with
    | O => None
    | S n => let (l, f') := fetch text f in qp_join n text (chop1 v ++ l) f'
    end
  else Some (v, f).

(** The part of [parseLine] after the scan, vcardparser.cpp:203-246. *)
Definition finish_line (E : Ext) (fuel : nat) (text : bytes) (x : pctx) (rest : option bytes)
  (f : fstate) : option (vline * fstate) :=
  match rest with
  | None => Some (px_line x, f)
  | Some raw =>
      let value := remove_escapes raw in
      let decoded : option (bytes * bool * fstate) :=
        if isnil (px_enc x) then Some (value, false, f)
        else if leqb (px_enc x) (B "b") || leqb (px_enc x) (B "base64") then
          Some (from_base64 value, true, f)
        else if leqb (px_enc x) (B "quoted-printable") then
          match qp_join fuel text value f with
          | None => None
          | Some (v, f') => Some (qp_decode E v, false, f')
          end
        else if leqb (px_enc x) (B "8bit") then Some (value, false, f)
        else Some ([], false, f) in
      match decoded with
      | None => None
      | Some (output, was_b64, f') =>
          let v :=
            if negb (isnil (px_charset x)) then
              match charset_decode E (px_charset x) with
              | Some dec => QStr (dec output)
              | None => QStr (from_utf8 output)
              end
            else if was_b64 then QBytes output
            else QStr (from_utf8 output) in
          Some (vl_set_value v (px_line x), f')
      end
  end.

(** [VCardLineParser::parseLine], vcardparser.cpp:97-247 *)
Definition parse_line (E : Ext) (fuel : nat) (text : bytes) (line : bytes) (f : fstate)
  : option (vline * fstate) :=
  let (x, rest) := px_run line px_init in finish_line E fuel text x rest f.

(** ** The card loop *)

(** Loop variables of [parseVCards], vcardparser.cpp:261-270. *)
Record lstate := mkL {
  l_start : Z;             (* lineStart *)
  l_end : Z;               (* lineEnd *)
  l_line : bytes;          (* currentLine *)
  l_card : vcard;          (* currentVCard *)
  l_cards : list vcard;    (* vCardList *)
  l_in : bool              (* inVCard *)
}.

Definition is_folded (cur : bytes) : bool := starts_with [cSP] cur || starts_with [cTAB] cur.
Definition is_begin (cur : bytes) : bool := starts_with_ci (B "begin:vcard") cur.
Definition is_end (cur : bytes) : bool := starts_with_ci (B "end:vcard") cur.

(** vcardparser.cpp:312-328 *)
Definition dispatch (f : fstate) (s : lstate) : lstate :=
  let cur := f_cur f in
  if is_begin cur then mkL (f_start f) (f_end f) [] [] (l_cards s) true
  else if is_end cur then mkL (f_start f) (f_end f) [] [] (l_cards s ++ [l_card s]) false
  else mkL (f_start f) (f_end f) cur (l_card s) (l_cards s) (l_in s).

(** The loop body, vcardparser.cpp:273-329. *)
Definition body (E : Ext) (fuel : nat) (text : bytes) (s : lstate) : option lstate :=
  let cur := strip_cr (qmid (l_start s) (l_end s - l_start s) text) in
  if is_folded cur then
    Some (mkL (l_start s) (l_end s) (l_line s ++ mid 1 cur) (l_card s) (l_cards s) (l_in s))
  else if isnil (trimmed cur) then Some s
  else
    let f := mkF (l_start s) (l_end s) cur in
    if l_in s && negb (isnil (l_line s)) then
      match parse_line E fuel text (l_line s) f with
      | None => None
      | Some (vl, f') =>
          Some (dispatch f' (mkL (l_start s) (l_end s) (l_line s) (add_line vl (l_card s)) (l_cards s) (l_in s)))
      end
    else Some (dispatch f s).

(** The loop increment, vcardparser.cpp:271-272. *)
Definition advance (text : bytes) (s : lstate) : lstate :=
  let start := (l_end s + 1)%Z in
  let i := index_from cLF start text in
  mkL start (if (i =? -1)%Z then Z.of_nat (length text) else i)
      (l_line s) (l_card s) (l_cards s) (l_in s).

(** [None]: the loop is still running after [fuel] rounds. *)
Fixpoint parse_loop (E : Ext) (fuel : nat) (text : bytes) (s : lstate) : option (list vcard) :=
  if (l_start s =? Z.of_nat (length text) + 1)%Z then Some (l_cards s)
  else
    match fuel with
    | O => None
    | S n =>
        match body E n text s with
        | None => None
        | Some s' => parse_loop E n text (advance text s')
        end
    end.

Definition parse_init (text : bytes) : lstate :=
  mkL 0 (index_from cLF 0 text) [] [] [] false.

(** [VCardParser::parseVCards], vcardparser.cpp:259-333, with a bound on the
    number of rounds. *)
Definition parse_vcards (E : Ext) (fuel : nat) (text : bytes) : option (list vcard) :=
  parse_loop E fuel text (parse_init text).

(** ** Writing *)

(** vcardparser.cpp:335 *)
Definition FOLD_WIDTH : nat := 75.

Definition crlf : bytes := [cCR; cLF].

(** bit tests at lines 348-352, on an unsigned byte *)
Definition lead2 (c : N) : bool := N.eqb (N.land c 0xC0) 0xC0.
Definition lead3 (c : N) : bool := N.eqb (N.land c 0xE0) 0xE0.
Definition lead4 (c : N) : bool := N.eqb (N.land c 0xF0) 0xF0.

(** lines 349-354; the third branch cannot be reached because every byte that
    satisfies its test satisfies the second one *)
Definition seq_length (c : N) : nat := if lead3 c then 3 else if lead4 c then 4 else 2.

(** lines 355-362: output and new column for a multibyte chunk *)
Definition put_seq (seq : nat) (chunk : bytes) (col : nat) : bytes * nat :=
  if FOLD_WIDTH <? col + seq then (crlf ++ [cSP] ++ chunk, 1 + seq) else (chunk, col + seq).

(** lines 368-371; [i < length - 1] says that input remains *)
Definition put_break (rest : bytes) (col : nat) : bytes * nat :=
  if (col =? FOLD_WIDTH) && negb (isnil rest) then (crlf ++ [cSP], 1) else ([], col).

(** The loop at vcardparser.cpp:346-372.  [textLine.mid(i, n)] is cut at the end
    of the line. *)
Fixpoint fold_mb (s : bytes) (col : nat) : bytes :=
  match s with
  | [] => []
  | c :: t =>
      if lead2 c then
        match seq_length c with
        | 2 =>
            match t with
            | b1 :: t' =>
                let (o, k) := put_seq 2 [c; b1] col in
                let (o', k') := put_break t' k in o ++ o' ++ fold_mb t' k'
            | [] => let (o, k) := put_seq 2 [c] col in o
            end
        | 3 =>
            match t with
            | b1 :: b2 :: t' =>
                let (o, k) := put_seq 3 [c; b1; b2] col in
                let (o', k') := put_break t' k in o ++ o' ++ fold_mb t' k'
            | _ => let (o, k) := put_seq 3 s col in o
            end
        | _ =>
            match t with
            | b1 :: b2 :: b3 :: t' =>
                let (o, k) := put_seq 4 [c; b1; b2; b3] col in
                let (o', k') := put_break t' k in o ++ o' ++ fold_mb t' k'
            | _ => let (o, k) := put_seq 4 s col in o
            end
        end
      else
        let (o', k') := put_break t (col + 1) in c :: o' ++ fold_mb t k'
  end.

(** lines 375-377 *)
Definition fold_plain (s : bytes) : bytes :=
  flat_map (fun i => (if i =? 0 then [] else [cSP]) ++ mid_len (i * FOLD_WIDTH) FOLD_WIDTH s ++ crlf)
           (seq 0 (length s / FOLD_WIDTH + 1)).

(** [fixLineSize], vcardparser.cpp:339-384 *)
Definition fix_line_size (s : bytes) (check_multibyte : bool) : bytes :=
  if FOLD_WIDTH <? length s then
    if check_multibyte then fold_mb s 0 ++ crlf else fold_plain s
  else s ++ crlf.

(** The value of a [QVariant] as text ([QVariant::toString]). *)
Definition variant_string (v : qvariant) : ustring :=
  match v with QInvalid => [] | QStr s => s | QBytes b => from_utf8 b end.

(** parameters part of a line, vcardparser.cpp:425-442 *)
Definition params_text (l : vline) : bytes :=
  flat_map (fun p =>
    flat_map (fun v =>
      [cSEMI] ++ to_upper (to_latin1 p) ++
      (if isnil v then [] else [cEQ] ++ to_latin1 v))
      (vl_parameters p l))
    (vl_param_list l).

Definition header_text (l : vline) : bytes :=
  (if vl_has_group l then to_latin1 (vl_group l) ++ [cDOT] ++ to_latin1 (vl_id l)
   else to_latin1 (vl_id l)) ++ params_text l.

(** encoding of the value, vcardparser.cpp:444-479: output and [checkMultibyte] *)
Definition value_text (E : Ext) (l : vline) : bytes * bool :=
  let charset := vl_parameter (B "charset") l in
  let (input, mb) :=
    if negb (isnil charset) then
      match charset_encode E (to_latin1 charset) with
      | Some enc => (enc (variant_string (vl_value l)), false)
      | None => (to_utf8 (variant_string (vl_value l)), true)
      end
    else
      match vl_value l with
      | QBytes b => (b, false)
      | v => (to_utf8 (variant_string v), true)
      end in
  let has_encoding := contains (B "encoding") (vl_param_list l) in
  let encoding_type := to_lower (vl_parameter (B "encoding") l) in
  let (output, mb) :=
    if has_encoding then
      if leqb encoding_type (B "b") then (to_base64 input, false)
      else if leqb encoding_type (B "quoted-printable") then (qp_encode E input, false)
      else ([], mb)
    else (input, mb) in
  (add_escapes (leqb (vl_id l) (B "CATEGORIES") || leqb (vl_id l) (B "GEO")) output, mb).

(** One line, vcardparser.cpp:416-490. *)
Definition line_text (E : Ext) (l : vline) : bytes :=
  match vl_value l with
  | QInvalid =>
      if isnil (vl_b64 l) then []
      else to_latin1 (vl_id l) ++ fix_line_size (B ";base64," ++ vl_b64 l) false
  | _ =>
      let (output, mb) := value_text E l in
      if isnil output then []
      else fix_line_size (header_text l ++ [cCOLON] ++ output) mb
  end.

(** vcardparser.cpp:405-410: VERSION is moved to the front *)
Fixpoint remove_first (v : ustring) (l : list ustring) : list ustring :=
  match l with [] => [] | x :: r => if leqb x v then r else x :: remove_first v r end.
Definition ordered_idents (c : vcard) : list ustring :=
  let ids := identifiers c in
  if contains (B "VERSION") ids then B "VERSION" :: remove_first (B "VERSION") ids else ids.

(** vcardparser.cpp:402-495 *)
Definition card_text (E : Ext) (c : vcard) : bytes :=
  B "BEGIN:VCARD" ++ crlf ++
  flat_map (fun id => flat_map (line_text E) (card_lines id c)) (ordered_idents c) ++
  B "END:VCARD" ++ crlf ++ crlf.

(** [VCardParser::createVCards], vcardparser.cpp:387-498 *)
Definition create_vcards (E : Ext) (l : list vcard) : bytes := flat_map (card_text E) l.
