(** Drag and drop of contacts, the date helpers and [adaptIMAttributes] of the vCard
    converter, the instant messaging services. *)
From Verif Require Import Base M_ParamMap M_Values M_Date M_VCard M_VCardText M_Addressee M_VCardTool M_Ldif.

(** ** Drag and drop: vcarddrag.cpp *)

(** [QMimeData]: formats and data in the order in which they were set.  (A subclass of
    [QMimeData] that computes its data is not modelled.) *)
Definition mimedata := list (ustring * bytes).
Definition md_has (f : ustring) (m : mimedata) : bool := existsb (fun e => leqb (fst e) f) m.
Fixpoint md_data (f : ustring) (m : mimedata) : bytes :=
  match m with [] => [] | (g, d) :: r => if leqb g f then d else md_data f r end.
(** [QMimeData::setData]: replaces what there was for the format *)
Definition md_set (f : ustring) (d : bytes) (m : mimedata) : mimedata :=
  filter (fun e => negb (leqb (fst e) f)) m ++ [(f, d)].

(** [Addressee::mimeType], addressee.cpp:2530-2533 *)
Definition vcard_mime : ustring := B "text/directory".

(** [findCompatibleMimeType], vcarddrag.cpp:17-37; [None] is the null pointer.  [kind]
    says of a format whether the MIME database knows it as a kind of vCard. *)
Definition find_mime (kind : ustring -> bool) (md : option mimedata) : ustring :=
  match md with
  | None => []
  | Some m => if md_has vcard_mime m then vcard_mime
              else match find (fun e => kind (fst e)) m with Some e => fst e | None => [] end
  end.

(** [VCardDrag::populateMimeData], vcarddrag.cpp:39-43 and 45-54 *)
Definition populate_bytes (content : bytes) (m : mimedata) : bool * mimedata := (true, md_set vcard_mime content m).
Definition populate (T : Tool) (E : Ext) (l : list addressee) (m : mimedata) : bool * mimedata :=
  let text := create_text T E V30 false l in
  if isnil text then (false, m) else populate_bytes text m.

(** [VCardDrag::canDecode], vcarddrag.cpp:56-59 *)
Definition can_decode (kind : ustring -> bool) (md : option mimedata) : bool := negb (isnil (find_mime kind md)).

(** [VCardDrag::fromMimeData], vcarddrag.cpp:61-69 and 71-79: the value returned and
    the variable passed by reference *)
Definition from_mime_bytes (kind : ustring -> bool) (md : option mimedata) (old : bytes) : bool * bytes :=
  match find_mime kind md, md with
  | [], _ | _, None => (false, old)
  | f, Some m => let d := md_data f m in (negb (isnil d), d)
  end.
Definition from_mime (T : Tool) (E : Ext) (kind : ustring -> bool) (fuel : nat) (md : option mimedata) (old : list addressee)
  : outcome (bool * list addressee) :=
  match find_mime kind md, md with
  | [], _ | _, None => Done (false, old)
  | f, Some m => match parse_text T E fuel (md_data f m) with
                 | Running => Running
                 | Undefined => Undefined
                 | Done l => Done (negb (isnil l), l)
                 end
  end.

(** ** Dates: [dateToVCardString(QDate)], vcardconverter.cpp:97-100; the one for
    [QDateTime] is [date_to_string], [VCardStringToDate] is [string_to_date] *)
Definition day_to_string (d : option date) : ustring :=
  match d with Some d => year4 (d_year d) ++ zpad 2 (d_month d) ++ zpad 2 (d_day d) | None => [] end.

(** ** [adaptIMAttributes] *)

(** [QByteArray::replace] of a non-empty text [p] by [r], from the left, occurrences
    do not overlap; [skip]: the number of characters of an occurrence still to drop *)
Fixpoint replace_from (skip : nat) (p r s : bytes) : bytes :=
  match s with
  | [] => []
  | c :: t => match skip with
              | S k => replace_from k p r t
              | O => if starts_with p s then r ++ replace_from (length p - 1) p r t
                     else c :: replace_from 0 p r t
              end
  end.
Definition replace_bytes (p r s : bytes) : bytes := replace_from 0 p r s.

(** the names, vcardconverter.cpp:125-136 *)
Definition im_names : list (bytes * bytes) :=
  [(B "X-messaging/aim-All", B "X-AIM"); (B "X-messaging/icq-All", B "X-ICQ");
   (B "X-messaging/xmpp-All", B "X-JABBER"); (B "X-messaging/msn-All", B "X-MSN");
   (B "X-messaging/yahoo-All", B "X-YAHOO"); (B "X-messaging/gadu-All", B "X-GADUGADU");
   (B "X-messaging/skype-All", B "X-SKYPE"); (B "X-messaging/groupwise-All", B "X-GROUPWISE");
   (B "X-messaging/sms-All", B "X-SMS"); (B "X-messaging/meanwhile-All", B "X-MEANWHILE");
   (B "X-messaging/irc-All", B "X-IRC"); (B "X-messaging/googletalk-All", B "X-GTALK")].
(** [adaptIMAttributes], vcardconverter.cpp:123-137: one replacement after the other *)
Definition adapt_im (data : bytes) : bytes :=
  fold_left (fun d e => replace_bytes (fst e) (snd e) d) im_names data.

(** ** Instant messaging services: impp.cpp:166-220 *)

(** what is looked up: the files in the directories [kf5/kcontacts/improtocols] of the
    user and the system and, last, in the resources; the name and the icon in a
    desktop file; the capital form of a character *)
Record ImExt := {
  ix_dirs : list (list ustring);                (* names of the files in each directory *)
  ix_located : ustring -> option ustring;       (* QStandardPaths::locate of [type].desktop *)
  ix_name : ustring -> ustring;                 (* KDesktopFile(path).readName() *)
  ix_upper : N -> N                             (* QChar::toUpper *)
}.
(** [QFileInfo::suffix]: behind the last dot; [QFileInfo::baseName]: before the first *)
Fixpoint after_last_dot (cur : option ustring) (s : ustring) : option ustring :=
  match s with
  | [] => cur
  | c :: t => if N.eqb c cDOT then after_last_dot (Some []) t else after_last_dot (option_map (fun x => x ++ [c]) cur) t
  end.
Definition suffix (s : ustring) : ustring := match after_last_dot None s with Some x => x | None => [] end.
Definition base_name (s : ustring) : ustring := match index_of cDOT s with Some n => firstn n s | None => s end.

(** [std::sort] and [std::unique] on strings (insertion; the result of sorting is
    unique because equal strings cannot be told apart) *)
Fixpoint insert_sorted (x : ustring) (l : list ustring) : list ustring :=
  match l with [] => [x] | y :: r => if lltb y x then y :: insert_sorted x r else x :: l end.
Definition sort_strings (l : list ustring) : list ustring := fold_right insert_sorted [] l.
Fixpoint unique (l : list ustring) : list ustring :=
  match l with
  | x :: r => match r with
              | y :: _ => if leqb x y then unique r else x :: unique r
              | [] => [x]
              end
  | [] => []
  end.

(** [Impp::serviceTypes], impp.cpp:201-220 *)
Definition service_types (X : ImExt) : list ustring :=
  unique (sort_strings (flat_map (fun files => map base_name (filter (fun f => leqb (suffix f) (B "desktop")) files)) (ix_dirs X))).

(** [improtcolFile], impp.cpp:166-174 *)
Definition protocol_file (X : ImExt) (t : ustring) : ustring :=
  match ix_located X t with
  | Some p => if isnil p then B ":/org.kde.kcontacts/improtocols/" ++ t ++ B ".desktop" else p
  | None => B ":/org.kde.kcontacts/improtocols/" ++ t ++ B ".desktop"
  end.
(** [Impp::serviceLabel], impp.cpp:176-192 *)
Definition service_label (X : ImExt) (t : ustring) : ustring :=
  match t with
  | [] => []
  | c :: r => let n := ix_name X (protocol_file X t) in if isnil n then ix_upper X c :: r else n
  end.
