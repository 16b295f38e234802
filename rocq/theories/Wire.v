(* The MongoDB wire protocol package, x/mrpc/mongowire: messages, Serialize and Parse,
   ReadMessage and SendMessage, namespaces and scopes. *)
Require Import ZArith List Bool Lia ZifyBool ZifyNat.
From Verif Require Import Base BSpec Elements Value Stream.
Import ListNotations.
Open Scope Z_scope.

(* ------------------------------------------------------------------ wireutil *)

(* wireutil.go:10-15 readInt32: the four shifted bytes or-ed together; panics when short.
   encodeInt32 (wireutil.go:39-46) is le32 and encodeInt64 (wireutil.go:52-63) is le64. *)
Definition w_i32 (b : bytes) : go Z := readi32 b.
(* wireutil.go:17-26 readInt64 *)
Definition w_i64 (b : bytes) : go Z := x <- rdu64 b ;; Ret (i64 x).

(* b[loc:] *)
Definition from (b : bytes) (loc : Z) : go bytes := goslice b loc (zlen b).

(* wireutil.go:65-73 readCString *)
Definition read_cstring (b : bytes) : bytes + gerr :=
  match find_nul b with
  | Some n => inl (firstn (Z.to_nat n) b)
  | None => inr (EOther 100)
  end.

(* wireutil.go:75-79 writeCString to a bytes.Buffer *)
Definition write_cstring (s : bytes) : bytes := s ++ [0].

(* wireutil.go:81-86 getDocSize; a *birch.Document is an option, nil is None *)
Definition get_doc_size (fuel : nat) (d : option document) : go Z :=
  match d with
  | None => Ret 0
  | Some es =>
      '(n, e) <- doc_validate fuel es ;;
      match e with Some e => Panic (PErr e) | None => Ret n end
  end.

(* document.go:219-232 WriteTo into a bytes.Buffer, whose error every caller here drops: on
   a nil or invalid document nothing is written *)
Definition write_doc (fuel : nat) (d : option document) : go bytes :=
  match d with
  | None => Ret []
  | Some es => r <- doc_marshal fuel es ;; match r with inl b => Ret b | inr _ => Ret [] end
  end.

(* the loops "for _, d := range docs { size += getDocSize(&d) }" *)
Fixpoint docs_size (fuel : nat) (ds : list document) : go Z :=
  match ds with
  | [] => Ret 0
  | d :: r => n <- get_doc_size fuel (Some d) ;; m <- docs_size fuel r ;; Ret (n + m)
  end.

(* the loops "for _, d := range docs { d.WriteTo(buf) }" *)
Fixpoint write_docs (fuel : nat) (ds : list document) : go bytes :=
  match ds with
  | [] => Ret []
  | d :: r => a <- write_doc fuel (Some d) ;; b <- write_docs fuel r ;; Ret (a ++ b)
  end.

(* ------------------------------------------------------------------ messages *)

(* header.go:8-13 *)
Record header := MkHdr { h_size : Z; h_req : Z; h_resp : Z; h_op : Z }.

(* wire_message.go:25-27, 60-64 *)
Inductive section :=
| Body (d : option document)
| Seq (size : Z) (ident : bytes) (docs : list document).

(* message.go:15-126.  The fields DB, Collection and Operation of OpMessage are set nowhere
   in the package and are left out.  A document is the list of its elements, so Copy is the
   identity; DocOps.v has the aliasing of documents. *)
Inductive wmsg :=
| MReply (h : header) (flags cursor start nret : Z) (docs : list document)
| MUpdate (h : header) (reserved flags : Z) (ns : bytes) (filter update : option document)
| MInsert (h : header) (flags : Z) (ns : bytes) (docs : list document)
| MQuery (h : header) (flags skip nret : Z) (ns : bytes) (query project : option document)
| MGetMore (h : header) (reserved nret cursor : Z) (ns : bytes)
| MDelete (h : header) (reserved flags : Z) (ns : bytes) (filter : option document)
| MKill (h : header) (reserved num : Z) (ids : list Z)
| MCommand (h : header) (db cmd : bytes) (args meta : option document) (inputs : list document) (upconverted : bool)
| MCommandReply (h : header) (reply meta : option document) (outs : list document)
| MOp (h : header) (serialized : bytes) (flags : Z) (items : list section) (checksum : Z).

(* the Header methods *)
Definition msg_header (m : wmsg) : header :=
  match m with
  | MReply h _ _ _ _ _ | MUpdate h _ _ _ _ _ | MInsert h _ _ _ | MQuery h _ _ _ _ _ _
  | MGetMore h _ _ _ _ | MDelete h _ _ _ _ | MKill h _ _ _ | MCommand h _ _ _ _ _ _
  | MCommandReply h _ _ _ | MOp h _ _ _ _ => h
  end.

(* --------------------------------------------------------------- constructors *)

(* the header every constructor sets *)
Definition new_header (op : Z) : header := MkHdr 0 19 0 op.

(* wire_reply.go:10-22 *)
Definition new_reply (cursor flags start nret : Z) (docs : list document) : wmsg :=
  MReply (new_header 1) flags cursor start nret docs.
(* wire_update.go:10-21 *)
Definition new_update (ns : bytes) (flags : Z) (filter update : option document) : wmsg :=
  MUpdate (new_header 2001) 0 flags ns filter update.
(* wire_insert.go:10-22; d.Copy() panics on a nil document *)
Fixpoint deref_docs (ds : list (option document)) : go (list document) :=
  match ds with
  | [] => Ret []
  | None :: _ => Panic PNil
  | Some d :: r => l <- deref_docs r ;; Ret (d :: l)
  end.
Definition new_insert (ns : bytes) (docs : list (option document)) : go wmsg :=
  l <- deref_docs docs ;; Ret (MInsert (new_header 2002) 0 ns l).
(* wire_query.go:10-23 *)
Definition new_query (ns : bytes) (flags skip nret : Z) (query project : option document) : wmsg :=
  MQuery (new_header 2004) flags skip nret ns query project.
(* wire_get_more.go:8-18 *)
Definition new_get_more (ns : bytes) (nret cursor : Z) : wmsg :=
  MGetMore (new_header 2005) 0 nret cursor ns.
(* wire_delete.go:10-20 *)
Definition new_delete (ns : bytes) (flags : Z) (filter : option document) : wmsg :=
  MDelete (new_header 2006) 0 flags ns filter.
(* wire_kill_cursors.go:10-19 *)
Definition new_kill_cursors (ids : list Z) : wmsg :=
  MKill (new_header 2007) 0 (i32 (zlen ids)) ids.
(* wire_command.go:10-22 *)
Definition new_command (db cmd : bytes) (args meta : option document) (inputs : list document) : wmsg :=
  MCommand (new_header 2010) db cmd args meta inputs false.
(* wire_command_reply.go:10-20 *)
Definition new_command_reply (reply meta : option document) (outs : list document) : wmsg :=
  MCommandReply (new_header 2011) reply meta outs.

(* wire_message.go:169-179: the section of a SequenceItem *)
Definition new_seq (fuel : nat) (item : bytes * list document) : go section :=
  n <- docs_size fuel (snd item) ;; Ret (Seq (i32 n) (fst item) (snd item)).
Fixpoint new_seqs (fuel : nat) (items : list (bytes * list document)) : go (list section) :=
  match items with
  | [] => Ret []
  | i :: r => s <- new_seq fuel i ;; l <- new_seqs fuel r ;; Ret (s :: l)
  end.
(* wire_message.go:150-182; "msg.Flags = msg.Flags & 1" leaves the zero flags zero *)
Definition new_op_message (fuel : nat) (more : bool) (docs : list document)
    (items : list (bytes * list document)) : go wmsg :=
  let flags := if more then Z.land 0 1 else 0 in
  seqs <- new_seqs fuel items ;;
  Ret (MOp (new_header 2013) [] flags (map (fun d => Body (Some d)) docs ++ seqs) 0).

(* ------------------------------------------------------------------ Serialize *)

(* header.go:15-20 *)
Definition write_header (h : header) : bytes :=
  le32 (h_size h) ++ le32 (h_req h) ++ le32 (h_resp h) ++ le32 (h_op h).
Definition with_size (h : header) (n : Z) : header := MkHdr (i32 n) (h_req h) (h_resp h) (h_op h).

(* bytes.NewBuffer(make([]byte, 0, size)) *)
Definition make_buf (size : Z) : go unit := if size <? 0 then Panic PMake else Ret tt.

(* wire_message.go:53-58, 74-91: the bytes, the section with its Size set, and what
   wire_message.go:124-130 adds to the size *)
Definition ser_section (fuel : nat) (s : section) : go (bytes * section * Z) :=
  match s with
  | Body d =>
      n <- get_doc_size fuel d ;;
      _ <- make_buf (1 + n) ;;
      b <- write_doc fuel d ;;
      Ret (0 :: b, s, 1 + n)
  | Seq _ ident docs =>
      n <- docs_size fuel docs ;;
      let size := 1 + 4 + (zlen ident + 1) + n in
      _ <- make_buf size ;;
      b <- write_docs fuel docs ;;
      Ret (1 :: le32 (i32 size) ++ write_cstring ident ++ b, Seq (i32 size) ident docs, i32 size)
  end.

Fixpoint ser_sections (fuel : nat) (ss : list section) : go (bytes * list section * Z) :=
  match ss with
  | [] => Ret ([], [], 0)
  | s :: r =>
      '(b, s', n) <- ser_section fuel s ;;
      '(b2, r', m) <- ser_sections fuel r ;;
      Ret (b ++ b2, s' :: r', n + m)
  end.

(* The Serialize methods: the bytes, and the message with its header size (and for OP_MSG
   the cached bytes and section sizes) set. *)
Definition serialize (fuel : nat) (m : wmsg) : go (bytes * wmsg) :=
  match m with
  (* wire_reply.go:29-49 *)
  | MReply h flags cursor start nret docs =>
      n <- docs_size fuel docs ;;
      let size := 16 + 20 + n in
      let h := with_size h size in
      _ <- make_buf size ;;
      b <- write_docs fuel docs ;;
      Ret (write_header h ++ le32 flags ++ le64 cursor ++ le32 start ++ le32 nret ++ b,
           MReply h flags cursor start nret docs)
  (* wire_update.go:29-50 *)
  | MUpdate h reserved flags ns filter update =>
      n <- get_doc_size fuel filter ;;
      m <- get_doc_size fuel update ;;
      let size := 16 + 8 + (zlen ns + 1) + n + m in
      let h := with_size h size in
      _ <- make_buf size ;;
      b1 <- write_doc fuel filter ;;
      b2 <- write_doc fuel update ;;
      Ret (write_header h ++ le32 0 ++ write_cstring ns ++ le32 flags ++ b1 ++ b2,
           MUpdate h reserved flags ns filter update)
  (* wire_insert.go:30-51 *)
  | MInsert h flags ns docs =>
      n <- docs_size fuel docs ;;
      let size := 16 + 4 + (zlen ns + 1) + n in
      let h := with_size h size in
      _ <- make_buf size ;;
      b <- write_docs fuel docs ;;
      Ret (write_header h ++ le32 flags ++ write_cstring ns ++ b, MInsert h flags ns docs)
  (* wire_query.go:29-51 *)
  | MQuery h flags skip nret ns query project =>
      n <- get_doc_size fuel query ;;
      m <- get_doc_size fuel project ;;
      let size := 16 + 12 + (zlen ns + 1) + n + m in
      let h := with_size h size in
      _ <- make_buf size ;;
      b1 <- write_doc fuel query ;;
      b2 <- write_doc fuel project ;;
      Ret (write_header h ++ le32 flags ++ write_cstring ns ++ le32 skip ++ le32 nret ++ b1 ++ b2,
           MQuery h flags skip nret ns query project)
  (* wire_get_more.go:30-46 *)
  | MGetMore h reserved nret cursor ns =>
      let size := 16 + 16 + (zlen ns + 1) in
      let h := with_size h size in
      _ <- make_buf size ;;
      Ret (write_header h ++ le32 0 ++ write_cstring ns ++ le32 nret ++ le64 cursor,
           MGetMore h reserved nret cursor ns)
  (* wire_delete.go:27-46 *)
  | MDelete h reserved flags ns filter =>
      n <- get_doc_size fuel filter ;;
      let size := 16 + 8 + (zlen ns + 1) + n in
      let h := with_size h size in
      _ <- make_buf size ;;
      b <- write_doc fuel filter ;;
      Ret (write_header h ++ le32 0 ++ write_cstring ns ++ le32 flags ++ b,
           MDelete h reserved flags ns filter)
  (* wire_kill_cursors.go:25-41 *)
  | MKill h reserved num ids =>
      let size := 16 + 8 + 8 * num in
      let h := with_size h size in
      _ <- make_buf size ;;
      Ret (write_header h ++ le32 0 ++ le32 num ++ concat (map le64 ids), MKill h reserved num ids)
  (* wire_command.go:35-60 *)
  | MCommand h db cmd args meta inputs up =>
      n1 <- get_doc_size fuel args ;;
      n2 <- get_doc_size fuel meta ;;
      n3 <- docs_size fuel inputs ;;
      let size := 16 + (zlen db + 1) + (zlen cmd + 1) + n1 + n2 + n3 in
      let h := with_size h size in
      _ <- make_buf size ;;
      b1 <- write_doc fuel args ;;
      b2 <- write_doc fuel meta ;;
      b3 <- write_docs fuel inputs ;;
      Ret (write_header h ++ write_cstring db ++ write_cstring cmd ++ b1 ++ b2 ++ b3,
           MCommand h db cmd args meta inputs up)
  (* wire_command_reply.go:26-47 *)
  | MCommandReply h reply meta outs =>
      n1 <- get_doc_size fuel reply ;;
      n2 <- get_doc_size fuel meta ;;
      n3 <- docs_size fuel outs ;;
      let size := 16 + n1 + n2 + n3 in
      let h := with_size h size in
      _ <- make_buf size ;;
      b1 <- write_doc fuel reply ;;
      b2 <- write_doc fuel meta ;;
      b3 <- write_docs fuel outs ;;
      Ret (write_header h ++ b1 ++ b2 ++ b3, MCommandReply h reply meta outs)
  (* wire_message.go:114-148 *)
  | MOp h ser flags items checksum =>
      if 0 <? zlen ser then Ret (ser, m) else
      '(sections, items, n) <- ser_sections fuel items ;;
      let sum := negb (checksum =? 0) && (Z.land flags 1 =? 1) in
      let size := 16 + 4 + n + (if sum then 4 else 0) in
      let h := with_size h size in
      _ <- make_buf size ;;
      let b := write_header h ++ le32 (i32 flags) ++ sections ++ (if sum then le32 checksum else []) in
      Ret (b, MOp h b flags items checksum)
  end.

(* ---------------------------------------------------------------- namespaces *)

(* strings.IndexByte *)
Fixpoint index_byte (s : bytes) (c : Z) : option Z :=
  match s with
  | [] => None
  | x :: r => if x =? c then Some 0 else option_map (Z.add 1) (index_byte r c)
  end.

(* namespace.go:5-12 *)
Definition namespace_is_command (ns : bytes) : go bool :=
  match index_byte ns 46 with
  | None => Ret false
  | Some idx =>
      if zlen ns <=? idx + 1 then Ret false else
      c <- goindex ns (idx + 1) ;; Ret (c =? 36)
  end.
(* namespace.go:14-21 *)
Definition namespace_to_db (ns : bytes) : go bytes :=
  match index_byte ns 46 with
  | None => Ret ns
  | Some idx => goslice ns 0 idx
  end.
(* namespace.go:23-30 *)
Definition namespace_to_collection (ns : bytes) : go bytes :=
  match index_byte ns 46 with
  | None => Ret []
  | Some idx => from ns (idx + 1)
  end.

(* --------------------------------------------------------------------- Parse *)

Notation pres := (go (option wmsg * option gerr)).
Definition perr (n : Z) : pres := Ret (None, Some (EOther n)).

(* birch.ReadDocument then k on success; on an error "return nil, err" *)
Definition read_doc_then (fuel : nat) (b : bytes) (k : document -> pres) : pres :=
  r <- read_document fuel b ;;
  match r with
  | inr e => Ret (None, Some e)
  | inl d => k d
  end.

(* the loops of wire_reply.go:74-81 and wire_insert.go:74-81; n bounds the iterations:
   length buf of them suffice when each advances loc.  Validate can report the size 0 for a
   document read from hostile bytes; then the loop does not end, and the result is Fuel for
   every n (WireHostileProps.v) *)
Fixpoint parse_docs (n : nat) (fuel : nat) (buf : bytes) (loc : Z) (acc : list document)
    (k : list document -> pres) : pres :=
  if loc <? zlen buf then
    match n with
    | O => Fuel
    | S n =>
        b <- from buf loc ;;
        read_doc_then fuel b (fun d =>
          sz <- get_doc_size fuel (Some d) ;;
          parse_docs n fuel buf (loc + sz) (acc ++ [d]) k)
    end
  else k acc.

(* wire_reply.go:51-84 *)
Definition parse_reply (fuel : nat) (h : header) (buf : bytes) : pres :=
  if zlen buf <? 20 then perr 101 else
  b0 <- from buf 0 ;; flags <- w_i32 b0 ;;
  b1 <- from buf 4 ;; cursor <- w_i64 b1 ;;
  b2 <- from buf 12 ;; start <- w_i32 b2 ;;
  b3 <- from buf 16 ;; nret <- w_i32 b3 ;;
  parse_docs (length buf) fuel buf 20 []
    (fun docs => Ret (Some (MReply h flags cursor start nret docs), None)).

(* wire_update.go:52-99 *)
Definition parse_update (fuel : nat) (h : header) (buf : bytes) : pres :=
  if zlen buf <? 4 then perr 102 else
  b0 <- from buf 0 ;; reserved <- w_i32 b0 ;;
  b1 <- from buf 4 ;;
  match read_cstring b1 with
  | inr e => Ret (None, Some e)
  | inl ns =>
      let loc := 4 + (zlen ns + 1) in
      if zlen buf <? loc + 4 then perr 103 else
      b2 <- from buf loc ;; flags <- w_i32 b2 ;;
      let loc := loc + 4 in
      b3 <- from buf loc ;;
      read_doc_then fuel b3 (fun filter =>
        sz <- get_doc_size fuel (Some filter) ;;
        let loc := loc + sz in
        if zlen buf <? loc then
          Ret (Some (MUpdate h reserved flags ns (Some filter) None), Some (EOther 103))
        else
        b4 <- from buf loc ;;
        read_doc_then fuel b4 (fun update =>
          _ <- get_doc_size fuel (Some update) ;;
          Ret (Some (MUpdate h reserved flags ns (Some filter) (Some update)), None)))
  end.

(* wire_insert.go:53-84 *)
Definition parse_insert (fuel : nat) (h : header) (buf : bytes) : pres :=
  if zlen buf <? 4 then Ret (Some (MInsert h 0 [] []), Some (EOther 104)) else
  b0 <- from buf 0 ;; flags <- w_i32 b0 ;;
  b1 <- from buf 4 ;;
  match read_cstring b1 with
  | inr e => Ret (Some (MInsert h flags [] []), Some e)
  | inl ns =>
      parse_docs (length buf) fuel buf (4 + (zlen ns + 1)) []
        (fun docs => Ret (Some (MInsert h flags ns docs), None))
  end.

(* document.go ElementAt panics out of range; element.go:102-108 Key *)
Definition first_key (d : document) : go bytes :=
  match d with
  | [] => Panic PIndex
  | e :: _ => elem_key e
  end.

(* wire_query.go:53-68, called when NamespaceIsCommand *)
Definition convert_to_command (ns : bytes) (query : document) : go wmsg :=
  db <- namespace_to_db ns ;;
  cmd <- first_key query ;;
  Ret (MCommand (new_header 2010) db cmd (Some query) None [] true).

(* wire_query.go:116-120 *)
Definition finish_query (h : header) (flags skip nret : Z) (ns : bytes) (query : document)
    (project : option document) : pres :=
  c <- namespace_is_command ns ;;
  if (c : bool) then
    m <- convert_to_command ns query ;; Ret (Some m, None)
  else Ret (Some (MQuery h flags skip nret ns (Some query) project), None).

(* wire_query.go:70-121 *)
Definition parse_query (fuel : nat) (h : header) (buf : bytes) : pres :=
  if zlen buf <? 4 then perr 105 else
  flags <- w_i32 buf ;;
  b1 <- from buf 4 ;;
  match read_cstring b1 with
  | inr e => Ret (None, Some e)
  | inl ns =>
      let loc := 4 + (zlen ns + 1) in
      if zlen buf <? loc + 8 then Ret (Some (MQuery h flags 0 0 ns None None), Some (EOther 106)) else
      b2 <- from buf loc ;; skip <- w_i32 b2 ;;
      b3 <- from buf (loc + 4) ;; nret <- w_i32 b3 ;;
      let loc := loc + 8 in
      b4 <- from buf loc ;;
      read_doc_then fuel b4 (fun query =>
        sz <- get_doc_size fuel (Some query) ;;
        let loc := loc + sz in
        if loc <? zlen buf then
          b5 <- from buf loc ;;
          read_doc_then fuel b5 (fun project =>
            _ <- get_doc_size fuel (Some project) ;;
            finish_query h flags skip nret ns query (Some project))
        else finish_query h flags skip nret ns query None)
  end.

(* wire_get_more.go:48-81 *)
Definition parse_get_more (h : header) (buf : bytes) : pres :=
  if zlen buf <? 4 then perr 107 else
  reserved <- w_i32 buf ;;
  b1 <- from buf 4 ;;
  match read_cstring b1 with
  | inr e => Ret (None, Some e)
  | inl ns =>
      let loc := 4 + (zlen ns + 1) in
      if zlen buf <? loc + 12 then perr 108 else
      b2 <- from buf loc ;; nret <- w_i32 b2 ;;
      b3 <- from buf (loc + 4) ;; cursor <- w_i64 b3 ;;
      Ret (Some (MGetMore h reserved nret cursor ns), None)
  end.

(* wire_delete.go:48-83 *)
Definition parse_delete (fuel : nat) (h : header) (buf : bytes) : pres :=
  if zlen buf <? 4 then perr 109 else
  b0 <- from buf 0 ;; reserved <- w_i32 b0 ;;
  b1 <- from buf 4 ;;
  match read_cstring b1 with
  | inr e => Ret (None, Some e)
  | inl ns =>
      let loc := 4 + (zlen ns + 1) in
      if zlen buf <? loc + 4 then Ret (Some (MDelete h reserved 0 ns None), Some (EOther 110)) else
      b2 <- from buf loc ;; flags <- w_i32 b2 ;;
      b3 <- from buf (loc + 4) ;;
      read_doc_then fuel b3 (fun filter =>
        _ <- get_doc_size fuel (Some filter) ;;
        Ret (Some (MDelete h reserved flags ns (Some filter)), None))
  end.

(* wire_kill_cursors.go:65-68; n iterations *)
Fixpoint read_ids (n : nat) (buf : bytes) (loc : Z) : go (list Z) :=
  match n with
  | O => Ret []
  | S n => b <- from buf loc ;; c <- w_i64 b ;; r <- read_ids n buf (loc + 8) ;; Ret (c :: r)
  end.
(* wire_kill_cursors.go:43-71; the product fits an int *)
Definition parse_kill_cursors (h : header) (buf : bytes) : pres :=
  if zlen buf <? 8 then perr 111 else
  reserved <- w_i32 buf ;;
  b1 <- from buf 4 ;; num <- w_i32 b1 ;;
  b2 <- from buf 8 ;;
  if zlen b2 <? num * 8 then perr 112 else
  if num <? 0 then Panic PMake else
  ids <- read_ids (Z.to_nat num) buf 8 ;;
  Ret (Some (MKill h reserved num ids), None).

(* wire_command.go:88-101 and 103-116: a document and the rest of buf; early is the message
   returned with the error when the rest is short *)
Definition command_doc (fuel : nat) (buf : bytes) (early : document -> wmsg)
    (k : document -> bytes -> pres) : pres :=
  read_doc_then fuel buf (fun d =>
    '(size, e) <- doc_validate fuel d ;;
    match e with
    | Some e => Ret (None, Some e)
    | None =>
        if zlen buf <? size then Ret (Some (early d), Some (EOther 113)) else
        rest <- from buf size ;; k d rest
    end).

(* wire_command.go:118-130 *)
Fixpoint command_docs (n : nat) (fuel : nat) (buf : bytes) (acc : list document)
    (k : list document -> pres) : pres :=
  if 0 <? zlen buf then
    match n with
    | O => Fuel
    | S n =>
        read_doc_then fuel buf (fun d =>
          '(size, e) <- doc_validate fuel d ;;
          match e with
          | Some e => Ret (None, Some e)
          | None => rest <- from buf size ;; command_docs n fuel rest (acc ++ [d]) k
          end)
    end
  else k acc.

(* wire_command.go:62-133 *)
Definition parse_command (fuel : nat) (h : header) (buf : bytes) : pres :=
  match read_cstring buf with
  | inr e => Ret (Some (MCommand h [] [] None None [] false), Some e)
  | inl db =>
      if zlen buf <? zlen db + 1 then perr 113 else
      buf <- from buf (zlen db + 1) ;;
      match read_cstring buf with
      | inr e => Ret (None, Some e)
      | inl cmd =>
          if zlen buf <? zlen cmd + 1 then perr 113 else
          buf <- from buf (zlen cmd + 1) ;;
          command_doc fuel buf (fun args => MCommand h db cmd (Some args) None [] false) (fun args buf =>
            command_doc fuel buf (fun meta => MCommand h db cmd (Some args) (Some meta) [] false) (fun meta buf =>
              command_docs (length buf) fuel buf [] (fun inputs =>
                Ret (Some (MCommand h db cmd (Some args) (Some meta) inputs false), None))))
      end
  end.

(* wire_command_reply.go:56-65 and 67-75 *)
Definition reply_doc (fuel : nat) (buf : bytes) (k : document -> bytes -> pres) : pres :=
  read_doc_then fuel buf (fun d =>
    size <- get_doc_size fuel (Some d) ;;
    if zlen buf <? size then perr 113 else
    rest <- from buf size ;; k d rest).

(* wire_command_reply.go:77-84 *)
Fixpoint reply_docs (n : nat) (fuel : nat) (buf : bytes) (acc : list document)
    (k : list document -> pres) : pres :=
  if 0 <? zlen buf then
    match n with
    | O => Fuel
    | S n =>
        read_doc_then fuel buf (fun d =>
          size <- get_doc_size fuel (Some d) ;;
          rest <- from buf size ;; reply_docs n fuel rest (acc ++ [d]) k)
    end
  else k acc.

(* wire_command_reply.go:49-87 *)
Definition parse_command_reply (fuel : nat) (h : header) (buf : bytes) : pres :=
  reply_doc fuel buf (fun reply buf =>
    reply_doc fuel buf (fun meta buf =>
      reply_docs (length buf) fuel buf [] (fun outs =>
        Ret (Some (MCommandReply h (Some reply) (Some meta) outs), None)))).

(* wire_message.go:220-229 the loop over the documents of a sequence: the documents, the
   position after them, or the error *)
Fixpoint seq_docs (n : nat) (fuel : nat) (body : bytes) (loc remaining : Z) (acc : list document)
    : go ((list document * Z) + gerr) :=
  if 0 <? remaining then
    match n with
    | O => Fuel
    | S n =>
        b <- from body loc ;; sz <- w_i32 b ;;
        s <- goslice body loc (loc + sz) ;;
        r <- read_document fuel s ;;
        match r with
        | inr e => Ret (inr e)
        | inl d => seq_docs n fuel body (loc + sz) (remaining - sz) (acc ++ [d])
        end
    end
  else Ret (inl (acc, loc)).

(* wire_message.go:199-233 one section; the error of ReadDocument at line 207 is dropped,
   which leaves a nil document *)
Definition parse_section (fuel : nat) (body : bytes) (loc : Z) : go ((section * Z) + gerr) :=
  kind <- goindex body loc ;;
  let loc := loc + 1 in
  if kind =? 0 then
    b <- from body loc ;; sz <- w_i32 b ;;
    s <- goslice body loc (loc + sz) ;;
    r <- read_document fuel s ;;
    let d := match r with inl d => Some d | inr _ => None end in
    n <- get_doc_size fuel d ;;
    Ret (inl (Body d, loc + n))
  else if kind =? 1 then
    b <- from body loc ;; size <- w_i32 b ;;
    let loc := loc + 4 in
    b <- from body loc ;;
    match read_cstring b with
    | inr e => Ret (inr e)
    | inl ident =>
        let loc := loc + (zlen ident + 1) in
        r <- seq_docs (length body) fuel body loc (size - 1 - 4 - zlen ident - 1) [] ;;
        match r with
        | inr e => Ret (inr e)
        | inl (docs, loc) => Ret (inl (Seq size ident docs, loc))
        end
    end
  else Ret (inr (EOther 115)).

(* wire_message.go:198-234; each iteration advances loc *)
Fixpoint parse_sections (n : nat) (fuel : nat) (body : bytes) (loc : Z) (acc : list section)
    : go ((list section * Z) + gerr) :=
  if loc <? zlen body - 4 then
    match n with
    | O => Fuel
    | S n =>
        r <- parse_section fuel body loc ;;
        match r with
        | inr e => Ret (inr e)
        | inl (s, loc) => parse_sections n fuel body loc (acc ++ [s])
        end
    end
  else Ret (inl (acc, loc)).

(* wire_message.go:184-244 *)
Definition parse_msg (fuel : nat) (h : header) (body : bytes) : pres :=
  if zlen body <? 4 then perr 114 else
  b0 <- from body 0 ;; f <- w_i32 b0 ;;
  let flags := u32 f in
  r <- parse_sections (length body) fuel body 4 [] ;;
  match r with
  | inr e => Ret (None, Some e)
  | inl (items, loc) =>
      '(checksum, loc) <- (if (Z.land flags 1 =? 1) && (loc =? zlen body - 4)
                           then b <- from body loc ;; c <- w_i32 b ;; Ret (c, loc + 4)
                           else Ret (0, loc)) ;;
      Ret (Some (MOp (with_size h loc) [] flags items checksum), None)
  end.

(* header.go:22-54 *)
Definition parse (fuel : nat) (h : header) (body : bytes) : pres :=
  let op := h_op h in
  if op =? 1 then parse_reply fuel h body else
  if op =? 2001 then parse_update fuel h body else
  if op =? 2002 then parse_insert fuel h body else
  if op =? 2004 then parse_query fuel h body else
  if op =? 2005 then parse_get_more h body else
  if op =? 2006 then parse_delete fuel h body else
  if op =? 2007 then parse_kill_cursors h body else
  if op =? 2010 then parse_command fuel h body else
  if op =? 2011 then parse_command_reply fuel h body else
  if op =? 2013 then parse_msg fuel h body else
  perr 116.

(* ------------------------------------------------------------------- framing *)

(* sock.go:60-88 the loop reading the rest of the message, without cancellation: size is
   header.Size-4 and the buffer of every Read has that length.  n bounds the reads. *)
Fixpoint rm_loop (n : nat) (s : stream) (size read : Z) (acc : bytes)
    : go (stream * (bytes + gerr)) :=
  if i32 read <? size then
    match n with
    | O => Fuel
    | S n =>
        let '(s', got, e) := st_read s size in
        match e with
        | Some EEOF => rm_loop n s' size size acc
        | Some e => Ret (s', inr e)
        | None => rm_loop n s' size (read + zlen got) (acc ++ got)
        end
    end
  else Ret (s, inl acc).

(* sock.go:14-99 ReadMessage with a context that is not cancelled: the stream after it, the
   message and the error *)
Definition read_message (fuel : nat) (s : stream) : stream * pres :=
  let '(s1, got, e) := st_read s 4 in
  match e with
  | Some e => (s1, Ret (None, Some e))
  | None =>
      if negb (zlen got =? 4) then (s1, perr 120) else
      match w_i32 got with
      | Panic p => (s1, Panic p)
      | Fuel => (s1, Fuel)
      | Ret size =>
          if 209715200 <? size then (s1, perr 121) else
          if size <? 0 then (s1, perr 122) else
          match rm_loop (length (st_sched s1) + 3) s1 (size - 4) 0 [] with
          | Panic p => (s1, Panic p)
          | Fuel => (s1, Fuel)
          | Ret (s2, inr e) => (s2, Ret (None, Some e))
          | Ret (s2, inl buf) =>
              (s2,
               if zlen buf <? 12 then perr 123 else
               req <- w_i32 buf ;;
               b4 <- from buf 4 ;; resp <- w_i32 b4 ;;
               b8 <- from buf 8 ;; op <- w_i32 b8 ;;
               b12 <- from buf 12 ;;
               parse fuel (MkHdr size req resp op) b12)
          end
      end
  end.

(* One turn of the loop of SendMessage as the writer and the scheduler decide it: the Write
   took n bytes and returned with e, or the context was cancelled while a Write that takes n
   bytes was under way (sock.go:110-129). *)
Inductive wturn := WDone (n : Z) (e : option gerr) | WCancel (n : Z).

(* How SendMessage ended: nil, an error from the writer, the context's error, a panic, or
   not yet (the turns ran out). *)
Inductive sent := SentOk | SentErr (e : gerr) | SentCancelled | SentPanic | SentWaiting.

(* sock.go:101-131 after Serialize: what the writer was handed in total, and the result *)
Fixpoint send_loop (turns : list wturn) (buf : bytes) (out : bytes) : bytes * sent :=
  match turns with
  | [] => (out, SentWaiting)
  | WCancel n :: _ => (out ++ firstn (Z.to_nat n) buf, SentCancelled)
  | WDone n e :: r =>
      let out := out ++ firstn (Z.to_nat n) buf in
      match e with
      | Some e => (out, SentErr e)
      | None =>
          if n =? zlen buf then (out, SentOk) else
          match goslice buf n (zlen buf) with
          | Ret buf => send_loop r buf out
          | _ => (out, SentPanic)
          end
      end
  end.
Definition send_message (fuel : nat) (turns : list wturn) (m : wmsg) : go (bytes * sent) :=
  '(b, _) <- serialize fuel m ;; Ret (send_loop turns b []).
