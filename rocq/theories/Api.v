(* Model of constructor.go (the EC functions), x_constructor.go (EC.Int) and the getters of value.go. *)
Require Import ZArith List Bool Lia ZifyBool ZifyNat.
From Verif Require Import Base BSpec Elements Value.
Import ListNotations.
Open Scope Z_scope.

(* -------------------------------------------------------------- constructors *)

(* The common shape of constructor.go:200-590: make([]byte, uint32(size)), write the
   element at position 0, panic on an error, and return newElement(0, off) holding the
   slice (and, for containers, the document d). *)
Definition built (off : Z) (d : option document) (r : wres) : go value :=
  match r with
  | (_, _, Some e) => Panic (PErr e)
  | (b, _, None) => Ret (MkValue 0 off (Some b) d)
  end.

Definition hdr (key : bytes) : Z := u32 (1 + zlen key + 1).
Definition buf (key : bytes) (n : Z) : bytes := zeros (u32 (1 + zlen key + 1 + n)).

(* type byte, then the key; constructor.go:234-240 and the other key-only elements *)
Definition header_only (t : Z) (key w : bytes) : wres :=
  andthen (byte_encode 0 w t) (fun w _ => cstring_encode 1 w key).

(* constructor.go:200-211 *)
Definition ec_double (key : bytes) (bits : Z) : go value :=
  built (hdr key) None (double_element 0 (buf key 8) key bits).
(* constructor.go:214-226 *)
Definition ec_string (key v : bytes) : go value :=
  built (hdr key) None (string_element 0 (buf key (4 + zlen v + 1)) key v).
(* constructor.go:229-246; d is not nil *)
Definition ec_subdocument (key : bytes) (d : document) : go value :=
  built (hdr key) (Some d) (header_only 3 key (buf key 0)).
(* constructor.go:248-267; copy(b[1+len(key)+1:], r) fills the rest exactly *)
Definition ec_subdocument_reader (key r : bytes) : go value :=
  built (hdr key) None
    (andthen (header_only 3 key (buf key (zlen r)))
       (fun w n => (put w (1 + zlen key + 1) r, 0, None))).
(* constructor.go:276-293; a.doc is not nil *)
Definition ec_array (key : bytes) (d : document) : go value :=
  built (hdr key) (Some d) (header_only 4 key (buf key 0)).
(* constructor.go:308-324 *)
Definition ec_binary_subtype (key b : bytes) (bt : Z) : go value :=
  built (hdr key) None
    (binary_element 0 (buf key (5 + zlen b + (if bt =? 2 then 4 else 0))) key b bt).
(* constructor.go:302-304 *)
Definition ec_binary (key b : bytes) : go value := ec_binary_subtype key b 0.
(* constructor.go:327-343 *)
Definition ec_undefined (key : bytes) : go value :=
  built (hdr key) None (header_only 6 key (buf key 0)).
(* constructor.go:346-356; oid is an array of 12 bytes *)
Definition ec_objectid (key o : bytes) : go value :=
  built (hdr key) None (objectid_element 0 (buf key 12) key o).
(* constructor.go:359-369 *)
Definition ec_boolean (key : bytes) (b : bool) : go value :=
  built (hdr key) None (boolean_element 0 (buf key 1) key b).
(* constructor.go:373-383 *)
Definition ec_datetime (key : bytes) (dt : Z) : go value :=
  built (hdr key) None (datetime_element 0 (buf key 8) key dt).
(* constructor.go:392-408 *)
Definition ec_null (key : bytes) : go value :=
  built (hdr key) None (header_only 10 key (buf key 0)).
(* constructor.go:411-422 *)
Definition ec_regex (key p o : bytes) : go value :=
  built (hdr key) None (regex_element 0 (buf key (zlen p + 1 + zlen o + 1)) key p o).
(* constructor.go:425-436 *)
Definition ec_dbpointer (key ns o : bytes) : go value :=
  built (hdr key) None (dbpointer_element 0 (buf key (4 + zlen ns + 1 + 12)) key ns o).
(* constructor.go:439-450 *)
Definition ec_javascript (key c : bytes) : go value :=
  built (hdr key) None (javascript_element 0 (buf key (4 + zlen c + 1)) key c).
(* constructor.go:453-464 *)
Definition ec_symbol (key c : bytes) : go value :=
  built (hdr key) None (symbol_element 0 (buf key (4 + zlen c + 1)) key c).
(* constructor.go:467-494; scope is not nil.  The length field is provisional. *)
Definition ec_code_with_scope (key c : bytes) (scope : document) : go value :=
  let w := buf key (4 + 4 + zlen c + 1) in
  built (hdr key) (Some scope)
    (andthen (byte_encode 0 w 15) (fun w _ =>
     andthen (cstring_encode 1 w key) (fun w _ =>
     andthen (int32_encode (1 + zlen key + 1) w (i32 (u32 (1 + zlen key + 1 + 4 + 4 + zlen c + 1))))
       (fun w _ => string_encode (1 + zlen key + 1 + 4) w c)))).
(* constructor.go:497-508 *)
Definition ec_int32 (key : bytes) (i : Z) : go value :=
  built (hdr key) None (int32_element 0 (buf key 4) key i).
(* constructor.go:511-522 *)
Definition ec_timestamp (key : bytes) (t i : Z) : go value :=
  built (hdr key) None (timestamp_element 0 (buf key 8) key t i).
(* constructor.go:525-536 *)
Definition ec_int64 (key : bytes) (i : Z) : go value :=
  built (hdr key) None (int64_element 0 (buf key 8) key i).
(* constructor.go:539-550; a Decimal128 is its two halves *)
Definition ec_decimal (key : bytes) (h l : Z) : go value :=
  built (hdr key) None (decimal_element 0 (buf key 16) key h l).
(* constructor.go:553-569, constructor.go:572-588 *)
Definition ec_minkey (key : bytes) : go value :=
  built (hdr key) None (header_only 255 key (buf key 0)).
Definition ec_maxkey (key : bytes) : go value :=
  built (hdr key) None (header_only 127 key (buf key 0)).

(* constructor.go:386-389.  A time.Time is its instant, in nanoseconds since 1970 (the
   monotonic reading and the location play no role); Unix() is the floor in seconds and
   Nanosecond() the non-negative rest. *)
Definition ec_time (key : bytes) (ns : Z) : go value :=
  ec_datetime key (i64 (i64 (ns / 1000000000 * 1000) + (ns mod 1000000000) / 1000000)).

(* x_constructor.go:260-266 *)
Definition ec_int (key : bytes) (i : Z) : go value :=
  if i <? 2147483647 then ec_int32 key (i32 i) else ec_int64 key i.

(* x_constructor.go:375-377 EC.Duration: int64 nanoseconds *)
Definition ec_duration (key : bytes) (ns : Z) : go value := ec_int64 key ns.

(* constructor.go:43-96, the integer cases of EC.Interface by dynamic type *)
Inductive goint :=
| GInt8 (i : Z) | GInt16 (i : Z) | GInt32 (i : Z) | GInt64 (i : Z) | GInt (i : Z)
| GUint8 (i : Z) | GUint16 (i : Z) | GUint32 (i : Z) | GUint64 (i : Z) | GUint (i : Z).

Definition ec_interface_int (key : bytes) (v : goint) : go value :=
  match v with
  | GInt8 i | GInt16 i | GInt32 i | GUint8 i | GUint16 i => ec_int32 key i
  | GInt64 i => ec_int64 key i
  | GInt i => ec_int key i
  | GUint32 i => if i <? 2147483647 then ec_int32 key (i32 i) else ec_int64 key i
  | GUint64 i | GUint i =>
      if i <? 2147483647 then ec_int32 key (i32 i)
      else if 9223372036854775807 <? i then ec_null key
      else ec_int64 key (i64 i)
  end.

(* element.go:327-351 convertValueToElem (EC.Value) *)
Definition ec_value (key : bytes) (ov : option value) : go elem :=
  match ov with
  | Some (MkValue st off (Some data) d) =>
      if off =? 0 then Ret None else
      rest <- goslice data off (zlen data) ;;
      t <- goindex data st ;;
      Ret (Some (MkValue 0 (u32 (zlen key + 2)) (Some (t :: key ++ [0] ++ rest)) d))
  | _ => Ret None
  end.

(* ------------------------------------------------------------------- getters *)

(* The guards every getter starts with, e.g. value.go:502-508: nil or uninitialised
   panics, a wrong type byte panics. *)
Definition getter {A} (tg : Z) (k : Z -> bytes -> option document -> go A)
    (ov : option value) : go A :=
  match ov with
  | Some (MkValue st off (Some data) d) =>
      if off =? 0 then Panic (PErr EUninitialized) else
      t <- goindex data st ;;
      if negb (t =? tg) then Panic (PErr (EElementType t)) else k off data d
  | _ => Panic (PErr EUninitialized)
  end.

(* The guards every OK variant starts with, e.g. value.go:514-520. *)
Definition getter_ok {A} (tg : Z) (get : option value -> go A) (ov : option value) : go (option A) :=
  match ov with
  | Some (MkValue st off (Some data) _) =>
      if off =? 0 then Ret None else
      t <- goindex data st ;;
      if negb (t =? tg) then Ret None else x <- get ov ;; Ret (Some x)
  | _ => Ret None
  end.

(* value.go:1095-1097 getUint64 *)
Definition get_u64 (off : Z) (data : bytes) : go Z :=
  s <- goslice data off (u32 (off + 8)) ;; rdu64 s.

(* value.go:536-538: the length-prefixed string of String, JavaScript and Symbol *)
Definition get_str (off : Z) (data : bytes) : go bytes :=
  s <- goslice data off (u32 (off + 4)) ;;
  l <- readi32 s ;;
  goslice data (u32 (off + 4)) (i32 (i32 off + 4 + l - 1)).

(* value.go:501-511 *)
Definition v_double := getter 1 (fun off data _ => get_u64 off data).
(* value.go:527-539 *)
Definition v_string := getter 2 (fun off data _ => get_str off data).
(* value.go:698-720 *)
Definition v_binary := getter 5 (fun off data _ =>
  s <- goslice data off (u32 (off + 4)) ;;
  l <- readi32 s ;;
  st <- goindex data (u32 (off + 4)) ;;
  '(o, l) <- (if st =? 2 then
                s <- goslice data (u32 (off + 5)) (u32 (off + 9)) ;;
                l <- readi32 s ;; Ret (9, l)
              else Ret (5, l)) ;;
  if l <? 0 then Panic PMake else
  b <- goslice data (u32 (off + o)) (i32 (i32 off + o + l)) ;;
  Ret (st, b)).
(* value.go:736-750 *)
Definition v_objectid := getter 7 (fun off data _ => goslice data off (u32 (off + 12))).
(* value.go:766-776 *)
Definition v_boolean := getter 8 (fun off data _ => b <- goindex data off ;; Ret (b =? 1)).
(* value.go:790-800 *)
Definition v_datetime := getter 9 (fun off data _ => u <- get_u64 off data ;; Ret (i64 u)).
(* value.go:804-807 Time: time.Unix(i/1000, i%1000*1000000) as nanoseconds since 1970.
   Go's / and % truncate towards zero. *)
Definition v_time (ov : option value) : go Z :=
  i <- v_datetime ov ;;
  Ret (Z.quot i 1000 * 1000000000 + Z.rem i 1000 * 1000000).
(* value.go:821-853; reading past the end of data panics *)
Definition v_regex := getter 11 (fun off data _ =>
  let rest := skipn (Z.to_nat off) data in
  match find_nul rest with
  | None => Panic PIndex
  | Some n =>
      match find_nul (skipn (Z.to_nat (n + 1)) rest) with
      | None => Panic PIndex
      | Some m => Ret (slice rest 0 n, slice rest (n + 1) (n + 1 + m))
      end
  end).
(* value.go:867-883 *)
Definition v_dbpointer := getter 12 (fun off data _ =>
  s <- goslice data off (u32 (off + 4)) ;;
  l <- readi32 s ;;
  p <- goslice data (u32 (off + 4 + u32 l)) (u32 (off + 4 + u32 l + 12)) ;;
  ns <- goslice data (u32 (off + 4)) (i32 (i32 off + 4 + l - 1)) ;;
  Ret (ns, p)).
(* value.go:901-913 *)
Definition v_javascript := getter 13 (fun off data _ => get_str off data).
(* value.go:927-939 *)
Definition v_symbol := getter 14 (fun off data _ => get_str off data).
(* value.go:1033-1043 *)
Definition v_int32 := getter 16 (fun off data _ =>
  s <- goslice data off (u32 (off + 4)) ;; readi32 s).
(* value.go:1057-1067: seconds, then increment *)
Definition v_timestamp := getter 17 (fun off data _ =>
  a <- goslice data (u32 (off + 4)) (u32 (off + 8)) ;;
  t <- rdu32 a ;;
  b <- goslice data off (u32 (off + 4)) ;;
  i <- rdu32 b ;;
  Ret (t, i)).
(* value.go:1083-1093 *)
Definition v_int64 := getter 18 (fun off data _ => u <- get_u64 off data ;; Ret (i64 u)).
(* value.go:1142-1154: NewDecimal128(h, l) gets the first eight bytes as h *)
Definition v_decimal := getter 19 (fun off data _ =>
  a <- goslice data off (u32 (off + 8)) ;;
  h <- rdu64 a ;;
  b <- goslice data (u32 (off + 8)) (u32 (off + 16)) ;;
  l <- rdu64 b ;;
  Ret (h, l)).

Definition v_double_ok := getter_ok 1 v_double.
Definition v_string_ok := getter_ok 2 v_string.
Definition v_binary_ok := getter_ok 5 v_binary.
Definition v_objectid_ok := getter_ok 7 v_objectid.
Definition v_boolean_ok := getter_ok 8 v_boolean.
Definition v_datetime_ok := getter_ok 9 v_datetime.
Definition v_time_ok := getter_ok 9 v_time.
Definition v_dbpointer_ok := getter_ok 12 v_dbpointer.
Definition v_javascript_ok := getter_ok 13 v_javascript.
Definition v_int32_ok := getter_ok 16 v_int32.
Definition v_timestamp_ok := getter_ok 17 v_timestamp.
Definition v_int64_ok := getter_ok 18 v_int64.
Definition v_decimal_ok := getter_ok 19 v_decimal.

(* value.go:1102-1112 Int; a failing call reaches data[start] of a value already known to
   be readable there, or a nil value (nil dereference) *)
Definition v_int (ov : option value) : go Z :=
  a <- v_int32_ok ov ;;
  match a with
  | Some i => Ret i
  | None =>
      b <- v_int64_ok ov ;;
      match b with
      | Some i => Ret i
      | None =>
          match ov with
          | None => Panic PNil
          | Some (MkValue _ _ None _) => Panic PIndex
          | Some (MkValue st _ (Some data) _) =>
              t <- goindex data st ;; Panic (PErr (EElementType t))
          end
      end
  end.

(* value.go:1118-1128 IntOK *)
Definition v_int_ok (ov : option value) : go (option Z) :=
  match ov with
  | Some (MkValue st off (Some data) _) =>
      if off =? 0 then Ret None else
      t <- goindex data st ;;
      if negb (t =? 18) && negb (t =? 16) then Ret None
      else x <- v_int ov ;; Ret (Some x)
  | _ => Ret None
  end.

(* value.go:576-592 getReader: an array held as a Document is marshalled as a document *)
Definition get_reader fuel (off : Z) (data : bytes) (d : option document) : go bytes :=
  match d with
  | None => get_reader_raw off data
  | Some es =>
      r <- doc_marshal fuel es ;;
      match r with inl b => Ret b | inr e => Panic (PErr e) end
  end.

(* value.go:553-563, value.go:640-650 *)
Definition v_reader_document fuel := getter 3 (fun off data d => get_reader fuel off data d).
Definition v_reader_array fuel := getter 4 (fun off data d => get_reader fuel off data d).
Definition v_reader_document_ok fuel := getter_ok 3 (v_reader_document fuel).
Definition v_reader_array_ok fuel := getter_ok 4 (v_reader_array fuel).

(* value.go:605-626, value.go:663-684 MutableDocument and MutableArray: read the bytes once, and
   remember the Document in the value *)
Definition mutable_container fuel (off : Z) (data : bytes) (d : option document) : go document :=
  match d with
  | Some es => Ret es
  | None =>
      b <- get_reader_raw off data ;;
      r <- read_document fuel b ;;
      match r with inl es => Ret es | inr e => Panic (PErr e) end
  end.
Definition v_mutable_document fuel := getter 3 (fun off data d => mutable_container fuel off data d).
Definition v_mutable_array fuel := getter 4 (fun off data d => mutable_container fuel off data d).
Definition v_mutable_document_ok fuel := getter_ok 3 (v_mutable_document fuel).
Definition v_mutable_array_ok fuel := getter_ok 4 (v_mutable_array fuel).

(* value.go:944-974 ReaderJavaScriptWithScope *)
Definition v_reader_code fuel := getter 15 (fun off data d =>
  s <- goslice data (u32 (off + 4)) (u32 (off + 8)) ;;
  sl <- readi32 s ;;
  str <- goslice data (u32 (off + 8)) (u32 (off + 8 + u32 sl - 1)) ;;
  r <- (match d with
        | None =>
            s <- goslice data off (u32 (off + 4)) ;;
            l <- readi32 s ;;
            goslice data (u32 (off + 8 + u32 sl)) (u32 (off + u32 l))
        | Some es =>
            r <- doc_marshal fuel es ;;
            match r with inl b => Ret b | inr e => Panic (PErr e) end
        end) ;;
  Ret (str, r)).

(* value.go:990-1017 MutableJavaScriptWithScope; it does not check data against nil, and
   indexing a nil slice panics all the same *)
Definition v_mutable_code fuel := getter 15 (fun off data d =>
  s <- goslice data off (u32 (off + 4)) ;;
  l <- readi32 s ;;
  s <- goslice data (u32 (off + 4)) (u32 (off + 8)) ;;
  sl <- readi32 s ;;
  str <- goslice data (u32 (off + 8)) (u32 (off + 8 + u32 sl - 1)) ;;
  es <- (match d with
         | Some es => Ret es
         | None =>
             b <- goslice data (u32 (off + 8 + u32 sl)) (u32 (off + u32 l)) ;;
             r <- read_document fuel b ;;
             match r with inl es => Ret es | inr e => Panic (PErr e) end
         end) ;;
  Ret (str, es)).
Definition v_reader_code_ok fuel := getter_ok 15 (v_reader_code fuel).
Definition v_mutable_code_ok fuel := getter_ok 15 (v_mutable_code fuel).

(* The value after one of the Mutable getters succeeded: v.d holds the document. *)
Definition with_doc (v : value) (es : document) : value :=
  MkValue (v_start v) (v_offset v) (v_data v) (Some es).

(* ------------------------------------------------------------------- equality *)

(* x_value.go:41-47 readLength *)
Definition read_length (src : bytes) : go (option Z) :=
  if zlen src <? 4 then Ret None
  else s <- goslice src 0 4 ;; l <- readi32 s ;; Ret (Some l).

(* x_core.go:9-60 readValue: the first return value.  A negative length panics in the
   slice expression src[:length]. *)
Definition read_value (src : bytes) (t : Z) : go (option bytes) :=
  let cut l := if zlen src <? l then Ret None
               else s <- goslice src 0 l ;; Ret (Some s) in
  let prefixed n :=
    ol <- read_length src ;;
    match ol with None => Ret None | Some l => cut (i32 (l + n)) end in
  if (t =? 4) || (t =? 3) || (t =? 15) then prefixed 0 else
  if t =? 5 then prefixed 5 else
  if t =? 8 then cut 1 else
  if t =? 12 then prefixed 16 else
  if (t =? 9) || (t =? 1) || (t =? 18) || (t =? 17) then cut 8 else
  if t =? 19 then cut 16 else
  if t =? 16 then cut 4 else
  if (t =? 13) || (t =? 2) || (t =? 14) then prefixed 4 else
  if (t =? 127) || (t =? 255) || (t =? 10) || (t =? 6) then cut 0 else
  if t =? 7 then cut 12 else
  if t =? 11 then
    match find_nul src with
    | None => Ret None
    | Some n =>
        match find_nul (skipn (Z.to_nat (n + 1)) src) with
        | None => Ret None
        | Some m => cut (i32 (n + 1 + m + 1))
        end
    end
  else Ret None.

(* x_value.go:28-39 readstring; rem[:l-1] panics for l <= 0 *)
Definition read_string (src : bytes) : go (option bytes) :=
  ol <- read_length src ;;
  match ol with
  | None => Ret None
  | Some l =>
      if zlen src - 4 <? l then Ret None
      else s <- goslice (skipn 4 src) 0 (i32 (l - 1)) ;; Ret (Some s)
  end.

(* x_value.go:53-59 appendstring, x_value.go:64-69 appendCodeWithScope *)
Definition append_code (code scope : bytes) : bytes :=
  le32 (i32 (4 + 4 + zlen code + 1 + zlen scope)) ++
  (le32 (i32 (zlen code + 1)) ++ code ++ [0]) ++ scope.

(* value.go:1199-1224 docToBytes; None is an error *)
Definition doc_to_bytes fuel (t off : Z) (data : bytes) (d : option document) : go (option bytes) :=
  let opt (r : go (bytes + gerr)) :=
    x <- r ;; match x with inl b => Ret (Some b) | inr _ => Ret None end in
  let raw := s <- goslice data off (zlen data) ;; Ret (Some s) in
  match d with
  | None => raw
  | Some es =>
      if t =? 3 then opt (doc_marshal fuel es) else
      if t =? 4 then opt (arr_marshal fuel es) else
      if t =? 15 then
        sc <- doc_marshal fuel es ;;
        match sc with
        | inr _ => Ret None
        | inl scope =>
            src <- goslice data (u32 (off + 4)) (zlen data) ;;
            oc <- read_string src ;;
            match oc with
            | None => Ret None
            | Some code => Ret (Some (append_code code scope))
            end
        end
      else raw
  end.

Fixpoint bytes_eqb (a b : bytes) : bool :=
  match a, b with
  | [], [] => true
  | x :: a, y :: b => (x =? y) && bytes_eqb a b
  | _, _ => false
  end.

(* x_value.go:10-26 checkEqualVal *)
Definition check_equal (t : Z) (a b : bytes) : go bool :=
  oa <- read_value a t ;;
  match oa with
  | None => Ret false
  | Some a =>
      ob <- read_value b t ;;
      match ob with None => Ret false | Some b => Ret (bytes_eqb a b) end
  end.

(* value.go:1171-1197 Value.Equal; data is not checked against nil (indexing panics) *)
Definition v_equal fuel (ov1 ov2 : option value) : go bool :=
  match ov1, ov2 with
  | None, None => Ret true
  | Some (MkValue s1 o1 (Some x1) d1), Some (MkValue s2 o2 (Some x2) d2) =>
      t1 <- goindex x1 s1 ;;
      t2 <- goindex x2 s2 ;;
      if negb (t1 =? t2) then Ret false else
      a <- doc_to_bytes fuel t1 o1 x1 d1 ;;
      match a with
      | None => Ret false
      | Some a =>
          b <- doc_to_bytes fuel t2 o2 x2 d2 ;;
          match b with
          | None => Ret false
          | Some b => check_equal t1 a b
          end
      end
  | Some _, Some _ => Panic PIndex
  | _, _ => Ret false
  end.

(* element.go:297-311 Element.Equal *)
Definition e_equal fuel (e1 e2 : elem) : go bool :=
  match e1, e2 with
  | None, None => Ret true
  | Some _, Some _ =>
      k1 <- elem_key e1 ;;
      k2 <- elem_key e2 ;;
      if bytes_eqb k1 k2 then v_equal fuel e1 e2 else Ret false
  | _, _ => Ret false
  end.
