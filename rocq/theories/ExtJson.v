(* Extended JSON: model of x_json_marshal.go and x_json_unmarshal.go, between the documents of
   Api.v and the jsonx values of Json.v.  The formatting and parsing of times are parameters. *)
Require Import ZArith List Bool Lia ZifyBool ZifyNat String Ascii.
From Verif Require Import Base BSpec Elements Value Api Tree Sort Oid Dec128 Json.
Import List ListNotations.
Open Scope Z_scope.

(* the keys of extended JSON *)
Definition s_minkey : bytes := bstr "$minKey".
Definition s_maxkey : bytes := bstr "$maxKey".
Definition s_decimal : bytes := bstr "$numberDecimal".
Definition s_timestamp : bytes := bstr "$timestamp".
Definition s_symbol : bytes := bstr "$symbol".
Definition s_code : bytes := bstr "$code".
Definition s_scope : bytes := bstr "$scope".
Definition s_dbpointer : bytes := bstr "$dbPointer".
Definition s_regex : bytes := bstr "$regularExpression".
Definition s_date : bytes := bstr "$date".
Definition s_oid : bytes := bstr "$oid".
Definition s_undefined : bytes := bstr "$undefined".
Definition s_binary : bytes := bstr "$binary".

Section Times.
(* time.Time.Format(time.RFC3339) of an instant, in nanoseconds since 1970, in the local zone;
   time.Parse(time.RFC3339, s), None for an error *)
Variable fmt_time : Z -> bytes.
Variable parse_time : bytes -> option Z.

(* ------------------------------------------------------------------ writing *)

(* x_json_marshal.go:43-123 Value.toJSON, 16-24 Document.toJSON (elem_json over the elements)
   and 31-39 Array.toJSON.  Iterator() ends at the end of the slice. *)
Fixpoint val_json (n : nat) (v : value) {struct n} : go jval :=
  match n with
  | O => Fuel
  | S m =>
      let item (e : elem) : go jval := match e with None => Panic (PErr EUninitialized) | Some w => val_json m w end in
      let field (e : elem) : go jelem := k <- elem_key e ;; j <- item e ;; Ret (JElem k j) in
      let e := Some v in
      let obj1 k j := JDoc [JElem k j] in
      t <- v_type v ;;
      if t =? 1 then x <- v_double e ;; Ret (JFloat K64 x) else
      if t =? 2 then x <- v_string e ;; Ret (JString x) else
      if t =? 3 then es <- v_mutable_document n e ;; fs <- mapM field es ;; Ret (JDoc fs) else
      if t =? 4 then es <- v_mutable_array n e ;; vs <- mapM item es ;; Ret (JArr vs) else
      (* string(t) of a byte is the character with that number *)
      if t =? 5 then '(s, b) <- v_binary e ;;
        Ret (obj1 s_binary (JDoc [JElem (bstr "base64") (JString (encode_rune s)); JElem (bstr "subType") (JString b)])) else
      if t =? 6 then Ret (obj1 s_undefined (JBool true)) else
      if t =? 7 then x <- v_objectid e ;; Ret (obj1 s_oid (JString (hex x))) else
      if t =? 8 then x <- v_boolean e ;; Ret (JBool x) else
      if t =? 9 then x <- v_time e ;; Ret (obj1 s_date (JString (fmt_time x))) else
      if t =? 10 then Ret JNull else
      if t =? 11 then '(p, o) <- v_regex e ;;
        Ret (obj1 s_regex (JDoc [JElem (bstr "pattern") (JString p); JElem (bstr "options") (JString o)])) else
      if t =? 12 then '(ns, o) <- v_dbpointer e ;;
        Ret (obj1 s_dbpointer (JDoc [JElem (bstr "$ref") (JString ns); JElem (bstr "$id") (JString (hex o))])) else
      if t =? 13 then x <- v_javascript e ;; Ret (obj1 s_code (JString x)) else
      if t =? 14 then x <- v_symbol e ;; Ret (obj1 s_symbol (JString x)) else
      if t =? 15 then '(c, es) <- v_mutable_code n e ;; fs <- mapM field es ;;
        Ret (JDoc [JElem s_code (JString c); JElem s_scope (JDoc fs)]) else
      if t =? 16 then x <- v_int32 e ;; Ret (JInt KInt32 x) else
      if t =? 17 then '(s, i) <- v_timestamp e ;;
        Ret (obj1 s_timestamp (JDoc [JElem (bstr "t") (JInt KInt64 s); JElem (bstr "i") (JInt KInt64 i)])) else
      if t =? 18 then x <- v_int64 e ;; Ret (JInt KInt64 x) else
      if t =? 19 then '(h, l) <- v_decimal e ;; s <- dec_string h l ;; Ret (obj1 s_decimal (JString s)) else
      if t =? 255 then Ret (obj1 s_minkey (JInt KInt 1)) else
      if t =? 127 then Ret (obj1 s_maxkey (JInt KInt 1)) else Ret JNil
  end.
Definition item_json (n : nat) (e : elem) : go jval :=
  match e with None => Panic (PErr EUninitialized) | Some w => val_json n w end.
Definition elem_json (n : nat) (e : elem) : go jelem := k <- elem_key e ;; j <- item_json n e ;; Ret (JElem k j).
Definition doc_json (n : nat) (es : document) : go (list jelem) := mapM (elem_json n) es.
Definition arr_json (n : nat) (es : document) : go (list jval) := mapM (item_json n) es.
(* x_json_marshal.go:14, 29, 41 MarshalJSON *)
Definition doc_marshal_json (n : nat) (es : document) : go (bytes + gerr) :=
  js <- doc_json n es ;; Json.doc_marshal js.
Definition arr_marshal_json (n : nat) (es : document) : go (bytes + gerr) :=
  js <- arr_json n es ;; Json.arr_marshal js.

(* ------------------------------------------------------------------ reading *)

Definition e_mismatch : gerr := EOther 310.   (* mismatched json type *)
Definition e_code : gerr := EOther 311.       (* invalid code document, invalid key in it *)
Definition e_dbref : gerr := EOther 312.      (* values for dbref are not defined, not strings *)
Definition e_ts : gerr := EOther 313.         (* problem decoding number for timestamp *)
Definition e_dec : gerr := EOther 314.        (* ParseDecimal128 *)
Definition e_time : gerr := EOther 315.       (* time.Parse *)
(* a failed type assertion *)
Definition p_assert : pan := PErr (EOther 316).

(* jsonx/juniper.go:83 StringValueOK, 77 StringValue, 87 IntOK, 79 Document *)
Definition str_ok (v : jval) : go (option bytes) :=
  match v with JNil => Panic PNil | JString s => Ret (Some s) | _ => Ret None end.
Definition str_must (v : jval) : go bytes :=
  match v with JNil => Panic PNil | JString s => Ret s | _ => Panic p_assert end.
Definition int_ok (v : jval) : go (option Z) :=
  match v with JNil => Panic PNil | JInt KInt n => Ret (Some n) | _ => Ret None end.
Definition doc_must (v : jval) : go (list jelem) :=
  match v with JNil | JNilDoc => Panic PNil | JDoc es => Ret es | _ => Panic p_assert end.

(* x_json_unmarshal.go:142-166 the fields of a timestamp *)
Fixpoint ts_loop (es : list jelem) (t i : Z) : go (Z * Z + gerr) :=
  match es with
  | [] => Ret (inl (t, i))
  | JNoElem :: _ => Panic PNil
  | JElem k v :: r =>
      if bytes_eqb k (bstr "t") then
        x <- int_ok v ;; match x with None => Ret (inr e_ts) | Some n => ts_loop r n i end
      else if bytes_eqb k (bstr "i") then
        x <- int_ok v ;; match x with None => Ret (inr e_ts) | Some n => ts_loop r t n end
      else ts_loop r t i
  end.
(* 194-214, 230-252 two fields that are strings, for the keys a and b *)
Fixpoint str_loop (a b : bytes) (es : list jelem) (x y : bytes) : go (bytes * bytes + gerr) :=
  match es with
  | [] => Ret (inl (x, y))
  | JNoElem :: _ => Panic PNil
  | JElem k v :: r =>
      if bytes_eqb k a then
        s <- str_ok v ;; match s with None => Ret (inr e_dbref) | Some s => str_loop a b r s y end
      else if bytes_eqb k b then
        s <- str_ok v ;; match s with None => Ret (inr e_dbref) | Some s => str_loop a b r x s end
      else str_loop a b r x y
  end.

Definition made (x : go value) : go (value + gerr) := v <- x ;; Ret (inl v).
(* x_json_unmarshal.go:90-304 convertJSONElements of an element with key and value.  The key
   of the first element selects the form; a nil element there has the key "". *)
Fixpoint conv (key : bytes) (v : jval) {struct v} : go (value + gerr) :=
  match v with
  | JNil => Panic PNil
  | JZero => Ret (inr e_mismatch)
  | JString s => made (ec_string key s)
  | JBool b => made (ec_boolean key b)
  | JNull => made (ec_null key)
  | JInt KInt n => made (ec_int key n)
  | JInt _ _ => Ret (inr e_mismatch)
  | JFloat K64 x => made (ec_double key x)
  | JFloat K32 _ => Ret (inr e_mismatch)
  | JNilDoc | JNilArr => Panic PNil
  | JDoc es =>
      (* 272-285 *)
      let plain :=
        x <- (fix loop (es : list jelem) (acc : document) : go (document + gerr) :=
          match es with
          | [] => Ret (inl acc)
          | JNoElem :: _ => Panic PNil
          | JElem k v :: r =>
              x <- conv k v ;;
              match x with inr e => Ret (inr e) | inl w => loop r (acc ++ [Some w]) end
          end) es [] ;;
        match x with inr e => Ret (inr e) | inl d => made (ec_subdocument key d) end in
      match es with
      | JElem k0 v0 :: rest =>
          if bytes_eqb k0 s_minkey then made (ec_minkey key) else
          if bytes_eqb k0 s_maxkey then made (ec_maxkey key) else
          if bytes_eqb k0 s_decimal then
            s <- str_must v0 ;; d <- dec_parse s ;;
            match d with None => Ret (inr e_dec) | Some (h, l) => made (ec_decimal key h l) end else
          if bytes_eqb k0 s_timestamp then
            fs <- doc_must v0 ;; x <- ts_loop (firstn 3 fs) 0 0 ;;
            match x with inr e => Ret (inr e) | inl (t, i) => made (ec_timestamp key (u32 t) (u32 i)) end else
          if bytes_eqb k0 s_symbol then s <- str_must v0 ;; made (ec_symbol key s) else
          if bytes_eqb k0 s_code then
            s <- str_ok v0 ;;
            match s with
            | None => Ret (inr e_code)
            | Some js =>
                match rest with
                | JElem k1 v1 :: _ =>
                    if bytes_eqb k1 [] then made (ec_javascript key js) else
                    if bytes_eqb k1 s_scope then
                      x <- conv k1 v1 ;;
                      match x with
                      | inr e => Ret (inr e)
                      | inl w => d <- v_mutable_document O (Some w) ;; made (ec_code_with_scope key js d)
                      end
                    else Ret (inr e_code)
                | _ => made (ec_javascript key js)
                end
            end else
          if bytes_eqb k0 s_dbpointer then
            fs <- doc_must v0 ;; x <- str_loop (bstr "$ref") (bstr "$id") (firstn 2 fs) [] [] ;;
            match x with
            | inr e => Ret (inr e)
            | inl (ns, oid) =>
                if bytes_eqb ns [] || bytes_eqb oid [] then Ret (inr e_dbref) else
                match oid_from_hex oid with
                | (_, Some e) => Ret (inr e)
                | (o, None) => made (ec_dbpointer key ns o)
                end
            end else
          if bytes_eqb k0 s_regex then
            fs <- doc_must v0 ;; x <- str_loop (bstr "pattern") (bstr "options") (firstn 2 fs) [] [] ;;
            match x with inr e => Ret (inr e) | inl (p, o) => made (ec_regex key p o) end else
          if bytes_eqb k0 s_date then
            s <- str_must v0 ;;
            match parse_time s with None => Ret (inr e_time) | Some ns => made (ec_time key ns) end else
          if bytes_eqb k0 s_oid then
            s <- str_must v0 ;;
            match oid_from_hex s with (_, Some e) => Ret (inr e) | (o, None) => made (ec_objectid key o) end else
          if bytes_eqb k0 s_undefined then made (ec_undefined key) else
          if bytes_eqb k0 s_binary then s <- str_must v0 ;; made (ec_binary key s) else
          plain
      | _ => plain
      end
  | JArr vs =>
      x <- (fix loop (vs : list jval) (acc : document) : go (document + gerr) :=
        match vs with
        | [] => Ret (inl acc)
        | v :: r =>
            x <- conv [] v ;;
            match x with inr e => Ret (inr e) | inl w => loop r (acc ++ [Some w]) end
        end) vs [] ;;
      match x with inr e => Ret (inr e) | inl d => made (ec_array key d) end
  end.
Fixpoint conv_elems (es : list jelem) (acc : document) : go (document * option gerr) :=
  match es with
  | [] => Ret (acc, None)
  | JNoElem :: _ => Panic PNil
  | JElem k v :: r =>
      x <- conv k v ;;
      match x with inr e => Ret (acc, Some e) | inl w => conv_elems r (acc ++ [Some w]) end
  end.

Variable pf : bytes -> Z * bool.
Variable ff : Z -> bytes.
(* x_json_unmarshal.go:21-37 Document.UnmarshalJSON on a document: its elements afterwards and
   the error *)
Definition doc_unmarshal_json (d : document) (t : bytes) : go (document * option gerr) :=
  x <- doc_bytes pf ff t ;;
  match x with inr e => Ret (d, Some e) | inl es => conv_elems es d end.
(* 73-86 DCE.JSONX *)
Definition doc_jsonx (es : list jelem) : go (document + gerr) :=
  x <- conv_elems es [] ;; match x with (d, None) => Ret (inl d) | (_, Some e) => Ret (inr e) end.
(* 39-55 Array.UnmarshalJSON *)
Fixpoint conv_vals (vs : list jval) (acc : document) : go (document * option gerr) :=
  match vs with
  | [] => Ret (acc, None)
  | v :: r =>
      x <- conv [] v ;;
      match x with inr e => Ret (acc, Some e) | inl w => conv_vals r (acc ++ [Some w]) end
  end.
Definition arr_unmarshal_json (d : document) (t : bytes) : go (document * option gerr) :=
  x <- arr_bytes pf ff t ;;
  match x with inr e => Ret (d, Some e) | inl vs => conv_vals vs d end.
(* 57-71 Value.UnmarshalJSON: the value set *)
Definition val_unmarshal_json (t : bytes) : go (value + gerr) :=
  x <- val_bytes pf ff t ;;
  match x with inr e => Ret (inr e) | inl v => conv [] v end.
End Times.
