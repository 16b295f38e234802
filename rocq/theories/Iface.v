(* Conversions between Go values of type any and BSON: EC/ECE/VC/VCE/DC/DCE.Interface and
   the Map and Slice constructors, and the way back, Value.Interface, Array.Interface and
   Document.ExportMap. *)
Require Import ZArith List Bool.
From Verif Require Import Base Value Codec Api Tree.
Import ListNotations.
Open Scope Z_scope.

(* A Go value of type any, by its dynamic type.  A map is the list of its entries in the order
   in which range visits them (Go leaves that order open: theorems quantify over it), with the
   keys of a map[any]any already turned into text by bestStringAttempt (x_utils.go:5-16).
   A float32 is its value as a float64 (its bits), a time.Time its nanoseconds since 1970.
   ANil is the nil interface; AOther is any type that no case of the switches names.
   *jsonx.Document is left out (DC.JSONX is modelled in ExtJson.v). *)
Inductive any :=
| ANil | AOther
| ABool (b : bool) | AInt (i : goint) | AFloat32 (bits : Z) | AFloat64 (bits : Z)
| AString (s : bytes) | ATime (ns : Z) | ATimestamp (t i : Z)
| AMap (l : list (bytes * any)) | AMapAny (l : list (bytes * any)) | AMapString (l : list (bytes * bytes))
| ASlice (l : list any) | AStrings (l : list bytes) | AInt64s (l : list Z) | AInt32s (l : list Z)
| AFloat64s (l : list Z) | AFloat32s (l : list Z) | AInts (l : list Z) | ATimes (l : list Z)
| ADurations (l : list Z)
| AElems (l : list elem) | AElem (e : elem) | AValue (v : option value) | AValues (l : list (option value))
| ADoc (d : option document) | AArray (d : document) | AReader (r : bytes)
| ADocMarshaler (r : option document + gerr) | AMarshaler (r : bytes + gerr)
(* types that Value.Interface returns and EC.Interface has no case for *)
| ABytes (b : bytes) | AOid (o : bytes) | ARegex (p o : bytes) | ADBPointer (ns o : bytes)
| ACode (c scope : bytes) | ADecimal (h l : Z).

(* document.go:62-72 Append on a new document: a nil element panics *)
Fixpoint append_all (es : list elem) : go document :=
  match es with
  | [] => Ret []
  | None :: _ => Panic (PErr ENilElement)
  | Some v :: r => d <- append_all r ;; Ret (Some v :: d)
  end.

(* constructor.go:229-246 EC.SubDocument: the document may be nil *)
Definition ec_subdocument_ptr (key : bytes) (d : option document) : go value :=
  match d with
  | Some es => ec_subdocument key es
  | None => built (hdr key) None (header_only 3 key (buf key 0))
  end.

(* x_constructor.go:237-244 ECE.Marshaler, given what MarshalBSON answered *)
Definition ece_marshaler (key : bytes) (r : bytes + gerr) : go (value + gerr) :=
  match r with
  | inl b => v <- ec_subdocument_reader key b ;; Ret (inl v)
  | inr e => Ret (inr e)
  end.
(* x_constructor.go:250-257 ECE.DocumentMarshaler, given what MarshalDocument answered *)
Definition ece_doc_marshaler (key : bytes) (r : option document + gerr) : go (value + gerr) :=
  match r with
  | inl d => v <- ec_subdocument_ptr key d ;; Ret (inl v)
  | inr e => Ret (inr e)
  end.

(* constructor.go:155-157: an error, or no element, gives null *)
Definition or_null (key : bytes) (r : go (value + gerr)) : go value :=
  x <- r ;; match x with inl v => Ret v | inr _ => ec_null key end.

(* The loop of the Slice constructors (x_constructor.go:268-373): a value per item, built with
   the empty key, and NewArray (array.go:28-35) of them *)
Definition slice_of {A} (f : A -> go value) (key : bytes) (l : list A) : go value :=
  es <- mapM (fun x => v <- f x ;; Ret (Some v)) l ;; ec_array key es.

(* x_constructor.go:104-112 DC.MapString *)
Definition dc_map_string (l : list (bytes * bytes)) : go document :=
  mapM (fun kv => v <- ec_string (fst kv) (snd kv) ;; Ret (Some v)) l.

(* constructor.go:43-160 EC.Interface, the cases in the order of the switch.  The concrete types
   come first; Reader, *Array, *Element and *Document also satisfy Marshaler or
   DocumentMarshaler, and only *Array gets that far. *)
Fixpoint ec_interface (fuel : nat) (key : bytes) (a : any) {struct a} : go value :=
  let entries := fix loop l := match l with
    | [] => Ret []
    | (k, x) :: r => v <- ec_interface fuel k x ;; es <- loop r ;; Ret (Some v :: es)
    end in
  match a with
  | ABool b => ec_boolean key b
  | AInt i => ec_interface_int key i
  | AFloat32 b | AFloat64 b => ec_double key b
  | AString s => ec_string key s
  | ATime ns => ec_time key ns
  | ATimestamp t i => ec_timestamp key t i
  | AMap l => es <- entries l ;; ec_subdocument key es
  | AMapAny l => es <- entries l ;; ec_subdocument key es
  | AMapString l => es <- dc_map_string l ;; ec_subdocument key es
  | ASlice l =>
      es <- (fix loop l := match l with
        | [] => Ret []
        | x :: r => v <- ec_interface fuel [] x ;; es <- loop r ;; Ret (Some v :: es)
        end) l ;; ec_array key es
  | AStrings l => slice_of (ec_string []) key l
  | AInt64s l => slice_of (ec_int64 []) key l
  | AInt32s l => slice_of (ec_int32 []) key l
  | AFloat64s l => slice_of (ec_double []) key l
  | AFloat32s l => slice_of (ec_double []) key l
  | AInts l => slice_of (ec_int []) key l
  | ATimes l => slice_of (ec_time []) key l
  | ADurations l => slice_of (ec_int64 []) key l
  | AElems l => es <- append_all l ;; ec_subdocument key es
  | AElem e => match e with Some v => Ret v | None => ec_null key end
  | AValue v => e <- ec_value key v ;; match e with Some w => Ret w | None => ec_null key end
  | AValues l => es <- append_all l ;; ec_array key es
  | ADoc d => match d with Some es => ec_subdocument key es | None => ec_null key end
  | AReader r =>
      x <- read_document fuel r ;;
      match x with inl es => ec_subdocument key es | inr _ => ec_null key end
  | ADocMarshaler r => or_null key (ece_doc_marshaler key r)
  | AArray d => m <- arr_marshal fuel d ;; or_null key (ece_marshaler key m)
  | AMarshaler r => or_null key (ece_marshaler key r)
  | ANil | AOther | ABytes _ | AOid _ | ARegex _ _ | ADBPointer _ _ | ACode _ _ | ADecimal _ _ => ec_null key
  end.

(* reader.go:225-231 Reader.MarshalBSON *)
Definition rd_marshal (fuel : nat) (r : bytes) : go (bytes + gerr) :=
  '(_, e) <- rd_validate fuel r ;;
  match e with None => Ret (inl r) | Some e => Ret (inr e) end.

(* constructor.go:164-197 ECE.Interface.  Here the interfaces are asked first, so *Document,
   Reader, *Element and *Array answer as marshalers.  Of the two error texts, "overflows an
   int64" is EOther 601 and "Cannot create element for type" is EOther 602. *)
Definition ece_interface (fuel : nat) (key : bytes) (a : any) : go (value + gerr) :=
  match a with
  | AInt (GUint i) | AInt (GUint64 i) =>
      if i <? 2147483647 then v <- ec_int32 key (i32 i) ;; Ret (inl v)
      else if 9223372036854775807 <? i then Ret (inr (EOther 601))
      else v <- ec_int64 key (i64 i) ;; Ret (inl v)
  | ADoc d => ece_doc_marshaler key (inl d)
  | ADocMarshaler r => ece_doc_marshaler key r
  | AReader r => m <- rd_marshal fuel r ;; ece_marshaler key m
  | AElem e => m <- elem_marshal fuel e ;; ece_marshaler key m
  | AArray d => m <- arr_marshal fuel d ;; ece_marshaler key m
  | AMarshaler r => ece_marshaler key r
  | ANil => v <- ec_null key ;; Ret (inl v)
  | _ =>
      v <- ec_interface fuel key a ;;
      t <- v_type v ;;
      if t =? 10 then Ret (inr (EOther 602)) else Ret (inl v)
  end.

(* x_constructor.go:114-121 DC.MapInterface and x_constructor.go:157-163
   DC.MapInterfaceInterface *)
Definition dc_map (fuel : nat) (l : list (bytes * any)) : go document :=
  mapM (fun kv => v <- ec_interface fuel (fst kv) (snd kv) ;; Ret (Some v)) l.
(* x_constructor.go:123-155 DCE.MapInterface and DCE.MapInterfaceInterface: the first error ends
   the loop *)
Fixpoint dce_map (fuel : nat) (l : list (bytes * any)) : go (document + gerr) :=
  match l with
  | [] => Ret (inl [])
  | (k, a) :: r =>
      x <- ece_interface fuel k a ;;
      match x with
      | inr e => Ret (inr e)
      | inl v =>
          y <- dce_map fuel r ;;
          match y with inr e => Ret (inr e) | inl es => Ret (inl (Some v :: es)) end
      end
  end.

(* x_constructor.go:288-305 ECE.SliceInterface over VCE.Interface (x_constructor.go:387-394) *)
Fixpoint vce_all (fuel : nat) (l : list any) : go (document + gerr) :=
  match l with
  | [] => Ret (inl [])
  | a :: r =>
      x <- ece_interface fuel [] a ;;
      match x with
      | inr e => Ret (inr e)
      | inl v =>
          y <- vce_all fuel r ;;
          match y with inr e => Ret (inr e) | inl es => Ret (inl (Some v :: es)) end
      end
  end.
Definition ece_slice (fuel : nat) (key : bytes) (l : list any) : go (value + gerr) :=
  x <- vce_all fuel l ;;
  match x with
  | inr e => Ret (inr e)
  | inl es => v <- ec_array key es ;; Ret (inl v)
  end.

(* x_constructor.go:165-200 DC.Interface: an empty document for what cannot be converted *)
Definition dc_interface (fuel : nat) (a : any) : go document :=
  let or_new (r : document + gerr) : go document := match r with inl es => Ret es | inr _ => Ret [] end in
  match a with
  | AMapString l => dc_map_string l
  | AMap l | AMapAny l => dc_map fuel l
  | AElem e => append_all [e]
  | AElems l => append_all l
  | ADoc d => match d with Some es => Ret es | None => Ret [] end
  | AReader r => x <- read_document fuel r ;; or_new x
  | ADocMarshaler r => match r with inl (Some es) => Ret es | _ => Ret [] end
  | AArray d =>
      m <- arr_marshal fuel d ;;
      match m with inl b => x <- read_document fuel b ;; or_new x | inr _ => Ret [] end
  | AMarshaler r =>
      match r with inl b => x <- read_document fuel b ;; or_new x | inr _ => Ret [] end
  | _ => Ret []
  end.

(* x_constructor.go:202-225 DCE.Interface.  The answer may be a nil document. *)
Definition dce_interface (fuel : nat) (a : any) : go (option document + gerr) :=
  let got (r : document + gerr) : go (option document + gerr) :=
    match r with inl es => Ret (inl (Some es)) | inr e => Ret (inr e) end in
  match a with
  | AMapString l => es <- dc_map_string l ;; Ret (inl (Some es))
  | AMap l | AMapAny l => x <- dce_map fuel l ;; got x
  | AReader r => x <- read_document fuel r ;; got x
  | AElem e => es <- append_all [e] ;; Ret (inl (Some es))
  | AElems l => es <- append_all l ;; Ret (inl (Some es))
  | ADoc d => Ret (inl d)
  | ADocMarshaler r => Ret r
  | AArray d =>
      m <- arr_marshal fuel d ;;
      match m with inl b => x <- read_document fuel b ;; got x | inr e => Ret (inr e) end
  | AMarshaler r =>
      match r with inl b => x <- read_document fuel b ;; got x | inr e => Ret (inr e) end
  | _ => Ret (inr (EOther 603))
  end.

(* ---------------------------------------------------------------- the way back *)

(* out[k] = a on a Go map *)
Fixpoint map_set (k : bytes) (a : any) (m : list (bytes * any)) : list (bytes * any) :=
  match m with
  | [] => [(k, a)]
  | (k', a') :: r => if bytes_eqb k k' then (k, a) :: r else (k', a') :: map_set k a r
  end.

(* value.go:71-128 Value.Interface, with x_document.go:26-33 ExportMap and x_array.go:8-10
   Array.Interface.  The error of scope.MarshalBSON() is dropped: the scope is then nil. *)
Fixpoint v_interface (n : nat) (v : value) {struct n} : go any :=
  match n with
  | O => Fuel
  | S m =>
      let e := Some v in
      let export := fix loop (es : document) out := match es with
        | [] => Ret out
        | x :: r =>
            match x with
            | None => Panic PNil
            | Some w => k <- elem_key x ;; a <- v_interface m w ;; loop r (map_set k a out)
            end
        end in
      let items := mapM (fun x : elem => match x with None => Ret ANil | Some w => v_interface m w end) in
      t <- v_type v ;;
      if t =? 1 then x <- v_double e ;; Ret (AFloat64 x) else
      if t =? 2 then x <- v_string e ;; Ret (AString x) else
      if t =? 3 then es <- v_mutable_document n e ;; l <- export es [] ;; Ret (AMap l) else
      if t =? 4 then es <- v_mutable_array n e ;; l <- items es ;; Ret (ASlice l) else
      if t =? 5 then '(_, b) <- v_binary e ;; Ret (ABytes b) else
      if t =? 6 then Ret ANil else
      if t =? 7 then x <- v_objectid e ;; Ret (AOid x) else
      if t =? 8 then x <- v_boolean e ;; Ret (ABool x) else
      if t =? 9 then x <- v_time e ;; Ret (ATime x) else
      if t =? 10 then Ret ANil else
      if t =? 11 then '(p, o) <- v_regex e ;; Ret (ARegex p o) else
      if t =? 12 then '(p, o) <- v_dbpointer e ;; Ret (ADBPointer p o) else
      if t =? 13 then x <- v_javascript e ;; Ret (AString x) else
      if t =? 14 then x <- v_symbol e ;; Ret (AString x) else
      if t =? 15 then
        '(c, es) <- v_mutable_code n e ;;
        b <- doc_marshal n es ;;
        Ret (ACode c (match b with inl b => b | inr _ => [] end)) else
      if t =? 16 then x <- v_int32 e ;; Ret (AInt (GInt32 x)) else
      if t =? 17 then '(s, i) <- v_timestamp e ;; Ret (ATimestamp s i) else
      if t =? 18 then x <- v_int64 e ;; Ret (AInt (GInt64 x)) else
      if t =? 19 then '(h, l) <- v_decimal e ;; Ret (ADecimal h l) else
      Ret ANil
  end.

(* x_document.go:26-33 Document.ExportMap *)
Fixpoint export_map (n : nat) (es : document) (out : list (bytes * any)) : go (list (bytes * any)) :=
  match es with
  | [] => Ret out
  | x :: r =>
      match x with
      | None => Panic PNil
      | Some w => k <- elem_key x ;; a <- v_interface n w ;; export_map n r (map_set k a out)
      end
  end.
