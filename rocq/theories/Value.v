(* Model of value.go, element.go, document.go, array.go, reader.go, iterator.go:
   values, their validation, their serialization, and reading them back.

   A *Value is {start, offset, data, d}; data = None is a nil slice, d = None a nil
   *Document.  An Element is its value pointer (None = nil).  A Document is its list of
   elements; the lookup cache of Document is modelled in DocOps.v.  Elements are
   immutable here: methods that mutate a value return the new value.
   Simplifications: slices have capacity = length (Base.v); the in-place update of the
   length field of a code-with-scope element during marshalling (element.go:212, 240) is
   visible only to the copy that follows it. *)
Require Import ZArith List Bool Lia ZifyBool ZifyNat.
From Verif Require Import Base BSpec Elements.
Import ListNotations.
Open Scope Z_scope.

(* value.go:23-41 type Value; element.go:26 type Element (None is an Element whose value is
   nil: documents hold no nil element pointers, Append and Set refuse them); document.go:25 type Document *)
Inductive value := MkValue (start offset : Z) (data : option bytes)
                           (d : option (list (option value))).
Notation elem := (option value).
Notation document := (list (option value)).

Definition v_start (v : value) := let (s, _, _, _) := v in s.
Definition v_offset (v : value) := let (_, o, _, _) := v in o.
Definition v_data (v : value) := let (_, _, dt, _) := v in dt.
Definition v_d (v : value) := let (_, _, _, d) := v in d.

Definition vres := go (Z * option gerr).

(* position of the first NUL of a byte list *)
Fixpoint find_nul (l : bytes) : option Z :=
  match l with
  | [] => None
  | b :: r => if b =? 0 then Some 0
              else match find_nul r with Some n => Some (n + 1) | None => None end
  end.

(* int(v.offset+n) > len(v.data), the addition being uint32 *)
Definition short (offset n : Z) (data : bytes) : bool := zlen data <? u32 (offset + n).

(* value.go:198-482 (v *Value) validate, for a value whose data is not nil.
   rdv is Reader.Validate; dv holds Document.Validate and Array.Validate of v.d when v.d
   is not nil. *)
Definition validate_core (rdv : bytes -> vres)
    (dv : option ((unit -> vres) * (unit -> vres))) (so : bool)
    (start offset : Z) (data : bytes) : vres :=
  let fixed n := if short offset n data then Ret (0, Some ETooSmall) else Ret (n, None) in
  let container :=                          (* value.go:251-277, 290-316 *)
    if short offset 4 data then Ret (0, Some ETooSmall) else
    s <- goslice data offset (u32 (offset + 4)) ;;
    l <- readi32 s ;;
    if l <? 5 then Ret (4, Some EInvalidReadOnlyDoc) else
    if i32 (zlen data) <? i32 (offset + l) then Ret (4, Some ETooSmall) else
    if so then Ret (u32 (4 + (u32 l - 4)), None) else
    sub <- goslice data offset (u32 (offset + u32 l)) ;;
    '(n, e) <- rdv sub ;;
    Ret (u32 (4 + (n - 4)), e) in
  t <- goindex data start ;;
  if (t =? 6) || (t =? 10) || (t =? 255) || (t =? 127) then Ret (0, None) else
  if t =? 1 then fixed 8 else
  if (t =? 2) || (t =? 13) || (t =? 14) then
    if short offset 4 data then Ret (0, Some ETooSmall) else
    s <- goslice data offset (u32 (offset + 4)) ;;
    l <- readi32 s ;;
    if i32 (zlen data) <? i32 (offset + 4 + l) then Ret (4, Some ETooSmall) else
    ok <- (if so then Ret true
           else b <- goindex data (u32 (offset + 4 + u32 l - 1)) ;; Ret (b =? 0)) ;;
    if (ok : bool) then Ret (u32 (4 + u32 l), None) else Ret (4, Some EInvalidString)
  else
  if t =? 3 then
    match dv with
    | Some (docv, _) => '(n, e) <- docv tt ;; Ret (n, e)
    | None => container
    end else
  if t =? 4 then
    match dv with
    | Some (_, arrv) => '(n, e) <- arrv tt ;; Ret (n, e)
    | None => container
    end else
  if t =? 5 then
    if short offset 5 data then Ret (0, Some ETooSmall) else
    s <- goslice data offset (u32 (offset + 4)) ;;
    l <- readi32 s ;;
    st <- goindex data (u32 (offset + 4)) ;;
    if (5 <? st) && (st <? 128) then Ret (5, Some EInvalidBinarySub) else
    if i32 (zlen data) <? i32 (offset + 5 + l) then Ret (5, Some ETooSmall) else
    Ret (u32 (5 + u32 l), None)
  else
  if t =? 7 then fixed 12 else
  if t =? 8 then
    if short offset 1 data then Ret (0, Some ETooSmall) else
    b <- goindex data offset ;;
    if negb (b =? 0) && negb (b =? 1) then Ret (1, Some EInvalidBoolean) else Ret (1, None)
  else
  if t =? 9 then fixed 8 else
  if t =? 11 then
    if zlen data <? offset then Panic PIndex else
    match find_nul (skipn (Z.to_nat offset) data) with
    | None => Ret (u32 (zlen data - offset), Some EInvalidString)
    | Some n =>
        match find_nul (skipn (Z.to_nat (offset + n + 1)) data) with
        | None => Ret (u32 (zlen data - offset), Some EInvalidString)
        | Some m => Ret (u32 (n + 1 + m + 1), None)
        end
    end
  else
  if t =? 12 then
    if short offset 4 data then Ret (0, Some ETooSmall) else
    s <- goslice data offset (u32 (offset + 4)) ;;
    l <- readi32 s ;;
    if i32 (zlen data) <? i32 (offset + 4 + l + 12) then Ret (4, Some ETooSmall) else
    Ret (u32 (4 + (u32 l + 12)), None)
  else
  if t =? 15 then
    match dv with
    | Some (docv, _) =>
        if short offset 8 data then Ret (0, Some ETooSmall) else
        s <- goslice data (u32 (offset + 4)) (u32 (offset + 8)) ;;
        sl <- readi32 s ;;
        if zlen data + 8 <? sl then Ret (8, Some ETooSmall) else
        let total := u32 (8 + u32 sl) in
        ok <- (if so then Ret true
               else b <- goindex data (u32 (offset + 8 + u32 sl - 1)) ;; Ret (b =? 0)) ;;
        if (ok : bool) then '(n, e) <- docv tt ;; Ret (u32 (total + n), e)
        else Ret (total, Some EInvalidString)
    | None =>
        if short offset 4 data then Ret (0, Some ETooSmall) else
        s <- goslice data offset (u32 (offset + 4)) ;;
        l <- readi32 s ;;
        if i32 (zlen data) <? i32 (offset + l) then Ret (4, Some ETooSmall) else
        if so then Ret (u32 (4 + (u32 l - 4)), None) else
        s <- goslice data (u32 (offset + 4)) (u32 (offset + 8)) ;;
        sl <- readi32 s ;;
        if i32 (l - 13) <? sl then Ret (8, Some EStringTooLarge) else
        b <- goindex data (u32 (offset + 8 + u32 sl - 1)) ;;
        if negb (b =? 0) then Ret (8, Some EInvalidString) else
        sub <- goslice data (u32 (offset + 8 + u32 sl)) (u32 (offset + u32 l)) ;;
        '(n, e) <- rdv sub ;;
        Ret (u32 (8 + u32 sl + n), e)
    end else
  if t =? 16 then fixed 4 else
  if (t =? 17) || (t =? 18) then fixed 8 else
  if t =? 19 then fixed 16 else
  Ret (0, Some EInvalidElement).

(* ------------------------------------------------------------------ readers *)

(* reader.go:88-101 Reader.validateKey *)
Definition rd_validate_key (r : bytes) (pos ende : Z) : vres :=
  match find_nul (slice r pos ende) with
  | Some n => Ret (n + 1, None)
  | None => if (ende <=? zlen r) || (pos =? ende) then Ret (ende - pos, Some EInvalidKey)
            else Panic PIndex
  end.

Inductive rstep :=
| RStop (pos : Z) (e : gerr)   (* an error, with the position reached *)
| RDone (pos : Z)              (* the terminating NUL *)
| RElem (pos : Z) (v : value). (* an element, and the position after it *)

(* iterator.go:86-122 readerIterator.Next and the loop body of reader.go:262-296
   readElements, which are the same code up to the callback.  The element has d = nil and
   is validated with sizeOnly, so Reader.Validate is not called from here. *)
Definition rd_step (r : bytes) (pos ende : Z) : go rstep :=
  if ende <=? pos then Ret (RStop pos EInvalidReadOnlyDoc) else
  b <- goindex r pos ;;
  if b =? 0 then Ret (RDone pos) else
  '(n, e) <- rd_validate_key r (u32 (pos + 1)) ende ;;
  let pos1 := u32 (pos + 1 + n) in
  match e with
  | Some e => Ret (RStop pos1 e)
  | None =>
      '(n, e) <- validate_core (fun _ => Fuel) None true pos pos1 r ;;
      let pos2 := u32 (pos1 + n) in
      match e with
      | Some e => Ret (RStop pos2 e)
      | None => Ret (RElem pos2 (MkValue pos pos1 (Some r) None))
      end
  end.

(* What the callback of readElements returns: nil, errValidateDone, or another error. *)
Inductive ctl := CNext | CDone | CErr (e : gerr).

(* reader.go:262-305 the loop of readElements; the callback threads a state s *)
Fixpoint rd_loop {S : Type} (f : S -> value -> go (S * ctl)) (fuel : nat)
    (r : bytes) (pos ende : Z) (s : S) : go (S * (Z * option gerr)) :=
  match fuel with
  | O => Fuel
  | S k =>
      st <- rd_step r pos ende ;;
      match st with
      | RStop p e => Ret (s, (p, Some e))
      | RDone p => Ret (s, (u32 (p + 1), None))
      | RElem p v =>
          '(s', c) <- f s v ;;
          match c with
          | CNext => rd_loop f k r p ende s'
          | CDone => Ret (s', (u32 (p + 1), None))
          | CErr e => Ret (s', (p, Some e))
          end
      end
  end.

(* reader.go:239-305 readElements *)
Definition rd_elements {S : Type} (f : S -> value -> go (S * ctl)) (fuel : nat)
    (r : bytes) (s : S) : go (S * (Z * option gerr)) :=
  if zlen r <? 5 then Ret (s, (0, Some ETooSmall)) else
  h <- goslice r 0 4 ;;
  l <- readi32 h ;;
  if (zlen r <? l) || (l <? 0) then Ret (s, (0, Some EInvalidLength)) else
  rd_loop f fuel r 4 (u32 l) s.

(* value.go:491-497 Type *)
Definition v_type (v : value) : go Z :=
  match v with
  | MkValue st off (Some data) _ =>
      if off =? 0 then Panic (PErr EUninitialized) else goindex data st
  | _ => Panic (PErr EUninitialized)
  end.

(* value.go:579-581 getReader when v.d is nil *)
Definition get_reader_raw (offset : Z) (data : bytes) : go bytes :=
  s <- goslice data offset (u32 (offset + 4)) ;;
  l <- readi32 s ;;
  goslice data offset (u32 (offset + u32 l)).

(* value.go:553-566, 640-651 ReaderDocument and ReaderArray (tag 3 or 4) when v.d is nil *)
Definition reader_container_raw (tg : Z) (v : value) : go bytes :=
  match v with
  | MkValue st off (Some data) _ =>
      if off =? 0 then Panic (PErr EUninitialized) else
      t <- goindex data st ;;
      if negb (t =? tg) then Panic (PErr (EElementType t)) else
      get_reader_raw off data
  | _ => Panic (PErr EUninitialized)
  end.

(* reader.go:73-84 Reader.Validate *)
Fixpoint rd_validate (fuel : nat) (r : bytes) : vres :=
  match fuel with
  | O => Fuel
  | S k =>
      '(_, res) <- rd_elements (fun (_ : unit) v =>
          t <- v_type v ;;
          if (t =? 3) || (t =? 4) then
            sub <- reader_container_raw t v ;;
            '(_, e) <- rd_validate k sub ;;
            Ret (tt, match e with Some e => CErr e | None => CNext end)
          else Ret (tt, CNext)) k r tt ;;
      Ret res
  end.

(* iterator.go:86-122 with reader.go:185-198: the elements a Reader yields *)
Fixpoint iter_loop (fuel : nat) (r : bytes) (pos ende : Z) : go (document * option gerr) :=
  match fuel with
  | O => Fuel
  | S k =>
      st <- rd_step r pos ende ;;
      match st with
      | RStop _ e => Ret ([], Some e)
      | RDone _ => Ret ([], None)
      | RElem p v =>
          '(es, e) <- iter_loop k r p ende ;;
          Ret (Some v :: es, e)
      end
  end.

(* iterator.go:64-81 newReaderIterator and reader.go:185-198 Reader.Iterator; the length is
   not checked to be non-negative.  document.go:288-302 UnmarshalBSON keeps the elements read
   before an error. *)
Definition doc_unmarshal (fuel : nat) (r : bytes) : go (document * option gerr) :=
  if zlen r <? 5 then Ret ([], Some ETooSmall) else
  h <- goslice r 0 4 ;;
  l <- readi32 h ;;
  if zlen r <? l then Ret ([], Some EInvalidLength) else
  iter_loop fuel r 4 (u32 l).

(* document.go:34-42 ReadDocument *)
Definition read_document (fuel : nat) (b : bytes) : go (document + gerr) :=
  '(es, e) <- doc_unmarshal fuel b ;;
  match e with
  | Some e => Ret (inr e)
  | None => Ret (inl es)
  end.

(* --------------------------------------------------------------- validation *)

(* strconv.Itoa for non-negative arguments *)
Fixpoint itoa_loop (fuel : nat) (n : Z) (acc : bytes) : bytes :=
  match fuel with
  | O => acc
  | S k => let acc' := (48 + n mod 10) :: acc in
           if n <? 10 then acc' else itoa_loop k (n / 10) acc'
  end.
Definition itoa (n : Z) : bytes := itoa_loop (S (Z.to_nat n)) n [].

(* element.go:74-97 Element.validateKey *)
Definition elem_validate_key (start offset : Z) (data : option bytes) : vres :=
  match data with
  | None => Ret (0, Some EUninitialized)
  | Some data =>
      let pos := u32 (start + 1) in
      let ende := if u32 (zlen data) <? offset then u32 (zlen data) else offset in
      if ende <? pos then
        b <- goindex data pos ;;
        if b =? 0 then Ret (1, None) else Ret (0, Some EInvalidKey)
      else match find_nul (slice data pos ende) with
           | Some n => Ret (n + 1, None)
           | None => Ret (ende - pos, Some EInvalidKey)
           end
  end.

(* element.go:46-72 Element.Validate, given value.validate(false) of the value *)
Definition elem_validate_with (vv : value -> vres) (e : elem) : vres :=
  match e with
  | None => Ret (0, Some EUninitialized)
  | Some v =>
      '(n, er) <- elem_validate_key (v_start v) (v_offset v) (v_data v) ;;
      match er with
      | Some x => Ret (u32 (1 + n), Some x)
      | None => '(m, er) <- vv v ;; Ret (u32 (1 + n + m), er)
      end
  end.

(* document.go:205-217 the loop of Document.Validate *)
Definition doc_validate_with (ev : elem -> vres) : Z -> document -> vres :=
  fix loop (acc : Z) (es : document) {struct es} : vres :=
  match es with
  | [] => Ret (acc, None)
  | e :: r =>
      '(n, er) <- ev e ;;
      match er with
      | Some x => Ret (0, Some x)
      | None => loop (u32 (acc + n)) r
      end
  end.

(* array.go:57-71 the loop of Array.Validate: values only, keys are the decimal indices *)
Definition arr_validate_with (vv : value -> vres) : Z -> Z -> document -> vres :=
  fix loop (i acc : Z) (es : document) {struct es} : vres :=
  match es with
  | [] => Ret (acc, None)
  | None :: _ => Panic PNil
  | Some v :: r =>
      '(n, er) <- vv v ;;
      match er with
      | Some x => Ret (0, Some x)
      | None => loop (i + 1) (u32 (acc + 1 + (zlen (itoa i) + 1) + n)) r
      end
  end.

(* value.go:198-482 validate *)
Fixpoint val_validate (fuel : nat) (so : bool) (v : value) {struct v} : vres :=
  match v with
  | MkValue st off None _ => Ret (0, Some EUninitialized)
  | MkValue st off (Some data) d =>
      validate_core (rd_validate fuel)
        (match d with
         | None => None
         | Some es => Some (
             (fun _ => doc_validate_with (elem_validate_with (val_validate fuel false)) 5 es),
             (fun _ => arr_validate_with (val_validate fuel false) 0 5 es))
         end) so st off data
  end.

(* element.go:46-72, document.go:199-217, array.go:54-72 *)
Definition elem_validate fuel : elem -> vres := elem_validate_with (val_validate fuel false).
Definition doc_validate fuel (es : document) : vres := doc_validate_with (elem_validate fuel) 5 es.
Definition arr_validate fuel (es : document) : vres := arr_validate_with (val_validate fuel false) 0 5 es.

(* ------------------------------------------------------------ serialization *)

(* copy(b[start:], src): truncated at the end of b; slicing past the end panics *)
Definition copy_at (b : bytes) (start : Z) (src : bytes) : go (bytes * Z) :=
  if zlen b <? start then Panic PIndex
  else let m := firstn (Z.to_nat (zlen b - start)) src in Ret (put b start m, zlen m).

(* document.go:249-259 the element loop of Document.writeByteSlice; we is writeElement(true) *)
Definition doc_write_loop (we : elem -> Z -> bytes -> go wres) :
    document -> Z -> Z -> bytes -> go (bytes * Z * Z * option gerr) :=
  fix loop (es : document) (pos total : Z) (b : bytes) {struct es} :=
  match es with
  | [] => Ret (b, pos, total, None)
  | e :: r =>
      '(b1, n, er) <- we e pos b ;;
      match er with
      | Some x => Ret (b1, pos + n, total + n, Some x)
      | None => loop r (pos + n) (total + n) b1
      end
  end.

(* document.go:236-270 Document.writeByteSlice *)
Definition doc_write_with (we : elem -> Z -> bytes -> go wres) (es : document)
    (start size : Z) (b : bytes) : go wres :=
  if zlen b <? start + size then Ret (b, 0, Some ETooSmall) else
  match int32_encode start b (i32 size) with
  | (b1, n, Some x) => Ret (b1, n, Some x)
  | (b1, n, None) =>
      '(b2, pos, total, er) <- doc_write_loop we es (start + n) n b1 ;;
      match er with
      | Some x => Ret (b2, total, Some x)
      | None =>
          let '(b3, n3, e3) := byte_encode pos b2 0 in
          Ret (b3, total + n3, e3)
      end
  end.

(* array.go:241-260 the element loop of Array.writeByteSlice; we is writeElement(false) *)
Definition arr_write_loop (we : elem -> Z -> bytes -> go wres) :
    Z -> document -> Z -> Z -> bytes -> go (bytes * Z * Z * option gerr) :=
  fix loop (i : Z) (es : document) (pos total : Z) (b : bytes) {struct es} :=
  match es with
  | [] => Ret (b, pos, total, None)
  | None :: _ => Panic PNil
  | Some v :: r =>
      t <- (match v_data v with
            | None => Panic PIndex
            | Some data => goindex data (v_start v)
            end) ;;
      if zlen b <=? pos then Panic PIndex else
      let b1 := put b pos [t] in
      let key := itoa i ++ [0] in
      '(b2, _) <- copy_at b1 (pos + 1) key ;;
      let pos2 := pos + 1 + zlen key in
      let total2 := total + 1 + zlen key in
      '(b3, n, er) <- we (Some v) pos2 b2 ;;
      match er with
      | Some x => Ret (b3, pos2 + n, total2 + n, Some x)
      | None => loop (i + 1) r (pos2 + n) (total2 + n) b3
      end
  end.

(* array.go:223-268 Array.writeByteSlice *)
Definition arr_write_with (we : elem -> Z -> bytes -> go wres) (es : document)
    (start size : Z) (b : bytes) : go wres :=
  if zlen b <? start + size then Ret (b, 0, Some ETooSmall) else
  match int32_encode start b (i32 size) with
  | (b1, n, Some x) => Ret (b1, n, Some x)
  | (b1, n, None) =>
      '(b2, pos, total, er) <- arr_write_loop we 0 es (start + n) n b1 ;;
      match er with
      | Some x => Ret (b2, total, Some x)
      | None =>
          let '(b3, n3, e3) := byte_encode pos b2 0 in
          Ret (b3, total + n3, e3)
      end
  end.

(* element.go:150-268 Element.writeByteSlice for a value that has passed Validate (so data
   is not nil).  dw holds Document.writeByteSlice, Array.writeByteSlice and
   Document.Validate of v.d when it is not nil. *)
Definition write_core
    (dw : option ((Z -> Z -> bytes -> go wres) * (Z -> Z -> bytes -> go wres) * (unit -> vres)))
    (key : bool) (vstart offset : Z) (data : bytes) (start size : Z) (b : bytes) : go wres :=
  let stw := if key then vstart else offset in
  let needed := if key then start + size else start + size - (offset - vstart - 1) in
  if zlen b <? needed then Ret (b, 0, Some ETooSmall) else
  if offset =? 0 then Panic (PErr EUninitialized) else
  t <- goindex data vstart ;;
  let plain data :=
    src <- goslice data stw (u32 (vstart + size)) ;;
    '(b1, n) <- copy_at b start src ;;
    Ret (b1, n, None) in
  let nested wr :=
    let size' := u32 (size - u32 (offset - vstart)) in
    '(b1, n) <- (if key then src <- goslice data stw offset ;; copy_at b start src
                 else Ret (b, 0)) ;;
    '(b2, n2, er) <- wr (start + n) size' b1 ;;
    Ret (b2, n + n2, er) in
  if t =? 3 then
    match dw with None => plain data | Some (docw, _, _) => nested docw end
  else if t =? 4 then
    match dw with None => plain data | Some (_, arrw, _) => nested arrw end
  else if t =? 15 then
    let cs := u32 (offset + 4) in
    s <- goslice data cs (u32 (cs + 4)) ;;
    cl <- readi32 s ;;
    match dw with
    | Some (docw, _, docv) =>
        let lws := i32 (8 + cl) in
        '(scl, er) <- docv tt ;;
        match er with
        | Some x => Ret (b, 0, Some x)
        | None =>
            match int32_encode offset data (i32 (lws + i32 scl)) with
            | (_, _, Some x) => Ret (b, 0, Some x)
            | (data1, _, None) =>
                src <- goslice data1 stw (u32 (offset + u32 lws)) ;;
                '(b1, n) <- copy_at b start src ;;
                '(b2, n2, er) <- docw (start + n) scl b1 ;;
                Ret (b2, n + n2, er)
            end
        end
    | None =>
        let ss := u32 (cs + 4 + u32 cl) in
        s <- goslice data ss (u32 (ss + 4)) ;;
        scl <- readi32 s ;;
        let cwe := i32 (i32 ss + scl) in
        match int32_encode offset data (i32 (cwe - i32 offset)) with
        | (_, _, Some x) => Ret (b, 0, Some x)
        | (data1, _, None) => plain data1
        end
    end
  else plain data.

(* element.go:122-147 Element.writeElement to a byte slice *)
Definition write_element_with (ev : elem -> vres)
    (wb : value -> Z -> Z -> bytes -> go wres) (e : elem) (start : Z) (b : bytes) : go wres :=
  '(size, er) <- ev e ;;
  match er, e with
  | Some x, _ => Ret (b, 0, Some x)
  | None, None => Panic PNil
  | None, Some v =>
      '(b1, n, er) <- wb v start size b ;;
      match er with
      | Some _ => Ret (b1, 0, Some ETooSmall)
      | None => Ret (b1, n, None)
      end
  end.

Fixpoint val_write (fuel : nat) (key : bool) (v : value) (start size : Z) (b : bytes)
    {struct v} : go wres :=
  match v with
  | MkValue st off None _ => Panic PIndex
  | MkValue st off (Some data) d =>
      write_core
        (match d with
         | None => None
         | Some es => Some (
             doc_write_with (fun e =>
               write_element_with (elem_validate fuel) (fun v => val_write fuel true v) e) es,
             arr_write_with (fun e =>
               write_element_with (elem_validate fuel) (fun v => val_write fuel false v) e) es,
             fun _ => doc_validate fuel es)
         end) key st off data start size b
  end.

Definition write_element fuel (key : bool) : elem -> Z -> bytes -> go wres :=
  write_element_with (elem_validate fuel) (val_write fuel key).
Definition doc_write fuel (es : document) := doc_write_with (write_element fuel true) es.
Definition arr_write fuel (es : document) := arr_write_with (write_element fuel false) es.

Definition zeros (n : Z) : bytes := repeat 0 (Z.to_nat n).

(* document.go:272-285 Document.MarshalBSON *)
Definition doc_marshal fuel (es : document) : go (bytes + gerr) :=
  '(size, er) <- doc_validate fuel es ;;
  match er with
  | Some x => Ret (inr x)
  | None =>
      '(b, _, er) <- doc_write fuel es 0 size (zeros size) ;;
      match er with Some x => Ret (inr x) | None => Ret (inl b) end
  end.

(* array.go:271-285 Array.MarshalBSON; the pooled buffer is taken to be zeroed, see
   arr_write_any_buffer in CodecRep.v for the independence of its contents *)
Definition arr_marshal fuel (es : document) : go (bytes + gerr) :=
  '(size, er) <- arr_validate fuel es ;;
  match er with
  | Some x => Ret (inr x)
  | None =>
      '(b, _, er) <- arr_write fuel es 0 size (zeros size) ;;
      match er with Some x => Ret (inr x) | None => Ret (inl b) end
  end.

(* element.go:271-284 Element.MarshalBSON *)
Definition elem_marshal fuel (e : elem) : go (bytes + gerr) :=
  '(size, er) <- elem_validate fuel e ;;
  match er, e with
  | Some x, _ => Ret (inr x)
  | None, None => Panic PNil
  | None, Some v =>
      '(b, _, er) <- val_write fuel true v 0 size (zeros size) ;;
      match er with Some x => Ret (inr x) | None => Ret (inl b) end
  end.

(* element.go:102-108 Element.Key *)
Definition elem_key (e : elem) : go bytes :=
  match e with
  | Some (MkValue st off (Some data) _) =>
      if off =? 0 then Ret [] else goslice data (u32 (st + 1)) (u32 (off - 1))
  | _ => Ret []
  end.

(* ------------------------------------------------------- induction principle *)

Definition on_elem (P : value -> Prop) (e : elem) : Prop :=
  match e with Some v => P v | None => True end.

Section ValueInd.
  Variable P : value -> Prop.
  Hypothesis Hnone : forall st off data, P (MkValue st off data None).
  Hypothesis Hsome : forall st off data es,
    Forall (on_elem P) es -> P (MkValue st off data (Some es)).

  Fixpoint value_ind' (v : value) : P v :=
    match v with
    | MkValue st off data None => Hnone st off data
    | MkValue st off data (Some es) => Hsome st off data es
        ((fix go es : Forall (on_elem P) es :=
            match es with
            | [] => Forall_nil _
            | e :: r => Forall_cons e
                (match e return on_elem P e with Some v => value_ind' v | None => I end) (go r)
            end) es)
    end.
End ValueInd.
