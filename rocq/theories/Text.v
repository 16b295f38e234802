(* Model of the String methods: Document.String, Element.String, Array.String, Reader.String and
   bsontype.Type.String. *)
Require Import ZArith List Bool String.
From Verif Require Import Base Value Codec Api Tree Iface Events.
Import List ListNotations.
Open Scope Z_scope.

(* bsontype/bsontype.go:40-87 Type.String *)
Definition type_string (t : Z) : bytes :=
  if t =? 1 then str "double" else
  if t =? 2 then str "string" else
  if t =? 3 then str "embedded document" else
  if t =? 4 then str "array" else
  if t =? 5 then str "binary" else
  if t =? 6 then str "undefined" else
  if t =? 7 then str "objectID" else
  if t =? 8 then str "boolean" else
  if t =? 9 then str "UTC datetime" else
  if t =? 10 then str "null" else
  if t =? 11 then str "regex" else
  if t =? 12 then str "dbPointer" else
  if t =? 13 then str "javascript" else
  if t =? 14 then str "symbol" else
  if t =? 15 then str "code with scope" else
  if t =? 16 then str "32-bit integer" else
  if t =? 17 then str "timestamp" else
  if t =? 18 then str "64-bit integer" else
  if t =? 19 then str "128-bit decimal" else
  if t =? 255 then str "min key" else
  if t =? 127 then str "max key" else
  str "invalid".

(* the quotation mark *)
Definition dq : Z := 34.

Section Text.
(* fmt's %v and %s, and strconv.Quote: parameters *)
Variables fmt_v fmt_s : any -> bytes.
Variable quote : bytes -> bytes.
(* what fmt prints for an argument whose String method panics (fmt/print.go catchPanic) *)
Variable panic_text : pan -> bytes.

(* element.go:287-294 Element.String.  The receiver nil is a nil dereference (element.go:41-43). *)
Definition elem_string (fuel : nat) (e : elem) : go bytes :=
  match e with
  | None => Panic PNil
  | Some v =>
      a <- v_interface fuel v ;;
      t <- v_type v ;;
      let val := match a with AString s => if t =? 2 then quote s else fmt_v a | _ => fmt_v a end in
      k <- elem_key e ;;
      Ret (str "bson.Element{[" ++ type_string t ++ [93; dq] ++ k ++ [dq; 58; 32] ++ val ++ [125])
  end.

(* document.go:340-347 the loop: idx > 0 for all but the first element *)
Fixpoint doc_string_loop (fuel : nat) (first : bool) (es : document) (buf : bytes) : go bytes :=
  match es with
  | [] => Ret buf
  | e :: r =>
      let buf := if first then buf else buf ++ [44; 32] in
      s <- elem_string fuel e ;;
      doc_string_loop fuel false r (buf ++ s)
  end.
(* document.go:336-351 Document.String *)
Definition doc_string (fuel : nat) (es : document) : go bytes :=
  buf <- doc_string_loop fuel true es (str "bson.Document{") ;;
  Ret (buf ++ [125]).

(* array.go:208-214 the loop; array elements always have a value, so a nil one is a nil dereference *)
Fixpoint arr_string_loop (fuel : nat) (first : bool) (es : document) (buf : bytes) : go bytes :=
  match es with
  | [] => Ret buf
  | e :: r =>
      let buf := if first then buf else buf ++ [44; 32] in
      match e with
      | None => Panic PNil
      | Some v => a <- v_interface fuel v ;; arr_string_loop fuel false r (buf ++ fmt_s a)
      end
  end.
(* array.go:201-219 Array.String.  The buffer comes from a pool, empty (see Pool.v). *)
Definition arr_string (fuel : nat) (es : document) : go bytes :=
  buf <- arr_string_loop fuel true es (str "bson.Array[") ;;
  Ret (buf ++ [93]).

(* reader.go:208-215 the callback; the state is (idx > 0, buf).  Fprintf calls elem.String and
   catches its panics. *)
Definition rd_string_cb (fuel : nat) (s : bool * bytes) (v : value) : go ((bool * bytes) * ctl) :=
  let (some, buf) := s in
  let buf := if some then buf ++ [44; 32] else buf in
  match elem_string fuel (Some v) with
  | Ret t => Ret ((true, buf ++ t), CNext)
  | Panic p => Ret ((true, buf ++ panic_text p), CNext)
  | Fuel => Fuel
  end.
(* reader.go:201-220 Reader.String: the error of readElements is dropped *)
Definition rd_string (fuel : nat) (r : bytes) : go bytes :=
  '((_, buf), _) <- rd_elements (rd_string_cb fuel) fuel r (false, str "bson.Reader{") ;;
  Ret (buf ++ [125]).
End Text.
