(* JSON: model of jsonx (write.go, marhsal.go, unmarshal.go, constructor.go, juniper.go) and
   of the parser it uses, jsonx/internal/gjson.go.
   The parser moves an index through a text; here each function takes the text from that
   index on and returns what remains, and "return i, false" is None.  strconv.ParseFloat and
   strconv.FormatFloat are parameters. *)
Require Import ZArith List Bool Lia ZifyBool ZifyNat String Ascii.
From Verif Require Import Base BSpec Elements Value Api Dec128.
Import List ListNotations.
Open Scope Z_scope.

(* ------------------------------------------------------------------- values *)

(* the dynamic type of a number: int, int32 or int64; float64 or float32 *)
Inductive ikind := KInt | KInt32 | KInt64.
Inductive fkind := K64 | K32.
(* jsonx/juniper.go:7-91, constructor.go: what a *Value, *Element, *Document and *Array can be
   built to hold.  JNil is a nil *Value, JNoElem a nil *Element, JNilDoc and JNilArr values
   holding a nil *Document or *Array, JZero the zero Value.  Floats are given by the bits of
   the float64 they convert to.  The trees are finite and nothing is shared. *)
Inductive jval :=
| JNil
| JZero
| JString (s : bytes)
| JInt (k : ikind) (n : Z)
| JFloat (k : fkind) (bits : Z)
| JNull
| JBool (b : bool)
| JDoc (es : list jelem)
| JArr (vs : list jval)
| JNilDoc
| JNilArr
with jelem :=
| JNoElem
| JElem (k : bytes) (v : jval).

(* ------------------------------------------------------------------ writing *)

(* jsonx/write.go:9-106 safeSet, for bytes below 128 *)
Definition safe (b : Z) : bool := (32 <=? b) && negb (b =? 34) && negb (b =? 92).
(* 108 hex *)
Definition hex_char (n : Z) : Z := if n <? 10 then 48 + n else 87 + n.
(* 146-162 the escape of a byte *)
Definition escape (b : Z) : bytes :=
  if (b =? 92) || (b =? 34) then [92; b] else
  if b =? 10 then [92; 110] else
  if b =? 13 then [92; 114] else
  if b =? 9 then [92; 116] else
  [92; 117; 48; 48; hex_char (b / 16); hex_char (b mod 16)].
(* 131-178 the slow path; pend is s[start:i] *)
Fixpoint write_slow (pend s : bytes) : bytes :=
  match s with
  | [] => pend ++ [34]
  | b :: r =>
      if b <? 128 then
        if safe b then write_slow (pend ++ [b]) r
        else pend ++ escape b ++ write_slow [] r
      else write_slow (pend ++ [b]) r
  end.
(* 118-129 the fast path: what is copied, what is left *)
Fixpoint write_fast (s : bytes) : bytes * bytes :=
  match s with
  | [] => ([], [])
  | c :: r => if (31 <? c) && negb (c =? 34) && negb (c =? 92)
              then let '(a, b) := write_fast r in (c :: a, b) else ([], s)
  end.
(* jsonx/write.go:110-178 writeJSONString *)
Definition write_string (s : bytes) : bytes :=
  let '(a, b) := write_fast s in
  match b with [] => 34 :: a ++ [34] | _ => 34 :: a ++ write_slow [] b end.

(* math.Float64bits: sign, exponent, fraction.  A finite double is mant * 2^ex. *)
Definition f_neg (x : Z) : bool := 9223372036854775808 <=? x.
Definition f_exp (x : Z) : Z := x / 4503599627370496 mod 2048.
Definition f_frac (x : Z) : Z := x mod 4503599627370496.
Definition f_mant (x : Z) : Z := if f_exp x =? 0 then f_frac x else 4503599627370496 + f_frac x.
Definition f_ex (x : Z) : Z := Z.max 1 (f_exp x) - 1075.
(* the integer nearest to n / d, the even one of two *)
Definition near (n d : Z) : Z :=
  let q := n / d in let r := n mod d in
  if 2 * r <? d then q else if d <? 2 * r then q + 1 else if Z.even q then q else q + 1.
(* the magnitude in millionths, rounded *)
Definition f_millionths (x : Z) : Z :=
  if 0 <=? f_ex x then f_mant x * 2 ^ f_ex x * 1000000 else near (f_mant x * 1000000) (2 ^ (- f_ex x)).
(* n in k digits *)
Fixpoint pad_digits (k : nat) (n : Z) : bytes :=
  match k with O => [] | S k => pad_digits k (n / 10) ++ [48 + n mod 10] end.
(* fmt.Sprintf("%f", x): six digits after the point, correctly rounded *)
Definition fmt_f (x : Z) : bytes :=
  if f_exp x =? 2047 then
    if f_frac x =? 0 then (if f_neg x then 45 else 43) :: [73; 110; 102] else [78; 97; 78]
  else let n := f_millionths x in
       (if f_neg x then [45] else []) ++ itoa (n / 1000000) ++ 46 :: pad_digits 6 (n mod 1000000).

Definition bstr (s : string) : bytes := map (fun c => Z.of_nat (nat_of_ascii c)) (list_ascii_of_string s).
(* the errors of jsonx *)
Definition e_marshal_nil : gerr := EOther 300.   (* cannot marshal nil array / value *)
Definition e_invalid : gerr := EOther 301.       (* invalid json *)
Definition e_kind : gerr := EOther 302.          (* cannot unmarshal values or arrays into Documents *)
Definition e_number : gerr := EOther 303.        (* number value is invalid *)

(* jsonx/marhsal.go:10-100 MarshalJSON of a value, a document's elements and an array's
   values; the text or the error.  The wrapping of errors is left out. *)
Fixpoint val_marshal (v : jval) : go (bytes + gerr) :=
  match v with
  | JNil => Ret (inr e_marshal_nil)
  | JZero => Ret (inl (write_string (bstr "%!s(<nil>)")))
  | JString s => Ret (inl (write_string s))
  | JInt _ n => Ret (inl (itoa_signed n))
  | JFloat _ x => Ret (inl (fmt_f x))
  | JNull => Ret (inl (bstr "null"))
  | JBool b => Ret (inl (if b then bstr "true" else bstr "false"))
  | JNilDoc => Panic PNil
  | JNilArr => Ret (inr e_marshal_nil)
  | JDoc es =>
      let fix elems (out : bytes) (first : bool) (es : list jelem) : go (bytes + gerr) :=
        match es with
        | [] => Ret (inl (out ++ [125]))
        | JNoElem :: _ => Panic PNil
        | JElem k v :: r =>
            let out := (if first then out else out ++ [44]) ++ 34 :: k ++ [34; 58] in
            x <- val_marshal v ;;
            match x with inr e => Ret (inr e) | inl t => elems (out ++ t) false r end
        end in
      elems [123] true es
  | JArr vs =>
      let fix vals (out : bytes) (first : bool) (vs : list jval) : go (bytes + gerr) :=
        match vs with
        | [] => Ret (inl (out ++ [93]))
        | v :: r =>
            let out := if first then out else out ++ [44] in
            x <- val_marshal v ;;
            match x with inr e => Ret (inr e) | inl t => vals (out ++ t) false r end
        end in
      vals [91] true vs
  end.
(* marhsal.go:10-33 Document.MarshalJSON, 35-60 Array.MarshalJSON of documents and arrays that
   are not nil *)
Definition doc_marshal (es : list jelem) : go (bytes + gerr) := val_marshal (JDoc es).
Definition arr_marshal (vs : list jval) : go (bytes + gerr) := val_marshal (JArr vs).

(* ----------------------------------------------------------------- checking *)

Definition is_ws (c : Z) : bool := (c =? 32) || (c =? 9) || (c =? 10) || (c =? 13).
Fixpoint skip_ws (s : bytes) : bytes :=
  match s with c :: r => if is_ws c then skip_ws r else s | [] => [] end.
Definition is_hex (c : Z) : bool :=
  ((48 <=? c) && (c <=? 57)) || ((97 <=? c) && (c <=? 102)) || ((65 <=? c) && (c <=? 70)).
(* gjson.go:1160 *)
Definition is_short (c : Z) : bool :=
  (c =? 34) || (c =? 92) || (c =? 47) || (c =? 98) || (c =? 102) || (c =? 110) || (c =? 114) || (c =? 116).
(* gjson.go:1148-1179 validstring *)
Fixpoint valid_string (s : bytes) : option bytes :=
  match s with
  | [] => None
  | c :: r =>
      if c <? 32 then None else
      if c =? 92 then
        match r with
        | [] => None
        | d :: r' =>
            if is_short d then valid_string r' else
            if d =? 117 then
              match r' with
              | h1 :: h2 :: h3 :: h4 :: r'' =>
                  if is_hex h1 && is_hex h2 && is_hex h3 && is_hex h4 then valid_string r'' else None
              | _ => None
              end
            else None
        end
      else if c =? 34 then Some r else valid_string r
  end.
Fixpoint skip_digits (s : bytes) : bytes :=
  match s with c :: r => if is_digit c then skip_digits r else s | [] => [] end.
(* gjson.go:1200-1219 the fraction; 1220-1246 the exponent *)
Definition valid_exp (s : bytes) : option bytes :=
  match s with
  | [] => Some []
  | c :: r =>
      if (c =? 101) || (c =? 69) then
        match r with
        | [] => None
        | d :: r' =>
            let r := if (d =? 43) || (d =? 45) then r' else r in
            match r with
            | [] => None
            | d :: r' => if is_digit d then Some (skip_digits r') else None
            end
        end
      else Some s
  end.
Definition valid_frac (s : bytes) : option bytes :=
  match s with
  | [] => Some []
  | c :: r =>
      if c =? 46 then
        match r with
        | [] => None
        | d :: r' => if is_digit d then valid_exp (skip_digits r') else None
        end
      else valid_exp s
  end.
(* gjson.go:1180-1247 validnumber, from the character the caller saw *)
Definition valid_number (s : bytes) : option bytes :=
  let s := match s with c :: r => if c =? 45 then r else s | [] => [] end in
  match s with
  | [] => None
  | c :: r => valid_frac (if c =? 48 then r else skip_digits s)
  end.
(* gjson.go:1249-1269 validtrue, validfalse, validnull: the rest of the word *)
Fixpoint eat (w s : bytes) : option bytes :=
  match w, s with
  | [], _ => Some s
  | a :: w, b :: s => if a =? b then eat w s else None
  | _, [] => None
  end.
(* gjson.go:1097-1109 validcolon *)
Definition valid_colon (s : bytes) : option bytes :=
  match skip_ws s with c :: r => if c =? 58 then Some r else None | [] => None end.
(* gjson.go:1110-1124 validcomma: the text from the comma or the end character on *)
Definition valid_comma (s : bytes) (e : Z) : option bytes :=
  match skip_ws s with c :: r => if (c =? 44) || (c =? e) then Some (c :: r) else None | [] => None end.
(* gjson.go:1030-1054 validany; 1055-1096 validobject from the label key on; 1125-1147
   validarray from the first character that is not whitespace on *)
Fixpoint valid_any (n : nat) (s : bytes) : go (option bytes) :=
  match n with
  | O => Fuel
  | S n =>
      match skip_ws s with
      | [] => Ret None
      | c :: r =>
          if c =? 123 then
            match skip_ws r with
            | [] => Ret None
            | d :: r' => if d =? 125 then Ret (Some r') else if d =? 34 then valid_members n r' else Ret None
            end
          else if c =? 91 then
            match skip_ws r with
            | [] => Ret None
            | d :: r' => if d =? 93 then Ret (Some r') else valid_items n (d :: r')
            end
          else if c =? 34 then Ret (valid_string r)
          else if (c =? 45) || is_digit c then Ret (valid_number (c :: r))
          else if c =? 116 then Ret (eat [114; 117; 101] r)
          else if c =? 102 then Ret (eat [97; 108; 115; 101] r)
          else if c =? 110 then Ret (eat [117; 108; 108] r)
          else Ret None
      end
  end
with valid_members (n : nat) (s : bytes) : go (option bytes) :=
  match n with
  | O => Fuel
  | S n =>
      match valid_string s with
      | None => Ret None
      | Some s =>
          match valid_colon s with
          | None => Ret None
          | Some s =>
              x <- valid_any n s ;;
              match x with
              | None => Ret None
              | Some s =>
                  match valid_comma s 125 with
                  | None => Ret None
                  | Some [] => Panic PIndex
                  | Some (c :: r) =>
                      if c =? 125 then Ret (Some r) else
                      match skip_ws r with
                      | d :: r' => if d =? 34 then valid_members n r' else Ret None
                      | [] => Ret None
                      end
                  end
              end
          end
      end
  end
with valid_items (n : nat) (s : bytes) : go (option bytes) :=
  match n with
  | O => Fuel
  | S n =>
      match s with
      | [] => Ret None
      | _ =>
          x <- valid_any n s ;;
          match x with
          | None => Ret None
          | Some s =>
              match valid_comma s 93 with
              | None => Ret None
              | Some [] => Panic PIndex
              | Some (c :: r) => if c =? 93 then Ret (Some r) else valid_items n r
              end
          end
      end
  end.
(* gjson.go:1007-1029 validpayload, 1278-1281 validateJSON *)
Definition valid_fuel (s : bytes) : nat := (2 * List.length s + 1)%nat.
Definition validate_json (s : bytes) : go bool :=
  match skip_ws s with
  | [] => Ret false
  | s =>
      x <- valid_any (valid_fuel s) s ;;
      match x with
      | None => Ret false
      | Some r => Ret (match skip_ws r with [] => true | _ => false end)
      end
  end.

(* ------------------------------------------------------------------ reading *)

(* gjson.go:50-62 Result.  Raw is kept where it is used later: of numbers, arrays and objects.
   Index is left out, and Num is ParseFloat of Raw.  A result of type Null need not exist. *)
Inductive result := RNull | RFalse | RTrue | RNum (raw : bytes) | RStr (s : bytes) | RJson (raw : bytes).

(* strconv.ParseUint(s, 16, 64) of four characters: 0 if they are not digits *)
Definition hex_val (c : Z) : option Z :=
  if (48 <=? c) && (c <=? 57) then Some (c - 48) else
  if (97 <=? c) && (c <=? 102) then Some (c - 97 + 10) else
  if (65 <=? c) && (c <=? 70) then Some (c - 65 + 10) else None.
(* gjson.go:825-829 runeit *)
Definition runeit (a b c d : Z) : Z :=
  match hex_val a, hex_val b, hex_val c, hex_val d with
  | Some w, Some x, Some y, Some z => w * 4096 + x * 256 + y * 16 + z
  | _, _, _, _ => 0
  end.
(* unicode/utf16 IsSurrogate, DecodeRune *)
Definition is_surrogate (r : Z) : bool := (55296 <=? r) && (r <? 57344).
Definition decode_rune (r1 r2 : Z) : Z :=
  if (55296 <=? r1) && (r1 <? 56320) && (56320 <=? r2) && (r2 <? 57344)
  then (r1 - 55296) * 1024 + (r2 - 56320) + 65536 else 65533.
(* unicode/utf8 EncodeRune, for runes of at least 0 *)
Definition encode_rune (r : Z) : bytes :=
  if r <=? 127 then [r] else
  if r <=? 2047 then [192 + r / 64; 128 + r mod 64] else
  if (1114111 <? r) || is_surrogate r then [239; 191; 189] else
  if r <=? 65535 then [224 + r / 4096; 128 + r / 64 mod 64; 128 + r mod 64] else
  [240 + r / 262144; 128 + r / 4096 mod 64; 128 + r / 64 mod 64; 128 + r mod 64].
(* gjson.go:832-888 unescape; str is what precedes the result here *)
Fixpoint unescape (s : bytes) : bytes :=
  match s with
  | [] => []
  | c :: r =>
      if c <? 32 then [] else
      if c =? 92 then
        match r with
        | [] => []
        | d :: r' =>
            if d =? 92 then 92 :: unescape r' else
            if d =? 47 then 47 :: unescape r' else
            if d =? 98 then 8 :: unescape r' else
            if d =? 102 then 12 :: unescape r' else
            if d =? 110 then 10 :: unescape r' else
            if d =? 114 then 13 :: unescape r' else
            if d =? 116 then 9 :: unescape r' else
            if d =? 34 then 34 :: unescape r' else
            if d =? 117 then
              match r' with
              | h1 :: h2 :: h3 :: h4 :: r2 =>
                  let x := runeit h1 h2 h3 h4 in
                  match r2 with
                  | b :: u :: g1 :: g2 :: g3 :: g4 :: r3 =>
                      if is_surrogate x && (b =? 92) && (u =? 117)
                      then encode_rune (decode_rune x (runeit g1 g2 g3 g4)) ++ unescape r3
                      else encode_rune x ++ unescape r2
                  | _ => encode_rune x ++ unescape r2
                  end
              | _ => []
              end
            else []
        end
      else c :: unescape r
  end.

(* gjson.go:591-602, 668-679, 972-983: is the quote after the text p (given backwards, from
   the opening quote on) escaped?  The search back ends at the opening quote, which is not a
   backslash, so what precedes it is left out. *)
Fixpoint slashes (p : bytes) : nat :=
  match p with c :: r => if c =? 92 then S (slashes r) else O | [] => O end.
Definition escaped (p : bytes) : bool :=
  match p with c :: r => (c =? 92) && Nat.even (slashes r) | [] => false end.
(* gjson.go:584-605, 661-682 the search for the closing quote after an escape: the text up to
   it, and what follows it; None if there is none *)
Fixpoint find_quote (p s : bytes) : option (bytes * bytes) :=
  match s with
  | [] => None
  | c :: r =>
      if (c =? 34) && negb (escaped p) then Some ([], r) else
      match find_quote (c :: p) r with Some (b, r) => Some (c :: b, r) | None => None end
  end.
(* gjson.go:651-687 parseString, from behind the opening quote: the text between the quotes,
   whether it has escapes, and what follows *)
Fixpoint parse_string_from (p s : bytes) : option (bytes * bool * bytes) :=
  match s with
  | [] => None
  | c :: r =>
      if c >? 92 then match parse_string_from (c :: p) r with Some (b, v, r) => Some (c :: b, v, r) | None => None end else
      if c =? 34 then Some ([], false, r) else
      if c =? 92 then match find_quote (c :: p) r with Some (b, r) => Some (c :: b, true, r) | None => None end else
      match parse_string_from (c :: p) r with Some (b, v, r) => Some (c :: b, v, r) | None => None end
  end.
Definition parse_string (s : bytes) : option (bytes * bool * bytes) := parse_string_from [] s.
Definition str_of (b : bytes) (esc : bool) : bytes := if esc then unescape b else b.
(* gjson.go:574-616 tostr, from behind the opening quote: Str, and what follows Raw.  If there
   are escapes and the text ends with the closing quote, Raw lacks that quote. *)
Definition tostr (s : bytes) : bytes * bytes :=
  match parse_string s with
  | Some (b, true, []) => (unescape b, [34])
  | Some (b, esc, r) => (str_of b esc, r)
  | None => (if existsb (fun c => c =? 92) s then unescape s else s, [])
  end.

(* gjson.go:484-532 squash of a text that begins with a bracket, 953-999 parseSquash: the text
   up to the bracket that closes it, and what follows; depth is the depth, p the text since
   the opening quote of the string the index is in *)
Fixpoint squash (depth : Z) (p : option bytes) (s : bytes) : bytes * bytes :=
  match s with
  | [] => ([], [])
  | c :: r =>
      let go_on d p := let '(a, b) := squash d p r in (c :: a, b) in
      match p with
      | Some q => if (c =? 34) && negb (escaped q) then go_on depth None else go_on depth (Some (c :: q))
      | None =>
          if c =? 34 then go_on depth (Some []) else
          if (c =? 123) || (c =? 91) || (c =? 40) then go_on (depth + 1) None else
          if (c =? 125) || (c =? 93) || (c =? 41) then
            if depth - 1 =? 0 then ([c], r) else go_on (depth - 1) None
          else go_on depth None
      end
  end.
Definition squash_from (c : Z) (s : bytes) : bytes * bytes := let '(a, b) := squash 1 None s in (c :: a, b).

Fixpoint span (p : Z -> bool) (s : bytes) : bytes * bytes :=
  match s with c :: r => if p c then let '(a, b) := span p r in (c :: a, b) else ([], s) | [] => ([], []) end.
Definition span1 (p : Z -> bool) (s : bytes) : bytes * bytes :=
  match s with c :: r => let '(a, b) := span p r in (c :: a, b) | [] => ([], []) end.
(* gjson.go:689-699 parseNumber *)
Definition parse_number (s : bytes) : bytes * bytes :=
  span1 (fun c => negb ((c <=? 32) || (c =? 44) || (c =? 93) || (c =? 125))) s.
(* gjson.go:534-563 tonum *)
Definition tonum (s : bytes) : bytes * bytes :=
  span1 (fun c => if c <=? 45 then negb ((c <=? 32) || (c =? 44)) else
                  if c <? 93 then true else (c =? 101) || (c =? 69)) s.
(* gjson.go:701-710 parseLiteral, 565-572 tolit *)
Definition parse_literal (s : bytes) : bytes * bytes := span1 (fun c => (97 <=? c) && (c <=? 122)) s.

(* gjson.go:893-951 parseAny with hit set: the next value and what follows it *)
Fixpoint parse_any (s : bytes) : option (result * bytes) :=
  match s with
  | [] => None
  | c :: r =>
      if (c =? 123) || (c =? 91) then let '(a, b) := squash_from c r in Some (RJson a, b) else
      if c <=? 32 then parse_any r else
      if c =? 34 then
        match parse_string r with Some (b, esc, r) => Some (RStr (str_of b esc), r) | None => None end
      else if (c =? 45) || is_digit c then let '(a, b) := parse_number s in Some (RNum a, b)
      else if c =? 116 then Some (RTrue, snd (parse_literal s))
      else if c =? 102 then Some (RFalse, snd (parse_literal s))
      else if c =? 110 then Some (RNull, snd (parse_literal s))
      else parse_any r
  end.
(* gjson.go:291-296 *)
Fixpoint skip_sep (s : bytes) : bytes :=
  match s with c :: r => if (c <=? 32) || (c =? 44) || (c =? 58) then skip_sep r else s | [] => [] end.
Definition next (s : bytes) : bytes := match s with _ :: r => r | [] => [] end.
(* gjson.go:273-306 the loop of ForEach over an object: the keys and values it hands to the
   iterator, which is taken not to stop it *)
Fixpoint each_member (n : nat) (s : bytes) : go (list (bytes * result)) :=
  match n with
  | O => Fuel
  | S n =>
      match s with
      | [] => Ret []
      | c :: r =>
          if c =? 34 then
            match parse_string r with
            | None => Ret []
            | Some (k, esc, r) =>
                match parse_any (skip_sep r) with
                | None => Ret []
                | Some (v, r) => l <- each_member n (next r) ;; Ret ((str_of k esc, v) :: l)
                end
            end
          else each_member n r
      end
  end.
(* gjson.go:244-307 ForEach of an object, whose Raw begins with the brace *)
Definition members_of (raw : bytes) : go (list (bytes * result)) :=
  each_member (S (List.length raw)) (next raw).
(* gjson.go:368-430 the loop of arrayOrMap('[', false) *)
Fixpoint each_item (n : nat) (s : bytes) : go (list result) :=
  match n with
  | O => Fuel
  | S n =>
      match s with
      | [] => Ret []
      | c :: r =>
          let add v r := l <- each_item n r ;; Ret (v :: l) in
          if c <=? 32 then each_item n r else
          if (c =? 93) || (c =? 125) then Ret [] else
          if (c =? 123) || (c =? 91) then let '(a, b) := squash_from c r in add (RJson a) b else
          if c =? 110 then add RNull (snd (parse_literal s)) else
          if c =? 116 then add RTrue (snd (parse_literal s)) else
          if c =? 102 then add RFalse (snd (parse_literal s)) else
          if c =? 34 then let '(v, r) := tostr r in add (RStr v) r else
          if (c =? 45) || is_digit c then let '(a, b) := tonum s in add (RNum a) b else
          each_item n r
      end
  end.
(* gjson.go:184-193 Array of an array, whose Raw begins with the bracket *)
Definition items_of (raw : bytes) : go (list result) := each_item (S (List.length raw)) (next raw).

(* gjson.go:443-475 the rest of Parse *)
Fixpoint parse_value (s : bytes) : result :=
  match s with
  | [] => RNull
  | c :: r =>
      if (c =? 123) || (c =? 91) then RJson s else
      if c <=? 32 then parse_value r else
      if c =? 110 then RNull else
      if c =? 116 then RTrue else
      if c =? 102 then RFalse else
      if c =? 34 then RStr (fst (tostr r)) else
      if (c =? 45) || is_digit c then RNum (fst (tonum s)) else RNull
  end.
(* gjson.go:436-441, 480-482 Parse, ParseBytes *)
Definition parse_bytes (s : bytes) : go (result + gerr) :=
  ok <- validate_json s ;; Ret (if ok then inl (parse_value s) else inr e_invalid).

(* strconv.ParseInt(s, 10, 64), None for an error *)
Definition digits_val (ds : bytes) : option Z :=
  match ds with
  | [] => None
  | _ => if forallb is_digit ds then Some (fold_left (fun v c => v * 10 + (c - 48)) ds 0) else None
  end.
Definition parse_int (s : bytes) : option Z :=
  let '(neg, ds) := match s with
    | c :: r => if c =? 45 then (true, r) else if c =? 43 then (false, r) else (false, s)
    | [] => (false, []) end in
  match digits_val ds with
  | None => None
  | Some n => let n := if neg then - n else n in
      if (-9223372036854775808 <=? n) && (n <=? 9223372036854775807) then Some n else None
  end.

(* jsonx/unmarshal.go:99-111, 112-131 the loops over the items and the members, for a function
   that makes a value of a result; the first error ends them *)
Fixpoint map_vals (f : result -> go (jval + gerr)) (l : list result) : go (list jval + gerr) :=
  match l with
  | [] => Ret (inl [])
  | r :: l =>
      x <- f r ;;
      match x with
      | inr e => Ret (inr e)
      | inl v => y <- map_vals f l ;; match y with inr e => Ret (inr e) | inl vs => Ret (inl (v :: vs)) end
      end
  end.
Fixpoint map_elems (f : result -> go (jval + gerr)) (l : list (bytes * result)) : go (list jelem + gerr) :=
  match l with
  | [] => Ret (inl [])
  | (k, r) :: l =>
      x <- f r ;;
      match x with
      | inr e => Ret (inr e)
      | inl v => y <- map_elems f l ;; match y with inr e => Ret (inr e) | inl es => Ret (inl (JElem k v :: es)) end
      end
  end.

Section Numbers.
(* strconv.ParseFloat(s, 64): the bits of the float, and whether there was no error (there is
   a float even then); strconv.FormatFloat(x, 'f', -1, 64) *)
Variable pf : bytes -> Z * bool.
Variable ff : Z -> bytes.

(* gjson.go:71-85 String of a number *)
Definition num_text (raw : bytes) : bytes :=
  match raw with
  | [] => ff (fst (pf raw))
  | c :: r => if forallb is_digit (if c =? 45 then r else raw) then raw else ff (fst (pf raw))
  end.
(* jsonx/unmarshal.go:89-97 *)
Definition num_value (raw : bytes) : jval + gerr :=
  match parse_int (num_text raw) with
  | Some n => inl (JInt KInt n)
  | None => match pf (num_text raw) with (x, true) => inl (JFloat K64 x) | _ => inr e_number end
  end.

(* jsonx/unmarshal.go:79-138 getValueForResult.  A result is an object or an array if its text
   begins with a brace or a bracket. *)
Fixpoint get_value (n : nat) (r : result) : go (jval + gerr) :=
  match n with
  | O => Fuel
  | S n =>
      match r with
      | RStr s => Ret (inl (JString s))
      | RNull => Ret (inl JNull)
      | RTrue => Ret (inl (JBool true))
      | RFalse => Ret (inl (JBool false))
      | RNum raw => Ret (num_value raw)
      | RJson raw =>
          match raw with
          | 91 :: _ =>
              l <- items_of raw ;;
              x <- map_vals (get_value n) l ;;
              Ret (match x with inl vs => inl (JArr vs) | inr e => inr e end)
          | 123 :: _ =>
              l <- members_of raw ;;
              x <- map_elems (get_value n) l ;;
              Ret (match x with inl es => inl (JDoc es) | inr e => inr e end)
          | _ => Ret (inr (EOther 304))
          end
      end
  end.

(* jsonx/constructor.go:137-145 VCE.Bytes, unmarshal.go:62-75 Value.UnmarshalJSON *)
Definition val_bytes (t : bytes) : go (jval + gerr) :=
  r <- parse_bytes t ;;
  match r with inr e => Ret (inr e) | inl r => get_value (S (List.length t)) r end.
(* jsonx/constructor.go:26-34 DCE.Bytes, unmarshal.go:12-37 Document.UnmarshalJSON of a new
   document: the elements are those getValueForResult makes of the object *)
Definition doc_bytes (t : bytes) : go (list jelem + gerr) :=
  r <- parse_bytes t ;;
  match r with
  | inr e => Ret (inr e)
  | inl (RJson (123 :: raw)) =>
      x <- get_value (S (List.length t)) (RJson (123 :: raw)) ;;
      Ret (match x with inl (JDoc es) => inl es | inl _ => inr (EOther 305) | inr e => inr e end)
  | inl _ => Ret (inr e_kind)
  end.
(* jsonx/constructor.go:56-63 ACE.Bytes, unmarshal.go:39-60 Array.UnmarshalJSON *)
Definition arr_bytes (t : bytes) : go (list jval + gerr) :=
  r <- parse_bytes t ;;
  match r with
  | inr e => Ret (inr e)
  | inl (RJson (91 :: raw)) =>
      x <- get_value (S (List.length t)) (RJson (91 :: raw)) ;;
      Ret (match x with inl (JArr vs) => inl vs | inl _ => inr (EOther 305) | inr e => inr e end)
  | inl _ => Ret (inr e_kind)
  end.
End Numbers.
