(* JSON texts and what they stand for, written down from RFC 8259 without reference to the
   model of the parser. *)
Require Import ZArith List Bool Lia ZifyBool ZifyNat.
From Verif Require Import Base DecProofs.
Import ListNotations.
Open Scope Z_scope.

(* RFC 8259, 2: insignificant whitespace *)
Definition ws_char (c : Z) : Prop := c = 32 \/ c = 9 \/ c = 10 \/ c = 13.
Definition ws (w : bytes) : Prop := Forall ws_char w.

(* 6: numbers: an optional minus, an integer without superfluous zeros, an optional
   fraction, an optional exponent *)
Definition digits1 (ds : bytes) : Prop := ds <> [] /\ Forall digit ds.
Definition int_part (ds : bytes) : Prop := digits1 ds /\ ((1 < length ds)%nat -> hd 0 ds <> 48).
Definition minus (m : bytes) : Prop := m = [] \/ m = [45].
Definition frac_part (f : bytes) : Prop := f = [] \/ exists ds, digits1 ds /\ f = 46 :: ds.
Definition exp_part (x : bytes) : Prop :=
  x = [] \/ exists e s ds, (e = 101 \/ e = 69) /\ (s = [] \/ s = [43] \/ s = [45]) /\ digits1 ds /\ x = e :: s ++ ds.
Definition number (t : bytes) : Prop :=
  exists m i f x, minus m /\ int_part i /\ frac_part f /\ exp_part x /\ t = m ++ i ++ f ++ x.

(* what this library takes for a number beyond that: after a minus the integer may be missing *)
Definition loose_number (t : bytes) : Prop :=
  number t \/ exists f x, frac_part f /\ exp_part x /\ t = 45 :: f ++ x.

(* 7: strings.  hex4 a b c d n: the four hexadecimal digits write n *)
Definition hex1 (c n : Z) : Prop :=
  (48 <= c <= 57 /\ n = c - 48) \/ (97 <= c <= 102 /\ n = c - 97 + 10) \/ (65 <= c <= 70 /\ n = c - 65 + 10).
Definition hex4 (a b c d n : Z) : Prop :=
  exists w x y z, hex1 a w /\ hex1 b x /\ hex1 c y /\ hex1 d z /\ n = ((w * 16 + x) * 16 + y) * 16 + z.
(* RFC 3629, 3: b is the UTF-8 sequence of the character number n *)
Definition tail8 (b : Z) : Prop := 128 <= b < 192.
Definition utf8 (n : Z) (b : bytes) : Prop :=
  match b with
  | [a] => 0 <= a < 128 /\ n = a
  | [a; b] => 192 <= a < 224 /\ tail8 b /\ n = (a - 192) * 64 + (b - 128) /\ 128 <= n
  | [a; b; c] => 224 <= a < 240 /\ tail8 b /\ tail8 c /\ n = ((a - 224) * 64 + (b - 128)) * 64 + (c - 128) /\ 2048 <= n /\ ~ (55296 <= n < 57344)
  | [a; b; c; d] => 240 <= a < 248 /\ tail8 b /\ tail8 c /\ tail8 d /\
      n = (((a - 240) * 64 + (b - 128)) * 64 + (c - 128)) * 64 + (d - 128) /\ 65536 <= n < 1114112
  | _ => False
  end.
(* the short escapes *)
Definition short (c s : Z) : Prop :=
  In (c, s) [(34, 34); (92, 92); (47, 47); (98, 8); (102, 12); (110, 10); (114, 13); (116, 9)].
(* the text between the quotes, and the bytes of the string it stands for; characters beyond
   the basic plane are escaped by a surrogate pair *)
Inductive body : bytes -> bytes -> Prop :=
| bo_nil : body [] []
| bo_plain c t s : 32 <= c < 256 -> c <> 34 -> c <> 92 -> body t s -> body (c :: t) (c :: s)
| bo_short c x t s : short c x -> body t s -> body (92 :: c :: t) (x :: s)
| bo_hex a b c d n u t s : hex4 a b c d n -> utf8 n u -> body t s ->
    body (92 :: 117 :: a :: b :: c :: d :: t) (u ++ s)
| bo_pair a b c d hi e f g h lo u t s : hex4 a b c d hi -> 55296 <= hi < 56320 -> hex4 e f g h lo ->
    56320 <= lo < 57344 -> utf8 (65536 + (hi - 55296) * 1024 + (lo - 56320)) u -> body t s ->
    body (92 :: 117 :: a :: b :: c :: d :: 92 :: 117 :: e :: f :: g :: h :: t) (u ++ s).
(* the same texts as a grammar only, which also has unpaired surrogates *)
Inductive gbody : bytes -> Prop :=
| gb_nil : gbody []
| gb_plain c t : 32 <= c -> c <> 34 -> c <> 92 -> gbody t -> gbody (c :: t)
| gb_short c x t : short c x -> gbody t -> gbody (92 :: c :: t)
| gb_hex a b c d n t : hex4 a b c d n -> gbody t -> gbody (92 :: 117 :: a :: b :: c :: d :: t).

(* what a text stands for; numbers are kept as they are written *)
Inductive jdata :=
| DNull
| DBool (b : bool)
| DNum (t : bytes)
| DStr (s : bytes)
| DArr (vs : list jdata)
| DObj (ms : list (bytes * jdata)).

(* 3, 4, 5: values, arrays and objects, for a given notion of numbers and of strings *)
Section Text.
Variable num : bytes -> Prop.
Variable str : bytes -> bytes -> Prop.
Inductive value_text : bytes -> jdata -> Prop :=
| vt_null : value_text [110; 117; 108; 108] DNull
| vt_true : value_text [116; 114; 117; 101] (DBool true)
| vt_false : value_text [102; 97; 108; 115; 101] (DBool false)
| vt_num t : num t -> value_text t (DNum t)
| vt_str t s : str t s -> value_text (34 :: t ++ [34]) (DStr s)
| vt_arr0 w : ws w -> value_text (91 :: w ++ [93]) (DArr [])
| vt_arr t vs : items t vs -> value_text (91 :: t ++ [93]) (DArr vs)
| vt_obj0 w : ws w -> value_text (123 :: w ++ [125]) (DObj [])
| vt_obj t ms : members t ms -> value_text (123 :: t ++ [125]) (DObj ms)
with items : bytes -> list jdata -> Prop :=
| it_one w1 t v w2 : ws w1 -> value_text t v -> ws w2 -> items (w1 ++ t ++ w2) [v]
| it_more w1 t v w2 r vs : ws w1 -> value_text t v -> ws w2 -> items r vs ->
    items (w1 ++ t ++ w2 ++ 44 :: r) (v :: vs)
with members : bytes -> list (bytes * jdata) -> Prop :=
| me_one w1 k s w2 w3 t v w4 : ws w1 -> str k s -> ws w2 -> ws w3 -> value_text t v -> ws w4 ->
    members (w1 ++ 34 :: k ++ 34 :: w2 ++ 58 :: w3 ++ t ++ w4) [(s, v)]
| me_more w1 k s w2 w3 t v w4 r ms : ws w1 -> str k s -> ws w2 -> ws w3 -> value_text t v -> ws w4 ->
    members r ms -> members (w1 ++ 34 :: k ++ 34 :: w2 ++ 58 :: w3 ++ t ++ w4 ++ 44 :: r) ((s, v) :: ms).
(* 2: a JSON text is a value with whitespace around it *)
Definition text (t : bytes) (v : jdata) : Prop :=
  exists w1 u w2, ws w1 /\ value_text u v /\ ws w2 /\ t = w1 ++ u ++ w2.
End Text.

Scheme value_text_mut := Minimality for value_text Sort Prop
  with items_mut := Minimality for items Sort Prop
  with members_mut := Minimality for members Sort Prop.
Combined Scheme json_mut from value_text_mut, items_mut, members_mut.

(* t is JSON and stands for v *)
Definition json (t : bytes) (v : jdata) : Prop := text number body t v.
(* t is JSON, whatever it stands for *)
Definition is_json (t : bytes) : Prop := exists v, text number (fun t _ => gbody t) t v.
