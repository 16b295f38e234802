(* Decimal128 values: model of types/decimal.go. *)
Require Import ZArith List Bool Lia ZifyBool ZifyNat.
From Verif Require Import Base BSpec Elements Value Api.
Import ListNotations.
Open Scope Z_scope.

(* The two halves of a uint64: x>>32 and x&(1<<32-1) *)
Definition hi32 (x : Z) : Z := x / 4294967296.
Definition lo32 (x : Z) : Z := x mod 4294967296.
(* x<<32 on uint64 *)
Definition sh32 (x : Z) : Z := u64 (x * 4294967296).

(* types/decimal.go:128-144 divmod; div is not 0 in any call *)
Definition divmod (h l div : Z) : Z * Z * Z :=
  let a := hi32 h in
  let aq := a / div in
  let ar := a mod div in
  let b := u64 (sh32 ar + lo32 h) in
  let bq := b / div in
  let br := b mod div in
  let c := u64 (sh32 br + hi32 l) in
  let cq := c / div in
  let cr := c mod div in
  let d := u64 (sh32 cr + lo32 l) in
  let dq := d / div in
  let dr := d mod div in
  (Z.lor (sh32 aq) bq, Z.lor (sh32 cq) dq, u32 dr).

(* types/decimal.go:320-333 muladd *)
Definition muladd (h l mul add : Z) : Z * Z * Z :=
  let a := u64 (mul * lo32 l) in
  let b := u64 (hi32 a + u64 (mul * hi32 l)) in
  let c := u64 (hi32 b + u64 (mul * lo32 h)) in
  let d := u64 (hi32 c + u64 (mul * hi32 h)) in
  let a := u64 (lo32 a + add) in
  let b := u64 (lo32 b + hi32 a) in
  let c := u64 (lo32 c + hi32 b) in
  let d := u64 (lo32 d + hi32 c) in
  (Z.lor (sh32 d) (lo32 c), Z.lor (sh32 b) (lo32 a), u32 (hi32 d)).

(* strconv.Itoa of an int of either sign *)
Definition itoa_signed (n : Z) : bytes := if n <? 0 then 45 :: itoa (- n) else itoa n.

(* ---- String, types/decimal.go:37-126.  The local variables inside the loop: repr is
   represented by repr[i:], the part already written. *)
Record dstate := MkD { ds_h : Z; ds_l : Z; ds_rem : Z; ds_i : Z; ds_last : Z; ds_dot : Z; ds_e : Z; ds_out : bytes }.

(* i--; repr[i] = c *)
Definition d_write (s : dstate) (c : Z) : go dstate :=
  if ds_i s <? 1 then Panic PIndex else
  Ret (MkD (ds_h s) (ds_l s) (ds_rem s) (ds_i s - 1) (ds_last s) (ds_dot s) (ds_e s) (c :: ds_out s)).

(* lines 85-115, one turn of the inner loop; true: break Loop *)
Definition d_turn (s : dstate) : go (bool * dstate) :=
  s1 <- (if (ds_i s <? 48) && ((ds_dot s =? ds_i s) ||
            ((ds_l s =? 0) && (ds_h s =? 0) && (0 <? ds_rem s) && (ds_rem s <? 10) &&
             ((ds_dot s <? ds_i s - 6) || (0 <? ds_e s))))
         then let e := ds_e s + (48 - ds_i s) in
              s' <- d_write s 46 ;;
              Ret (MkD (ds_h s') (ds_l s') (ds_rem s') (ds_i s') (ds_i s' - 1) 48 e (ds_out s'))
         else Ret s) ;;
  let c := 48 + u8 (ds_rem s1 mod 10) in
  let s2 := MkD (ds_h s1) (ds_l s1) (ds_rem s1 / 10) (ds_i s1) (ds_last s1) (ds_dot s1) (ds_e s1) (ds_out s1) in
  s3 <- d_write s2 c ;;
  let zero := (ds_l s3 =? 0) && (ds_h s3 =? 0) && (ds_rem s3 =? 0) in
  let at_i s := MkD (ds_h s) (ds_l s) (ds_rem s) (ds_i s) (ds_i s) (ds_dot s) (ds_e s) (ds_out s) in
  if zero && (ds_i s3 =? 47) && ((ds_dot s3 <? ds_i s3 - 5) || (0 <? ds_e s3)) then Ret (true, at_i s3) else
  let s4 := if c =? 48 then s3 else at_i s3 in
  if (ds_i s4 <? ds_dot s4) && zero then Ret (true, s4) else Ret (false, s4).
(* lines 84-116 *)
Fixpoint d_inner (n : nat) (s : dstate) : go (bool * dstate) :=
  match n with
  | O => Ret (false, s)
  | S k => '(brk, s') <- d_turn s ;; if brk : bool then Ret (true, s') else d_inner k s'
  end.
(* lines 82-117 *)
Fixpoint d_outer (n : nat) (s : dstate) : go dstate :=
  match n with
  | O => Ret s
  | S k =>
      let '(h, l, rem) := divmod (ds_h s) (ds_l s) 1000000000 in
      '(brk, s') <- d_inner 9 (MkD h l rem (ds_i s) (ds_last s) (ds_dot s) (ds_e s) (ds_out s)) ;;
      if brk : bool then Ret s' else d_outer k s'
  end.

Definition s_nan : bytes := [78; 97; 78].                                   (* NaN *)
Definition s_inf : bytes := [73; 110; 102; 105; 110; 105; 116; 121].        (* Infinity *)

(* lines 119-125 repr[last-1] = '-' and string(repr[last-1+pos:]) *)
Definition d_repr (s : dstate) (pos : bool) : go bytes :=
  if ds_last s <? 1 then Panic PIndex else
  if ds_last s <? ds_i s then Panic PIndex else   (* would show bytes never written *)
  let tail := skipn (Z.to_nat (ds_last s - ds_i s)) (ds_out s) in
  Ret (if pos then tail else 45 :: tail).

Definition dec_string (dh dl : Z) : go bytes :=
  let pos := dh / 9223372036854775808 mod 2 =? 0 in                  (* h>>63&1 == 0 *)
  let sign (s : bytes) := if pos then s else 45 :: s in
  let top := dh / 288230376151711744 mod 32 in                        (* h>>58&(1<<5-1) *)
  if top =? 31 then Ret s_nan else
  if top =? 30 then Ret (sign s_inf) else
  let special := dh / 2305843009213693952 mod 4 =? 3 in               (* h>>61&3 == 3 *)
  let e := (if special then dh / 140737488355328 mod 16384 else dh / 562949953421312 mod 16384) - 6176 in
  let h := if special then 0 else dh mod 562949953421312 in
  let l := if special then 0 else dl in
  if (h =? 0) && (l =? 0) && (e =? 0) then Ret (sign [48]) else
  s <- d_outer 5 (MkD h l 0 48 48 (48 + e) e []) ;;
  r <- d_repr s pos ;;
  Ret (if 0 <? ds_e s then r ++ [69; 43] ++ itoa_signed (ds_e s)
       else if ds_e s <? 0 then r ++ [69] ++ itoa_signed (ds_e s) else r).

(* ---- ParseDecimal128, types/decimal.go:157-318.  Every error is the one dErr makes. *)
Definition is_digit (c : Z) : bool := (48 <=? c) && (c <=? 57).
(* h&((1<<15-1)<<49) > 0 *)
Definition too_high (h : Z) : bool := 0 <? h / 562949953421312 mod 32768.

(* strings.EqualFold with an ASCII string in lower case: no other character folds to its letters *)
Definition lower (c : Z) : Z := if (65 <=? c) && (c <=? 90) then c + 32 else c.
Definition fold_eq (s t : bytes) : bool := bytes_eqb (map lower s) t.

Record pstate := MkP { ps_h : Z; ps_l : Z; ps_e : Z; ps_add : Z; ps_mul : Z; ps_dot : Z; ps_digits : Z; ps_i : Z }.

(* lines 197-253: the loop over the digits and the dot; r is s[i:], n = len(s).  The result
   is None for an error, else the state and s[i:]. *)
Fixpoint p_loop (n : Z) (r : bytes) (p : pstate) : option (pstate * bytes) :=
  match r with
  | [] => Some (p, [])
  | c :: r' =>
      let flush :=
        if ps_mul p =? 1000000000 then
          let '(h, l, ovr) := muladd (ps_h p) (ps_l p) (ps_mul p) (ps_add p) in
          if (0 <? ovr) || too_high h then None
          else Some (MkP h l (ps_e p) 0 1 (ps_dot p) (ps_digits p) (ps_i p))
        else Some p in
      match flush with
      | None => None
      | Some p =>
          let i := ps_i p + 1 in
          if is_digit c then
            let digits := if (48 <? c) || (0 <? ps_digits p) then ps_digits p + 1 else ps_digits p in
            if 34 <? digits then
              if c =? 48 then p_loop n r' (MkP (ps_h p) (ps_l p) (ps_e p + 1) (ps_add p) (ps_mul p) (ps_dot p) digits i)
              else None
            else p_loop n r' (MkP (ps_h p) (ps_l p) (ps_e p) (u32 (u32 (ps_add p * 10) + (c - 48))) (u32 (ps_mul p * 10)) (ps_dot p) digits i)
          else if c =? 46 then
            if (0 <=? ps_dot p) || ((i =? 1) && (n =? 1)) then None else
            match r' with
            | [] => Some (MkP (ps_h p) (ps_l p) (ps_e p) (ps_add p) (ps_mul p) (ps_dot p) (ps_digits p) i, [])
            | c2 :: _ =>
                if negb (is_digit c2) || (0 <? ps_e p) then None
                else p_loop n r' (MkP (ps_h p) (ps_l p) (ps_e p) (ps_add p) (ps_mul p) i (ps_digits p) i)
            end
          else Some (p, r)
      end
  end.

(* lines 281-291: the digits of the exponent, as long as n < 1e4 *)
Fixpoint p_exp (r : bytes) (n : Z) : option (Z * bytes) :=
  match r with
  | [] => Some (n, [])
  | c :: r' => if 10000 <=? n then Some (n, r) else if is_digit c then p_exp r' (n * 10 + (c - 48)) else None
  end.

(* lines 298-313: exponents too small; the inner loop finds the divisor, at most 10^9.
   fuel: one turn raises e by at least 1. *)
Fixpoint p_pow (k : nat) (div n : Z) : Z * Z :=   (* multiply by 10 while div < 1e9 and n > 0 *)
  match k with
  | O => (div, n)
  | S k' => if (div <? 1000000000) && (0 <? n) then p_pow k' (u32 (div * 10)) (n - 1) else (div, n)
  end.
Fixpoint p_subnormal (fuel : nat) (h l e : Z) : go (option (Z * Z * Z)) :=
  if e <? -6176 then
    match fuel with
    | O => Fuel
    | S k =>
        let '(div, more) := p_pow 10 1 (-6176 - e) in
        let '(h, l, rem) := divmod h l div in
        if 0 <? rem then Ret None else p_subnormal k h l (-6176 - more)
    end
  else Ret (Some (h, l, e)).
(* lines 315-328: exponents too large *)
Fixpoint p_clamp (fuel : nat) (h l e : Z) : go (option (Z * Z * Z)) :=
  if 6111 <? e then
    match fuel with
    | O => Fuel
    | S k =>
        let '(mul, more) := p_pow 10 1 (e - 6111) in
        let '(h, l, ovr) := muladd h l mul 0 in
        if (0 <? ovr) || too_high h then Ret None else p_clamp k h l (6111 + more)
    end
  else Ret (Some (h, l, e)).

Definition d_nan : Z * Z := (8935141660703064064, 0).        (* 0x1F<<58 *)
Definition d_inf (neg : bool) : Z * Z := (if neg then 17870283321406128128 else 8646911284551352320, 0).

(* lines 340-350 *)
Definition p_finish (neg : bool) (h l e : Z) : Z * Z :=
  let h := Z.lor h (u64 (u64 (e + 6176) mod 16384 * 562949953421312)) in
  (if neg then Z.lor h 9223372036854775808 else h, l).

(* lines 255-350, from the state the loop ends in *)
Definition p_rest (neg : bool) (p : pstate) (r : bytes) : go (option (Z * Z)) :=
  if ps_i p =? 0 then Ret None else
  let '(h, l, ovr) := if 1 <? ps_mul p then muladd (ps_h p) (ps_l p) (ps_mul p) (ps_add p) else (ps_h p, ps_l p, 0) in
  if (1 <? ps_mul p) && ((0 <? ovr) || too_high h) then Ret None else
  let e := if 0 <=? ps_dot p then ps_e p + (ps_dot p - ps_i p) else ps_e p in
  match r with
  | c :: c2 :: r2 =>
      if (c =? 69) || (c =? 101) then
        let eneg := c2 =? 45 in
        let signed := eneg || (c2 =? 43) in
        let r3 := if signed then r2 else c2 :: r2 in
        if signed && (match r3 with [] => true | _ => false end) then Ret None else
        match p_exp r3 0 with
        | None => Ret None
        | Some (n, r4) =>
            let e := e + (if eneg then - n else n) in
            x <- p_subnormal (Z.to_nat (-6176 - e)) h l e ;;
            match x with
            | None => Ret None
            | Some (h, l, e) =>
                y <- p_clamp (Z.to_nat (e - 6111)) h l e ;;
                match y with
                | None => Ret None
                | Some (h, l, e) =>
                    if (e <? -6176) || (6111 <? e) then Ret None else
                    match r4 with [] => Ret (Some (p_finish neg h l e)) | _ => Ret None end
                end
            end
        end
      else Ret None
  | [_] => Ret None
  | [] => Ret (Some (p_finish neg h l e))
  end.

Definition dec_parse (s : bytes) : go (option (Z * Z)) :=
  match s with
  | [] => Ret None
  | c0 :: s0 =>
      let neg := c0 =? 45 in
      let s := if neg || (c0 =? 43) then s0 else s in
      let c := hd 0 s in
      if ((zlen s =? 3) || (zlen s =? 8)) && ((c =? 78) || (c =? 110) || (c =? 73) || (c =? 105)) then
        if fold_eq s [110; 97; 110] then Ret (Some d_nan) else
        if fold_eq s [105; 110; 102] || fold_eq s [105; 110; 102; 105; 110; 105; 116; 121] then Ret (Some (d_inf neg))
        else Ret None
      else
        match p_loop (zlen s) s (MkP 0 0 0 0 1 (-1) 0 0) with
        | None => Ret None
        | Some (p, r) => p_rest neg p r
        end
  end.
