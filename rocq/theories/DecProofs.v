(* Proofs about Decimal128: the 128-bit arithmetic, printing and parsing. *)
Require Import ZArith List Bool Lia ZifyBool ZifyNat.
From Verif Require Import Base BSpec Elements Value Api Dec128.
Import ListNotations.
Open Scope Z_scope.

(* ---------------------------------------------------------------- arithmetic *)

Definition val128 (h l : Z) : Z := h * 18446744073709551616 + l.

Lemma lor_add x y n : 0 <= n -> 0 <= y < 2 ^ n -> Z.lor (x * 2 ^ n) y = x * 2 ^ n + y.
Proof.
  intros Hn H. assert (E : Z.land (x * 2 ^ n) y = 0).
  { apply Z.bits_inj'. intros m Hm. rewrite Z.land_spec, Z.bits_0. destruct (Z.ltb_spec m n).
    - rewrite Z.mul_pow2_bits_low by lia. reflexivity.
    - assert (Z.testbit y m = false) as ->; [|apply andb_false_r].
      destruct (Z.eq_dec y 0) as [->|]; [apply Z.bits_0|]. apply Z.bits_above_log2; [lia|].
      assert (Z.log2 y < n) by (apply Z.log2_lt_pow2; lia). lia. }
  rewrite (Z.add_nocarry_lxor _ _ E). symmetry. now apply Z.lxor_lor.
Qed.
Lemma lor_sh x y : 0 <= x < 4294967296 -> 0 <= y < 4294967296 -> Z.lor (sh32 x) y = x * 4294967296 + y.
Proof.
  intros Hx Hy. unfold sh32, u64. rewrite Z.mod_small by lia. change 4294967296 with (2 ^ 32) in *.
  apply lor_add; lia.
Qed.

Lemma divmod_spec h l div : is_u64 h -> is_u64 l -> 0 < div < 4294967296 ->
  let '(qh, ql, r) := divmod h l div in
  is_u64 qh /\ is_u64 ql /\ val128 qh ql = val128 h l / div /\ r = val128 h l mod div.
Proof.
  intros Hh Hl Hd. unfold is_u64 in *. unfold divmod.
  set (h1 := hi32 h). set (h0 := lo32 h). set (l1 := hi32 l). set (l0 := lo32 l).
  assert (R : 0 <= h1 < 4294967296 /\ 0 <= h0 < 4294967296 /\ 0 <= l1 < 4294967296 /\ 0 <= l0 < 4294967296)
    by (unfold h1, h0, l1, l0, hi32, lo32; lia).
  assert (Eh : h = h1 * 4294967296 + h0) by (unfold h1, h0, hi32, lo32; lia).
  assert (El : l = l1 * 4294967296 + l0) by (unfold l1, l0, hi32, lo32; lia).
  clearbody h1 h0 l1 l0. destruct R as (R1 & R2 & R3 & R4).
  assert (St : forall x y, 0 <= x < div -> 0 <= y < 4294967296 ->
    u64 (sh32 x + y) = x * 4294967296 + y /\ 0 <= (x * 4294967296 + y) / div < 4294967296).
  { intros x y Hx Hy. unfold sh32, u64. rewrite !(Z.mod_small (x * 4294967296)) by lia.
    rewrite Z.mod_small by lia. split; [reflexivity|]. split; [apply Z.div_pos; lia|].
    apply Z.div_lt_upper_bound; nia. }
  pose proof (Z.mod_pos_bound h1 div ltac:(lia)) as M1.
  pose proof (Z.div_mod h1 div ltac:(lia)) as D1. pose proof (Z.div_pos h1 div ltac:(lia) ltac:(lia)) as P1.
  assert (Q1 : h1 / div < 4294967296) by (apply Z.div_lt_upper_bound; nia).
  set (aq := h1 / div) in *. set (ar := h1 mod div) in *. clearbody aq ar.
  destruct (St ar h0 M1 R2) as [E2 Q2]. rewrite E2.
  set (b := ar * 4294967296 + h0) in *. pose proof (Z.mod_pos_bound b div ltac:(lia)) as M2.
  pose proof (Z.div_mod b div ltac:(lia)) as D2. set (bq := b / div) in *. set (br := b mod div) in *. clearbody bq br.
  destruct (St br l1 M2 R3) as [E3 Q3]. rewrite E3.
  set (c := br * 4294967296 + l1) in *. pose proof (Z.mod_pos_bound c div ltac:(lia)) as M3.
  pose proof (Z.div_mod c div ltac:(lia)) as D3. set (cq := c / div) in *. set (cr := c mod div) in *. clearbody cq cr.
  destruct (St cr l0 M3 R4) as [E4 Q4]. rewrite E4.
  set (d := cr * 4294967296 + l0) in *. pose proof (Z.mod_pos_bound d div ltac:(lia)) as M4.
  pose proof (Z.div_mod d div ltac:(lia)) as D4. set (dq := d / div) in *. set (dr := d mod div) in *. clearbody dq dr.
  rewrite !lor_sh by lia. unfold u32. rewrite (Z.mod_small dr) by lia.
  assert (V : val128 h l = div * val128 (aq * 4294967296 + bq) (cq * 4294967296 + dq) + dr).
  { unfold val128. subst h l. subst b c d. clear St E2 E3 E4.
    assert (A1 : ar = h1 - div * aq) by lia. subst ar.
    assert (A2 : br = (h1 - div * aq) * 4294967296 + h0 - div * bq) by lia. subst br.
    assert (A3 : cr = ((h1 - div * aq) * 4294967296 + h0 - div * bq) * 4294967296 + l1 - div * cq) by lia. subst cr.
    assert (A4 : dr = (((h1 - div * aq) * 4294967296 + h0 - div * bq) * 4294967296 + l1 - div * cq) * 4294967296 + l0 - div * dq) by lia.
    rewrite A4. ring. }
  split; [lia|]. split; [lia|]. split.
  - apply (Z.div_unique_pos _ _ _ dr); lia.
  - apply (Z.mod_unique_pos _ _ (val128 (aq * 4294967296 + bq) (cq * 4294967296 + dq))); lia.
Qed.

Lemma muladd_spec h l mul add : is_u64 h -> is_u64 l -> is_u32 mul -> is_u32 add ->
  let '(rh, rl, o) := muladd h l mul add in
  is_u64 rh /\ is_u64 rl /\ val128 rh rl = (val128 h l * mul + add) mod 340282366920938463463374607431768211456 /\
  0 <= o /\ (0 < o -> 340282366920938463463374607431768211456 <= val128 h l * mul + add).
Proof.
  intros Hh Hl Hm Ha. unfold is_u64, is_u32 in *. unfold muladd.
  set (h1 := hi32 h). set (h0 := lo32 h). set (l1 := hi32 l). set (l0 := lo32 l).
  assert (R : 0 <= h1 < 4294967296 /\ 0 <= h0 < 4294967296 /\ 0 <= l1 < 4294967296 /\ 0 <= l0 < 4294967296)
    by (unfold h1, h0, l1, l0, hi32, lo32; lia).
  assert (V : val128 h l * mul + add = mul * h1 * 79228162514264337593543950336 + mul * h0 * 18446744073709551616 + mul * l1 * 4294967296 + mul * l0 + add).
  { unfold val128. assert (Eh : h = h1 * 4294967296 + h0) by (unfold h1, h0, hi32, lo32; lia).
    assert (El : l = l1 * 4294967296 + l0) by (unfold l1, l0, hi32, lo32; lia). rewrite Eh, El. ring. }
  rewrite V. clear V. clearbody h1 h0 l1 l0. destruct R as (R1 & R2 & R3 & R4).
  assert (B : forall x, 0 <= x < 4294967296 -> 0 <= mul * x <= 18446744065119617025) by (intros; nia).
  pose proof (B h1 R1) as B1. pose proof (B h0 R2) as B2. pose proof (B l1 R3) as B3. pose proof (B l0 R4) as B4.
  set (p1 := mul * h1) in *. set (p2 := mul * h0) in *. set (p3 := mul * l1) in *. set (p4 := mul * l0) in *.
  clearbody p1 p2 p3 p4. clear B R1 R2 R3 R4 Hh Hl Hm.
  assert (Sp : forall x, 0 <= x < 18446744073709551616 -> exists q r, hi32 x = q /\ lo32 x = r /\ x = q * 4294967296 + r /\
    0 <= q < 4294967296 /\ 0 <= r < 4294967296).
  { intros x Hx. exists (hi32 x), (lo32 x). unfold hi32, lo32. lia. }
  assert (I : forall x, 0 <= x < 18446744073709551616 -> u64 x = x) by (intros; apply u64_id; auto).
  rewrite (I p1), (I p2), (I p3), (I p4) by lia.
  destruct (Sp p4 ltac:(lia)) as (a1 & a0 & -> & -> & Ea & A1 & A0). rewrite (I (a1 + p3)) by lia.
  destruct (Sp (a1 + p3) ltac:(lia)) as (b1 & b0 & -> & -> & Eb & Hb1 & Hb0). rewrite (I (b1 + p2)) by lia.
  destruct (Sp (b1 + p2) ltac:(lia)) as (c1 & c0 & -> & -> & Ec & C1 & C0). rewrite (I (c1 + p1)) by lia.
  destruct (Sp (c1 + p1) ltac:(lia)) as (d1 & d0 & _ & -> & Ed & D1 & D0).
  rewrite (I (a0 + add)) by lia.
  destruct (Sp (a0 + add) ltac:(lia)) as (x1 & x0 & -> & -> & Ex & X1 & X0). rewrite (I (b0 + x1)) by lia.
  unfold sh32 at 2.
  destruct (Sp (b0 + x1) ltac:(lia)) as (y1 & y0 & -> & Ey0 & Ey & Y1 & Y0). rewrite (I (c0 + y1)) by lia.
  destruct (Sp (c0 + y1) ltac:(lia)) as (z1 & z0 & -> & -> & Ez & Z1 & Z0). rewrite (I (d0 + z1)) by lia.
  destruct (Sp (d0 + z1) ltac:(lia)) as (w1 & w0 & -> & Ew0 & Ew & W1 & W0).
  assert (Sh : forall x q r y, x = q * 4294967296 + r -> 0 <= r < 4294967296 -> 0 <= y < 4294967296 ->
    Z.lor (u64 (x * 4294967296)) y = r * 4294967296 + y).
  { intros x q r y -> Hr Hy. rewrite <- (lor_sh r y) by auto. unfold sh32, u64. f_equal. lia. }
  unfold sh32. rewrite (Sh _ _ _ x0 Ey), (Sh _ _ _ z0 Ew) by auto.
  unfold u32. rewrite (Z.mod_small w1) by lia.
  assert (V : p1 * 79228162514264337593543950336 + p2 * 18446744073709551616 + p3 * 4294967296 + p4 + add =
    (d1 + w1) * 340282366920938463463374607431768211456 + val128 (w0 * 4294967296 + z0) (y0 * 4294967296 + x0)).
  { unfold val128. clear - Ea Eb Ec Ed Ex Ey Ez Ew. lia. }
  rewrite V. split; [lia|]. split; [lia|]. split; [|split; [lia|intros; unfold val128; lia]].
  apply (Z.mod_unique_pos _ _ (d1 + w1)); [unfold val128; lia|lia].
Qed.
Lemma muladd_exact h l mul add : is_u64 h -> is_u64 l -> is_u32 mul -> is_u32 add ->
  val128 h l * mul + add < 340282366920938463463374607431768211456 ->
  exists rh rl, muladd h l mul add = (rh, rl, 0) /\ is_u64 rh /\ is_u64 rl /\ val128 rh rl = val128 h l * mul + add.
Proof.
  intros Hh Hl Hm Ha L. pose proof (muladd_spec h l mul add Hh Hl Hm Ha) as H.
  destruct (muladd h l mul add) as [[rh rl] o]. destruct H as (H1 & H2 & H3 & H4 & H5).
  exists rh, rl. assert (o = 0) as -> by lia. split; [reflexivity|]. split; [auto|]. split; [auto|].
  rewrite H3. apply Z.mod_small. unfold val128, is_u64, is_u32 in *. nia.
Qed.

(* ------------------------------------------------------------- specification *)

Definition digit (c : Z) : Prop := 48 <= c <= 57.
(* the number a string of digits stands for *)
Definition value (ds : bytes) : Z := fold_left (fun v c => v * 10 + (c - 48)) ds 0.
(* ds is the decimal numeral of n, without superfluous zeros *)
Definition numeral (ds : bytes) (n : Z) : Prop :=
  ds <> [] /\ Forall digit ds /\ value ds = n /\ ((1 < length ds)%nat -> hd 0 ds <> 48).

(* The text of ds * 10^e, as to-scientific-string of the General Decimal Arithmetic
   specification: with an exponent when e > 0 or the first digit is worth less than 10^-6. *)
Definition sci (ds : bytes) (e : Z) : bool := (0 <? e) || (e + zlen ds - 1 <? -6).
Definition mantissa (ds : bytes) (e : Z) : bytes :=
  if sci ds e then
    match ds with d :: d2 :: r => d :: 46 :: d2 :: r | _ => ds end
  else if e =? 0 then ds
  else if - e <? zlen ds then
    firstn (Z.to_nat (zlen ds + e)) ds ++ [46] ++ skipn (Z.to_nat (zlen ds + e)) ds
  else [48; 46] ++ repeat 48 (Z.to_nat (- e - zlen ds)) ++ ds.
Definition exponent_text (x : Z) (t : bytes) : Prop :=
  exists xs, numeral xs (Z.abs x) /\ t = 69 :: (if x <? 0 then 45 else 43) :: xs.
Definition dec_text (neg : bool) (ds : bytes) (e : Z) (t : bytes) : Prop :=
  exists x, t = (if neg then [45] else []) ++ mantissa ds e ++ x /\
    if sci ds e then exponent_text (e + zlen ds - 1) x else x = [].

(* ------------------------------------------------------------------ numerals *)

Lemma fold_value ds : forall v, fold_left (fun v c => v * 10 + (c - 48)) ds v = v * 10 ^ zlen ds + value ds.
Proof.
  unfold value. induction ds as [|c ds IH]; intros v; cbn [fold_left].
  - change (zlen []) with 0. rewrite Z.pow_0_r. lia.
  - rewrite IH. rewrite (IH (0 * 10 + (c - 48))). unfold zlen. cbn [length]. rewrite Nat2Z.inj_succ, Z.pow_succ_r by lia. ring.
Qed.
Lemma value_app a b : value (a ++ b) = value a * 10 ^ zlen b + value b.
Proof. unfold value at 1. rewrite fold_left_app. apply fold_value. Qed.
Lemma value_snoc a c : value (a ++ [c]) = value a * 10 + (c - 48).
Proof. rewrite value_app. change (10 ^ zlen [c]) with 10. unfold value at 2. cbn [fold_left]. lia. Qed.
Lemma value_nonneg ds : Forall digit ds -> 0 <= value ds.
Proof.
  induction ds as [|c ds IH] using rev_ind; intros F; [cbn; lia|]. rewrite value_snoc.
  apply Forall_app in F as [F1 F2]. inversion F2; subst. unfold digit in *. specialize (IH F1). lia.
Qed.
Lemma pow10_pos n : 0 <= n -> 0 < 10 ^ n.
Proof. intros. apply Z.pow_pos_nonneg; lia. Qed.
Lemma value_bound ds : Forall digit ds -> value ds < 10 ^ zlen ds.
Proof.
  induction ds as [|c ds IH] using rev_ind; intros F; [reflexivity|]. rewrite value_snoc.
  apply Forall_app in F as [F1 F2]. inversion F2; subst. specialize (IH F1). unfold digit in *.
  unfold zlen in *. rewrite app_length. cbn [length]. replace (Z.of_nat (length ds + 1)) with (Z.succ (Z.of_nat (length ds))) by lia.
  rewrite Z.pow_succ_r by lia. lia.
Qed.
Lemma value_pos d ds : 48 < d -> Forall digit ds -> 10 ^ zlen ds <= value (d :: ds).
Proof.
  intros Hd F. change (d :: ds) with ([d] ++ ds). rewrite value_app. unfold value at 1. cbn [fold_left].
  pose proof (value_nonneg ds F). pose proof (pow10_pos (zlen ds) ltac:(unfold zlen; lia)). nia.
Qed.

Lemma itoa_loop_numeral k : forall n acc, 0 <= n < Z.of_nat k ->
  exists ds, itoa_loop k n acc = ds ++ acc /\ numeral ds n.
Proof.
  induction k as [|k IH]; intros n acc H; [lia|]. cbn [itoa_loop]. destruct (Z.ltb_spec n 10).
  - exists [48 + n mod 10]. split; [reflexivity|]. split; [discriminate|]. split; [repeat constructor; lia|].
    split; [unfold value; cbn [fold_left]; lia|cbn; lia].
  - destruct (IH (n / 10) (48 + n mod 10 :: acc)) as (ds & E & N1 & N2 & N3 & N4); [lia|].
    exists (ds ++ [48 + n mod 10]). split; [rewrite E, <- app_assoc; reflexivity|]. split; [now destruct ds|].
    split; [apply Forall_app; split; [auto|repeat constructor; unfold digit; lia]|].
    split; [rewrite value_snoc; lia|]. intros _. destruct ds as [|d ds]; [congruence|]. cbn [hd app].
    destruct ds as [|d2 ds]; [|apply N4; cbn; lia]. unfold value in N3. cbn [fold_left] in N3. lia.
Qed.
Lemma itoa_numeral n : 0 <= n -> numeral (itoa n) n.
Proof.
  intros H. unfold itoa. destruct (itoa_loop_numeral (S (Z.to_nat n)) n [] ltac:(lia)) as (ds & -> & N).
  now rewrite app_nil_r.
Qed.
Lemma numeral_length ds n m : numeral ds n -> 0 < m -> n < 10 ^ m -> zlen ds <= m.
Proof.
  intros (N1 & N2 & N3 & N4) Hm L. destruct ds as [|d ds]; [congruence|]. inversion N2 as [|? ? D1 D2]; subst.
  unfold zlen in *. cbn [length] in *. destruct ds as [|d2 ds]; [cbn; lia|].
  pose proof (value_pos d (d2 :: ds)) as P. unfold zlen in P. cbn [length hd] in *.
  specialize (P ltac:(unfold digit in *; specialize (N4 ltac:(lia)); lia) D2).
  assert (10 ^ Z.of_nat (S (length ds)) < 10 ^ m) by lia. apply Z.pow_lt_mono_r_iff in H; lia.
Qed.

(* ------------------------------------------- the loop on the whole coefficient *)

Record astate := MkA { a_r : Z; a_i : Z; a_last : Z; a_dot : Z; a_e : Z; a_out : bytes }.
Definition a_write (a : astate) (c : Z) : go astate :=
  if a_i a <? 1 then Panic PIndex else
  Ret (MkA (a_r a) (a_i a - 1) (a_last a) (a_dot a) (a_e a) (c :: a_out a)).
Definition a_turn (a : astate) : go (bool * astate) :=
  a1 <- (if (a_i a <? 48) && ((a_dot a =? a_i a) ||
            ((0 <? a_r a) && (a_r a <? 10) && ((a_dot a <? a_i a - 6) || (0 <? a_e a))))
         then let e := a_e a + (48 - a_i a) in
              a' <- a_write a 46 ;; Ret (MkA (a_r a') (a_i a') (a_i a' - 1) 48 e (a_out a'))
         else Ret a) ;;
  let c := 48 + a_r a1 mod 10 in
  a3 <- a_write (MkA (a_r a1 / 10) (a_i a1) (a_last a1) (a_dot a1) (a_e a1) (a_out a1)) c ;;
  let zero := a_r a3 =? 0 in
  let at_i a := MkA (a_r a) (a_i a) (a_i a) (a_dot a) (a_e a) (a_out a) in
  if zero && (a_i a3 =? 47) && ((a_dot a3 <? a_i a3 - 5) || (0 <? a_e a3)) then Ret (true, at_i a3) else
  let a4 := if c =? 48 then a3 else at_i a3 in
  if (a_i a4 <? a_dot a4) && zero then Ret (true, a4) else Ret (false, a4).
Fixpoint a_run (n : nat) (a : astate) : go (bool * astate) :=
  match n with
  | O => Ret (false, a)
  | S k => '(brk, a') <- a_turn a ;; if brk : bool then Ret (true, a') else a_run k a'
  end.

Lemma a_run_add m : forall n a, a_run (m + n) a =
  ('(brk, a') <- a_run m a ;; if brk : bool then Ret (true, a') else a_run n a').
Proof.
  induction m as [|m IH]; intros n a; cbn [a_run Nat.add bind]; [reflexivity|].
  destruct (a_turn a) as [[[|] a']| |]; cbn [bind]; auto.
Qed.

(* s is in the middle of a chunk of 9 digits of which j are left *)
Definition sim (j : Z) (s : dstate) (a : astate) : Prop :=
  is_u64 (ds_h s) /\ is_u64 (ds_l s) /\ 0 <= ds_rem s < 10 ^ j /\
  a_r a = val128 (ds_h s) (ds_l s) * 10 ^ j + ds_rem s /\
  a_i a = ds_i s /\ a_last a = ds_last s /\ a_dot a = ds_dot s /\ a_e a = ds_e s /\ a_out a = ds_out s.
Definition sim_res (P : dstate -> astate -> Prop) (x : go (bool * dstate)) (y : go (bool * astate)) : Prop :=
  match x, y with
  | Ret (b, s), Ret (b', a) => b = b' /\ P s a
  | Panic p, Panic q => p = q
  | _, _ => False
  end.

Lemma turn_sim j s a : 1 <= j -> sim j s a -> sim_res (sim (j - 1)) (d_turn s) (a_turn a).
Proof.
  intros Hj (Hh & Hl & Hr & R & Ei & El & Ed & Ee & Eo). destruct s as [h l rem i last dot e out].
  destruct a as [r i' last' dot' e' out']. cbn [ds_h ds_l ds_rem ds_i ds_last ds_dot ds_e ds_out a_r a_i a_last a_dot a_e a_out] in *.
  subst i' last' dot' e' out'.
  assert (P10 : 10 ^ j = 10 * 10 ^ (j - 1)) by (rewrite <- Z.pow_succ_r by lia; f_equal; lia).
  pose proof (pow10_pos (j - 1) ltac:(lia)) as Pp.
  assert (C1 : ((l =? 0) && (h =? 0) && (0 <? rem) && (rem <? 10)) = ((0 <? r) && (r <? 10))).
  { destruct ((l =? 0) && (h =? 0)) eqn:Z.
    - assert (l = 0 /\ h = 0) as [-> ->] by lia. unfold val128 in R. rewrite R. now rewrite Z.mul_0_l, Z.add_0_l.
    - assert (1 <= val128 h l) by (unfold val128, is_u64 in *; lia). symmetry. cbn [andb]. nia. }
  assert (M : r mod 10 = rem mod 10 /\ r / 10 = val128 h l * 10 ^ (j - 1) + rem / 10).
  { rewrite R, P10. replace (val128 h l * (10 * 10 ^ (j - 1)) + rem) with (rem + val128 h l * 10 ^ (j - 1) * 10) by ring.
    rewrite Z_mod_plus_full, Z_div_plus_full by lia. lia. }
  destruct M as [M1 M2].
  assert (C2 : ((l =? 0) && (h =? 0) && (rem / 10 =? 0)) = (r / 10 =? 0)).
  { rewrite M2. assert (0 <= rem / 10) by lia. destruct ((l =? 0) && (h =? 0)) eqn:Z.
    - assert (l = 0 /\ h = 0) as [-> ->] by lia. change (val128 0 0) with 0. rewrite Z.mul_0_l, Z.add_0_l. reflexivity.
    - assert (1 <= val128 h l) by (unfold val128, is_u64 in *; lia). symmetry. cbn [andb]. nia. }
  assert (U : u8 (rem mod 10) = rem mod 10) by (unfold u8; lia).
  unfold d_turn, a_turn. cbn [ds_h ds_l ds_rem ds_i ds_last ds_dot ds_e ds_out a_r a_i a_last a_dot a_e a_out].
  rewrite C1.
  assert (Sm : forall i last dot e out, sim (j - 1) (MkD h l (rem / 10) i last dot e out) (MkA (r / 10) i last dot e out)).
  { intros. repeat split; cbn; auto; try apply Hh; try apply Hl; try lia. }
  destruct ((i <? 48) && _).
  - unfold d_write at 1, a_write at 1. cbn [ds_i a_i]. destruct (i <? 1) eqn:E1; [reflexivity|]. cbn [bind].
    cbn [ds_h ds_l ds_rem ds_i ds_last ds_dot ds_e ds_out a_r a_i a_last a_dot a_e a_out].
    unfold d_write, a_write. cbn [ds_i a_i]. destruct (i - 1 <? 1) eqn:E2; [reflexivity|]. cbn [bind].
    cbn [ds_h ds_l ds_rem ds_i ds_last ds_dot ds_e ds_out a_r a_i a_last a_dot a_e a_out].
    rewrite C2, U, M1. clear C1 C2. destruct (_ && _ && _); [split; [reflexivity|apply Sm]|].
    destruct (48 + rem mod 10 =? 48); cbn [ds_h ds_l ds_rem ds_i ds_last ds_dot ds_e ds_out a_r a_i a_last a_dot a_e a_out];
      destruct (_ && _); (split; [reflexivity|apply Sm]).
  - cbn [bind]. cbn [ds_h ds_l ds_rem ds_i ds_last ds_dot ds_e ds_out a_r a_i a_last a_dot a_e a_out].
    unfold d_write, a_write. cbn [ds_i a_i]. destruct (i <? 1) eqn:E2; [reflexivity|]. cbn [bind].
    cbn [ds_h ds_l ds_rem ds_i ds_last ds_dot ds_e ds_out a_r a_i a_last a_dot a_e a_out].
    rewrite C2, U, M1. clear C1 C2. destruct (_ && _ && _); [split; [reflexivity|apply Sm]|].
    destruct (48 + rem mod 10 =? 48); cbn [ds_h ds_l ds_rem ds_i ds_last ds_dot ds_e ds_out a_r a_i a_last a_dot a_e a_out];
      destruct (_ && _); (split; [reflexivity|apply Sm]).
Qed.
(* after a break the position in the chunk is forgotten *)
Definition shows_same (s : dstate) (a : astate) : Prop :=
  a_i a = ds_i s /\ a_last a = ds_last s /\ a_e a = ds_e s /\ a_out a = ds_out s.
Lemma sim_same j s a : sim j s a -> shows_same s a.
Proof. intros (_ & _ & _ & _ & ? & ? & ? & ? & ?). repeat split; auto. Qed.
Lemma inner_sim n : forall s a, sim (Z.of_nat n) s a ->
  match d_inner n s, a_run n a with
  | Ret (true, s'), Ret (true, a') => shows_same s' a'
  | Ret (false, s'), Ret (false, a') => sim 0 s' a'
  | Panic p, Panic q => p = q
  | _, _ => False
  end.
Proof.
  induction n as [|n IH]; intros s a S; cbn [d_inner a_run]; [exact S|].
  pose proof (turn_sim (Z.of_nat (Datatypes.S n)) s a ltac:(lia) S) as T. unfold sim_res in T.
  destruct (d_turn s) as [[b s']| |], (a_turn a) as [[b' a']| |]; try contradiction; cbn [bind]; auto.
  destruct T as [-> T]. destruct b'; [eapply sim_same; eauto|]. apply IH. now replace (Z.of_nat n) with (Z.of_nat (Datatypes.S n) - 1) by lia.
Qed.
Lemma outer_sim n : forall s a, sim 0 s a ->
  match d_outer n s, a_run (9 * n) a with
  | Ret s', Ret (_, a') => shows_same s' a'
  | Panic p, Panic q => p = q
  | _, _ => False
  end.
Proof.
  induction n as [|n IH]; intros s a S; cbn [d_outer]; [cbn; eapply sim_same; eauto|].
  destruct S as (Hh & Hl & Hr & R & E). change (10 ^ 0) with 1 in *. assert (ds_rem s = 0) by lia.
  pose proof (divmod_spec (ds_h s) (ds_l s) 1000000000 Hh Hl ltac:(lia)) as D.
  destruct (divmod (ds_h s) (ds_l s) 1000000000) as [[h l] rem]. destruct D as (D1 & D2 & D3 & D4).
  pose proof (inner_sim 9 (MkD h l rem (ds_i s) (ds_last s) (ds_dot s) (ds_e s) (ds_out s)) a) as I.
  change (10 ^ Z.of_nat 9) with 1000000000 in I.
  assert (Sm : sim (Z.of_nat 9) (MkD h l rem (ds_i s) (ds_last s) (ds_dot s) (ds_e s) (ds_out s)) a).
  { split; [exact D1|]. split; [exact D2|]. cbn [ds_h ds_l ds_rem ds_i ds_last ds_dot ds_e ds_out].
    change (10 ^ Z.of_nat 9) with 1000000000. split; [lia|]. split; [rewrite R, D3, D4; lia|]. exact E. }
  specialize (I Sm). replace (9 * Datatypes.S n)%nat with (9 + 9 * n)%nat by lia. rewrite a_run_add.
  destruct (d_inner 9 _) as [[[|] s']| |], (a_run 9 a) as [[[|] a']| |]; try contradiction; cbn [bind]; first [exact I|exact (IH s' a' I)].
Qed.

(* ------------------------------------------------------------------ printing *)

Ltac ac := cbn [a_r a_i a_last a_dot a_e a_out bind].
Lemma a_turn_plain r i last dot e out : 1 <= i ->
  ((i <? 48) && ((dot =? i) || ((0 <? r) && (r <? 10) && ((dot <? i - 6) || (0 <? e))))) = false ->
  a_turn (MkA r i last dot e out) =
    (let zero := r / 10 =? 0 in
     let c := 48 + r mod 10 in
     if zero && (i =? 48) && ((dot <? i - 6) || (0 <? e)) then Ret (true, MkA (r / 10) (i - 1) (i - 1) dot e (c :: out))
     else Ret ((i <=? dot) && zero, MkA (r / 10) (i - 1) (if c =? 48 then last else i - 1) dot e (c :: out))).
Proof.
  intros Hi H. unfold a_turn. ac. rewrite H. ac. unfold a_write. ac. replace (i <? 1) with false by lia. ac.
  replace (i - 1 =? 47) with (i =? 48) by lia. replace (dot <? i - 1 - 5) with (dot <? i - 6) by lia.
  clear H. destruct (_ && _ && _); [reflexivity|].
  destruct (48 + r mod 10 =? 48); ac; replace (i - 1 <? dot) with (i <=? dot) by lia; destruct (_ && _); reflexivity.
Qed.
Lemma a_turn_dot r i last dot e out : 2 <= i < 48 ->
  (dot = i \/ (0 < r < 10 /\ (dot < i - 6 \/ 0 < e))) ->
  a_turn (MkA r i last dot e out) =
    Ret (r / 10 =? 0, MkA (r / 10) (i - 2) (i - 2) 48 (e + (48 - i)) (48 + r mod 10 :: 46 :: out)).
Proof.
  intros Hi H. unfold a_turn. ac.
  replace ((i <? 48) && ((dot =? i) || ((0 <? r) && (r <? 10) && ((dot <? i - 6) || (0 <? e))))) with true.
  2: { symmetry. destruct H as [->|[H1 H2]]; [rewrite Z.eqb_refl; lia|]. rewrite (proj2 (Z.ltb_lt i 48)) by lia.
       cbn [andb]. apply orb_true_iff. right. lia. }
  unfold a_write at 1. ac. replace (i <? 1) with false by lia. ac. unfold a_write. ac.
  replace (i - 1 <? 1) with false by lia. ac. replace (i - 1 - 1 =? 47) with false by lia. rewrite andb_false_r. cbn [andb].
  replace (i - 1 - 1) with (i - 2) by lia.
  destruct (48 + r mod 10 =? 48); ac; replace (i - 2 <? 48) with true by lia; cbn [andb]; destruct (r / 10 =? 0); reflexivity.
Qed.

(* digits that are not the first one, with no dot among them *)
Lemma a_print dot e tl : forall hd i last out f, Forall digit tl -> 0 < value hd ->
  zlen tl < i -> i <= 48 -> (forall j, i - zlen tl < j <= i -> j < 48 -> dot <> j) ->
  exists last', a_run (length tl + f) (MkA (value (hd ++ tl)) i last dot e out) =
    a_run f (MkA (value hd) (i - zlen tl) last' dot e (tl ++ out)).
Proof.
  induction tl as [|c tl IH] using rev_ind; intros hd i last out f F V Hi H8 Hd.
  - exists last. rewrite app_nil_r. change (zlen []) with 0. now rewrite Z.sub_0_r.
  - apply Forall_app in F as [F1 F2]. inversion F2 as [|? ? D _]; subst. unfold digit in D.
    assert (Zl : zlen (tl ++ [c]) = zlen tl + 1) by (unfold zlen; rewrite app_length; cbn; lia).
    rewrite Zl in *. assert (0 <= zlen tl) by (unfold zlen; lia).
    assert (P : 0 < value (hd ++ tl)).
    { rewrite value_app. pose proof (value_nonneg tl F1). pose proof (pow10_pos (zlen tl) ltac:(lia)). nia. }
    rewrite app_length. cbn [length]. replace (length tl + 1 + f)%nat with (S (length tl + f)) by lia.
    rewrite app_assoc. rewrite value_snoc. cbn [a_run].
    rewrite a_turn_plain; [|lia|].
    2: { destruct (i <? 48) eqn:E8; [|reflexivity]. cbn [andb]. apply orb_false_iff. split.
         - specialize (Hd i ltac:(lia) ltac:(lia)). lia.
         - replace (value (hd ++ tl) * 10 + (c - 48) <? 10) with false by lia. now rewrite andb_false_r. }
    replace ((value (hd ++ tl) * 10 + (c - 48)) / 10) with (value (hd ++ tl)) by lia.
    replace ((value (hd ++ tl) * 10 + (c - 48)) mod 10) with (c - 48) by lia.
    replace (48 + (c - 48)) with c by lia. replace (value (hd ++ tl) =? 0) with false by lia.
    cbn [andb]. rewrite andb_false_r. cbn [bind].
    destruct (IH hd (i - 1) (if c =? 48 then last else i - 1) (c :: out) f F1 V ltac:(lia) ltac:(lia)) as (last' & E).
    { intros j Hj. apply Hd. lia. }
    exists last'. rewrite E. rewrite <- app_assoc. cbn [app]. f_equal. f_equal. lia.
Qed.

Lemma value_single d : value [d] = d - 48. Proof. unfold value. cbn [fold_left]. lia. Qed.

(* all the digits that are left, when the dot has been dealt with *)
Lemma a_finish d tl i last out f : 48 < d -> digit d -> Forall digit tl -> zlen tl + 1 < i -> i <= 48 ->
  a_run (S (length tl) + f) (MkA (value (d :: tl)) i last 48 0 out) =
    Ret (true, MkA 0 (i - zlen tl - 1) (i - zlen tl - 1) 48 0 (d :: tl ++ out)).
Proof.
  intros Hd D F Hi H8. unfold digit in D.
  destruct (a_print 48 0 tl [d] i last out (S f) F ltac:(rewrite value_single; lia) ltac:(lia) H8 ltac:(lia)) as (last' & E).
  replace (S (length tl) + f)%nat with (length tl + S f)%nat by lia. rewrite (E : a_run _ (MkA (value (d :: tl)) _ _ _ _ _) = _).
  cbn [a_run]. assert (0 <= zlen tl) by (unfold zlen; lia). rewrite value_single. rewrite a_turn_plain by lia.
  replace ((d - 48) / 10) with 0 by lia. replace (48 + (d - 48) mod 10) with d by lia. cbn [Z.eqb andb].
  replace (48 <? i - zlen tl - 6) with false by lia. cbn [orb Z.ltb Z.compare]. rewrite andb_false_r.
  replace (i - zlen tl <=? 48) with true by lia. cbn [andb bind]. replace (d =? 48) with false by lia. reflexivity.
Qed.

(* leading zeros down to the dot, and the zero before it *)
Lemma a_zeros e n : forall i last out f, i = 48 + e + Z.of_nat n -> i < 48 -> 2 <= 48 + e ->
  a_run (n + S f) (MkA 0 i last (48 + e) e out) =
    Ret (true, MkA 0 (46 + e) (46 + e) 48 0 ([48; 46] ++ repeat 48 n ++ out)).
Proof.
  induction n as [|n IH]; intros i last out f Hi H8 H2.
  - cbn [Nat.add a_run]. rewrite a_turn_dot by lia. cbn [Z.div Z.eqb bind]. change (0 / 10) with 0. cbn [Z.eqb bind].
    change (48 + 0 mod 10) with 48. do 3 f_equal; lia.
  - cbn [Nat.add a_run]. rewrite a_turn_plain; [|lia|].
    2: { replace (48 + e =? i) with false by lia. cbn [Z.ltb Z.compare andb orb]. apply andb_false_r. }
    change (0 / 10) with 0. change (48 + 0 mod 10) with 48. cbn [Z.eqb andb].
    replace (i =? 48) with false by lia. cbn [andb]. replace (i <=? 48 + e) with false by lia. cbn [andb bind].
    change (48 =? 48) with true. cbn [Pos.eqb].
    rewrite IH by lia. do 3 f_equal. cbn [app]. do 2 f_equal. change (48 :: out) with ([48] ++ out). rewrite app_assoc. f_equal.
    clear. change ([48]) with (repeat 48 1). rewrite <- repeat_app. now rewrite Nat.add_comm.
Qed.

Lemma numeral_cases ds c : numeral ds c -> (ds = [48] /\ c = 0) \/
  exists d tl, ds = d :: tl /\ 48 < d /\ digit d /\ Forall digit tl /\ 0 < c.
Proof.
  intros (N1 & N2 & N3 & N4). destruct ds as [|d tl]; [congruence|]. inversion N2 as [|? ? D F]; subst.
  destruct (Z.eq_dec d 48) as [->|].
  - destruct tl as [|d2 tl]; [left; auto|]. cbn [length hd] in N4. exfalso. apply N4; [lia|auto].
  - right. exists d, tl. unfold digit in *. pose proof (value_pos d tl ltac:(lia) F).
    pose proof (pow10_pos (zlen tl) ltac:(unfold zlen; lia)). repeat split; auto; lia.
Qed.

Lemma a_run_45 ds c e : numeral ds c -> zlen ds <= 34 -> ~ (c = 0 /\ e = 0) ->
  exists r dot, a_run 45 (MkA c 48 48 (48 + e) e []) =
    Ret (true, MkA r (48 - zlen (mantissa ds e)) (48 - zlen (mantissa ds e)) dot
      (if sci ds e then e + zlen ds - 1 else 0) (mantissa ds e)) /\ zlen (mantissa ds e) < 48.
Proof.
  intros N L NZ. pose proof N as (_ & F & V & _). destruct (numeral_cases ds c N) as [(-> & ->)|(d & tl & -> & Hd & D & Ft & Hc)].
  - (* zero *)
    change (zlen [48]) with 1 in *. assert (He : e <> 0) by lia. clear NZ.
    remember 44%nat as k eqn:Ek. cbn [a_run].
    rewrite a_turn_plain by lia. change (0 / 10) with 0. change (48 + 0 mod 10) with 48.
    change (48 - 6) with 42. cbn [Z.eqb andb Pos.eqb]. unfold mantissa, sci. change (zlen [48]) with 1.
    replace (e + 1 - 1) with e by lia. replace (48 + e <? 42) with (e <? -6) by lia. rewrite (orb_comm (e <? -6)).
    destruct ((0 <? e) || (e <? -6)) eqn:Es.
    + cbn [bind]. eexists _, _. change (zlen [48]) with 1. split; [reflexivity|lia].
    + replace (48 <=? 48 + e) with false by lia. cbn [bind]. replace (e =? 0) with false by lia. replace (- e <? 1) with false by lia.
      set (n := Z.to_nat (- e - 1)). replace k with (n + S (43 - n))%nat by lia.
      rewrite a_zeros by lia. eexists 0, 48. split.
      * assert (Zz : zlen ([48; 46] ++ repeat 48 n ++ [48]) = 2 - e).
        { unfold zlen. cbn [app length]. rewrite app_length, repeat_length. cbn [length]. lia. }
        rewrite Zz. cbn [andb]. do 3 f_equal; lia.
      * unfold zlen. cbn [app length]. rewrite app_length, repeat_length. cbn [length]. lia.
  - assert (Zd : zlen (d :: tl) = zlen tl + 1) by (unfold zlen; cbn [length]; lia). assert (0 <= zlen tl) by (unfold zlen; lia).
    assert (Ll : Z.of_nat (length tl) = zlen tl) by reflexivity. clear NZ N. subst c. rewrite Zd in *.
    unfold digit in D. unfold mantissa, sci. rewrite Zd. replace (e + (zlen tl + 1) - 1) with (e + zlen tl) by lia.
    destruct ((0 <? e) || (e + zlen tl <? -6)) eqn:Es.
    + (* scientific *)
      destruct (a_print (48 + e) e tl [d] 48 48 [] (45 - length tl) Ft ltac:(rewrite value_single; lia) ltac:(lia) ltac:(lia)) as (last' & E).
      { intros j Hj H8 Hx. lia. }
      replace 45%nat with (length tl + (45 - length tl))%nat by lia. rewrite (E : a_run _ (MkA (value (d :: tl)) _ _ _ _ _) = _).
      replace (45 - length tl)%nat with (S (44 - length tl)) by lia. cbn [a_run]. rewrite value_single, app_nil_r.
      destruct tl as [|d2 tl].
      * change (zlen []) with 0 in *. rewrite a_turn_plain by lia.
        replace ((d - 48) / 10) with 0 by lia. replace (48 + (d - 48) mod 10) with d by lia.
        change (48 - 0 =? 48) with true. cbn [Z.eqb andb].
        replace ((48 + e <? 48 - 0 - 6) || (0 <? e)) with true by lia. cbn [bind].
        eexists _, _. change (zlen [d]) with 1. split; [|lia]. do 3 f_equal. lia.
      * assert (Z2 : zlen (d2 :: tl) = zlen tl + 1) by (unfold zlen; cbn [length]; lia). assert (0 <= zlen tl) by (unfold zlen; lia).
        rewrite a_turn_dot by lia. replace ((d - 48) / 10) with 0 by lia. replace (48 + (d - 48) mod 10) with d by lia.
        cbn [Z.eqb bind]. exists 0, 48.
        assert (zlen (d :: 46 :: d2 :: tl) = zlen (d2 :: tl) + 2) as -> by (unfold zlen; cbn [length]; lia).
        split; [|lia]. do 3 f_equal; lia.
    + destruct (Z.eqb_spec e 0) as [->|He].
      * (* integer *)
        pose proof (a_finish d tl 48 48 [] (44 - length tl) Hd D Ft ltac:(lia) ltac:(lia)) as E.
        replace (S (length tl) + (44 - length tl))%nat with 45%nat in E by lia. rewrite Z.add_0_r, E. exists 0, 48.
        rewrite Zd, app_nil_r. split; [|lia]. do 3 f_equal; lia.
      * destruct (Z.ltb_spec (- e) (zlen tl + 1)) as [Hk|Hk].
        -- (* the dot is inside *)
           set (m := Z.to_nat (zlen tl + 1 + e)). assert (Hm : (1 <= m <= length tl)%nat) by lia.
           assert (Hm2 : Z.of_nat m = zlen tl + 1 + e) by lia. clearbody m.
           set (a := firstn m (d :: tl)). set (b := skipn m (d :: tl)).
           assert (Eab : d :: tl = a ++ b) by (symmetry; apply firstn_skipn).
           assert (Fab : Forall digit a /\ Forall digit b) by (rewrite Eab in F; now apply Forall_app in F). destruct Fab as [Fa Fb].
           assert (Zb : zlen b = - e) by (unfold b, zlen; rewrite skipn_length; cbn [length]; lia).
           assert (exists ta, a = d :: ta /\ zlen ta = zlen tl + e) as (ta & Ea & Za).
           { unfold a. destruct m as [|m']; [lia|]. cbn [firstn]. exists (firstn m' tl). split; [reflexivity|].
             unfold zlen. rewrite firstn_length. lia. }
           assert (Fta : Forall digit ta) by (rewrite Ea in Fa; now inversion Fa).
           assert (0 <= zlen ta) by (unfold zlen; lia). assert (Lta : Z.of_nat (length ta) = zlen ta) by reflexivity.
           assert (Lb : Z.of_nat (length b) = zlen b) by reflexivity.
           pose proof (value_pos d ta Hd Fta) as Pa. pose proof (pow10_pos (zlen ta) ltac:(lia)) as Pq. rewrite <- Ea in Pa.
           destruct (a_print (48 + e) e b a 48 48 [] (45 - length b) Fb ltac:(lia) ltac:(lia) ltac:(lia)) as (last' & E).
           { intros j Hj H8 Hx. lia. }
           replace 45%nat with (length b + (45 - length b))%nat by lia. rewrite Eab, E, app_nil_r, Zb.
           replace (48 - - e) with (48 + e) by lia.
           assert (Fin : a_run (45 - length b) (MkA (value a) (48 + e) last' (48 + e) e b) =
             a_run (45 - length b) (MkA (value a) (47 + e) (46 + e) 48 0 (46 :: b))).
           { replace (45 - length b)%nat with (S (44 - length b)) by lia. cbn [a_run]. rewrite a_turn_dot by lia.
             rewrite a_turn_plain; [|lia|replace (48 =? 47 + e) with false by lia; replace (48 <? 47 + e - 6) with false by lia;
               cbn [orb Z.ltb Z.compare]; now rewrite !andb_false_r].
             cbv zeta. replace (47 + e =? 48) with false by lia. rewrite andb_false_r. cbn [andb].
             replace (47 + e <=? 48) with true by lia. cbn [andb bind].
             replace (48 + e - 2) with (47 + e - 1) by lia. replace (e + (48 - (48 + e))) with 0 by lia.
             replace (46 + e) with (47 + e - 1) by lia. now destruct (48 + value a mod 10 =? 48). }
           rewrite Fin. rewrite Ea.
           pose proof (a_finish d ta (47 + e) (46 + e) (46 :: b) (44 - length b - length ta) Hd D Fta ltac:(lia) ltac:(lia)) as E2.
           replace (S (length ta) + (44 - length b - length ta))%nat with (45 - length b)%nat in E2 by lia. rewrite E2.
           exists 0, 48. assert (Zz : zlen ((d :: ta) ++ [46] ++ b) = zlen tl + 2) by (unfold zlen in *; rewrite !app_length; cbn [length]; lia).
           rewrite Zz. split; [|lia]. cbn [andb]. do 3 f_equal; lia.
        -- (* only zeros before the dot *)
           destruct (a_print (48 + e) e tl [d] 48 48 [] (45 - length tl) Ft ltac:(rewrite value_single; lia) ltac:(lia) ltac:(lia)) as (last' & E).
           { intros j Hj H8 Hx. lia. }
           replace 45%nat with (length tl + (45 - length tl))%nat by lia. rewrite (E : a_run _ (MkA (value (d :: tl)) _ _ _ _ _) = _).
           replace (45 - length tl)%nat with (S (44 - length tl)) by lia. cbn [a_run]. rewrite value_single, app_nil_r.
           rewrite a_turn_plain; [|lia|].
           2: { apply andb_false_iff. right. apply orb_false_iff. split; [lia|]. apply andb_false_iff. right. lia. }
           replace ((d - 48) / 10) with 0 by lia. replace (48 + (d - 48) mod 10) with d by lia. cbn [Z.eqb andb].
           replace ((48 + e <? 48 - zlen tl - 6) || (0 <? e)) with false by lia. rewrite andb_false_r.
           replace (48 - zlen tl <=? 48 + e) with false by lia. cbn [andb bind].
           set (n := Z.to_nat (- e - (zlen tl + 1))). replace (44 - length tl)%nat with (n + S (43 - length tl - n))%nat by lia.
           rewrite a_zeros by lia. exists 0, 48.
           assert (Zz : zlen ([48; 46] ++ repeat 48 n ++ d :: tl) = 2 - e).
           { unfold zlen in *. cbn [app length]. rewrite app_length, repeat_length. cbn [length]. lia. }
           rewrite Zz. split; [|lia]. cbn [andb]. do 3 f_equal; lia.
Qed.

(* The bits of a finite canonical value *)
Definition dec_bits (neg : bool) (c e : Z) : Z * Z :=
  ((if neg then 9223372036854775808 else 0) + (e + 6176) * 562949953421312 + c / 18446744073709551616,
   c mod 18446744073709551616).
Definition canonical (c e : Z) : Prop := 0 <= c < 10000000000000000000000000000000000 /\ -6176 <= e <= 6111.

Lemma dec_string_spec neg c e ds : canonical c e -> numeral ds c ->
  exists t, dec_string (fst (dec_bits neg c e)) (snd (dec_bits neg c e)) = Ret t /\ dec_text neg ds e t.
Proof.
  intros [Hc He] N. unfold dec_bits, dec_string. cbn [fst snd].
  set (q := c / 18446744073709551616). set (l := c mod 18446744073709551616).
  assert (Hq : 0 <= q < 562949953421312) by (unfold q; lia). assert (Hl : is_u64 l) by (unfold is_u64, l; lia).
  assert (Eq : c = val128 q l) by (unfold val128, q, l; lia). clearbody q l.
  set (s := if neg then 9223372036854775808 else 0).
  assert (Hs : s = 0 \/ s = 9223372036854775808) by (unfold s; destruct neg; auto).
  set (dh := s + (e + 6176) * 562949953421312 + q).
  assert (B1 : dh / 9223372036854775808 mod 2 = if neg then 1 else 0) by (unfold dh, s; destruct neg; lia).
  assert (B2 : 0 <= dh / 288230376151711744 mod 32 < 24).
  { assert (dh = s + 288230376151711744 * ((e + 6176) / 512) + ((e + 6176) mod 512 * 562949953421312 + q)) as -> by (unfold dh; lia). lia. }
  assert (B3 : dh / 2305843009213693952 mod 4 <> 3).
  { assert (dh = s + 2305843009213693952 * ((e + 6176) / 4096) + ((e + 6176) mod 4096 * 562949953421312 + q)) as -> by (unfold dh; lia). lia. }
  assert (B4 : dh / 562949953421312 mod 16384 = e + 6176) by (unfold dh; lia).
  assert (B5 : dh mod 562949953421312 = q) by (unfold dh; lia).
  clearbody dh. rewrite B1. replace (dh / 288230376151711744 mod 32 =? 31) with false by lia.
  replace (dh / 288230376151711744 mod 32 =? 30) with false by lia.
  replace (dh / 2305843009213693952 mod 4 =? 3) with false by lia. rewrite B4, B5. replace (e + 6176 - 6176) with e by lia.
  unfold dec_text.
  assert (L : zlen ds <= 34) by (apply (numeral_length ds c); [auto|lia|change (10 ^ 34) with 10000000000000000000000000000000000; lia]).
  destruct ((q =? 0) && (l =? 0) && (e =? 0)) eqn:Z0.
  - assert (q = 0 /\ l = 0 /\ e = 0) as (-> & -> & ->) by lia. change (val128 0 0) with 0 in Eq. subst c.
    destruct (numeral_cases ds 0 N) as [(-> & _)|(d & tl & _ & _ & _ & _ & X)]; [|lia].
    eexists. split; [reflexivity|]. exists []. split; [destruct neg; reflexivity|reflexivity].
  - destruct (a_run_45 ds c e N L ltac:(unfold val128, is_u64 in *; lia)) as (r & dot & E & Lm).
    pose proof (outer_sim 5 (MkD q l 0 48 48 (48 + e) e []) (MkA c 48 48 (48 + e) e [])) as O.
    specialize (O ltac:(unfold sim; cbn [ds_h ds_l ds_rem ds_i ds_last ds_dot ds_e ds_out a_r a_i a_last a_dot a_e a_out];
      change (10 ^ 0) with 1; unfold is_u64 in *; repeat split; lia)).
    change (9 * 5)%nat with 45%nat in O. rewrite E in O.
    destruct (d_outer 5 _) as [s'| |]; try contradiction. destruct O as (O1 & O2 & O3 & O4). cbn [bind a_i a_last a_e a_out] in *.
    unfold d_repr. rewrite <- O1, <- O2, <- O3, <- O4.
    replace (48 - zlen (mantissa ds e) <? 1) with false by lia. rewrite Z.ltb_irrefl, Z.sub_diag.
    cbn [bind skipn Z.to_nat]. change (Z.to_nat 0) with 0%nat. cbn [skipn].
    assert (Sg : (if (if neg then 1 else 0) =? 0 then mantissa ds e else 45 :: mantissa ds e) = (if neg then [45] else []) ++ mantissa ds e)
      by (destruct neg; reflexivity).
    rewrite Sg. eexists. split; [reflexivity|]. destruct (sci ds e) eqn:Es.
    + set (x := e + zlen ds - 1). assert (Hx : x < 0 \/ 0 < x).
      { unfold x, sci in *. destruct ds; [destruct N; congruence|]. assert (1 <= zlen (z :: ds)) by (unfold zlen; cbn [length]; lia). lia. }
      destruct (Z.ltb_spec 0 x).
      * exists ([69; 43] ++ itoa_signed x). split; [now rewrite <- !app_assoc|]. exists (itoa x).
        split; [rewrite Z.abs_eq by lia; apply itoa_numeral; lia|]. unfold itoa_signed. replace (x <? 0) with false by lia. reflexivity.
      * replace (x <? 0) with true by lia. exists ([69] ++ itoa_signed x). split; [now rewrite <- !app_assoc|]. exists (itoa (- x)).
        split; [rewrite Z.abs_neq by lia; apply itoa_numeral; lia|]. unfold itoa_signed. replace (x <? 0) with true by lia. reflexivity.
    + exists []. cbn [Z.ltb Z.compare]. split; [now rewrite app_nil_r|reflexivity].
Qed.

(* ------------------------------------------------------------------- parsing *)

Definition coeff_max : Z := 10000000000000000000000000000000000.
(* v is the number read so far *)
Record pinv (p : pstate) (v : Z) : Prop := MkPinv {
  pi_h : is_u64 (ps_h p); pi_l : is_u64 (ps_l p);
  pi_mul : exists j, 0 <= j <= 9 /\ ps_mul p = 10 ^ j;
  pi_add : 0 <= ps_add p < ps_mul p;
  pi_val : val128 (ps_h p) (ps_l p) * ps_mul p + ps_add p = v;
  pi_e : ps_e p = 0;
  pi_dig : 0 <= ps_digits p /\ (0 < ps_digits p -> 10 ^ (ps_digits p - 1) <= v) /\ (ps_digits p = 0 -> v = 0) }.

Lemma pinv_mul p v : pinv p v -> 1 <= ps_mul p <= 1000000000 /\ is_u32 (ps_mul p) /\ is_u32 (ps_add p).
Proof.
  intros [_ _ (j & Hj & E) A _ _ _]. assert (10 ^ 0 <= 10 ^ j <= 10 ^ 9) by (split; apply Z.pow_le_mono_r; lia).
  change (10 ^ 0) with 1 in *. change (10 ^ 9) with 1000000000 in *. unfold is_u32. lia.
Qed.
Lemma not_too_high h l : is_u64 h -> is_u64 l -> val128 h l < coeff_max -> too_high h = false.
Proof.
  intros Hh Hl H. unfold too_high. assert (h < 562949953421312) by (unfold val128, coeff_max, is_u64 in *; lia).
  unfold is_u64 in Hh. rewrite Z.div_small by lia. reflexivity.
Qed.
Lemma pinv_muladd p v : pinv p v -> v < coeff_max ->
  exists h l, muladd (ps_h p) (ps_l p) (ps_mul p) (ps_add p) = (h, l, 0) /\ is_u64 h /\ is_u64 l /\ val128 h l = v /\ too_high h = false.
Proof.
  intros I L. pose proof (pinv_mul p v I) as (M & Um & Ua). destruct I as [Hh Hl _ A V _ _].
  destruct (muladd_exact (ps_h p) (ps_l p) (ps_mul p) (ps_add p) Hh Hl Um Ua) as (h & l & E & H1 & H2 & H3).
  { unfold coeff_max in L. lia. }
  exists h, l. repeat split; auto; try apply H1; try apply H2; [lia|]. apply (not_too_high h l); auto. lia.
Qed.
(* the flush at the start of a turn of the loop, as in p_loop *)
Definition p_flush (p : pstate) : option pstate :=
  if ps_mul p =? 1000000000 then
    let '(h, l, ovr) := muladd (ps_h p) (ps_l p) (ps_mul p) (ps_add p) in
    if (0 <? ovr) || too_high h then None
    else Some (MkP h l (ps_e p) 0 1 (ps_dot p) (ps_digits p) (ps_i p))
  else Some p.
Lemma flush_ok p v : pinv p v -> v < coeff_max -> exists p1, p_flush p = Some p1 /\ pinv p1 v /\
  (exists j, 0 <= j <= 8 /\ ps_mul p1 = 10 ^ j) /\ ps_dot p1 = ps_dot p /\ ps_i p1 = ps_i p /\ ps_digits p1 = ps_digits p.
Proof.
  intros I L. unfold p_flush. destruct (Z.eqb_spec (ps_mul p) 1000000000) as [E|E].
  - destruct (pinv_muladd p v I L) as (h & l & -> & H1 & H2 & H3 & ->). cbn [Z.ltb Z.compare orb].
    eexists. split; [reflexivity|]. destruct I as [_ _ _ _ _ Ie Id].
    split; [constructor; cbn; auto; [exists 0; split; [lia|reflexivity]|lia|lia]|]. cbn. repeat split; auto.
    exists 0. split; [lia|reflexivity].
  - exists p. repeat split; auto; try apply I. destruct I as [_ _ (j & Hj & Ej) _ _ _ _]. exists j. split; [|auto].
    destruct (Z.eq_dec j 9) as [->|]; [|lia]. now change (10 ^ 9) with 1000000000 in Ej.
Qed.

Lemma is_digit_spec c : is_digit c = true <-> digit c.
Proof. unfold is_digit, digit. lia. Qed.
Lemma p_loop_digit n c r p v : pinv p v -> digit c -> v * 10 + (c - 48) < coeff_max ->
  exists p', p_loop n (c :: r) p = p_loop n r p' /\ pinv p' (v * 10 + (c - 48)) /\ ps_dot p' = ps_dot p /\ ps_i p' = ps_i p + 1.
Proof.
  intros I D L. assert (Hv : 0 <= v) by (destruct I as [Hh Hl _ A V _ _]; unfold val128, is_u64 in *; nia).
  assert (Dc : is_digit c = true) by now apply is_digit_spec. unfold digit in D.
  destruct (flush_ok p v I ltac:(lia)) as (p1 & F & I1 & (j & Hj & Ej) & Ed & Ei & Eg).
  cbn [p_loop]. change (if ps_mul p =? 1000000000 then _ else _) with (p_flush p). rewrite F, Dc.
  destruct I1 as [Hh Hl _ A V Ie (G1 & G2 & G3)].
  set (dg := if (48 <? c) || (0 <? ps_digits p1) then ps_digits p1 + 1 else ps_digits p1).
  assert (Gd : 0 <= dg /\ (0 < dg -> 10 ^ (dg - 1) <= v * 10 + (c - 48)) /\ (dg = 0 -> v * 10 + (c - 48) = 0)).
  { unfold dg. destruct ((48 <? c) || (0 <? ps_digits p1)) eqn:E.
    - split; [lia|]. split; [|lia]. intros _. destruct (Z.eq_dec (ps_digits p1) 0) as [E0|E0].
      + rewrite E0. change (10 ^ (0 + 1 - 1)) with 1. lia.
      + specialize (G2 ltac:(lia)). replace (ps_digits p1 + 1 - 1) with (Z.succ (ps_digits p1 - 1)) by lia.
        rewrite Z.pow_succ_r by lia. lia.
    - assert (ps_digits p1 = 0) by lia. specialize (G3 H). lia. }
  destruct (34 <? dg) eqn:E34.
  { exfalso. destruct Gd as (_ & G & _). specialize (G ltac:(lia)).
    assert (10 ^ 34 <= 10 ^ (dg - 1)) by (apply Z.pow_le_mono_r; lia).
    change (10 ^ 34) with coeff_max in H. lia. }
  eexists. split; [reflexivity|]. cbn [ps_dot ps_i]. split; [|split; [auto|lia]].
  assert (P : 10 ^ 0 <= 10 ^ j <= 10 ^ 8) by (split; apply Z.pow_le_mono_r; lia).
  change (10 ^ 0) with 1 in P. change (10 ^ 8) with 100000000 in P.
  assert (U1 : u32 (u32 (ps_add p1 * 10) + (c - 48)) = ps_add p1 * 10 + (c - 48)) by (unfold u32; rewrite !Z.mod_small by lia; lia).
  assert (U2 : u32 (ps_mul p1 * 10) = ps_mul p1 * 10) by (unfold u32; rewrite Z.mod_small by lia; lia).
  rewrite U1, U2. constructor; cbn; auto; try lia.
  exists (j + 1). split; [lia|]. rewrite Ej, Z.pow_add_r by lia. reflexivity.
Qed.
Lemma p_loop_digits n ds : forall r p v, pinv p v -> Forall digit ds -> v * 10 ^ zlen ds + value ds < coeff_max ->
  exists p', p_loop n (ds ++ r) p = p_loop n r p' /\ pinv p' (v * 10 ^ zlen ds + value ds) /\
    ps_dot p' = ps_dot p /\ ps_i p' = ps_i p + zlen ds.
Proof.
  induction ds as [|c ds IH]; intros r p v I F L.
  - exists p. cbn [app]. change (10 ^ zlen []) with 1 in *. change (value []) with 0 in *.
    replace (v * 1 + 0) with v by lia. change (zlen []) with 0. repeat split; auto; try apply I. lia.
  - inversion F as [|? ? D F']; subst. assert (Hv : 0 <= v) by (destruct I as [Hh Hl _ A V _ _]; unfold val128, is_u64 in *; nia).
    pose proof (value_nonneg ds F') as Vn. pose proof (pow10_pos (zlen ds) ltac:(unfold zlen; lia)) as Pp.
    assert (E : v * 10 ^ zlen (c :: ds) + value (c :: ds) = (v * 10 + (c - 48)) * 10 ^ zlen ds + value ds).
    { change (c :: ds) with ([c] ++ ds) at 2. rewrite value_app, value_single.
      unfold zlen. cbn [length]. rewrite Nat2Z.inj_succ, Z.pow_succ_r by lia. ring. }
    rewrite E in *. cbn [app].
    destruct (p_loop_digit n c (ds ++ r) p v I D) as (p1 & E1 & I1 & Ed1 & Ei1). { unfold digit in D. nia. }
    destruct (IH r p1 _ I1 F' L) as (p2 & E2 & I2 & Ed2 & Ei2).
    exists p2. rewrite E1, E2. split; [reflexivity|]. split; [exact I2|]. split; [congruence|].
    rewrite Ei2, Ei1. unfold zlen. cbn [length]. lia.
Qed.

(* an exponent below 10^5 *)
Lemma p_exp_digits xs : forall n, Forall digit xs -> 0 <= n -> n * 10 ^ zlen xs + value xs < 100000 ->
  p_exp xs n = Some (n * 10 ^ zlen xs + value xs, []).
Proof.
  induction xs as [|c xs IH]; intros n F Hn L; cbn [p_exp].
  - change (10 ^ zlen []) with 1. change (value []) with 0. do 2 f_equal. lia.
  - inversion F as [|? ? D F']; subst. pose proof (value_nonneg xs F') as Vn. pose proof (pow10_pos (zlen xs) ltac:(unfold zlen; lia)) as Pp.
    assert (E : n * 10 ^ zlen (c :: xs) + value (c :: xs) = (n * 10 + (c - 48)) * 10 ^ zlen xs + value xs).
    { change (c :: xs) with ([c] ++ xs) at 2. rewrite value_app, value_single.
      unfold zlen. cbn [length]. rewrite Nat2Z.inj_succ, Z.pow_succ_r by lia. ring. }
    rewrite E in *. unfold digit in D. replace (10000 <=? n) with false by nia.
    rewrite (proj2 (is_digit_spec c)) by (unfold digit; lia). apply IH; auto; lia.
Qed.

Lemma p_finish_bits neg h l e : is_u64 h -> is_u64 l -> canonical (val128 h l) e ->
  p_finish neg h l e = dec_bits neg (val128 h l) e.
Proof.
  intros Hh Hl [Hc He]. unfold is_u64 in *. assert (Hq : 0 <= h < 562949953421312) by (unfold val128 in Hc; lia).
  unfold p_finish, dec_bits. assert (val128 h l / 18446744073709551616 = h) as -> by (unfold val128; lia).
  assert (val128 h l mod 18446744073709551616 = l) as -> by (unfold val128; lia).
  unfold u64. rewrite (Z.mod_small (e + 6176)) by lia. rewrite (Z.mod_small (e + 6176)) by lia. rewrite (Z.mod_small (_ * _)) by lia.
  assert (L1 : Z.lor h ((e + 6176) * 562949953421312) = (e + 6176) * 562949953421312 + h).
  { rewrite Z.lor_comm. change 562949953421312 with (2 ^ 49). apply lor_add; [lia|]. change (2 ^ 49) with 562949953421312. lia. }
  rewrite L1. f_equal. destruct neg; [|lia].
  rewrite Z.lor_comm. change 9223372036854775808 with (1 * 2 ^ 63) at 1. rewrite lor_add; [lia|lia|].
  change (2 ^ 63) with 9223372036854775808. lia.
Qed.

(* Numbers as ParseDecimal128 takes them: sign, digits with an optional fraction, exponent *)
Definition sign_text (neg : bool) (s : bytes) : Prop := s = (if neg then [45] else []) \/ (neg = false /\ s = [43]).
Definition frac_text (fp s : bytes) : Prop := Forall digit fp /\ ((fp = [] /\ s = []) \/ (fp <> [] /\ s = 46 :: fp)).
Definition exp_text (x : Z) (s : bytes) : Prop :=
  (x = 0 /\ s = []) \/
  exists E neg sg xs, (E = 69 \/ E = 101) /\ xs <> [] /\ Forall digit xs /\
    sign_text neg sg /\ x = (if neg then - value xs else value xs) /\ s = E :: sg ++ xs.

Lemma frac_loop n ip fp fs r p0 : pinv p0 0 -> ps_dot p0 = -1 -> ps_i p0 = 0 ->
  Forall digit ip -> frac_text fp fs -> ip ++ fp <> [] -> value (ip ++ fp) < coeff_max -> n = zlen (ip ++ fs ++ r) ->
  exists p, p_loop n (ip ++ fs ++ r) p0 = p_loop n r p /\ pinv p (value (ip ++ fp)) /\ 0 < ps_i p /\ (if 0 <=? ps_dot p then ps_dot p - ps_i p else 0) = - zlen fp.
Proof.
  intros I0 D0 E0 Fi [Ff Hf] Ne L Hn. pose proof (value_nonneg ip Fi) as Vi. pose proof (value_nonneg fp Ff) as Vf.
  pose proof (pow10_pos (zlen fp) ltac:(unfold zlen; lia)) as Pp. rewrite value_app in *.
  destruct (p_loop_digits n ip (fs ++ r) p0 0 I0 Fi ltac:(nia)) as (p1 & E1 & I1 & D1 & J1).
  rewrite Z.mul_0_l, Z.add_0_l in I1. destruct Hf as [(-> & ->)|(Nf & ->)].
  - exists p1. cbn [app] in *. change (value []) with 0. change (10 ^ zlen []) with 1. change (zlen []) with 0.
    replace (value ip * 1 + 0) with (value ip) by lia. split; [exact E1|]. split; [exact I1|].
    rewrite D1, D0, J1, E0. cbn [Z.leb Z.compare]. split; [|lia]. destruct ip; [now cbn in Ne|]. unfold zlen. cbn [length]. lia.
  - rewrite E1. destruct (flush_ok p1 _ I1 ltac:(nia)) as (p2 & F2 & I2 & _ & D2 & J2 & _).
    set (p3 := MkP (ps_h p2) (ps_l p2) (ps_e p2) (ps_add p2) (ps_mul p2) (ps_i p2 + 1) (ps_digits p2) (ps_i p2 + 1)).
    assert (E2 : p_loop n ((46 :: fp) ++ r) p1 = p_loop n (fp ++ r) p3).
    { cbn [app p_loop]. change (if ps_mul p1 =? 1000000000 then _ else _) with (p_flush p1). rewrite F2.
      change (is_digit 46) with false. change (46 =? 46) with true. cbn [Pos.eqb].
      rewrite D2, D1, D0. change (0 <=? -1) with false. cbn [orb].
      destruct fp as [|c2 fp]; [congruence|]. cbn [app].
      replace (n =? 1) with false by (rewrite Hn; unfold zlen; rewrite app_length; cbn [app length]; lia). rewrite andb_false_r.
      inversion Ff as [|? ? Dc _]; subst. rewrite (proj2 (is_digit_spec c2) Dc). unfold p3. rewrite (pi_e _ _ I2). reflexivity. }
    assert (I3 : pinv p3 (value ip)) by (destruct I2; constructor; auto).
    destruct (p_loop_digits n fp r p3 _ I3 Ff L) as (p4 & E4 & I4 & D4 & J4).
    exists p4. rewrite E2, E4. split; [reflexivity|]. split; [exact I4|]. rewrite D4, J4. cbn [ps_dot ps_i p3].
    assert (0 <= zlen ip /\ 0 <= zlen fp) by (unfold zlen; lia). rewrite J2, J1, E0. split; [lia|].
    destruct (0 <=? 0 + zlen ip + 1) eqn:X; lia.
Qed.

(* Every text of this form, with at most 34 significant digits and the exponent in range,
   is parsed to the number it stands for. *)
Lemma parse_spec neg sg ip fp fs x xs :
  sign_text neg sg -> Forall digit ip -> frac_text fp fs -> ip ++ fp <> [] -> exp_text x xs ->
  - 100000 < x < 100000 -> canonical (value (ip ++ fp)) (x - zlen fp) ->
  dec_parse (sg ++ ip ++ fs ++ xs) = Ret (Some (dec_bits neg (value (ip ++ fp)) (x - zlen fp))).
Proof.
  intros Sg Fi Ff Ne Ex Hx C. pose proof C as [[C1 C2] C3].
  set (s := ip ++ fs ++ xs).
  assert (exists c0 s0, s = c0 :: s0 /\ (digit c0 \/ c0 = 46)) as (c0 & s0 & Es & Hc0).
  { unfold s. destruct ip as [|c ip]; [|inversion Fi; subst; cbn [app]; eauto 6].
    destruct Ff as [Ff [(-> & ->)|(Nf & ->)]]; [now cbn in Ne|]. cbn [app]. eauto 6. }
  assert (Hd : dec_parse (sg ++ s) = match p_loop (zlen s) s (MkP 0 0 0 0 1 (-1) 0 0) with None => Ret None | Some (p, r) => p_rest neg p r end).
  { assert (B : forall b : bool, (b && ((c0 =? 78) || (c0 =? 110) || (c0 =? 73) || (c0 =? 105))) = false).
    { intros b. apply andb_false_iff. right. unfold digit in Hc0. lia. }
    rewrite Es. destruct Sg as [->|(-> & ->)].
    - destruct neg; cbn [app dec_parse]; [cbn [Z.eqb Pos.eqb orb hd]; now rewrite B|].
      replace (c0 =? 45) with false by (unfold digit in Hc0; lia). replace (c0 =? 43) with false by (unfold digit in Hc0; lia).
      cbn [orb hd]. now rewrite B.
    - cbn [app dec_parse Z.eqb Pos.eqb orb hd]. now rewrite B. }
  rewrite Hd. clear Hd Es Hc0 c0 s0 Sg sg.
  destruct (frac_loop (zlen s) ip fp fs xs (MkP 0 0 0 0 1 (-1) 0 0)) as (p & E & I & Hi & He); auto.
  { constructor; cbn; unfold is_u64; try lia; auto. exists 0. split; [lia|reflexivity]. }
  fold s in E. rewrite E. clear E.
  assert (Rest : forall p r, pinv p (value (ip ++ fp)) -> 0 < ps_i p ->
    (if 0 <=? ps_dot p then ps_dot p - ps_i p else 0) = - zlen fp ->
    exists h l, is_u64 h /\ is_u64 l /\ val128 h l = value (ip ++ fp) /\
    p_rest neg p r =
      match r with
      | c :: c2 :: r2 =>
      if (c =? 69) || (c =? 101) then
        let eneg := c2 =? 45 in
        let signed := eneg || (c2 =? 43) in
        let r3 := if signed then r2 else c2 :: r2 in
        if signed && (match r3 with [] => true | _ => false end) then Ret None else
        match p_exp r3 0 with
        | None => Ret None
        | Some (n, r4) =>
            let e := - zlen fp + (if eneg then - n else n) in
            x <- p_subnormal (Z.to_nat (-6176 - e)) h l e ;;
            match x with
            | None => Ret None
            | Some (h, l, e) =>
                y <- p_clamp (Z.to_nat (e - 6111)) h l e ;;
                match y with
                | None => Ret None
                | Some (h, l, e) =>
                    if (e <? -6176) || (6111 <? e) then Ret None else
                    match r4 with [] => Ret (Some (p_finish neg h l e)) | _ => Ret None end
                end
            end
        end
      else Ret None
      | [_] => Ret None
      | [] => Ret (Some (p_finish neg h l (- zlen fp)))
      end).
  { clear I Hi He p. intros p r I Hi He. unfold p_rest. replace (ps_i p =? 0) with false by lia.
    assert (He' : (if 0 <=? ps_dot p then ps_e p + (ps_dot p - ps_i p) else ps_e p) = - zlen fp).
    { rewrite (pi_e _ _ I). rewrite <- He. now destruct (0 <=? ps_dot p). }
    destruct (Z.ltb_spec 1 (ps_mul p)) as [M|M].
    - destruct (pinv_muladd p _ I C2) as (h & l & -> & H1 & H2 & H3 & ->). cbn [Z.ltb Z.compare orb andb].
      exists h, l. rewrite He'. auto.
    - pose proof (pinv_mul _ _ I) as (M1 & _). exists (ps_h p), (ps_l p). destruct I as [Hh Hl _ A V _ _].
      cbn [andb]. rewrite He'. repeat split; auto; try apply Hh; try apply Hl. assert (ps_mul p = 1) by lia. rewrite H in *. lia. }
  destruct Ex as [(-> & ->)|(Ec & eneg & esg & ds & HE & Nd & Fd & Hsg & -> & ->)].
  - cbn [p_loop]. destruct (Rest p [] I Hi He) as (h & l & H1 & H2 & H3 & ->).
    rewrite Z.sub_0_l in *. rewrite <- H3 in *. now rewrite p_finish_bits.
  - destruct (flush_ok p _ I C2) as (p1 & F1 & I1 & _ & D1 & J1 & _).
    assert (E : p_loop (zlen s) (Ec :: esg ++ ds) p = Some (p1, Ec :: esg ++ ds)).
    { cbn [p_loop]. change (if ps_mul p =? 1000000000 then _ else _) with (p_flush p). rewrite F1.
      replace (is_digit Ec) with false by (unfold is_digit; lia). now replace (Ec =? 46) with false by lia. }
    rewrite E. clear E. destruct (Rest p1 (Ec :: esg ++ ds) I1) as (h & l & H1 & H2 & H3 & ->); [lia|rewrite D1, J1; exact He|].
    assert (Pe : p_exp ds 0 = Some (value ds, [])).
    { pose proof (value_nonneg ds Fd). pose proof (p_exp_digits ds 0 Fd ltac:(lia)) as Q. rewrite Z.mul_0_l, Z.add_0_l in Q.
      apply Q. destruct eneg; lia. }
    set (e := - zlen fp + (if eneg then - value ds else value ds)).
    assert (Ee : (if eneg then - value ds else value ds) - zlen fp = e) by (unfold e; lia). rewrite Ee in *. clear Rest.
    assert (Fin : forall neg' : bool, neg' = eneg ->
      match p_exp ds 0 with
        | None => Ret None
        | Some (n, r4) =>
            let e := - zlen fp + (if neg' then - n else n) in
            x <- p_subnormal (Z.to_nat (-6176 - e)) h l e ;;
            match x with
            | None => Ret None
            | Some (h, l, e) =>
                y <- p_clamp (Z.to_nat (e - 6111)) h l e ;;
                match y with
                | None => Ret None
                | Some (h, l, e) =>
                    if (e <? -6176) || (6111 <? e) then Ret None else
                    match r4 with [] => Ret (Some (p_finish neg h l e)) | _ => Ret None end
                end
            end
        end = Ret (Some (dec_bits neg (value (ip ++ fp)) e))).
    { intros neg' ->. rewrite Pe. fold e. cbv zeta. clearbody e.
      assert (p_subnormal (Z.to_nat (-6176 - e)) h l e = Ret (Some (h, l, e))) as ->.
      { destruct (Z.to_nat (-6176 - e)); cbn [p_subnormal]; now replace (e <? -6176) with false by lia. }
      cbn [bind]. assert (p_clamp (Z.to_nat (e - 6111)) h l e = Ret (Some (h, l, e))) as ->.
      { destruct (Z.to_nat (e - 6111)); cbn [p_clamp]; now replace (6111 <? e) with false by lia. }
      cbn [bind]. replace ((e <? -6176) || (6111 <? e)) with false by lia.
      rewrite <- H3 in *. now rewrite p_finish_bits. }
    destruct ds as [|d1 ds]; [congruence|].
    assert (Dd : digit d1) by now inversion Fd. unfold digit in Dd.
    destruct Hsg as [->|(-> & ->)].
    + destruct eneg; cbn [app].
      * replace ((Ec =? 69) || (Ec =? 101)) with true by lia. cbn [Z.eqb Pos.eqb orb andb]. exact (Fin true eq_refl).
      * replace ((Ec =? 69) || (Ec =? 101)) with true by lia. replace (d1 =? 45) with false by lia.
        replace (d1 =? 43) with false by lia. cbv zeta. cbn [orb andb]. destruct ds as [|d2 ds]; exact (Fin false eq_refl).
    + cbn [app]. replace ((Ec =? 69) || (Ec =? 101)) with true by lia. cbn [Z.eqb Pos.eqb orb andb]. exact (Fin false eq_refl).
Qed.
