(* strconv.Itoa (as modelled in Value.v) writes the decimal numeral of BSpec.v. *)
Require Import ZArith List Bool Lia ZifyBool ZifyNat Decimal DecimalFacts DecimalNat.
From Verif Require Import Base BSpec Elements Value.
Import ListNotations.
Open Scope Z_scope.

Definition dig (x : Z) (d : uint) : uint :=
  match x with
  | 0 => D0 d | 1 => D1 d | 2 => D2 d | 3 => D3 d | 4 => D4 d
  | 5 => D5 d | 6 => D6 d | 7 => D7 d | 8 => D8 d | _ => D9 d
  end.

Lemma dig_bytes x d : 0 <= x < 10 -> uint_bytes (dig x d) = (48 + x) :: uint_bytes d.
Proof.
  intros H. assert (x = 0 \/ x = 1 \/ x = 2 \/ x = 3 \/ x = 4 \/ x = 5 \/ x = 6 \/ x = 7
    \/ x = 8 \/ x = 9) as C by lia.
  decompose [or] C; subst; reflexivity.
Qed.

Lemma dig_acc x d acc : 0 <= x < 10 ->
  Nat.of_uint_acc (dig x d) acc = Nat.of_uint_acc d (10 * acc + Z.to_nat x)%nat.
Proof.
  intros H. assert (x = 0 \/ x = 1 \/ x = 2 \/ x = 3 \/ x = 4 \/ x = 5 \/ x = 6 \/ x = 7
    \/ x = 8 \/ x = 9) as C by lia.
  decompose [or] C; subst; cbn [dig Nat.of_uint_acc];
    rewrite <- Nat.tail_mul_spec; f_equal; lia.
Qed.

Lemma dig_nzhead x d : 0 < x < 10 -> nzhead (dig x d) = dig x d /\ dig x d <> Nil.
Proof.
  intros H. assert (x = 1 \/ x = 2 \/ x = 3 \/ x = 4 \/ x = 5 \/ x = 6 \/ x = 7
    \/ x = 8 \/ x = 9) as C by lia.
  decompose [or] C; subst; split; (reflexivity || discriminate).
Qed.

Lemma itoa_loop_spec k : forall n d, 0 <= n < Z.of_nat k ->
  exists u, itoa_loop k n (uint_bytes d) = uint_bytes u /\
    Nat.of_uint_acc u 0 = Nat.of_uint_acc d (Z.to_nat n) /\
    (0 < n -> nzhead u = u /\ u <> Nil) /\ (n = 0 -> u = D0 d).
Proof.
  induction k as [|k IH]; intros n d H; [lia|]. cbn [itoa_loop].
  destruct (Z.ltb_spec n 10).
  - exists (dig n d). replace (n mod 10) with n by lia. rewrite dig_bytes by lia.
    split; [reflexivity|]. split; [|split].
    + rewrite dig_acc by lia. reflexivity.
    + intros. apply dig_nzhead. lia.
    + intros ->. reflexivity.
  - rewrite <- dig_bytes by lia.
    destruct (IH (n / 10) (dig (n mod 10) d)) as (u & E1 & E2 & E3 & E4); [lia|].
    exists u. split; [exact E1|]. split; [|split].
    + rewrite E2, dig_acc by lia. f_equal. lia.
    + intros. apply E3. lia.
    + intros. lia.
Qed.

Lemma itoa_index_key i : itoa (Z.of_nat i) = index_key i.
Proof.
  unfold itoa, index_key. change (@nil Z) with (uint_bytes Nil).
  destruct (itoa_loop_spec (S (Z.to_nat (Z.of_nat i))) (Z.of_nat i) Nil) as (u & E1 & E2 & E3 & E4);
    [lia|].
  rewrite E1. f_equal. cbn [Nat.of_uint_acc] in E2.
  assert (E5 : Nat.of_uint u = i) by (unfold Nat.of_uint; lia).
  rewrite <- E5, Unsigned.to_of. unfold unorm.
  destruct (Z.eq_dec (Z.of_nat i) 0) as [Hz|Hz].
  - rewrite E4 by auto. reflexivity.
  - destruct E3 as [-> Hn]; [lia|]. now destruct u.
Qed.
