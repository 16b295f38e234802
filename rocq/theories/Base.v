(* Basic semantics shared by the whole model: outcomes of a Go call, errors,
   machine integers, byte slices. *)
Require Import ZArith List Bool Lia ZifyBool ZifyNat.
Import ListNotations.
Open Scope Z_scope.

(* Error values the modelled functions can return (bsonerr/*.go, elements.ErrTooSmall,
   errors.go errTooSmall).  ErrTooSmall and errTooSmall are merged. *)
Inductive gerr :=
| ETooSmall            (* elements.ErrTooSmall / bson errTooSmall *)
| EUninitialized       (* bsonerr.UninitializedElement *)
| EInvalidString       (* bsonerr.InvalidString *)
| EInvalidReadOnlyDoc  (* bsonerr.InvalidReadOnlyDocument *)
| EInvalidBinarySub    (* bsonerr.InvalidBinarySubtype *)
| EInvalidBoolean      (* bsonerr.InvalidBooleanType *)
| EStringTooLarge      (* bsonerr.StringLargerThanContainer *)
| EInvalidElement      (* bsonerr.InvalidElement *)
| EInvalidKey          (* bsonerr.InvalidKey *)
| EInvalidLength       (* bsonerr.InvalidLength *)
| ENilElement          (* bsonerr.NilElement *)
| ENilDocument         (* bsonerr.NilDocument *)
| ENotFound            (* bsonerr.ElementNotFound *)
| EOutOfBounds         (* bsonerr.OutOfBounds *)
| EEmptyKey            (* bsonerr.EmptyKey *)
| EInvalidDepth        (* bsonerr.InvalidDepthTraversal *)
| EInvalidArrayKey     (* bsonerr.InvalidArrayKey *)
| EElementType (t : Z) (* bsonerr.ElementTypeError *)
| EEOF                 (* io.EOF *)
| EUnexpectedEOF       (* io.ErrUnexpectedEOF *)
| EOther (n : Z).      (* any other error, numbered by the place that creates it *)

(* Reasons of a run-time panic. *)
Inductive pan :=
| PIndex               (* index or slice bounds out of range *)
| PNil                 (* nil pointer dereference *)
| PErr (e : gerr)      (* panic(err) *)
| PMake.               (* makeslice: len out of range *)

(* Outcome of a call: normal return, panic, or fuel exhausted. *)
Inductive go (A : Type) :=
| Ret (a : A)
| Panic (p : pan)
| Fuel.
Arguments Ret {A} a.
Arguments Panic {A} p.
Arguments Fuel {A}.

Definition bind {A B} (x : go A) (f : A -> go B) : go B :=
  match x with
  | Ret a => f a
  | Panic p => Panic p
  | Fuel => Fuel
  end.

Notation "x <- e ;; k" := (bind e (fun x => k))
  (at level 61, e at next level, right associativity).
Notation "' pat <- e ;; k" := (bind e (fun pat => k))
  (at level 61, pat pattern, e at next level, right associativity).

(* Machine integers: Go's conversions truncate. *)
Definition u8 (z : Z) : Z := z mod 256.
Definition u32 (z : Z) : Z := z mod 4294967296.
Definition i32 (z : Z) : Z := (z + 2147483648) mod 4294967296 - 2147483648.
Definition u64 (z : Z) : Z := z mod 18446744073709551616.
Definition i64 (z : Z) : Z :=
  (z + 9223372036854775808) mod 18446744073709551616 - 9223372036854775808.

Definition is_u8 (z : Z) := 0 <= z < 256.
Definition is_u32 (z : Z) := 0 <= z < 4294967296.
Definition is_i32 (z : Z) := -2147483648 <= z < 2147483648.
Definition is_u64 (z : Z) := 0 <= z < 18446744073709551616.
Definition is_i64 (z : Z) := -9223372036854775808 <= z < 9223372036854775808.

#[global] Arguments Z.mul : simpl never.
#[global] Arguments Z.add : simpl never.
#[global] Arguments Z.sub : simpl never.
#[global] Arguments Z.div : simpl never.
#[global] Arguments Z.modulo : simpl never.
#[global] Arguments Z.pow : simpl never.
#[global] Arguments Z.to_nat : simpl never.
#[global] Arguments Z.of_nat : simpl never.

Ltac Zify.zify_post_hook ::= Z.div_mod_to_equations.

Lemma u32_id z : is_u32 z -> u32 z = z.
Proof. intros H. apply Z.mod_small, H. Qed.
Lemma u64_id z : is_u64 z -> u64 z = z.
Proof. intros H. apply Z.mod_small, H. Qed.
Lemma i32_id z : is_i32 z -> i32 z = z.
Proof. unfold is_i32, i32. intros H. rewrite Z.mod_small; lia. Qed.
Lemma i64_id z : is_i64 z -> i64 z = z.
Proof. unfold is_i64, i64. intros H. rewrite Z.mod_small; lia. Qed.
Lemma i32_range z : is_i32 (i32 z).
Proof. unfold is_i32, i32. lia. Qed.
Lemma i64_range z : is_i64 (i64 z).
Proof. unfold is_i64, i64. lia. Qed.
Lemma u32_range z : is_u32 (u32 z).
Proof. unfold is_u32, u32. lia. Qed.
Lemma u64_range z : is_u64 (u64 z).
Proof. unfold is_u64, u64. lia. Qed.
Lemma i32_u32 z : is_i32 z -> i32 (u32 z) = z.
Proof. unfold is_i32, i32, u32. lia. Qed.
Lemma i64_u64 z : is_i64 z -> i64 (u64 z) = z.
Proof. unfold is_i64, i64, u64. lia. Qed.

(* Byte slices. The capacity of a slice is taken to be its length, so a reslice beyond
   the length panics even where Go would allow it up to the capacity. *)
Notation bytes := (list Z).

Definition zlen {A} (l : list A) : Z := Z.of_nat (length l).

Definition bytes_ok (l : bytes) := Forall is_u8 l.

(* l[i] with Go's bounds check *)
Definition goindex {A} (l : list A) (i : Z) : go A :=
  if (0 <=? i) && (i <? zlen l)
  then match nth_error l (Z.to_nat i) with
       | Some x => Ret x
       | None => Panic PIndex
       end
  else Panic PIndex.

Definition slice {A} (l : list A) (i j : Z) : list A :=
  firstn (Z.to_nat (j - i)) (skipn (Z.to_nat i) l).

(* l[i:j] with Go's bounds check *)
Definition goslice {A} (l : list A) (i j : Z) : go (list A) :=
  if (0 <=? i) && (i <=? j) && (j <=? zlen l)
  then Ret (slice l i j)
  else Panic PIndex.

(* copy(w[start:], bs) when it fits *)
Definition put {A} (w : list A) (start : Z) (bs : list A) : list A :=
  firstn (Z.to_nat start) w ++ bs ++ skipn (Z.to_nat (start + zlen bs)) w.

Definition is_err {A} (o : option A) : bool :=
  match o with Some _ => true | None => false end.

(* Little-endian integers (encoding/binary LittleEndian.PutUint32/PutUint64). *)
Definition le32 (z : Z) : bytes :=
  [z mod 256; z / 256 mod 256; z / 65536 mod 256; z / 16777216 mod 256].

Definition le64 (z : Z) : bytes :=
  le32 (z mod 4294967296) ++ le32 (z / 4294967296 mod 4294967296).

#[global] Arguments le32 : simpl never.
#[global] Arguments le64 : simpl never.

(* LittleEndian.Uint32 *)
Definition rdu32 (l : bytes) : go Z :=
  match l with
  | a :: b :: c :: d :: _ => Ret (a + 256 * b + 65536 * c + 16777216 * d)
  | _ => Panic PIndex
  end.

(* reader.go:308-311 readi32 *)
Definition readi32 (l : bytes) : go Z :=
  x <- rdu32 l ;; Ret (i32 x).

(* LittleEndian.Uint64 *)
Definition rdu64 (l : bytes) : go Z :=
  lo <- rdu32 l ;;
  hi <- rdu32 (skipn 4 l) ;;
  Ret (lo + 4294967296 * hi).

(* ------------------------------------------------------------------ lemmas *)

Lemma zlen_nonneg {A} (l : list A) : 0 <= zlen l.
Proof. unfold zlen; lia. Qed.
Lemma zlen_nil {A} : zlen (@nil A) = 0.
Proof. reflexivity. Qed.
Lemma zlen_cons {A} (x : A) l : zlen (x :: l) = 1 + zlen l.
Proof. unfold zlen; cbn [length]; lia. Qed.
Lemma zlen_app {A} (l m : list A) : zlen (l ++ m) = zlen l + zlen m.
Proof. unfold zlen; rewrite app_length; lia. Qed.
Lemma zlen_map {A B} (f : A -> B) l : zlen (map f l) = zlen l.
Proof. unfold zlen; now rewrite map_length. Qed.
Lemma zlen_repeat {A} (x : A) n : zlen (repeat x n) = Z.of_nat n.
Proof. unfold zlen; now rewrite repeat_length. Qed.
Lemma zlen_le32 z : zlen (le32 z) = 4.
Proof. reflexivity. Qed.
Lemma zlen_le64 z : zlen (le64 z) = 8.
Proof. reflexivity. Qed.
Lemma zlen_zero {A} (l : list A) : zlen l = 0 -> l = [].
Proof. destruct l; [auto|]. rewrite zlen_cons. pose proof (zlen_nonneg l). lia. Qed.

Lemma to_nat_zlen {A} (l : list A) : Z.to_nat (zlen l) = length l.
Proof. unfold zlen; lia. Qed.

Ltac zlens :=
  repeat first [ rewrite zlen_cons | rewrite zlen_app | (match goal with |- context [zlen (@nil ?A)] => change (zlen (@nil A)) with 0 end)
               | rewrite zlen_le32 | rewrite zlen_le64 | rewrite zlen_map
               | rewrite zlen_repeat ].
Ltac zlens_in H :=
  repeat first [ rewrite zlen_cons in H | rewrite zlen_app in H | (match type of H with context [zlen (@nil ?A)] => change (zlen (@nil A)) with 0 in H end)
               | rewrite zlen_le32 in H | rewrite zlen_le64 in H | rewrite zlen_map in H
               | rewrite zlen_repeat in H ].
Ltac posl :=
  repeat match goal with
  | |- context [zlen ?l] =>
      lazymatch goal with
      | _ : 0 <= zlen l |- _ => fail
      | _ => pose proof (zlen_nonneg l)
      end
  | H : context [zlen ?l] |- _ =>
      lazymatch goal with
      | _ : 0 <= zlen l |- _ => fail
      | _ => pose proof (zlen_nonneg l)
      end
  end.
Ltac zl := zlens; repeat match goal with H : context [zlen _] |- _ => progress zlens_in H end;
           posl; lia.

Lemma goindex_app {A} (pre : list A) x post i :
  i = zlen pre -> goindex (pre ++ x :: post) i = Ret x.
Proof.
  intros ->. unfold goindex.
  replace ((0 <=? zlen pre) && (zlen pre <? zlen (pre ++ x :: post))) with true by zl.
  rewrite to_nat_zlen, nth_error_app2, Nat.sub_diag by lia. reflexivity.
Qed.

Lemma slice_app {A} (pre mid post : list A) i j :
  i = zlen pre -> j = zlen pre + zlen mid -> slice (pre ++ mid ++ post) i j = mid.
Proof.
  intros -> ->. unfold slice.
  replace (zlen pre + zlen mid - zlen pre) with (zlen mid) by lia.
  rewrite !to_nat_zlen, skipn_app, skipn_all, Nat.sub_diag. cbn.
  rewrite firstn_app, firstn_all, Nat.sub_diag. cbn. apply app_nil_r.
Qed.

Lemma goslice_app {A} (pre mid post : list A) i j :
  i = zlen pre -> j = zlen pre + zlen mid -> goslice (pre ++ mid ++ post) i j = Ret mid.
Proof.
  intros Hi Hj. unfold goslice.
  rewrite slice_app by assumption. subst.
  now replace ((0 <=? zlen pre) && (zlen pre <=? zlen pre + zlen mid)
           && (zlen pre + zlen mid <=? zlen (pre ++ mid ++ post))) with true by zl.
Qed.

Lemma goslice_inv {A} (l : list A) i j m :
  goslice l i j = Ret m ->
  0 <= i /\ i <= j /\ j <= zlen l /\ m = slice l i j /\ zlen m = j - i.
Proof.
  unfold goslice. destruct (_ && _) eqn:E; [|discriminate].
  intros H; inversion H; subst; clear H.
  repeat split; try lia.
  unfold slice, zlen in *. rewrite firstn_length, skipn_length. lia.
Qed.

Lemma goslice_ok {A} (l : list A) i j :
  0 <= i -> i <= j -> j <= zlen l -> goslice l i j = Ret (slice l i j).
Proof.
  intros. unfold goslice.
  now replace ((0 <=? i) && (i <=? j) && (j <=? zlen l)) with true by lia.
Qed.

Lemma slice_zlen {A} (l : list A) i j :
  0 <= i -> i <= j -> j <= zlen l -> zlen (slice l i j) = j - i.
Proof.
  intros. unfold slice, zlen in *. rewrite firstn_length, skipn_length. lia.
Qed.

Lemma goindex_ok {A} (l : list A) i :
  0 <= i < zlen l -> exists x, goindex l i = Ret x /\ nth_error l (Z.to_nat i) = Some x.
Proof.
  intros. unfold goindex.
  replace ((0 <=? i) && (i <? zlen l)) with true by lia.
  destruct (nth_error l (Z.to_nat i)) eqn:E; eauto.
  apply nth_error_None in E. unfold zlen in *. lia.
Qed.

Lemma split_at {A} (l : list A) i :
  0 <= i <= zlen l -> exists a b, l = a ++ b /\ zlen a = i.
Proof.
  intros. exists (firstn (Z.to_nat i) l), (skipn (Z.to_nat i) l).
  rewrite firstn_skipn. split; auto.
  unfold zlen in *. rewrite firstn_length. lia.
Qed.

Lemma put_app {A} (pre old post bs : list A) start :
  start = zlen pre -> zlen old = zlen bs -> put (pre ++ old ++ post) start bs = pre ++ bs ++ post.
Proof.
  intros -> Hl. unfold put.
  rewrite to_nat_zlen, firstn_app, firstn_all, Nat.sub_diag. cbn. rewrite app_nil_r.
  f_equal. f_equal.
  replace (Z.to_nat (zlen pre + zlen bs)) with (length (pre ++ old)).
  - rewrite app_assoc, skipn_app, skipn_all, Nat.sub_diag. reflexivity.
  - rewrite <- to_nat_zlen. zlens. lia.
Qed.

Lemma put_zlen {A} (w : list A) start bs :
  0 <= start -> start + zlen bs <= zlen w -> zlen (put w start bs) = zlen w.
Proof.
  intros. unfold put. zlens. unfold zlen in *. rewrite firstn_length, skipn_length. lia.
Qed.

Lemma le32_ok z : bytes_ok (le32 z).
Proof. unfold bytes_ok, le32, is_u8. repeat constructor; lia. Qed.

Lemma le64_ok z : bytes_ok (le64 z).
Proof. unfold le64, bytes_ok. apply Forall_app; split; apply le32_ok. Qed.

Lemma rdu32_le32 z tl : is_u32 z -> rdu32 (le32 z ++ tl) = Ret z.
Proof. unfold is_u32, le32. cbn [app rdu32]. intros. f_equal. lia. Qed.

Lemma rdu32_le32' z : is_u32 z -> rdu32 (le32 z) = Ret z.
Proof. intros. rewrite <- (app_nil_r (le32 z)). now apply rdu32_le32. Qed.

Lemma readi32_le32 z tl : is_i32 z -> readi32 (le32 (u32 z) ++ tl) = Ret z.
Proof.
  intros. unfold readi32. rewrite rdu32_le32 by apply u32_range. cbn.
  now rewrite i32_u32.
Qed.

Lemma readi32_le32' z : is_i32 z -> readi32 (le32 (u32 z)) = Ret z.
Proof. intros. rewrite <- (app_nil_r (le32 _)). now apply readi32_le32. Qed.

Lemma rdu64_le64 z tl : is_u64 z -> rdu64 (le64 z ++ tl) = Ret z.
Proof.
  intros H. unfold rdu64, le64. rewrite <- app_assoc.
  rewrite rdu32_le32 by (unfold is_u32; lia). cbn [bind].
  change (skipn 4 (le32 (z mod 4294967296) ++ ?x)) with x.
  rewrite rdu32_le32 by (unfold is_u32; lia). cbn [bind].
  f_equal. unfold is_u64 in H. lia.
Qed.

Lemma rdu64_le64' z : is_u64 z -> rdu64 (le64 z) = Ret z.
Proof. intros. rewrite <- (app_nil_r (le64 _)). now apply rdu64_le64. Qed.

Lemma rdu32_total l : 4 <= zlen l -> exists z, rdu32 l = Ret z.
Proof.
  intros. destruct l as [|a [|b [|c [|d l]]]]; unfold zlen in *; cbn in *; try lia. eauto.
Qed.

Lemma readi32_total l : 4 <= zlen l -> exists z, readi32 l = Ret z /\ is_i32 z.
Proof.
  intros H. destruct (rdu32_total l H) as [z E]. unfold readi32. rewrite E. cbn.
  eexists; split; eauto. apply i32_range.
Qed.

Lemma rdu32_inv l z : bytes_ok l -> rdu32 l = Ret z -> is_u32 z /\ firstn 4 l = le32 z.
Proof.
  intros Hb. destruct l as [|a [|b [|c [|d l]]]]; cbn [rdu32]; try discriminate.
  intros H. injection H as <-.
  apply Forall_cons_iff in Hb as [Ha H1]. apply Forall_cons_iff in H1 as [Hb' H2].
  apply Forall_cons_iff in H2 as [Hc H3]. apply Forall_cons_iff in H3 as [Hd _].
  unfold is_u8, is_u32, le32 in *. split; [lia|].
  cbn [firstn].
  assert (forall x y z w x1 y1 z1 w1 : Z, x = x1 -> y = y1 -> z = z1 -> w = w1 ->
    [x; y; z; w] = [x1; y1; z1; w1]) as K by (intros; congruence).
  apply K; lia.
Qed.

Lemma zlen_inj_app {A} (a b c d : list A) : a ++ b = c ++ d -> zlen a = zlen c -> a = c /\ b = d.
Proof.
  revert c. induction a as [|x a IH]; intros [|y c] H L; cbn in *.
  - auto.
  - exfalso. rewrite zlen_nil, zlen_cons in L. posl. lia.
  - exfalso. rewrite zlen_nil, zlen_cons in L. posl. lia.
  - inversion H; subst. rewrite !zlen_cons in L. destruct (IH c) as [-> ->]; auto; lia.
Qed.

Lemma le32_inj a b : is_u32 a -> is_u32 b -> le32 a = le32 b -> a = b.
Proof.
  intros Ha Hb H. pose proof (rdu32_le32' a Ha) as E. rewrite H, rdu32_le32' in E by auto.
  now inversion E.
Qed.
Lemma le64_inj a b : is_u64 a -> is_u64 b -> le64 a = le64 b -> a = b.
Proof.
  intros Ha Hb H. pose proof (rdu64_le64' a Ha) as E. rewrite H, rdu64_le64' in E by auto.
  now inversion E.
Qed.
