(* ObjectIDs: model of types/objectid.go and its proofs. *)
Require Import ZArith List Bool Lia ZifyBool ZifyNat.
From Verif Require Import Base BSpec Elements Value Api GetterProofs Sort.
Import ListNotations.
Open Scope Z_scope.

(* -------------------------------------------------------------------- model *)

(* types/objectid.go:47-49 Hex is hex in Sort.v. *)

(* encoding/hex reverseHexTable: the value of a hexadecimal digit of either case *)
Definition unhex (c : Z) : option Z :=
  if (48 <=? c) && (c <=? 57) then Some (c - 48) else
  if (97 <=? c) && (c <=? 102) then Some (c - 87) else
  if (65 <=? c) && (c <=? 70) then Some (c - 55) else None.
(* encoding/hex.Decode: the bytes decoded before the error, and the error.  Error 1 is
   InvalidByteError, 2 is ErrLength. *)
Fixpoint hex_decode (s : bytes) : bytes * option gerr :=
  match s with
  | [] => ([], None)
  | [p] => ([], Some (match unhex p with None => EOther 1 | Some _ => EOther 2 end))
  | p :: q :: r =>
      match unhex p, unhex q with
      | Some a, Some b => let '(d, e) := hex_decode r in ((a * 16 + b) :: d, e)
      | _, _ => ([], Some (EOther 1))
      end
  end.

Definition nil_oid : bytes := repeat 0 12.
(* types/objectid.go:62-77 ObjectIDFromHex; error 3 is ErrInvalidHex *)
Definition oid_from_hex (s : bytes) : bytes * option gerr :=
  match hex_decode s with
  | (_, Some e) => (nil_oid, Some e)
  | (b, None) => if zlen b =? 12 then (b, None) else (nil_oid, Some (EOther 3))
  end.

(* types/objectid.go:91-93 MarshalJSON: encoding/json quotes a string of hexadecimal digits
   without escaping *)
Definition oid_marshal_json (id : bytes) : bytes := 34 :: hex id ++ [34].

(* What encoding/json makes of a text decoded into an interface; only strings and objects
   are told apart. *)
Inductive jany := JStr (s : bytes) | JObj (m : list (bytes * jany)) | JOther.
Fixpoint jget (k : bytes) (m : list (bytes * jany)) : option jany :=
  match m with [] => None | (k', v) :: r => if bytes_eqb k' k then Some v else jget k r end.
Definition oid_key : bytes := [36; 111; 105; 100].  (* $oid *)

(* types/objectid.go:99-141 UnmarshalJSON: the id afterwards and the error.  json.Unmarshal
   is the parameter dec; error 4 is its error, 5 the errors made here. *)
Definition oid_unmarshal_json (dec : bytes -> option jany) (id b : bytes) : bytes * option gerr :=
  if zlen b =? 12 then (b, None) else
  let from str :=
    if zlen str =? 24 then let '(d, e) := hex_decode str in (put id 0 d, e) else (id, Some (EOther 5)) in
  match dec b with
  | None => (id, Some (EOther 4))
  | Some (JStr str) => from str
  | Some (JObj m) => match jget oid_key m with Some (JStr str) => from str | _ => (id, Some (EOther 5)) end
  | Some JOther => (id, Some (EOther 5))
  end.

(* types/objectid.go:53-55 IsZero *)
Definition oid_is_zero (id : bytes) : bool := bytes_eqb id nil_oid.

(* encoding/binary BigEndian.PutUint32; types/objectid.go:161-165 putUint24 *)
Definition be32 (z : Z) : bytes := [z / 16777216 mod 256; z / 65536 mod 256; z / 256 mod 256; z mod 256].
Definition be24 (z : Z) : bytes := [z / 65536 mod 256; z / 256 mod 256; z mod 256].

(* types/objectid.go:36-44 NewObjectID under any schedule.  A call reads the clock, then adds
   to the shared counter and builds its id; the two steps of concurrent calls interleave in
   any way and the clock moves on between any two steps. *)
Inductive oid_event :=
| Tick (seconds : nat)        (* the clock advances *)
| Start (caller : nat)        (* a call reads time.Now().Unix() *)
| Add (caller : nat).         (* the call does its atomic.AddUint32 and returns *)
Record oid_state := MkOid { o_clock : Z; o_counter : Z; o_stamp : list (nat * Z); o_out : list (Z * bytes) }.
Fixpoint stamp_of (c : nat) (l : list (nat * Z)) : option Z :=
  match l with [] => None | (c', t) :: r => if Nat.eqb c' c then Some t else stamp_of c r end.
(* o_out lists, oldest first, the second read and the id returned by every completed call. *)
Definition oid_step (unique : bytes) (s : oid_state) (e : oid_event) : oid_state :=
  match e with
  | Tick n => MkOid (o_clock s + Z.of_nat n) (o_counter s) (o_stamp s) (o_out s)
  | Start c => MkOid (o_clock s) (o_counter s) ((c, o_clock s) :: o_stamp s) (o_out s)
  | Add c =>
      match stamp_of c (o_stamp s) with
      | None => s                     (* not started *)
      | Some t =>
          let n := u32 (o_counter s + 1) in
          MkOid (o_clock s) n (filter (fun p => negb (Nat.eqb (fst p) c)) (o_stamp s))
            (o_out s ++ [(t, be32 (u32 t) ++ unique ++ be24 n)])
      end
  end.
Definition oid_run (unique : bytes) (s : oid_state) (es : list oid_event) : oid_state :=
  fold_left (oid_step unique) es s.
(* the state after the package is initialized: any counter, lines 33-34 *)
Definition oid_init (clock counter : Z) : oid_state := MkOid clock counter [] [].

(* ------------------------------------------------------------------- proofs *)

Lemma unhex_hex n : 0 <= n < 16 -> unhex (hex_digit n) = Some n.
Proof.
  intros H. unfold unhex, hex_digit. destruct (n <? 10) eqn:E.
  - replace ((48 <=? 48 + n) && (48 + n <=? 57)) with true by lia. f_equal. lia.
  - replace ((48 <=? 87 + n) && (87 + n <=? 57)) with false by lia.
    replace ((97 <=? 87 + n) && (87 + n <=? 102)) with true by lia. f_equal. lia.
Qed.
Lemma unhex_range c n : unhex c = Some n -> 0 <= n < 16.
Proof. unfold unhex. intros H. repeat (destruct (_ && _) eqn:? in H; [injection H as <-; lia|]). discriminate. Qed.
Lemma hex_cons x b : hex (x :: b) = hex_digit (x / 16) :: hex_digit (x mod 16) :: hex b.
Proof. reflexivity. Qed.
Lemma hex_length b : length (hex b) = (2 * length b)%nat.
Proof. induction b as [|x b IH]; [reflexivity|]. rewrite hex_cons. cbn [length]. lia. Qed.
Lemma hex_decode_hex b : bytes_ok b -> hex_decode (hex b) = (b, None).
Proof.
  induction 1 as [|x b Hx _ IH]; [reflexivity|]. rewrite hex_cons. unfold is_u8 in Hx.
  cbn [hex_decode]. rewrite !unhex_hex, IH by lia. f_equal. f_equal. lia.
Qed.

(* the strings hex.Decode accepts *)
Definition is_hex (c : Z) : Prop := exists n, unhex c = Some n.
Lemma hex_decode_ok n : forall s d, (length s <= n)%nat -> hex_decode s = (d, None) ->
  Forall is_hex s /\ length s = (2 * length d)%nat /\ bytes_ok d.
Proof.
  induction n as [|n IH]; intros s d L H.
  - destruct s; [|cbn in L; lia]. cbn in H. injection H as <-. repeat constructor.
  - destruct s as [|p [|q r]]; cbn [hex_decode] in H.
    + injection H as <-. repeat constructor.
    + discriminate.
    + destruct (unhex p) as [a|] eqn:Ep; [|discriminate]. destruct (unhex q) as [b|] eqn:Eq; [|discriminate].
      destruct (hex_decode r) as [d' e] eqn:Er. injection H as <- ->. cbn in L.
      destruct (IH r d' ltac:(lia) Er) as (F & Le & O). apply unhex_range in Ep as Rp, Eq as Rq.
      split; [repeat constructor; auto; eexists; eauto|]. split; [cbn [length]; lia|].
      constructor; [unfold is_u8; lia|exact O].
Qed.
Lemma hex_decode_total n : forall s, (length s <= n)%nat -> Forall is_hex s -> Nat.Even (length s) ->
  exists d, hex_decode s = (d, None).
Proof.
  induction n as [|n IH]; intros s L F E.
  - destruct s; [|cbn in L; lia]. eexists. reflexivity.
  - destruct s as [|p [|q r]]; [eexists; reflexivity|destruct E; cbn in *; lia|].
    inversion F as [|? ? [a Ha] F1]; subst. inversion F1 as [|? ? [b Hb] F2]; subst. cbn in L.
    destruct (IH r) as (d & Hd); [lia|auto|destruct E as [m E]; exists (m - 1)%nat; cbn in E; lia|].
    cbn [hex_decode]. rewrite Ha, Hb, Hd. eauto.
Qed.

(* -------------------------------------------------------- schedules: the ids given out *)

Lemma u32_mod z : u32 z = z mod 4294967296. Proof. reflexivity. Qed.
Lemma be32_inj a b : is_u32 a -> is_u32 b -> be32 a = be32 b -> a = b.
Proof. unfold is_u32, be32. intros Ha Hb H. injection H. lia. Qed.
Lemma be24_inj a b : be24 a = be24 b -> a mod 16777216 = b mod 16777216.
Proof. unfold be24. intros H. injection H. lia. Qed.

Lemma be24_mod a b : a mod 16777216 = b mod 16777216 -> be24 a = be24 b.
Proof.
  intros H. unfold be24.
  assert (E : forall z, z / 65536 mod 256 = z mod 16777216 / 65536 /\ z / 256 mod 256 = z mod 16777216 / 256 mod 256 /\
    z mod 256 = z mod 16777216 mod 256) by (intros; lia).
  destruct (E a) as (-> & -> & ->), (E b) as (-> & -> & ->). now rewrite H.
Qed.

(* The id of the k-th completed call *)
Definition the_id (unique : bytes) (base : Z) (k : nat) (t : Z) : bytes :=
  be32 (u32 t) ++ unique ++ be24 (u32 (base + Z.of_nat k + 1)).
(* every output is what it should be, in order *)
Definition oid_inv (unique : bytes) (base : Z) (s : oid_state) : Prop :=
  u32 (o_counter s) = u32 (base + Z.of_nat (length (o_out s))) /\
  forall k t id, nth_error (o_out s) k = Some (t, id) -> id = the_id unique base k t.
Lemma oid_inv_step unique base s e : oid_inv unique base s -> oid_inv unique base (oid_step unique s e).
Proof.
  intros [C K]. destruct e as [n|c|c]; cbn [oid_step]; try (split; assumption).
  destruct (stamp_of c (o_stamp s)) as [t|]; [|split; assumption]. split; cbn [o_counter o_out].
  - rewrite app_length. cbn [length]. unfold u32 in *. lia.
  - intros k t' id H. destruct (Nat.ltb_spec k (length (o_out s))).
    + rewrite nth_error_app1 in H by auto. eauto.
    + rewrite nth_error_app2 in H by auto.
      destruct (k - length (o_out s))%nat as [|m] eqn:E; cbn in H; [|destruct m; discriminate].
      injection H as <- <-. unfold the_id. replace k with (length (o_out s)) by lia.
      assert (u32 (o_counter s + 1) = u32 (base + Z.of_nat (length (o_out s)) + 1)) as -> by (unfold u32 in *; lia). reflexivity.
Qed.
Lemma oid_inv_run unique base es : forall s, oid_inv unique base s -> oid_inv unique base (oid_run unique s es).
Proof.
  unfold oid_run. induction es as [|e es IH]; intros s H; cbn; [exact H|]. apply IH. now apply oid_inv_step.
Qed.
Lemma oid_inv_init unique clock base : oid_inv unique base (oid_init clock base).
Proof. split; cbn; [f_equal; lia|]. intros k t id H. now destruct k. Qed.

(* two completed calls have the same id exactly when they read the same second and are a
   multiple of 2^24 calls apart *)
Lemma the_id_inj unique base k1 t1 k2 t2 : the_id unique base k1 t1 = the_id unique base k2 t2 <->
  u32 t1 = u32 t2 /\ (Z.of_nat k1 - Z.of_nat k2) mod 16777216 = 0.
Proof.
  unfold the_id. split.
  - intros H.
    assert (H1 : be32 (u32 t1) = be32 (u32 t2)) by (injection H; intros; unfold be32; congruence).
    apply be32_inj in H1; try apply u32_range.
    split; [exact H1|]. rewrite H1 in H. apply app_inv_head in H. apply app_inv_head in H.
    apply be24_inj in H. unfold u32 in H. lia.
  - intros [E M]. rewrite E. do 2 f_equal. apply be24_mod. unfold u32. lia.
Qed.

(* No call is held up between its two steps while the clock moves on. *)
Fixpoint prompt (s : oid_state) (unique : bytes) (es : list oid_event) : Prop :=
  match es with
  | [] => True
  | e :: r =>
      match e with
      | Add c => match stamp_of c (o_stamp s) with Some t => t = o_clock s | None => True end
      | _ => True
      end /\ prompt (oid_step unique s e) unique r
  end.
(* the stamps of the completed calls, in order of completion *)
Definition stamps (s : oid_state) : list Z := map fst (o_out s).
Fixpoint nondecreasing (l : list Z) : Prop :=
  match l with a :: ((b :: _) as r) => a <= b /\ nondecreasing r | _ => True end.
Lemma nondecreasing_app l x : nondecreasing l -> (forall y, In y l -> y <= x) -> nondecreasing (l ++ [x]).
Proof.
  induction l as [|a l IH]; cbn; intros N H; [auto|]. destruct l as [|b l]; cbn in *.
  - split; [apply H; auto|auto].
  - split; [apply N|]. apply IH; [apply N|]. intros y Hy. apply H. tauto.
Qed.
Lemma nondecreasing_between l : nondecreasing l -> forall i j a b, (i <= j)%nat ->
  nth_error l i = Some a -> nth_error l j = Some b -> a <= b.
Proof.
  induction l as [|x l IH]; intros N i j a b L Hi Hj; [now destruct i|].
  destruct l as [|y l].
  - destruct i as [|i]; cbn in Hi; [|destruct i; discriminate]. destruct j as [|j]; cbn in Hj; [|destruct j; discriminate].
    injection Hi as <-. injection Hj as <-. lia.
  - destruct N as [N1 N2]. destruct i as [|i], j as [|j]; cbn [nth_error] in Hi, Hj; try lia.
    + injection Hi as <-. injection Hj as <-. lia.
    + injection Hi as <-. pose proof (IH N2 0%nat j y b ltac:(lia) eq_refl Hj). lia.
    + apply (IH N2 i j); auto. lia.
Qed.
Lemma prompt_stamps unique es : forall s, prompt s unique es -> nondecreasing (stamps s) ->
  (forall y, In y (stamps s) -> y <= o_clock s) ->
  nondecreasing (stamps (oid_run unique s es)).
Proof.
  unfold oid_run. induction es as [|e es IH]; intros s P N L; cbn; [exact N|]. destruct P as [P1 P2].
  apply IH; [exact P2| |].
  - destruct e as [n|c|c]; cbn [oid_step]; auto. destruct (stamp_of c (o_stamp s)) as [t|]; [|auto].
    unfold stamps in *. cbn [o_out]. rewrite map_app. cbn. apply nondecreasing_app; auto. intros y Hy. subst t. auto.
  - destruct e as [n|c|c]; cbn [oid_step]; auto.
    + intros y Hy. cbn. specialize (L y Hy). lia.
    + destruct (stamp_of c (o_stamp s)) as [t|]; [|auto]. unfold stamps in *. cbn [o_out o_clock].
      intros y Hy. rewrite map_app in Hy. apply in_app_or in Hy as [Hy|[<-|[]]]; auto. cbn. lia.
Qed.

(* how many calls read second t *)
Definition in_second (t : Z) (l : list Z) : nat := length (filter (fun x => x =? t) l).
Lemma in_second_between l t : nondecreasing l -> forall i j, (i <= j)%nat ->
  nth_error l i = Some t -> nth_error l j = Some t -> (j - i < in_second t l)%nat.
Proof.
  unfold in_second. induction l as [|x l IH]; intros N i j L Hi Hj; [now destruct i|].
  assert (N' : nondecreasing l) by (destruct l; [auto|apply N]).
  destruct i as [|i].
  - cbn in Hi. injection Hi as ->. cbn [filter]. rewrite Z.eqb_refl. cbn [length].
    destruct j as [|j]; [lia|]. cbn in Hj. destruct l as [|y l]; [now destruct j|].
    pose proof (nondecreasing_between _ N' 0%nat j y t ltac:(lia) eq_refl Hj). destruct N as [N1 _].
    assert (y = t) by lia. subst y. specialize (IH N' 0%nat j ltac:(lia) eq_refl Hj). lia.
  - destruct j as [|j]; [lia|]. cbn in Hi, Hj. specialize (IH N' i j ltac:(lia) Hi Hj). cbn [filter].
    destruct (x =? t); cbn [length]; lia.
Qed.

(* outputs accumulate *)
Lemma oid_run_app unique s a b : oid_run unique s (a ++ b) = oid_run unique (oid_run unique s a) b.
Proof. apply fold_left_app. Qed.
