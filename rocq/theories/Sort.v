(* Document.Sorted: model of x_document.go:38-100, a specification of the order on BSON
   trees, and the proof that Sorted gives the stable sort. *)
Require Import ZArith List Bool Lia ZifyBool ZifyNat Permutation Sorted.
From Verif Require Import Base BSpec Elements Value Codec CodecRead Itoa CodecRep Api ApiProofs Tree
  GetterProofs ReaderOps CodecProps DocOps DocSpec DocProofs.
Import ListNotations.
Open Scope Z_scope.

(* -------------------------------------------------------------------- model *)

(* Go's < on strings *)
Fixpoint bytes_ltb (a b : bytes) : bool :=
  match a, b with
  | _, [] => false
  | [], _ :: _ => true
  | x :: r, y :: s => if x <? y then true else if y <? x then false else bytes_ltb r s
  end.

(* Go's < on float64, on the bits: false when either is a NaN; otherwise the order of the
   magnitudes with the sign, both zeros being equal *)
Definition is_nan (b : Z) : bool := 9218868437227405312 <? b mod 9223372036854775808.
Definition dkey (b : Z) : Z := if b <? 9223372036854775808 then b else 9223372036854775808 - b.
Definition dlt (a b : Z) : bool := negb (is_nan a) && negb (is_nan b) && (dkey a <? dkey b).

(* encoding/hex.EncodeToString, as types/objectid.go:47-49 ObjectID.Hex *)
Definition hex_digit (n : Z) : Z := if n <? 10 then 48 + n else 87 + n.
Definition hex (b : bytes) : bytes := flat_map (fun x => [hex_digit (x / 16); hex_digit (x mod 16)]) b.

(* x_document.go:41-72 Elements.Less *)
Definition e_less (a b : elem) : go bool :=
  ik <- elem_key a ;;
  jk <- elem_key b ;;
  if negb (bytes_eqb ik jk) then Ret (bytes_ltb ik jk) else
  match a, b with
  | Some va, Some vb =>
      it <- v_type va ;;
      jt <- v_type vb ;;
      if negb (it =? jt) then Ret (it <? jt) else
      if it =? 1 then x <- v_double a ;; y <- v_double b ;; Ret (dlt x y) else
      if it =? 2 then x <- v_string a ;; y <- v_string b ;; Ret (bytes_ltb x y) else
      if it =? 7 then x <- v_objectid a ;; y <- v_objectid b ;; Ret (bytes_ltb (hex x) (hex y)) else
      if it =? 9 then x <- v_time a ;; y <- v_time b ;; Ret (x <? y) else
      if it =? 16 then x <- v_int32 a ;; y <- v_int32 b ;; Ret (x <? y) else
      if it =? 18 then x <- v_int64 a ;; y <- v_int64 b ;; Ret (x <? y) else
      Ret false
  | _, _ => Panic PNil
  end.
(* Less as sort.Stable calls it; a panic in Less is outside the theorems below, which show
   it does not happen *)
Definition p_less (p q : ptr) : bool :=
  match p, q with
  | Some a, Some b => match e_less a b with Ret x => x | _ => false end
  | _, _ => false
  end.

(* x_constructor.go:34-40 DC.Elements *)
Definition dc_elements (grow : nat -> nat) (fuel : nat) (w : world) (ps : list ptr) : world * go res :=
  let '(w2, r) := exec grow fuel w (ONew (length ps)) in
  match r with
  | Ret (RDoc j) => let '(w3, r3) := exec grow fuel w2 (OAppend j ps) in
                    (w3, _ <- r3 ;; Ret (RDoc j))
  | _ => (w2, r)
  end.

(* x_document.go:94-100 Document.Sorted of the document i: Elements().Copy() is a new array,
   sort.Stable works on that array.  sort stands for sort.Stable. *)
Definition doc_sorted (grow : nat -> nat) (fuel : nat)
    (sort : (ptr -> ptr -> bool) -> list ptr -> list ptr) (w : world) (i : nat) : world * go res :=
  with_doc_at w i (fun d =>
    let sorted := sort p_less (elems w d) in
    dc_elements grow fuel (MkW (w_heap w ++ [sorted]) (w_docs w)) sorted).

(* ------------------------------------------------------------ specification *)

(* The contract of sort.Stable: for a strict weak order on the elements, the result is a
   permutation, nothing is less than an element before it, and elements that compare equal
   keep their order. *)
Definition swo_on {A} (l : list A) (lt : A -> A -> bool) : Prop :=
  (forall x, In x l -> lt x x = false) /\
  (forall x y z, In x l -> In y l -> In z l -> lt x y = true -> lt y z = true -> lt x z = true) /\
  (forall x y z, In x l -> In y l -> In z l -> lt x y = false -> lt y z = false -> lt x z = false).
Definition same {A} (lt : A -> A -> bool) (x y : A) : bool := negb (lt x y) && negb (lt y x).
Definition stable_sort_of {A} (lt : A -> A -> bool) (l out : list A) : Prop :=
  Permutation l out /\
  StronglySorted (fun x y => lt y x = false) out /\
  forall x, In x l -> filter (same lt x) out = filter (same lt x) l.
Definition sorts_stably {A} (sort : (A -> A -> bool) -> list A -> list A) : Prop :=
  forall lt l, swo_on l lt -> stable_sort_of lt l (sort lt l).

(* The order on fields: by key, then type, then value for numbers, strings, ObjectIDs and
   dates. *)
Definition val_lt (t u : bval) : bool :=
  match t, u with
  | BDouble a, BDouble b => dlt a b
  | BString a, BString b => bytes_ltb a b
  | BOid a, BOid b => bytes_ltb a b
  | BDateTime a, BDateTime b => a <? b
  | BInt32 a, BInt32 b => a <? b
  | BInt64 a, BInt64 b => a <? b
  | _, _ => false
  end.
Definition field_lt (x y : bytes * bval) : bool :=
  if bytes_eqb (fst x) (fst y) then
    if tag (snd x) =? tag (snd y) then val_lt (snd x) (snd y) else tag (snd x) <? tag (snd y)
  else bytes_ltb (fst x) (fst y).
Definition not_nan (x : bytes * bval) : Prop :=
  match snd x with BDouble b => is_nan b = false | _ => True end.

(* ------------------------------------------------------- lexicographic order *)

Lemma ltb_irrefl a : bytes_ltb a a = false.
Proof. induction a as [|x a IH]; [reflexivity|]. cbn. now rewrite Z.ltb_irrefl. Qed.
Lemma ltb_trans a : forall b c, bytes_ltb a b = true -> bytes_ltb b c = true -> bytes_ltb a c = true.
Proof.
  induction a as [|x a IH]; intros [|y b] [|z c]; cbn; try discriminate; auto.
  destruct (x <? y) eqn:E1; destruct (y <? z) eqn:E2; intros H1 H2.
  - now replace (x <? z) with true by lia.
  - destruct (z <? y) eqn:E3; [discriminate|]. now replace (x <? z) with true by lia.
  - destruct (y <? x) eqn:E3; [discriminate|]. now replace (x <? z) with true by lia.
  - destruct (y <? x) eqn:E3; [discriminate|]. destruct (z <? y) eqn:E4; [discriminate|].
    replace (x <? z) with false by lia. replace (z <? x) with false by lia. eauto.
Qed.
Lemma ltb_total a : forall b, bytes_ltb a b = false -> bytes_ltb b a = false -> a = b.
Proof.
  induction a as [|x a IH]; intros [|y b]; cbn; try discriminate; auto.
  destruct (x <? y) eqn:E1; [discriminate|]. destruct (y <? x) eqn:E2; [discriminate|].
  intros. f_equal; [lia|auto].
Qed.
Lemma ltb_neg_trans a b c : bytes_ltb a b = false -> bytes_ltb b c = false -> bytes_ltb a c = false.
Proof.
  intros H1 H2. destruct (bytes_ltb a c) eqn:E; [|reflexivity].
  destruct (bytes_ltb b a) eqn:E2.
  - now rewrite (ltb_trans b a c E2 E) in H2.
  - rewrite (ltb_total a b H1 E2) in E. congruence.
Qed.

Lemma ltb_sep k1 : forall k2 r1 r2, Forall (fun c => 0 <= c) k1 -> Forall (fun c => 0 <= c) k2 ->
  bytes_ltb (k1 ++ -1 :: r1) (k2 ++ -1 :: r2) =
  if bytes_eqb k1 k2 then bytes_ltb r1 r2 else bytes_ltb k1 k2.
Proof.
  induction k1 as [|x k1 IH]; intros [|y k2] r1 r2 F1 F2; cbn.
  - reflexivity.
  - inversion F2; subst. replace (-1 <? y) with true by lia. reflexivity.
  - inversion F1; subst. replace (x <? -1) with false by lia. replace (-1 <? x) with true by lia. reflexivity.
  - inversion F1; inversion F2; subst. rewrite IH by auto.
    destruct (Z.eqb_spec x y); cbn [andb].
    + subst. rewrite Z.ltb_irrefl. reflexivity.
    + destruct (x <? y) eqn:E1; [reflexivity|]. now replace (y <? x) with true by lia.
Qed.

(* fields are ordered by this list of numbers *)
Definition val_rank (t : bval) : list Z :=
  match t with
  | BDouble a => [dkey a]
  | BString a | BOid a => a
  | BDateTime a | BInt32 a | BInt64 a => [a]
  | _ => []
  end.
Definition rank (x : bytes * bval) : list Z := fst x ++ -1 :: tag (snd x) :: val_rank (snd x).

Lemma ltb_one a b : bytes_ltb [a] [b] = (a <? b).
Proof. cbn. destruct (a <? b); [auto|]. now destruct (b <? a). Qed.

Lemma field_lt_rank x y : wf_field x -> wf_field y -> not_nan x -> not_nan y ->
  field_lt x y = bytes_ltb (rank x) (rank y).
Proof.
  destruct x as [k1 t1], y as [k2 t2]. intros [[K1 _] _] [[K2 _] _] N1 N2. cbn [fst snd] in *.
  unfold field_lt, rank. cbn [fst snd]. rewrite ltb_sep.
  2,3: eapply Forall_impl; [|eassumption]; unfold is_u8; intros; lia.
  destruct (bytes_eqb k1 k2); [|reflexivity]. cbn [bytes_ltb].
  destruct (Z.eqb_spec (tag t1) (tag t2)) as [E|E].
  - rewrite E, Z.ltb_irrefl. destruct t1, t2; cbn in E; try discriminate; cbn [val_lt val_rank]; try reflexivity;
      try (symmetry; apply ltb_one).
    unfold dlt, not_nan in *. cbn in N1, N2. rewrite N1, N2. symmetry. apply ltb_one.
  - destruct (tag t1 <? tag t2) eqn:E1; [reflexivity|]. now replace (tag t2 <? tag t1) with true by lia.
Qed.

Lemma swo_ext {A} (l : list A) (lt : A -> A -> bool) (r : A -> list Z) :
  (forall x y, In x l -> In y l -> lt x y = bytes_ltb (r x) (r y)) -> swo_on l lt.
Proof.
  intros H. split; [|split].
  - intros x Hx. rewrite H by auto. apply ltb_irrefl.
  - intros x y z Hx Hy Hz. rewrite !H by auto. apply ltb_trans.
  - intros x y z Hx Hy Hz. rewrite !H by auto. apply ltb_neg_trans.
Qed.

Lemma field_lt_swo fs : wf_fields fs -> Forall not_nan fs -> swo_on fs field_lt.
Proof.
  intros W N. apply (swo_ext _ _ rank). unfold wf_fields in W. rewrite Forall_forall in *.
  intros x y Hx Hy. apply field_lt_rank; auto.
Qed.

(* ------------------------------------------------------------------ the model *)

Lemma hex_digit_lt a b : 0 <= a < 16 -> 0 <= b < 16 -> (hex_digit a <? hex_digit b) = (a <? b).
Proof. intros. unfold hex_digit. destruct (a <? 10) eqn:E1, (b <? 10) eqn:E2; lia. Qed.
Lemma hex_ltb a : forall b, bytes_ok a -> bytes_ok b -> bytes_ltb (hex a) (hex b) = bytes_ltb a b.
Proof.
  induction a as [|x a IH]; intros [|y b] A B; try reflexivity.
  inversion A as [|? ? X A']; inversion B as [|? ? Y B']; subst. unfold is_u8 in *.
  change (hex (x :: a)) with (hex_digit (x / 16) :: hex_digit (x mod 16) :: hex a).
  change (hex (y :: b)) with (hex_digit (y / 16) :: hex_digit (y mod 16) :: hex b).
  assert (0 <= x / 16 < 16 /\ 0 <= y / 16 < 16) as [X1 Y1] by lia.
  assert (0 <= x mod 16 < 16 /\ 0 <= y mod 16 < 16) as [X2 Y2] by lia.
  cbn [bytes_ltb]. rewrite !hex_digit_lt by auto. rewrite IH by auto.
  destruct (x <? y) eqn:E1.
  - destruct (x / 16 <? y / 16) eqn:E2; [reflexivity|]. replace (y / 16 <? x / 16) with false by lia.
    now replace (x mod 16 <? y mod 16) with true by lia.
  - replace (x / 16 <? y / 16) with false by lia. destruct (y <? x) eqn:E3.
    + destruct (y / 16 <? x / 16) eqn:E2; [reflexivity|].
      replace (x mod 16 <? y mod 16) with false by lia. now replace (y mod 16 <? x mod 16) with true by lia.
    + replace (y / 16 <? x / 16) with false by lia. replace (x mod 16 <? y mod 16) with false by lia.
      now replace (y mod 16 <? x mod 16) with false by lia.
Qed.

Lemma e_less_rep k1 v1 t1 k2 v2 t2 : rep k1 v1 t1 -> rep k2 v2 t2 -> wf t1 -> wf t2 ->
  e_less (Some v1) (Some v2) = Ret (field_lt (k1, t1) (k2, t2)).
Proof.
  intros R1 R2 W1 W2. unfold e_less, field_lt. cbn [fst snd].
  rewrite (elem_key_rep _ _ _ R1), (elem_key_rep _ _ _ R2). cbn [bind].
  destruct (bytes_eqb k1 k2); cbn [negb]; [|reflexivity].
  rewrite (rep_type _ _ _ R1), (rep_type _ _ _ R2). cbn [bind].
  destruct (Z.eqb_spec (tag t1) (tag t2)) as [E|E]; cbn [negb]; [|reflexivity].
  assert (S : tag t1 <> 3 -> tag t1 <> 4 -> tag t1 <> 15 ->
    exists p1 q1 p2 q2, v1 = lz p1 k1 t1 q1 /\ lzfits p1 k1 t1 q1 /\ v2 = lz p2 k2 t2 q2 /\ lzfits p2 k2 t2 q2).
  { intros H3 H4 H15. destruct (rep_scalar _ _ _ R1 H3 H4 H15) as (p1 & q1 & A1 & B1).
    rewrite E in *. destruct (rep_scalar _ _ _ R2 H3 H4 H15) as (p2 & q2 & A2 & B2). exists p1, q1, p2, q2. auto. }
  destruct t1, t2; cbn [tag] in E; try discriminate; cbn [tag Z.eqb Pos.eqb val_lt]; try reflexivity;
    destruct S as (p1 & q1 & p2 & q2 & -> & L1 & -> & L2); try (cbn; discriminate); cbn [wf] in W1, W2.
  - rewrite !v_double_lz by auto. reflexivity.
  - rewrite !v_string_lz by auto. reflexivity.
  - rewrite !v_objectid_lz by tauto. cbn [bind]. rewrite hex_ltb by tauto. reflexivity.
  - unfold v_time. rewrite !v_datetime_lz by auto. cbn [bind]. f_equal.
    pose proof (Z.quot_rem' ms 1000). pose proof (Z.quot_rem' ms0 1000). lia.
  - rewrite !v_int32_lz by auto. reflexivity.
  - rewrite !v_int64_lz by auto. reflexivity.
Qed.

(* ------------------------------------------------- uniqueness, and an instance *)

Lemma swo_incl {A} (l l' : list A) lt : (forall x, In x l' -> In x l) -> swo_on l lt -> swo_on l' lt.
Proof. intros I (H1 & H2 & H3). split; [|split]; intros; eauto. Qed.

Lemma stable_unique {A} (lt : A -> A -> bool) l : forall o1 o2,
  swo_on l lt -> stable_sort_of lt l o1 -> stable_sort_of lt l o2 -> o1 = o2.
Proof.
  intros o1 o2 W (P1 & S1 & F1) (P2 & S2 & F2).
  assert (F : forall x, In x o1 -> filter (same lt x) o1 = filter (same lt x) o2).
  { intros x Hx. rewrite F1, F2; auto; eapply Permutation_in; try eassumption; now symmetry. }
  assert (P : Permutation o1 o2) by (transitivity l; [now symmetry|auto]).
  assert (W1 : swo_on o1 lt) by (eapply swo_incl; [|exact W]; intros; eapply Permutation_in; [symmetry; exact P1|auto]).
  clear W P1 P2 F1 F2. revert o2 P S2 F. induction o1 as [|h1 t1 IH]; intros [|h2 t2] P S2 F.
  - reflexivity.
  - now apply Permutation_nil in P.
  - symmetry in P. now apply Permutation_nil in P.
  - inversion S1 as [|? ? S1' M1]; inversion S2 as [|? ? S2' M2]; subst.
    assert (I2 : In h2 (h1 :: t1)) by (eapply Permutation_in; [symmetry; exact P|now left]).
    assert (I1 : In h1 (h2 :: t2)) by (eapply Permutation_in; [exact P|now left]).
    assert (Ir : lt h1 h1 = false) by (apply W1; now left).
    assert (E : h1 = h2).
    { specialize (F h1 (or_introl eq_refl)). cbn [filter] in F.
      assert (Q1 : same lt h1 h1 = true) by (unfold same; now rewrite Ir).
      assert (Q2 : same lt h1 h2 = true).
      { unfold same. destruct I1 as [E|I1]; [subst h2; now rewrite Ir|].
        destruct I2 as [E|I2]; [subst h2; now rewrite Ir|].
        rewrite Forall_forall in M1, M2. now rewrite (M1 _ I2), (M2 _ I1). }
      rewrite Q1, Q2 in F. congruence. }
    subst h2. f_equal. apply IH; auto.
    + eapply swo_incl; [|exact W1]. intros; now right.
    + now apply Permutation_cons_inv in P.
    + intros x Hx. specialize (F x (or_intror Hx)). cbn [filter] in F.
      destruct (same lt x h1); [congruence|auto].
Qed.

Fixpoint insert {A} (lt : A -> A -> bool) (x : A) (l : list A) : list A :=
  match l with
  | [] => [x]
  | y :: r => if lt y x then y :: insert lt x r else x :: l
  end.
Fixpoint isort {A} (lt : A -> A -> bool) (l : list A) : list A :=
  match l with [] => [] | x :: r => insert lt x (isort lt r) end.

Lemma insert_perm {A} lt (x : A) l : Permutation (x :: l) (insert lt x l).
Proof.
  induction l as [|y l IH]; cbn; [auto|]. destruct (lt y x); [|auto].
  rewrite perm_swap. now rewrite IH.
Qed.
Lemma isort_perm {A} lt (l : list A) : Permutation l (isort lt l).
Proof. induction l as [|x l IH]; cbn; [auto|]. rewrite <- insert_perm. now rewrite <- IH. Qed.

Lemma insertion_sort_is_stable {A} : sorts_stably (@isort A).
Proof.
  intros lt l W. split; [apply isort_perm|]. induction l as [|x l IH].
  - split; [constructor|]. reflexivity.
  - assert (W' : swo_on l lt) by (eapply swo_incl; [|exact W]; intros; now right).
    destruct (IH W') as [S F]. clear IH. cbn [isort].
    assert (In_ : forall y, In y (isort lt l) -> In y l) by (intros; eapply Permutation_in; [symmetry; apply isort_perm|eauto]).
    revert S F In_. generalize (isort lt l) as o. intros o S F In_. split.
    + clear F. induction o as [|y o IH]; cbn [insert]; [repeat constructor|].
      inversion S as [|? ? S' M]; subst. destruct W as (W1 & W2 & W3).
      assert (Hx : In x (x :: l)) by now left. assert (Hy : In y (x :: l)) by (right; apply In_; now left).
      destruct (lt y x) eqn:E.
      * constructor; [apply IH; auto; intros; apply In_; now right|].
        assert (Q : Forall (fun z => lt z y = false) (x :: o)).
        { constructor; [|auto]. destruct (lt x y) eqn:E2; [|reflexivity].
          pose proof (W2 x y x Hx Hy Hx E2 E) as Q. rewrite (W1 x Hx) in Q. discriminate. }
        eapply Permutation_Forall; [apply insert_perm|exact Q].
      * constructor; [constructor; auto|]. constructor; [auto|]. rewrite Forall_forall in *. intros z Hz.
        apply (W3 z y x); auto. right. apply In_. now right.
    + intros z Hz. destruct W as (W1 & W2 & W3).
      assert (G : filter (same lt z) (insert lt x o) = filter (same lt z) (x :: o)).
      { clear F S. induction o as [|y o IH]; [reflexivity|]. cbn [insert].
        assert (Hx : In x (x :: l)) by now left. assert (Hy : In y (x :: l)) by (right; apply In_; now left).
        destruct (lt y x) eqn:E; [|reflexivity].
        cbn [filter]. rewrite IH by (intros; apply In_; now right). cbn [filter].
        destruct (same lt z x) eqn:E1, (same lt z y) eqn:E2; auto. exfalso. unfold same in *.
        assert (lt z x = false /\ lt x z = false /\ lt z y = false /\ lt y z = false) as (A1 & A2 & A3 & A4) by (destruct (lt z x), (lt x z), (lt z y), (lt y z); auto).
        now rewrite (W3 y z x) in E. }
      rewrite G. cbn [filter]. destruct Hz as [->|Hz].
      * destruct (existsb (same lt z) l) eqn:Ex.
        -- apply existsb_exists in Ex as (y & Hy & Ey). assert (Fe : forall u, In u l -> same lt z u = same lt y u).
           { intros u Hu. unfold same in *.
             assert (Hz : In z (z :: l)) by now left. assert (Hy' : In y (z :: l)) by now right.
             assert (Hu' : In u (z :: l)) by now right.
             assert (lt z y = false /\ lt y z = false) as (A1 & A2) by (destruct (lt z y), (lt y z); auto).
             assert (Q : forall a b c, In a (z :: l) -> In b (z :: l) -> In c (z :: l) -> lt a b = false -> lt b a = false -> lt a c = lt b c /\ lt c a = lt c b).
             { intros a b c Ha Hb Hc L1 L2. split.
               - destruct (lt a c) eqn:B1, (lt b c) eqn:B2; auto; exfalso.
                 + rewrite (W3 a b c) in B1; auto; discriminate.
                 + rewrite (W3 b a c) in B2; auto; discriminate.
               - destruct (lt c a) eqn:B1, (lt c b) eqn:B2; auto; exfalso.
                 + rewrite (W3 c b a) in B1; auto; discriminate.
                 + rewrite (W3 c a b) in B2; auto; discriminate. }
             destruct (Q z y u) as [-> ->]; auto. }
           rewrite (filter_ext_in (same lt z) (same lt y) o) by (intros; apply Fe; auto).
           rewrite (filter_ext_in (same lt z) (same lt y) l) by (intros; apply Fe; auto).
           rewrite F by auto. reflexivity.
        -- assert (N : forall o2 : list A, (forall y, In y o2 -> In y l) -> filter (same lt z) o2 = []).
           { induction o2 as [|y o2 IH]; intros Ho; [reflexivity|]. cbn. destruct (same lt z y) eqn:Ey.
             - assert (existsb (same lt z) l = true) by (apply existsb_exists; exists y; split; [apply Ho; now left|auto]). congruence.
             - apply IH. intros; apply Ho; now right. }
           rewrite (N o), (N l) by auto. reflexivity.
      * rewrite F by auto. reflexivity.
Qed.

(* ------------------------------------------------------------------ transfer *)

(* the pointer p shows the field x *)
Definition pfield (p : ptr) (x : bytes * bval) : Prop :=
  exists v, p = Some (Some v) /\ rep (fst x) v (snd x) /\ wf_field x /\ zlen (enc_elem (fst x) (snd x)) < 2147483648 - 5.

Lemma pfield_fun p x y : pfield p x -> pfield p y -> x = y.
Proof.
  intros (v & -> & R1 & [[B1 K1] W1] & L1) (v' & E & R2 & [[B2 K2] W2] & L2). injection E as <-.
  destruct x as [k1 t1], y as [k2 t2]. cbn [fst snd] in *.
  pose proof (elem_key_rep _ _ _ R1) as Q1. pose proof (elem_key_rep _ _ _ R2) as Q2.
  set (fuel := S (Z.to_nat (zlen (enc_body t1) + zlen (enc_body t2)))).
  assert (M1 := elem_marshal_rep fuel k1 v t1 R1 W1 ltac:(lia) ltac:(unfold fuel; posl; lia)).
  assert (M2 := elem_marshal_rep fuel k2 v t2 R2 W2 ltac:(lia) ltac:(unfold fuel; posl; lia)).
  assert (M : enc_elem k1 t1 = enc_elem k2 t2) by congruence.
  destruct (C07_encoding_injective_and_self_delimiting [(k1, t1)] [(k2, t2)] [] []) as [E _].
  - constructor; [|constructor]. repeat split; auto.
  - constructor; [|constructor]. repeat split; auto.
  - unfold small, enc_doc, enc_frame. cbn [enc_elems]. rewrite app_nil_r. zlens. posl. lia.
  - unfold small, enc_doc, enc_frame. cbn [enc_elems]. rewrite app_nil_r. zlens. posl. lia.
  - unfold enc_doc. cbn [enc_elems]. rewrite !app_nil_r. now rewrite M.
  - now injection E as -> ->.
Qed.

Lemma p_less_pfield p q x y : pfield p x -> pfield q y -> p_less p q = field_lt x y.
Proof.
  intros (v & -> & R1 & [_ W1] & _) (v' & -> & R2 & [_ W2] & _). destruct x as [k1 t1], y as [k2 t2].
  cbn [p_less]. now rewrite (e_less_rep _ _ _ _ _ _ R1 R2 W1 W2).
Qed.

Lemma Forall2_in_l {A B} (R : A -> B -> Prop) l m x : Forall2 R l m -> In x l -> exists y, In y m /\ R x y.
Proof. induction 1; intros []; subst; [eauto using in_eq|]. destruct IHForall2 as (? & ? & ?); auto. eauto using in_cons. Qed.
Lemma Forall2_in_r {A B} (R : A -> B -> Prop) l m y : Forall2 R l m -> In y m -> exists x, In x l /\ R x y.
Proof. induction 1; intros []; subst; [eauto using in_eq|]. destruct IHForall2 as (? & ? & ?); auto. eauto using in_cons. Qed.
Lemma Forall2_filter {A B} (R : A -> B -> Prop) f g l m :
  (forall x y, R x y -> f x = g y) -> Forall2 R l m -> Forall2 R (filter f l) (filter g m).
Proof. intros H. induction 1; cbn; [auto|]. rewrite (H _ _ H0). destruct (g y); auto. Qed.
Lemma Forall2_fun {A B} (R : A -> B -> Prop) l : forall m m',
  (forall x y y', R x y -> R x y' -> y = y') -> Forall2 R l m -> Forall2 R l m' -> m = m'.
Proof.
  induction l as [|x l IH]; intros m m' F H1 H2; inversion H1; inversion H2; subst; [auto|]. f_equal; eauto.
Qed.

Lemma sort_transfer sort ps fs : sorts_stably sort -> Forall2 pfield ps fs -> swo_on fs field_lt ->
  exists fs', Forall2 pfield (sort p_less ps) fs' /\ stable_sort_of field_lt fs fs'.
Proof.
  intros C R W.
  assert (Wp : swo_on ps p_less).
  { destruct W as (W1 & W2 & W3).
    assert (G : forall p, In p ps -> exists x, In x fs /\ pfield p x) by (intros; eapply Forall2_in_l; eauto).
    split; [|split].
    - intros p Hp. destruct (G p Hp) as (x & Hx & Rx). rewrite (p_less_pfield p p x x) by auto. auto.
    - intros p q r Hp Hq Hr. destruct (G p Hp) as (x & Hx & Rx), (G q Hq) as (y & Hy & Ry), (G r Hr) as (z & Hz & Rz).
      rewrite (p_less_pfield p q x y), (p_less_pfield q r y z), (p_less_pfield p r x z) by auto. eauto.
    - intros p q r Hp Hq Hr. destruct (G p Hp) as (x & Hx & Rx), (G q Hq) as (y & Hy & Ry), (G r Hr) as (z & Hz & Rz).
      rewrite (p_less_pfield p q x y), (p_less_pfield q r y z), (p_less_pfield p r x z) by auto. eauto. }
  destruct (C p_less ps Wp) as (P & S & F). set (out := sort p_less ps) in *. clearbody out.
  destruct (Permutation_Forall2 P R) as (fs' & P' & R'). exists fs'. split; [exact R'|]. split; [exact P'|]. split.
  - clear - S R'. induction R' as [|p x ps fs' Rp R IH]; [constructor|]. inversion S as [|? ? S' M]; subst.
    constructor; [auto|]. apply Forall_forall. intros y Hy.
    destruct (Forall2_in_r _ _ _ _ R Hy) as (q & Hq & Rq). rewrite Forall_forall in M.
    rewrite <- (p_less_pfield q p y x); auto.
  - intros x Hx. destruct (Forall2_in_r _ _ _ _ R Hx) as (p & Hp & Rp).
    assert (Q : forall q y, pfield q y -> same p_less p q = same field_lt x y).
    { intros q y Rq. unfold same. now rewrite (p_less_pfield p q x y), (p_less_pfield q p y x) by auto. }
    apply (Forall2_fun pfield (filter (same p_less p) ps)).
    + intros; eapply pfield_fun; eauto.
    + rewrite <- F by auto. apply Forall2_filter; auto.
    + apply Forall2_filter; auto.
Qed.

(* ------------------------------------------------------------------- the heap *)

Lemma inv_heap w s a : inv w s -> inv (MkW (w_heap w ++ [a]) (w_docs w)) s.
Proof.
  intros (L & D & H). split; [exact L|]. split; [exact D|]. intros i d Hd. destruct (H i d Hd) as (x & Hx & G).
  exists x. split; [exact Hx|]. destruct G as (G1 & G2 & G3 & G4). unfold good, elems in *. cbn [w_heap].
  rewrite h_arr_app by auto. rewrite app_length. cbn. repeat split; auto; try lia; apply G4.
Qed.

Lemma before_nil_some l : before_nil (map Some l) = l /\ any_nil (map Some l) = false.
Proof. induction l as [|e l [E IH]]; [auto|]. cbn. split; [now f_equal|exact IH]. Qed.

Lemma dc_elements_refines grow fuel w s l : inv w s -> Forall keyed l ->
  exists w', dc_elements grow fuel w (map Some l) = (w', Ret (RDoc (length s))) /\ inv w' (s ++ [MkS l None]).
Proof.
  intros I K. unfold dc_elements.
  pose proof (exec_refines grow fuel w s (ONew (length (map (@Some elem) l))) I Logic.I) as H. cbn [s_exec] in H.
  unfold ptr. destruct (exec grow fuel w _) as [w2 r]. destruct H as [I2 A]. cbn in A.
  destruct r as [r| |]; try contradiction. destruct r; try contradiction; try discriminate. injection A as ->.
  pose proof (exec_refines grow fuel w2 _ (OAppend (length s) (map Some l)) I2) as H. cbn [s_exec] in H.
  specialize (H ltac:(cbn; apply Forall_map; eapply Forall_impl; [|exact K]; auto)).
  unfold s_at in H. rewrite nth_error_app2, Nat.sub_diag in H by lia. cbn [nth_error] in H.
  unfold s_append in H. destruct (before_nil_some l) as [Eb Ea]. rewrite Eb, Ea in H. cbn [s_elems app] in H.
  unfold ptr in H. destruct (exec grow fuel w2 _) as [w3 r3]. destruct H as [I3 A3]. cbn in A3.
  destruct r3 as [r3| |]; try contradiction. cbn [bind]. exists w3. split; [reflexivity|].
  unfold s_put, replace_at in I3. rewrite firstn_app, firstn_all, Nat.sub_diag in I3. cbn [firstn] in I3.
  rewrite app_nil_r, skipn_all2 in I3 by (rewrite app_length; cbn; lia). exact I3.
Qed.

Lemma doc_sorted_refines grow fuel sort w s i x l' : inv w s -> nth_error s i = Some x ->
  sort p_less (map Some (s_elems x)) = map Some l' -> Forall keyed l' ->
  exists w', doc_sorted grow fuel sort w i = (w', Ret (RDoc (length s))) /\ inv w' (s ++ [MkS l' None]).
Proof.
  intros I Hx Es K. unfold doc_sorted, with_doc_at.
  destruct (inv_at w s i x I Hx) as (d & Hd & (_ & _ & G & _)). rewrite Hd.
  unfold some in G. rewrite G, Es. cbv zeta. apply dc_elements_refines; auto. now apply inv_heap.
Qed.
