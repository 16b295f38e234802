(* Proofs about x/ftdc: the delta codec, the base collector, reading back. *)
Require Import ZArith List Bool Lia ZifyBool ZifyNat.
From Verif Require Import Base BSpec Elements Value Codec CodecRead Itoa CodecRep Api ApiProofs Tree
  GetterProofs ReaderOps CodecProps DocOps Stream Search FtdcSpec Ftdc.
Import ListNotations.
Open Scope Z_scope.

(* ------------------------------------------------------------------- integers *)

Lemma i64_id z : is_i64 z -> i64 z = z.
Proof. unfold is_i64, i64. intros. rewrite Z.mod_small by lia. lia. Qed.
Lemma u64_id z : is_u64 z -> u64 z = z.
Proof. unfold is_u64, u64. intros. now rewrite Z.mod_small by lia. Qed.
Lemma is_i64_i64 z : is_i64 (i64 z).
Proof. unfold is_i64, i64. pose proof (Z.mod_pos_bound (z + 9223372036854775808) 18446744073709551616 ltac:(lia)). lia. Qed.
Lemma is_u64_u64 z : is_u64 (u64 z).
Proof. unfold is_u64, u64. apply Z.mod_pos_bound. lia. Qed.
Lemma i64_eq a b : (a - b) mod 18446744073709551616 = 0 -> i64 a = i64 b.
Proof.
  intros H. unfold i64. f_equal. apply Z.mod_divide in H; [|lia]. destruct H as (q & H).
  replace (a + 9223372036854775808) with (b + 9223372036854775808 + q * 18446744073709551616) by lia.
  now rewrite Z.mod_add by lia.
Qed.
Lemma i64_u64 z : i64 (u64 z) = i64 z.
Proof.
  apply i64_eq. unfold u64. rewrite Zminus_mod, Zmod_mod, <- Zminus_mod, Z.sub_diag. reflexivity.
Qed.
Lemma u64_i64 z : u64 (i64 z) = u64 z.
Proof.
  unfold u64, i64. rewrite Zminus_mod, Zmod_mod, <- Zminus_mod. f_equal. lia.
Qed.
Lemma i64_add_sub a b : is_i64 b -> i64 (a + i64 (b - a)) = b.
Proof.
  intros H. rewrite <- (i64_id b) at 2 by auto. rewrite <- i64_u64. unfold i64 at 2.
  replace (a + ((b - a + 9223372036854775808) mod 18446744073709551616 - 9223372036854775808))
    with ((b - a + 9223372036854775808) mod 18446744073709551616 + (a - 9223372036854775808)) by lia.
  unfold u64. rewrite Zplus_mod, Zmod_mod, <- Zplus_mod.
  replace (b - a + 9223372036854775808 + (a - 9223372036854775808)) with b by lia. apply i64_u64.
Qed.
Lemma i64_i64_add a b : i64 (i64 a + b) = i64 (a + b).
Proof.
  apply i64_eq. unfold i64.
  replace ((a + 9223372036854775808) mod 18446744073709551616 - 9223372036854775808 + b - (a + b))
    with ((a + 9223372036854775808) mod 18446744073709551616 - (a + 9223372036854775808)) by lia.
  rewrite Zminus_mod, Zmod_mod, <- Zminus_mod, Z.sub_diag. reflexivity.
Qed.

(* -------------------------------------------------------------------- uvarint *)

Lemma uv_read_put n : forall x i acc s r, 0 <= i -> s = 7 * i -> i + Z.of_nat n = 10 -> 0 <= x < 2 ^ (64 - s) ->
  uv_read i acc s (uv_put n x ++ r) = inl (acc + x * 2 ^ s, r).
Proof.
  induction n as [|n IH]; intros x i acc s r Hi Hs Hn Hx.
  - assert (Q : 64 - s = -6) by lia. rewrite Q in Hx. change (2 ^ -6) with 0 in Hx. lia.
  - assert (P : 2 ^ (64 - s) * 2 ^ s = 18446744073709551616).
    { rewrite <- Z.pow_add_r by lia. now replace (64 - s + s) with 64 by lia. }
    assert (0 < 2 ^ s) by (apply Z.pow_pos_nonneg; lia).
    cbn [uv_put]. destruct (x <? 128) eqn:E.
    + cbn [app uv_read]. replace (i =? 10) with false by lia. rewrite E.
      replace ((i =? 9) && (1 <? x)) with false.
      * rewrite u64_id; [reflexivity|]. unfold is_u64. nia.
      * destruct (Z.eqb_spec i 9); [|reflexivity]. assert (Q : 64 - s = 1) by lia. rewrite Q in Hx.
        change (2 ^ 1) with 2 in Hx. lia.
    + cbn [app uv_read]. replace (i =? 10) with false by lia.
      pose proof (Z.mod_pos_bound x 128 ltac:(lia)).
      replace (x mod 128 + 128 <? 128) with false by lia.
      replace ((x mod 128 + 128) mod 128) with (x mod 128)
        by (replace (x mod 128 + 128) with (x mod 128 + 1 * 128) by lia; rewrite Z.mod_add by lia; now rewrite Zmod_mod).
      assert (S7 : s + 7 <= 64).
      { destruct (Z.le_gt_cases (s + 7) 64); auto. assert (Q : 64 - s = 1) by lia. rewrite Q in Hx.
        change (2 ^ 1) with 2 in Hx. lia. }
      pose proof (Z.div_mod x 128 ltac:(lia)) as D. pose proof (Z.div_pos x 128 ltac:(lia) ltac:(lia)).
      rewrite IH; try lia.
      * rewrite u64_id by (unfold is_u64; nia). rewrite Z.pow_add_r by lia. change (2 ^ 7) with 128. f_equal. f_equal. nia.
      * split; [lia|]. apply Z.div_lt_upper_bound; [lia|].
        replace 128 with (2 ^ 7) by reflexivity. rewrite <- Z.pow_add_r by lia. now replace (7 + (64 - (s + 7))) with (64 - s) by lia.
Qed.
Lemma read_encode v r : read_uvarint (encode_value v ++ r) = inl (u64 v, r).
Proof.
  unfold read_uvarint, encode_value. rewrite uv_read_put; try lia.
  - f_equal. f_equal. lia.
  - apply is_u64_u64.
Qed.

(* ------------------------------------------------------------- runs of zeros *)

Lemma get_deltas_app a : forall b nz l,
  get_deltas (a + b) nz l =
  match get_deltas a nz l with
  | inl (ds, nz', l') =>
      match get_deltas b nz' l' with inl (es, nz'', l'') => inl (ds ++ es, nz'', l'') | inr e => inr e end
  | inr e => inr e
  end.
Proof.
  induction a as [|a IH]; intros b nz l; cbn [Nat.add get_deltas].
  - destruct (get_deltas b nz l) as [[[es nz''] l'']|]; reflexivity.
  - assert (N : forall d nz l,
      match get_deltas (a + b) nz l with inl (ds, nz', l') => inl (i64 d :: ds, nz', l') | inr e => inr e end =
      match match get_deltas a nz l with inl (ds, nz', l') => inl (i64 d :: ds, nz', l') | inr e => inr e end with
      | inl (ds, nz', l') =>
          match get_deltas b nz' l' with inl (es, nz'', l'') => inl (ds ++ es, nz'', l'') | inr e => inr e end
      | inr e => inr e
      end).
    { intros d z k. rewrite IH. destruct (get_deltas a z k) as [[[ds nz'] l']|]; [|reflexivity].
      destruct (get_deltas b nz' l') as [[[es nz''] l'']|]; reflexivity. }
    destruct (negb (nz =? 0)); [apply N|].
    destruct (read_uvarint l) as [[d l1]|]; [|reflexivity].
    destruct (d =? 0); [|apply N]. destruct (read_uvarint l1) as [[z l2]|]; [apply N|reflexivity].
Qed.
Lemma get_zeros k : forall l, get_deltas k (Z.of_nat k) l = inl (repeat 0 k, 0, l).
Proof.
  induction k as [|k IH]; intros l; [reflexivity|]. cbn [get_deltas].
  replace (negb (Z.of_nat (S k) =? 0)) with true by lia.
  replace (Z.of_nat (S k) - 1) with (Z.of_nat k) by lia. now rewrite IH.
Qed.
Lemma get_run k l : (0 < k)%nat -> Z.of_nat k <= 18446744073709551616 ->
  get_deltas k 0 (encode_value 0 ++ encode_value (Z.of_nat k - 1) ++ l) = inl (repeat 0 k, 0, l).
Proof.
  intros P B. destruct k as [|k]; [lia|]. cbn [get_deltas]. cbn [Z.eqb negb]. rewrite read_encode.
  change (u64 0) with 0. cbn [Z.eqb]. rewrite read_encode, u64_id by (unfold is_u64; lia).
  replace (Z.of_nat (S k) - 1) with (Z.of_nat k) by lia. now rewrite get_zeros.
Qed.
Lemma get_one d l : is_i64 d -> d <> 0 -> get_deltas 1 0 (encode_value d ++ l) = inl ([d], 0, l).
Proof.
  intros I N. cbn [get_deltas Z.eqb negb]. rewrite read_encode.
  destruct (Z.eqb_spec (u64 d) 0) as [E|E].
  - exfalso. apply N. rewrite <- (i64_id d), <- i64_u64, E by auto. reflexivity.
  - rewrite i64_u64, i64_id by auto. reflexivity.
Qed.

(* What the writer makes of pending zeros and deltas, the reader gives back. *)
Lemma get_put ds : forall z r, Forall is_i64 ds -> Z.of_nat z + zlen ds <= 18446744073709551616 ->
  get_deltas (z + length ds) 0 (put_deltas (Z.of_nat z) ds ++ r) = inl (repeat 0 z ++ ds, 0, r).
Proof.
  induction ds as [|d ds IH]; intros z r F B; cbn [put_deltas length].
  - rewrite Nat.add_0_r, app_nil_r. destruct (0 <? Z.of_nat z) eqn:E.
    + rewrite <- app_assoc. zlens_in B. change (zlen (@nil Z)) with 0 in B. apply get_run; lia.
    + assert (z = O) by lia. subst. reflexivity.
  - zlens_in B. posl. inversion_clear F as [|? ? Id F']. destruct (Z.eqb_spec d 0).
    + subst d. replace (z + S (length ds))%nat with (S z + length ds)%nat by lia.
      replace (Z.of_nat z + 1) with (Z.of_nat (S z)) by lia. rewrite IH by (auto; lia). f_equal. f_equal. f_equal.
      change (0 :: ds) with ([0] ++ ds). rewrite app_assoc. f_equal. change [0] with (repeat 0 1).
      rewrite <- repeat_app. f_equal. lia.
    + rewrite get_deltas_app.
      assert (A : get_deltas z 0 (((if 0 <? Z.of_nat z then encode_value 0 ++ encode_value (Z.of_nat z - 1) else []) ++
        encode_value d ++ put_deltas 0 ds) ++ r) = inl (repeat 0 z, 0, encode_value d ++ put_deltas 0 ds ++ r)).
      { destruct (0 <? Z.of_nat z) eqn:E.
        - rewrite <- !app_assoc. apply get_run; lia.
        - assert (z = O) by lia. subst. cbn. now rewrite <- app_assoc. }
      rewrite A. change (S (length ds)) with (1 + length ds)%nat. rewrite get_deltas_app, get_one by auto.
      specialize (IH O r F' ltac:(lia)). change (Z.of_nat 0) with 0 in IH. cbn [Nat.add repeat app] in IH. rewrite IH. reflexivity.
Qed.

(* ------------------------------------------------------------------- columns *)

Lemma get_deltas_length n : forall nz l ds nz' r, get_deltas n nz l = inl (ds, nz', r) -> length ds = n.
Proof.
  induction n as [|n IH]; intros nz l ds nz' r; cbn [get_deltas].
  - now injection 1 as <- <- <-.
  - assert (N : forall d nz l, match get_deltas n nz l with inl (ds, nz', l') => inl (i64 d :: ds, nz', l') | inr e => inr e end
      = inl (ds, nz', r) -> length ds = S n).
    { intros d z k. destruct (get_deltas n z k) as [[[ds' z'] k']|] eqn:E; [|discriminate].
      injection 1 as <- <- <-. cbn. f_equal. eapply IH; eauto. }
    destruct (negb (nz =? 0)); [apply N|].
    destruct (read_uvarint l) as [[d l1]|]; [|discriminate].
    destruct (d =? 0); [|apply N]. destruct (read_uvarint l1) as [[z l2]|]; [apply N|discriminate].
Qed.
Definition with_deltas (m : metric) (ds : list Z) : metric :=
  MkM (m_path m) (m_key m) (m_start m) (m_type m)
    (if m_type m =? 1 then undelta_floats (m_start m) ds else undelta (m_start m) ds).
Lemma get_metrics_cols n : forall ms cols nz l nz' r, Forall (fun c => length c = n) cols -> length cols = length ms ->
  get_deltas (length (concat cols)) nz l = inl (concat cols, nz', r) ->
  get_metrics n nz ms l = inl (map (fun p => with_deltas (fst p) (snd p)) (combine ms cols)).
Proof.
  induction ms as [|m ms IH]; intros [|c cols] nz l nz' r F L G; cbn [length] in L; try discriminate; [reflexivity|].
  inversion_clear F as [|? ? Lc F']. cbn [concat] in G. rewrite app_length, get_deltas_app, Lc in G. cbn [get_metrics].
  destruct (get_deltas n nz l) as [[[ds z] l1]|] eqn:G1; [|discriminate].
  destruct (get_deltas (length (concat cols)) z l1) as [[[es z2] l2]|] eqn:G2; [|discriminate].
  injection G as G Ez El. apply get_deltas_length in G1.
  assert (ds = c /\ es = concat cols) as [-> ->].
  { assert (A : firstn n (ds ++ es) = firstn n (c ++ concat cols)) by now rewrite G.
    assert (B : skipn n (ds ++ es) = skipn n (c ++ concat cols)) by now rewrite G.
    rewrite !firstn_app, !skipn_app in *. rewrite G1, Lc, Nat.sub_diag in *. cbn [firstn skipn] in *.
    rewrite !app_nil_r in A. rewrite !firstn_all2 in A by lia. rewrite !skipn_all2 in B by lia. auto. }
  rewrite (IH cols z l1 z2 l2) by (auto; lia). reflexivity.
Qed.

(* ---------------------------------------------------------- the base collector *)

Lemma nth_firstn_lt {A} (d : A) n : forall l p, (p < n)%nat -> nth p (firstn n l) d = nth p l d.
Proof. induction n as [|n IH]; intros [|a l] [|p] H; cbn; auto; try lia. apply IH. lia. Qed.
Lemma nth_skipn' {A} (d : A) n : forall l p, nth p (skipn n l) d = nth (n + p) l d.
Proof. induction n as [|n IH]; intros [|a l] p; cbn; auto. now destruct p. Qed.

Section Base.
Variable nan : Z -> Z -> Z.
Notation fsub := (fsub nan).
Notation x_delta := (x_delta nan).
Notation fill := (fill nan).
Notation b_add := (b_add nan).

Definition x0 : Z * nval := (0, NI 0).
Definition xok (x : Z * nval) : Prop := match snd x with ND _ => fst x = 1 | NI _ => fst x <> 1 end.
(* the difference stored for two samples of a metric *)
Definition dl (a b : Z * nval) : Z :=
  match snd a, snd b with ND a, ND b => i64 (fsub a b) | NI a, NI b => i64 (a - b) | _, _ => 0 end.
Fixpoint diffs (l : list (Z * nval)) : list Z :=
  match l with
  | a :: r => match r with b :: _ => dl b a :: diffs r | [] => [] end
  | [] => []
  end.
Definition col (i : nat) (xs : list (list (Z * nval))) := map (fun x => nth i x x0) xs.

Lemma diffs_app l a b : diffs (l ++ [a] ++ [b]) = diffs (l ++ [a]) ++ [dl b a].
Proof.
  induction l as [|c l IH]; [reflexivity|]. destruct l as [|e l]; [reflexivity|].
  change (diffs ((c :: e :: l) ++ [a] ++ [b])) with (dl e c :: diffs ((e :: l) ++ [a] ++ [b])). now rewrite IH.
Qed.
Lemma diffs_length l : length (diffs l) = pred (length l).
Proof.
  induction l as [|a l IH]; [reflexivity|]. destruct l as [|b l]; [reflexivity|].
  change (diffs (a :: b :: l)) with (dl b a :: diffs (b :: l)). cbn [length] in *. lia.
Qed.
Lemma dl_i64 a b : is_i64 (dl a b).
Proof. unfold dl. destruct (snd a), (snd b); try apply is_i64_i64; unfold is_i64; lia. Qed.
Lemma diffs_i64 l : Forall is_i64 (diffs l).
Proof.
  induction l as [|a l IH]; [constructor|]. destruct l as [|b l]; [constructor|].
  change (diffs (a :: b :: l)) with (dl b a :: diffs (b :: l)). constructor; auto using dl_i64.
Qed.
Lemma x_delta_ok a b : xok a -> xok b -> fst a = fst b -> x_delta (snd a) (snd b) = Ret (dl a b).
Proof. unfold xok, dl, Ftdc.x_delta. destruct (snd a), (snd b); intros; try reflexivity; congruence. Qed.

Lemma nth_put (l : list Z) i d p : 0 <= i < zlen l ->
  nth p (put l i [d]) 0 = if Z.of_nat p =? i then d else nth p l 0.
Proof.
  intros H. unfold put. unfold zlen in *. cbn [length].
  assert (L : length (firstn (Z.to_nat i) l) = Z.to_nat i) by (rewrite firstn_length; lia).
  destruct (Z.eqb_spec (Z.of_nat p) i).
  - subst i. rewrite app_nth2 by lia. rewrite L. replace (p - Z.to_nat (Z.of_nat p))%nat with O by lia. reflexivity.
  - destruct (Nat.lt_ge_cases p (Z.to_nat i)).
    + rewrite app_nth1 by lia. apply nth_firstn_lt. lia.
    + rewrite app_nth2 by lia. rewrite L. destruct (p - Z.to_nat i)%nat as [|q] eqn:Q; [lia|]. cbn [app nth].
      rewrite nth_skipn'. f_equal. lia.
Qed.

Lemma fill_spec max num : forall cur prev idx ds, length cur = length prev -> Forall xok cur -> Forall xok prev ->
  0 <= num < max -> 0 <= idx -> (idx + zlen cur) * max <= zlen ds ->
  exists ds', fill max num idx cur prev ds =
      (ds', Ret (if list_eq_dec Z.eq_dec (map fst cur) (map fst prev) then None else Some e_schema)) /\
    zlen ds' = zlen ds /\
    (forall p, (forall i, idx <= i -> Z.of_nat p <> i * max + num) -> nth p ds' 0 = nth p ds 0) /\
    (map fst cur = map fst prev -> forall i, (i < length cur)%nat ->
       nth (Z.to_nat ((idx + Z.of_nat i) * max + num)) ds' 0 = dl (nth i cur x0) (nth i prev x0)).
Proof.
  induction cur as [|a cur IH]; intros [|b prev] idx ds L Fc Fp Hn Hi Hd; cbn [length] in L; try discriminate.
  - exists ds. cbn [Ftdc.fill map]. destruct (list_eq_dec Z.eq_dec [] []); [|congruence].
    repeat split; auto. intros _ i Hl. cbn in Hl. lia.
  - inversion_clear Fc as [|? ? Oa Fc']. inversion_clear Fp as [|? ? Ob Fp']. zlens_in Hd. posl.
    destruct a as [ta va], b as [tb vb]. cbn [Ftdc.fill map fst].
    destruct (Z.eqb_spec ta tb) as [E|E]; cbn [negb].
    + subst tb. pose proof (x_delta_ok (ta, va) (ta, vb) Oa Ob eq_refl) as X. cbn [snd] in X. rewrite X.
      assert (Ho : 0 <= idx * max + num < zlen ds) by nia.
      unfold store. replace ((idx * max + num <? 0) || (zlen ds <=? idx * max + num)) with false by lia.
      destruct (IH prev (idx + 1) (put ds (idx * max + num) [dl (ta, va) (ta, vb)])) as (ds' & Ef & Lf & Nf & Tf); auto; try lia.
      { rewrite put_zlen by (zlens; lia). nia. }
      exists ds'. rewrite Ef. rewrite put_zlen in Lf by (zlens; lia). repeat split; auto.
      * f_equal. f_equal. destruct (list_eq_dec Z.eq_dec (map fst cur) (map fst prev)) as [Q|Q],
          (list_eq_dec Z.eq_dec (ta :: map fst cur) (ta :: map fst prev)) as [R|R]; try reflexivity; exfalso; [now rewrite Q in R|].
        injection R. auto.
      * intros p Hp. rewrite Nf by (intros i Hi'; apply Hp; lia). rewrite nth_put by auto.
        replace (Z.of_nat p =? idx * max + num) with false; [reflexivity|]. specialize (Hp idx ltac:(lia)). lia.
      * intros R i Hi'. injection R as R. destruct i as [|i].
        -- cbn [nth]. rewrite Nf.
           ++ rewrite nth_put by auto. replace (Z.of_nat (Z.to_nat ((idx + Z.of_nat 0) * max + num)) =? idx * max + num) with true; [reflexivity|].
              rewrite Z2Nat.id by nia. lia.
           ++ intros i Hi2. rewrite Z2Nat.id by nia. nia.
        -- cbn [nth]. rewrite <- Tf by (auto; cbn [length] in Hi'; lia). do 3 f_equal. lia.
    + exists ds. repeat split; auto.
      * f_equal. f_equal. destruct (list_eq_dec Z.eq_dec (ta :: map fst cur) (tb :: map fst prev)); [|reflexivity]. congruence.
      * intros R. congruence.
Qed.

(* What the collector holds after accepting the samples xs of documents whose first is
   ref. *)
Definition binv (c : better) (md : option document) (ref : document) (start : Z) (xs : list (list (Z * nval))) : Prop :=
  match xs with
  | [] => False
  | x :: _ =>
      b_meta c = md /\ b_ref c = Some ref /\ b_start c = start /\ b_last c = Some (last xs []) /\
      b_num c = zlen xs - 1 /\ 0 <= b_num c <= b_max c /\ zlen (b_deltas c) = b_max c * zlen x /\
      Forall (fun y => map fst y = map fst x /\ Forall xok y) xs /\
      forall i j, (i < length x)%nat -> (j < pred (length xs))%nat ->
        nth (Z.to_nat (Z.of_nat i * b_max c + Z.of_nat j)) (b_deltas c) 0 = nth j (diffs (col i xs)) 0
  end.

Lemma x_value_ok t : Forall xok (x_value t).
Proof.
  induction t using bval_ind'; cbn [x_value]; try (now constructor); try (now repeat constructor; unfold xok; cbn).
  - induction H as [|[k v] r Hv Hr IH]; [constructor|]. apply Forall_app. auto.
  - induction H as [|v r Hv Hr IH]; [constructor|]. apply Forall_app. auto.
Qed.
Lemma x_fields_ok fs : Forall xok (x_fields fs).
Proof. induction fs as [|[k v] r IH]; cbn; [constructor|]. apply Forall_app. auto using x_value_ok. Qed.

Lemma b_add_first fuel now c es fs : b_ref c = None -> b_num c = 0 -> 0 <= b_max c -> obs_doc fuel es = Ret fs ->
  exists c', b_add fuel now c es = (c', Ret None) /\ b_max c' = b_max c /\
    binv c' (b_meta c) es now [x_fields fs].
Proof.
  intros R N M O. unfold Ftdc.b_add. rewrite R, O. cbv zeta.
  replace (b_max c * zlen (x_fields fs) <? 0) with false by (posl; nia).
  eexists. split; [reflexivity|]. split; [reflexivity|]. cbn. rewrite N. repeat split; auto; try lia.
  - unfold zeros, zlen. rewrite repeat_length. nia.
  - repeat constructor. apply x_fields_ok.
Qed.

Lemma b_add_next fuel now c md ref start xs es fs : binv c md ref start xs -> obs_doc fuel es = Ret fs ->
  exists c', b_max c' = b_max c /\
  if b_max c <=? zlen xs - 1 then
    b_add fuel now c es = (c', Ret (Some e_overfull)) /\ binv c' md ref start xs
  else if list_eq_dec Z.eq_dec (map fst (x_fields fs)) (map fst (hd [] xs)) then
    b_add fuel now c es = (c', Ret None) /\ binv c' md ref start (xs ++ [x_fields fs])
  else
    b_add fuel now c es = (c', Ret (Some e_schema)) /\ binv c' md ref start xs.
Proof.
  intros I O. destruct xs as [|x xs]; [contradiction|]. pose proof I as I0.
  destruct I as (Hm & Hr & Hs & Hl & Hn & Hb & Hd & Hf & Hx). unfold Ftdc.b_add. rewrite Hr, <- Hn.
  destruct (Z.leb_spec (b_max c) (b_num c)) as [Q|Q]; [eauto|]. rewrite O, Hl. cbv zeta. cbn [hd].
  set (y := last (x :: xs) []) in *. set (z := x_fields fs) in *.
  assert (Iy : In y (x :: xs)).
  { unfold y. rewrite (app_removelast_last (l := x :: xs) []) at 2 by discriminate. apply in_or_app. right. now left. }
  rewrite Forall_forall in Hf. destruct (Hf y Iy) as (Ty & Oy).
  assert (Ly : length y = length x) by (rewrite <- (map_length fst y), Ty; apply map_length).
  destruct (Z.eqb_spec (zlen z) (zlen y)) as [E|E]; cbn [negb].
  - assert (Lz : length z = length y) by (unfold zlen in E; lia).
    destruct (fill_spec (b_max c) (b_num c) z y 0 (b_deltas c)) as (ds' & Ef & Lf & Nf & Tf); auto; try lia.
    { apply x_fields_ok. }
    { rewrite Hd, E. unfold zlen. rewrite Ly. lia. }
    rewrite Ef, Ty. rewrite Ty in Tf.
    assert (Old : forall i j, (i < length x)%nat -> (j < length xs)%nat ->
      nth (Z.to_nat (Z.of_nat i * b_max c + Z.of_nat j)) ds' 0 = nth j (diffs (col i (x :: xs))) 0).
    { intros i j Hi Hj. rewrite Nf; [apply Hx; auto|]. intros i' Hi'. rewrite Z2Nat.id by nia.
      zlens_in Hn. unfold zlen in Hn. intros A.
      assert (Hjn : Z.of_nat j < b_num c) by lia.
      assert (b_max c * (Z.of_nat i - i') = b_num c - Z.of_nat j) by lia. 
      assert (0 < Z.of_nat i - i') by nia. nia. }
    destruct (list_eq_dec Z.eq_dec (map fst z) (map fst x)) as [T|T].
    + eexists. split; [|split; [reflexivity|]]; [reflexivity|]. cbn [binv app b_meta b_ref b_start b_last b_num b_max b_deltas].
      repeat split; auto; try lia.
      * f_equal. change (x :: xs ++ [z]) with ((x :: xs) ++ [z]). now rewrite last_last.
      * zlens_in Hn. zlens. lia.
      * apply Forall_forall. intros w Hw. change (x :: xs ++ [z]) with ((x :: xs) ++ [z]) in Hw.
        apply in_app_or in Hw as [Hw|[<-|[]]]; [auto|]. split; [exact T|apply x_fields_ok].
      * intros i j Hi Hj. cbn [length] in Hj. rewrite app_length in Hj. cbn [length pred] in Hj.
        change (x :: xs ++ [z]) with ((x :: xs) ++ [z]).
        assert (Ec : col i ((x :: xs) ++ [z]) = col i (removelast (x :: xs)) ++ [nth i y x0] ++ [nth i z x0]).
        { unfold col. rewrite (app_removelast_last (l := x :: xs) []) at 1 by discriminate. fold y.
          rewrite !map_app. cbn [map]. now rewrite <- app_assoc. }
        rewrite Ec, diffs_app. 
        assert (Eo : col i (removelast (x :: xs)) ++ [nth i y x0] = col i (x :: xs)).
        { unfold col. rewrite (app_removelast_last (l := x :: xs) []) at 2 by discriminate. fold y.
          rewrite !map_app. reflexivity. }
        rewrite Eo.
        assert (Ld : length (diffs (col i (x :: xs))) = length xs).
        { rewrite diffs_length. unfold col. rewrite map_length. reflexivity. }
        destruct (Nat.lt_ge_cases j (length xs)) as [A|A].
        -- rewrite app_nth1 by lia. auto.
        -- assert (j = length xs) by lia. subst j. rewrite app_nth2 by lia. rewrite Ld, Nat.sub_diag. cbn [nth].
           rewrite <- Tf by (auto; lia). f_equal. zlens_in Hn. unfold zlen in Hn. f_equal. lia.
    + eexists. split; [|split; [reflexivity|]]; [reflexivity|]. cbn [binv b_meta b_ref b_start b_last b_num b_max b_deltas].
      repeat split; auto; try lia. now apply Forall_forall.
  - destruct (list_eq_dec Z.eq_dec (map fst z) (map fst x)) as [T|T]; [|eauto].
    exfalso. apply E. unfold zlen. rewrite Ly, <- (map_length fst z), T, map_length. reflexivity.
Qed.

(* --------------------------------------------------------------------- payload *)

Definition columns (xs : list (list (Z * nval))) : list (list Z) :=
  map (fun i => diffs (col i xs)) (seq 0 (length (hd [] xs))).

Lemma mapM_map {A B} (f : A -> go B) g l : (forall x, In x l -> f x = Ret (g x)) -> mapM f l = Ret (map g l).
Proof.
  induction l as [|a l IH]; intros H; [reflexivity|]. cbn. rewrite (H a) by now left. cbn.
  change ((fix go (l : list A) : Base.go (list B) := match l with [] => Ret [] | x :: r => y <- f x;; rs <- go r;; Ret (y :: rs) end) l) with (mapM f l).
  rewrite IH; [reflexivity|]. intros x Hx. apply H. now right.
Qed.
Lemma goindex_nth (l : list Z) i : 0 <= i < zlen l -> goindex l i = Ret (nth (Z.to_nat i) l 0).
Proof.
  intros H. destruct (goindex_ok l i H) as (x & -> & E). f_equal. symmetry. now apply nth_error_nth.
Qed.
Lemma map_nth_seq (l : list Z) : map (fun j => nth j l 0) (seq 0 (length l)) = l.
Proof.
  induction l as [|a l IH]; [reflexivity|]. cbn [length seq map nth]. f_equal. rewrite <- seq_shift, map_map. exact IH.
Qed.
Lemma flat_map_map {A B C} (f : A -> list B) (g : B -> C) l : map g (flat_map f l) = concat (map (fun x => map g (f x)) l).
Proof. induction l as [|a l IH]; [reflexivity|]. cbn. now rewrite map_app, IH. Qed.

Lemma columns_read c md ref start xs : binv c md ref start xs ->
  mapM (goindex (b_deltas c)) (offsets (b_max c) (b_num c) (zlen (last xs []))) = Ret (concat (columns xs)).
Proof.
  intros I. destruct xs as [|x xs]; [contradiction|]. destruct I as (Hm & Hr & Hs & Hl & Hn & Hb & Hd & Hf & Hx).
  assert (Iy : In (last (x :: xs) []) (x :: xs)).
  { rewrite (app_removelast_last (l := x :: xs) []) at 2 by discriminate. apply in_or_app. right. now left. }
  rewrite Forall_forall in Hf. destruct (Hf _ Iy) as (Ty & _).
  assert (Ly : zlen (last (x :: xs) []) = zlen x) by (unfold zlen; rewrite <- (map_length fst (last _ _)), Ty, map_length; reflexivity).
  rewrite Ly. zlens_in Hn.
  rewrite (mapM_map _ (fun o => nth (Z.to_nat o) (b_deltas c) 0)).
  - f_equal. unfold offsets. rewrite flat_map_map. f_equal. unfold columns. cbn [hd]. rewrite to_nat_zlen.
    apply map_ext_in. intros i Hi. apply in_seq in Hi. rewrite map_map.
    rewrite <- (map_nth_seq (diffs (col i (x :: xs)))). rewrite diffs_length. unfold col at 2. rewrite map_length.
    replace (Z.to_nat (b_num c)) with (pred (length (x :: xs))) by (unfold zlen in *; cbn; lia).
    apply map_ext_in. intros j Hj. apply in_seq in Hj. apply Hx; lia.
  - intros o Ho. unfold offsets in Ho. apply in_flat_map in Ho as (i & Hi & Ho). apply in_map_iff in Ho as (j & <- & Hj).
    apply in_seq in Hi. apply in_seq in Hj. apply goindex_nth. rewrite Hd. unfold zlen in *. nia.
Qed.
End Base.

(* -------------------------------------------------------------- leaves and sizes *)

Definition xleaf (l : leaf) : Z * nval :=
  (leaf_type l, match l with LDouble b => ND b | LDate i => NI (epoch_ms (ms_time i)) | l => NI (leaf_int l) end).
Definition start_of (l : leaf) : Z :=
  match l with
  | LDouble b => i64 b | LDate i => epoch_ms (ms_time i) | LSec t => i64 (t * 1000) | l => leaf_int l
  end.

Lemma leaves_doc fs : leaves (BDoc fs) = doc_leaves fs.
Proof. cbn. unfold doc_leaves. induction fs as [|[k v] r IH]; cbn; [|rewrite IH]; reflexivity. Qed.
Lemma leaves_array vs : leaves (BArray vs) = flat_map leaves vs.
Proof. cbn. induction vs as [|v r IH]; cbn; [|rewrite IH]; reflexivity. Qed.

Lemma x_value_leaves t : x_value t = map xleaf (leaves t).
Proof.
  induction t using bval_ind'; cbn [x_value leaves]; try reflexivity.
  - induction H as [|[k v] r Hv Hr IH]; [reflexivity|]. cbn [snd] in Hv. now rewrite map_app, Hv, IH.
  - induction H as [|v r Hv Hr IH]; [reflexivity|]. now rewrite map_app, Hv, IH.
Qed.
Lemma x_fields_leaves fs : x_fields fs = map xleaf (doc_leaves fs).
Proof.
  unfold doc_leaves. induction fs as [|[k v] r IH]; cbn; [reflexivity|]. now rewrite map_app, x_value_leaves, IH.
Qed.
Lemma schema_x fs : map fst (x_fields fs) = schema fs.
Proof. rewrite x_fields_leaves, map_map. reflexivity. Qed.

Definition mstart (m : metric) := (m_type m, m_start m).
Lemma m_value_leaves t : forall key path,
  map mstart (m_value key path t) = map (fun l => (leaf_type l, start_of l)) (leaves t).
Proof.
  induction t using bval_ind'; intros key path; cbn [m_value leaves]; try reflexivity.
  - rewrite map_map. cbn [m_type m_start].
    change (fun x => mstart (MkM (path ++ [key]) (m_key x) (m_start x) (m_type x) [])) with mstart.
    induction H as [|[k v] r Hv Hr IH]; [reflexivity|]. cbn [snd] in Hv. now rewrite !map_app, Hv, IH.
  - generalize O. induction H as [|v r Hv Hr IH]; intros i; [reflexivity|]. now rewrite !map_app, Hv, IH.
Qed.
Lemma m_fields_leaves path fs : map mstart (m_fields path fs) = map (fun l => (leaf_type l, start_of l)) (doc_leaves fs).
Proof.
  unfold doc_leaves. induction fs as [|[k v] r IH]; cbn; [reflexivity|]. now rewrite !map_app, m_value_leaves, IH.
Qed.
Lemma m_fields_length path fs : length (m_fields path fs) = length (doc_leaves fs).
Proof. rewrite <- (map_length mstart), m_fields_leaves. apply map_length. Qed.

Lemma leaves_swap t : leaves (swapd t) = leaves t.
Proof.
  induction t using bval_ind'; try reflexivity.
  - rewrite swapd_doc, !leaves_doc. unfold doc_leaves, swapf.
    induction H as [|[k v] r Hv Hr IH]; [reflexivity|]. cbn in *. now rewrite Hv, IH.
  - rewrite swapd_array, !leaves_array. induction H as [|v r Hv Hr IH]; [reflexivity|]. cbn in *. now rewrite Hv, IH.
Qed.
Lemma doc_leaves_swap fs : doc_leaves (swapf fs) = doc_leaves fs.
Proof. rewrite <- !leaves_doc, <- swapd_doc. apply leaves_swap. Qed.
Lemma m_value_swap t : forall key path, m_value key path (swapd t) = m_value key path t.
Proof.
  induction t using bval_ind'; intros key path; try reflexivity.
  - rewrite swapd_doc. cbn [m_value]. f_equal. unfold swapf.
    induction H as [|[k v] r Hv Hr IH]; [reflexivity|]. cbn [map fst snd] in *. now rewrite Hv, IH.
  - rewrite swapd_array. cbn [m_value]. generalize O.
    induction H as [|v r Hv Hr IH]; intros i; [reflexivity|]. cbn [map] in *. now rewrite Hv, IH.
Qed.
Lemma m_fields_swap path fs : m_fields path (swapf fs) = m_fields path fs.
Proof.
  induction fs as [|[k v] r IH]; cbn; [reflexivity|]. fold (swapf r). now rewrite m_value_swap, IH.
Qed.
Lemma x_fields_swap fs : x_fields (swapf fs) = x_fields fs.
Proof. now rewrite !x_fields_leaves, doc_leaves_swap. Qed.

Lemma leaves_size t : zlen (leaves t) <= zlen (enc_body t).
Proof.
  induction t using bval_ind'; try (cbn [leaves enc_body]; zlens; posl; try lia; destruct b; zlens; lia).
  - rewrite leaves_doc, enc_body_doc. unfold enc_doc. zlens. unfold doc_leaves.
    assert (zlen (flat_map (fun f : bytes * bval => leaves (snd f)) fs) <= zlen (enc_elems fs)); [|lia].
    induction H as [|[k v] r Hv Hr IH]; cbn [flat_map enc_elems]; [zlens; lia|]. cbn [snd] in *. rewrite zlen_app.
    zlens. rewrite ?zlen_enc_elem. posl. lia.
  - rewrite leaves_array, enc_body_array. unfold enc_array. zlens.
    assert (forall i, zlen (flat_map leaves vs) <= zlen (enc_items i vs)); [|specialize (H0 O); lia].
    induction H as [|v r Hv Hr IH]; intros i; cbn [flat_map enc_items]; [zlens; lia|]. specialize (IH (S i)). rewrite zlen_app.
    zlens. rewrite ?zlen_enc_elem. posl. lia.
Qed.
Lemma doc_leaves_size fs : zlen (doc_leaves fs) <= zlen (enc_doc fs).
Proof. rewrite <- leaves_doc, <- enc_body_doc. apply leaves_size. Qed.

Lemma uv_put_size n : forall x, zlen (uv_put n x) <= Z.of_nat n.
Proof.
  induction n as [|n IH]; intros x; cbn [uv_put]; [zlens; lia|]. destruct (x <? 128); zlens; [lia|]. specialize (IH (x / 128)). lia.
Qed.
Lemma uv_put_ok n : forall x, 0 <= x -> bytes_ok (uv_put n x).
Proof.
  induction n as [|n IH]; intros x H; cbn [uv_put]; [apply bytes_ok_nil|]. destruct (x <? 128) eqn:E.
  - apply bytes_ok_cons; [unfold is_u8; lia|apply bytes_ok_nil].
  - pose proof (Z.mod_pos_bound x 128 ltac:(lia)). apply bytes_ok_cons; [unfold is_u8; lia|].
    apply IH. apply Z.div_pos; lia.
Qed.
Lemma encode_size v : zlen (encode_value v) <= 10.
Proof. apply (uv_put_size 10). Qed.
Lemma encode_ok v : bytes_ok (encode_value v).
Proof. apply uv_put_ok. pose proof (is_u64_u64 v). unfold is_u64 in *. lia. Qed.
Lemma put_deltas_size ds : forall z, zlen (put_deltas z ds) <= 20 * zlen ds + (if 0 <? z then 20 else 0).
Proof.
  induction ds as [|d ds IH]; intros z; cbn [put_deltas].
  - destruct (0 <? z); zlens; [|lia]. pose proof (encode_size 0). pose proof (encode_size (z - 1)). lia.
  - destruct (d =? 0).
    + specialize (IH (z + 1)). zlens. destruct (0 <? z + 1) eqn:A, (0 <? z) eqn:B; lia.
    + specialize (IH 0). cbn [Z.ltb Z.compare] in IH. pose proof (encode_size 0). pose proof (encode_size (z - 1)). pose proof (encode_size d).
      destruct (0 <? z); zlens; lia.
Qed.
Lemma put_deltas_ok ds : forall z, bytes_ok (put_deltas z ds).
Proof.
  induction ds as [|d ds IH]; intros z; cbn [put_deltas].
  - destruct (0 <? z); [|apply bytes_ok_nil]. apply bytes_ok_app; apply encode_ok.
  - destruct (d =? 0); [apply IH|]. apply bytes_ok_app; [|apply bytes_ok_app; [apply encode_ok|apply IH]].
    destruct (0 <? z); [|apply bytes_ok_nil]. apply bytes_ok_app; apply encode_ok.
Qed.

(* ------------------------------------------------------- resolving and reading *)

Section Chunk.
Variable nan : Z -> Z -> Z.
Variables (zip : bytes -> bytes) (unzip : bytes -> option bytes).
Hypothesis codec : codec_ok zip unzip.

Definition payload_of (fs : list (bytes * bval)) (xs : list (list (Z * nval))) : bytes :=
  enc_doc fs ++ le32 (zlen (doc_leaves fs)) ++ le32 (zlen xs - 1) ++ put_deltas 0 (concat (columns nan xs)).
Definition chunk_fields (start : Z) (p : bytes) : list (bytes * bval) :=
  [(k_id, BDateTime (time_ms start)); (k_type, BInt32 1); (k_data, BBinary 0 (compress zip p))].
Definition meta_fields (start : Z) (mfs : list (bytes * bval)) : list (bytes * bval) :=
  [(k_id, BDateTime (time_ms start)); (k_type, BInt32 0); (k_doc, BDoc mfs)].
Definition decoded (fs : list (bytes * bval)) (xs : list (list (Z * nval))) : list metric :=
  map (fun p => with_deltas (fst p) (snd p)) (combine (m_fields [] fs) (columns nan xs)).

Lemma columns_length xs : length (columns nan xs) = length (hd [] xs).
Proof. unfold columns. now rewrite map_length, seq_length. Qed.
Lemma columns_each xs : Forall (fun c => length c = pred (length xs)) (columns nan xs).
Proof.
  unfold columns. apply Forall_forall. intros c Hc. apply in_map_iff in Hc as (i & <- & _).
  rewrite diffs_length. unfold col. now rewrite map_length.
Qed.
Lemma concat_length_all {A} n (l : list (list A)) : Forall (fun c => length c = n) l -> length (concat l) = (length l * n)%nat.
Proof. induction 1 as [|c l E F IH]; [reflexivity|]. cbn. rewrite app_length, IH, E. lia. Qed.
Lemma columns_concat_length xs : length (concat (columns nan xs)) = (length (hd [] xs) * pred (length xs))%nat.
Proof. rewrite (concat_length_all _ _ (columns_each xs)). now rewrite columns_length. Qed.
Lemma columns_i64 xs : Forall is_i64 (concat (columns nan xs)).
Proof.
  unfold columns. induction (seq 0 (length (hd [] xs))) as [|i l IH]; cbn; [constructor|].
  apply Forall_app. split; [apply diffs_i64|exact IH].
Qed.

Lemma payload_ok fs xs : wf_fields fs -> bytes_ok (payload_of fs xs).
Proof.
  intros W. unfold payload_of. pose proof (enc_doc_ok fs W). pose proof (put_deltas_ok (concat (columns nan xs)) 0). auto with bok.
Qed.
Lemma payload_size fs xs : hd [] xs = x_fields fs -> xs <> [] ->
  zlen (payload_of fs xs) <= zlen (enc_doc fs) + 8 + 20 * (zlen (doc_leaves fs) * (zlen xs - 1)).
Proof.
  intros H N. unfold payload_of. zlens. pose proof (put_deltas_size (concat (columns nan xs)) 0) as P.
  cbn [Z.ltb Z.compare] in P. unfold zlen in P at 2. rewrite columns_concat_length, H, x_fields_leaves, map_length in P.
  destruct xs as [|x xs]; [congruence|]. cbn [length pred] in P. zlens. unfold zlen in *. nia.
Qed.

Lemma time_ms_i64 ns : is_i64 (time_ms ns).
Proof. apply is_i64_i64. Qed.
Lemma key_ok k : forallb (fun b => (0 <? b) && (b <? 256)) k = true -> cstr_ok k.
Proof.
  intros H. rewrite forallb_forall in H. split.
  - apply Forall_forall. intros b Hb. apply H in Hb. unfold is_u8. lia.
  - apply Forall_forall. intros b Hb. apply H in Hb. lia.
Qed.

Lemma chunk_fields_wf start fs xs : wf_fields fs -> wf_fields (chunk_fields start (payload_of fs xs)).
Proof.
  intros W. pose proof (payload_ok fs xs W) as P. destruct (codec _ P) as (_ & Z & _).
  repeat apply Forall_cons; [..|constructor]; (split; [now apply key_ok|]); cbn.
  - apply time_ms_i64.
  - unfold is_i32; lia.
  - split; [unfold subtype_ok; lia|]. unfold compress. auto with bok.
Qed.
Lemma chunk_fields_size start fs xs : wf_fields fs -> hd [] xs = x_fields fs -> xs <> [] ->
  zlen (enc_doc (chunk_fields start (payload_of fs xs))) < chunk_room fs (zlen xs).
Proof.
  intros W H N. pose proof (payload_size fs xs H N) as P. destruct (codec _ (payload_ok fs xs W)) as (_ & _ & Z).
  unfold chunk_fields, enc_doc at 1, chunk_room. cbn [enc_elems]. zlens. rewrite !zlen_enc_elem.
  cbn [enc_body Z.eqb]. unfold compress. zlens. change (zlen k_id) with 3. change (zlen k_type) with 4. change (zlen k_data) with 4.
  posl. nia.
Qed.

(* the documents Resolve writes *)
Definition out_docs (md : option (list (bytes * bval))) (start : Z) (fs : list (bytes * bval)) (xs : list (list (Z * nval))) :=
  match md with Some m => [meta_fields start m] | None => [] end ++ [chunk_fields start (payload_of fs xs)].
Definition meta_is (md : option document) (mfs : option (list (bytes * bval))) : Prop :=
  match md, mfs with
  | None, None => True
  | Some es, Some fs => rep_doc es fs /\ wf_fields fs
  | _, _ => False
  end.
Definition meta_fits (fuel : nat) (start : Z) (mfs : option (list (bytes * bval))) : Prop :=
  match mfs with
  | Some m => small (meta_fields start m) /\ enough fuel (zlen (enc_doc (meta_fields start m)))
  | None => True
  end.
Lemma meta_fields_wf start m : wf_fields m -> wf_fields (meta_fields start m).
Proof.
  intros W. repeat apply Forall_cons; [..|constructor]; (split; [now apply key_ok|]).
  - apply time_ms_i64.
  - cbn. unfold is_i32. lia.
  - now apply wf_doc.
Qed.

Lemma triple_rep start n e t : rep_doc [Some e] [t] -> wf_fields [t] -> is_i32 n -> 
  zlen (enc_doc [(k_id, BDateTime (time_ms start)); (k_type, BInt32 n); t]) < 2147483648 ->
  exists a b, ec_time k_id start = Ret a /\ ec_int32 k_type n = Ret b /\
    rep_doc [Some a; Some b; Some e] [(k_id, BDateTime (time_ms start)); (k_type, BInt32 n); t].
Proof.
  intros R W N L. unfold enc_doc in L. cbn [enc_elems] in L. destruct t as [k t]. zlens_in L. rewrite !zlen_enc_elem in L. posl.
  assert (F1 : efits k_id (BDateTime (time_ms start))) by (unfold efits; rewrite zlen_enc_elem; change (zlen k_id) with 3 in *; posl; lia).
  assert (F2 : efits k_type (BInt32 n)) by (unfold efits; rewrite zlen_enc_elem; change (zlen k_type) with 4 in *; posl; lia).
  eexists _, _. split; [unfold ec_time; fold (time_ms start); apply ec_datetime_lz, F1|].
  split; [apply ec_int32_lz, F2|]. split; [apply lz_rep; [apply key_ok; reflexivity|now apply efits_lz]|].
  split; [apply lz_rep; [apply key_ok; reflexivity|now apply efits_lz]|]. exact R.
Qed.

Lemma u32_of z : 0 <= z < 4294967296 -> u32 z = z.
Proof. intros. unfold u32. now rewrite Z.mod_small by lia. Qed.

Lemma b_resolve_spec fuel c md mfs ref start fs xs :
  binv nan c md ref start xs -> hd [] xs = x_fields fs -> rep_doc ref fs -> wf_fields fs ->
  meta_is md mfs -> meta_fits fuel start mfs ->
  chunk_room fs (zlen xs) < 2147483648 -> enough fuel (chunk_room fs (zlen xs)) -> b_max c < 4294967296 ->
  b_resolve zip fuel c = Ret (inl (concat (map enc_doc (out_docs mfs start fs xs)))).
Proof.
  intros I Hh Rr Wf Mi Mf Hroom Hfuel Hmax.
  assert (Nx : xs <> []) by (destruct xs; [contradiction|congruence]).
  pose proof (chunk_fields_size start fs xs Wf Hh Nx) as Cs. pose proof (chunk_fields_wf start fs xs Wf) as Cw.
  pose proof (doc_leaves_size fs) as Ls.
  pose proof (columns_read _ _ _ _ _ _ I) as Cr.
  assert (Hd : 0 <= zlen (enc_doc fs) /\ 0 <= zlen (doc_leaves fs) * zlen xs) by (posl; nia).
  assert (Hfs : zlen (enc_doc fs) < chunk_room fs (zlen xs)) by (unfold chunk_room; lia).
  set (Q := chunk_room fs (zlen xs)) in *. clearbody Q.
  destruct xs as [|x xs]; [contradiction|].
  destruct I as (Im & Ir & Is & Il & In_ & Ib & Id & Ify & Ix).
  assert (Ll : zlen (last (x :: xs) []) = zlen (doc_leaves fs)).
  { assert (Iy : In (last (x :: xs) []) (x :: xs)).
    { rewrite (app_removelast_last (l := x :: xs) []) at 2 by discriminate. apply in_or_app. right. now left. }
    rewrite Forall_forall in Ify. destruct (Ify _ Iy) as (Ty & _). cbn [hd] in Hh. 
    unfold zlen. rewrite <- (map_length fst (last _ _)), Ty, Hh, x_fields_leaves, !map_length. reflexivity. }
  unfold b_resolve, payload. rewrite Ir.
  rewrite (doc_marshal_rep fuel ref fs) by (auto; unfold small, enough in *; lia). cbn [bind].
  rewrite Il, Cr. cbn [bind]. rewrite Ll, (u32_of (zlen (doc_leaves fs))) by (posl; lia).
  rewrite (u32_of (b_num c)), In_ by lia. fold (payload_of fs (x :: xs)).
  set (p := payload_of fs (x :: xs)) in *. rewrite Im, Is.
  (* the chunk document *)
  assert (C : exists r, (id <- ec_time k_id start ;; ty <- ec_int32 k_type 1 ;; d <- ec_binary k_data (compress zip p) ;;
      doc_marshal fuel [Some id; Some ty; Some d]) = Ret (inl r) /\ r = enc_doc (chunk_fields start p)).
  { assert (Fd : efits k_data (BBinary 0 (compress zip p))).
    { unfold efits. rewrite zlen_enc_elem. unfold chunk_fields, enc_doc in Cs. cbn [enc_elems] in Cs. zlens_in Cs.
      rewrite !zlen_enc_elem in Cs. posl. lia. }
    destruct (triple_rep start 1 (lz [] k_data (BBinary 0 (compress zip p)) []) (k_data, BBinary 0 (compress zip p)))
      as (a & b & Ea & Eb & R).
    - split; [|exact I]. apply lz_rep; [apply key_ok; reflexivity|now apply efits_lz].
    - inversion_clear Cw as [|? ? _ Cw1]. inversion_clear Cw1 as [|? ? _ Cw2]. exact Cw2.
    - unfold is_i32. lia.
    - unfold chunk_fields in Cs. lia.
    - rewrite Ea, Eb. cbn [bind]. unfold ec_binary. rewrite ec_binary_subtype_lz by exact Fd. cbn [bind].
      eexists. split; [|reflexivity]. apply doc_marshal_rep; auto; unfold small, chunk_fields, enough in *; lia. }
  destruct C as (r & C & Er). 
  destruct (ec_time k_id start) as [id| |] eqn:E1; try discriminate. cbn [bind] in C |- *.
  destruct (ec_int32 k_type 1) as [ty| |] eqn:E2; try discriminate. cbn [bind] in C |- *.
  destruct (ec_binary k_data (compress zip p)) as [d| |] eqn:E3; try discriminate. cbn [bind] in C |- *.
  unfold out_docs. destruct md as [es|], mfs as [m|]; try contradiction; cbn [bind].
  - destruct Mi as [Rm Wm], Mf as [Sm Fm]. unfold small in Sm. pose proof Sm as Sm'. unfold meta_fields, enc_doc in Sm'.
    cbn [enc_elems] in Sm'. zlens_in Sm'. rewrite !zlen_enc_elem in Sm'. change (zlen k_doc) with 3 in Sm'. posl.
    destruct (ec_subdocument_rep k_doc es m) as (v & Ev & Rv & _); auto; [apply key_ok; reflexivity|change (zlen k_doc) with 3; lia|].
    destruct (triple_rep start 0 v (k_doc, BDoc m)) as (a & b & Ea & Eb & R).
    + split; [exact Rv|exact I].
    + constructor; [split; [now apply key_ok|now apply wf_doc]|constructor].
    + unfold is_i32. lia.
    + exact Sm.
    + rewrite E1 in Ea. injection Ea as <-. rewrite Eb, Ev. cbn [bind].
      rewrite (doc_marshal_rep fuel _ _ R (meta_fields_wf start m Wm) Sm Fm). cbn [bind]. rewrite C. cbn [bind app map concat].
      now rewrite Er, app_nil_r.
  - rewrite C. cbn [bind app map concat]. now rewrite Er, app_nil_r.
Qed.

Lemma read_chunk_spec fuel meta es start fs xs :
  rep_doc es (chunk_fields start (payload_of fs xs)) -> hd [] xs = x_fields fs -> xs <> [] -> wf_fields fs ->
  zlen xs <= 4294967296 -> chunk_room fs (zlen xs) < 2147483648 -> enough fuel (chunk_room fs (zlen xs)) ->
  read_chunk_doc unzip fuel meta es =
    Ret (RChunk (MkC (decoded fs xs) (zlen xs) (Some (ms_time (time_ms start))) meta (swapf fs))).
Proof.
  intros R Hh Nx W Hk Hroom Hfuel.
  pose proof (chunk_fields_size start fs xs W Hh Nx) as Cs. pose proof (chunk_fields_wf start fs xs W) as Cw.
  pose proof (doc_leaves_size fs) as Ls. pose proof (payload_size fs xs Hh Nx) as Ps.
  destruct (codec _ (payload_ok fs xs W)) as (Uz & _ & _).
  assert (1 <= zlen xs) by (destruct xs; [congruence|zl]).
  assert (Hd : 0 <= zlen (enc_doc fs) /\ 0 <= zlen (doc_leaves fs) * zlen xs) by (posl; nia).
  assert (Hfs : zlen (enc_doc fs) < chunk_room fs (zlen xs)) by (unfold chunk_room; lia).
  unfold read_chunk_doc. unfold enough in *. rewrite (obs_doc_rep fuel es _ R Cw) by (unfold small; lia). cbn [bind].
  set (p := payload_of fs xs) in *.
  change (swapf (chunk_fields start p)) with (chunk_fields start p). cbv zeta.
  change (first_key k_type (chunk_fields start p)) with (Some (BInt32 1)).
  change (first_key k_id (chunk_fields start p)) with (Some (BDateTime (time_ms start))).
  change (first_key k_data (chunk_fields start p)) with (Some (BBinary 0 (compress zip p))). cbn [is_num Z.eqb Pos.eqb negb].
  unfold compress. replace (le32 (u32 (zlen p)) ++ zip p) with (le32 (u32 (zlen p)) ++ zip p ++ []) by now rewrite app_nil_r.
  rewrite goslice_app by (zlens; lia). cbn [bind]. rewrite Uz.
  destruct (doc_read_from_wf fuel (MkStream p [] EEOF false) fs
    (le32 (zlen (doc_leaves fs)) ++ le32 (zlen xs - 1) ++ put_deltas 0 (concat (columns nan xs)))) as (s' & er & Er & Rd & Ds & _);
    auto; try (unfold small, enough; lia).
  rewrite Er. cbn [bind].
  destruct (read_document_wf fs [] fuel W) as (er' & Rd' & Rr); rewrite ?app_nil_r; try lia.
  rewrite app_nil_r in Rd'. assert (er' = er) by congruence. subst er'.
  rewrite (obs_doc_rep fuel er fs Rr W) by (unfold small; lia). cbn [bind]. rewrite Ds.
  set (body := put_deltas 0 (concat (columns nan xs))).
  replace (zlen (le32 (zlen (doc_leaves fs)) ++ le32 (zlen xs - 1) ++ body) <? 8) with false by (zlens; posl; lia).
  assert (F1 : firstn 4 (le32 (zlen (doc_leaves fs)) ++ le32 (zlen xs - 1) ++ body) = le32 (zlen (doc_leaves fs))) by reflexivity.
  assert (F2 : firstn 4 (skipn 4 (le32 (zlen (doc_leaves fs)) ++ le32 (zlen xs - 1) ++ body)) = le32 (zlen xs - 1)) by reflexivity.
  assert (F3 : skipn 8 (le32 (zlen (doc_leaves fs)) ++ le32 (zlen xs - 1) ++ body) = body) by reflexivity.
  rewrite F1, F2, F3, !rdu32_le32' by (unfold is_u32; posl; lia). cbn [bind]. rewrite m_fields_swap.
  replace (zlen (m_fields [] fs)) with (zlen (doc_leaves fs)) by (unfold zlen; now rewrite m_fields_length).
  rewrite Z.eqb_refl. cbn [negb].
  assert (Lc : length (columns nan xs) = length (m_fields [] fs)).
  { rewrite columns_length, Hh, m_fields_length, x_fields_leaves. apply map_length. }
  assert (Np : Z.to_nat (zlen xs - 1) = pred (length xs)) by (unfold zlen in *; lia).
  rewrite Np. rewrite (get_metrics_cols (pred (length xs)) (m_fields [] fs) (columns nan xs) 0 body 0 []); auto using columns_each.
  - f_equal. f_equal. f_equal. lia.
  - pose proof (get_put (concat (columns nan xs)) 0 [] (columns_i64 xs)) as G. change (Z.of_nat 0) with 0 in G.
    cbn [Nat.add repeat app] in G. rewrite app_nil_r in G. apply G. unfold zlen at 1. rewrite columns_concat_length, Hh, x_fields_leaves, map_length.
    unfold chunk_room in Hroom. unfold zlen in *. nia.
Qed.

Lemma read_meta_spec fuel meta es start m :
  rep_doc es (meta_fields start m) -> wf_fields m -> meta_fits fuel start (Some m) ->
  read_chunk_doc unzip fuel meta es = Ret RMeta.
Proof.
  intros R W [S F]. unfold read_chunk_doc. rewrite (obs_doc_rep fuel es _ R (meta_fields_wf start m W) S F).
  reflexivity.
Qed.
End Chunk.

(* ------------------------------------------------------------ decoded columns *)

Definition nint (x : Z * nval) : Z := match snd x with NI i => i | ND b => b end.
Lemma undelta_diffs nan l : forall s a, is_i64 s -> Forall (fun x => match snd x with NI _ => True | _ => False end) (a :: l) ->
  undelta s (diffs nan (a :: l)) = map (fun x => i64 (s + (nint x - nint a))) (a :: l).
Proof.
  induction l as [|b l IH]; intros s a Is F.
  - cbn. now replace (s + (nint a - nint a)) with s by lia; rewrite i64_id.
  - inversion_clear F as [|? ? Fa F']. pose proof F' as F2. inversion_clear F2 as [|? ? Fb _].
    change (diffs nan (a :: b :: l)) with (dl nan b a :: diffs nan (b :: l)). cbn [undelta].
    assert (D : dl nan b a = i64 (nint b - nint a)) by (unfold dl, nint; destruct (snd a), (snd b); try contradiction; reflexivity).
    rewrite IH; [|apply is_i64_i64|exact F']. rewrite D.
    change (map (fun x => i64 (s + (nint x - nint a))) (a :: b :: l)) with
      (i64 (s + (nint a - nint a)) :: map (fun x => i64 (s + (nint x - nint a))) (b :: l)).
    f_equal; [replace (s + (nint a - nint a)) with s by lia; now rewrite i64_id|].
    apply map_ext. intros x. rewrite i64_i64_add.
    replace (s + i64 (nint b - nint a) + (nint x - nint b)) with (i64 (nint b - nint a) + (s + (nint x - nint b))) by lia.
    rewrite i64_i64_add. f_equal. lia.
Qed.
Lemma undelta_floats_diffs nan s l : undelta_floats s (diffs nan l) = s :: diffs nan l.
Proof. reflexivity. Qed.

Lemma epoch_near i : -9223372036854775808 <= i * 1000000 < 9223372036854775808 -> epoch_ms (ms_time i) = i.
Proof.
  intros H. unfold epoch_ms, ms_time. pose proof (Z.quot_rem' i 1000) as Q.
  replace (Z.quot i 1000 * 1000000000 + Z.rem i 1000 * 1000000) with (i * 1000000) by lia.
  rewrite i64_id by (unfold is_i64; lia). now rewrite Z.quot_mul by lia.
Qed.
Lemma time_ms_time i : is_i64 i -> time_ms (ms_time i) = i.
Proof.
  intros H. unfold time_ms, ms_time. pose proof (Z.quot_rem' i 1000) as Q.
  replace (Z.quot i 1000 * 1000000000 + Z.rem i 1000 * 1000000) with (i * 1000000) by lia.
  rewrite i64_i64_add. rewrite <- (i64_id i) at 3 by auto. f_equal.
  replace (i * 1000000) with (i / 1000 * 1000000000 + (i mod 1000) * 1000000) at 1 2 by (pose proof (Z.div_mod i 1000 ltac:(lia)); lia).
  pose proof (Z.mod_pos_bound i 1000 ltac:(lia)). pose proof (Z.div_mod i 1000 ltac:(lia)).
  revert H0 H1. generalize (i / 1000), (i mod 1000). intros q r Hr Hi.
  rewrite (Z.add_comm (q * 1000000000)), Z.div_add, (Z.div_small (r * 1000000)), Z.mod_add, (Z.mod_small (r * 1000000)), Z.div_mul by lia.
  lia.
Qed.

(* leaf ranges, from well-formed documents *)
Definition leaf_ok (l : leaf) : Prop :=
  match l with
  | LBool _ => True | LDouble b => is_u64 b | LInt32 i => is_i32 i | LInt64 i => is_i64 i | LDate i => is_i64 i
  | LSec t => is_u32 t | LInc i => is_u32 i
  end.
Lemma leaves_ok t : wf t -> Forall leaf_ok (leaves t).
Proof.
  induction t using bval_ind'; intros W; try (now constructor); try (constructor; [exact W|constructor]).
  - rewrite leaves_doc. apply wf_doc in W. unfold doc_leaves. induction H as [|[k v] r Hv Hr IH]; cbn; [constructor|].
    inversion_clear W as [|? ? [_ Wv] Wr]. apply Forall_app. cbn in *. auto.
  - rewrite leaves_array. apply wf_array in W. induction H as [|v r Hv Hr IH]; cbn; [constructor|].
    inversion_clear W as [|? ? Wv Wr]. apply Forall_app. auto.
  - destruct W as [W1 W2]. repeat (constructor; [assumption|]). constructor.
Qed.
Lemma doc_leaves_ok fs : wf_fields fs -> Forall leaf_ok (doc_leaves fs).
Proof. intros W. rewrite <- leaves_doc. apply leaves_ok. now apply wf_doc. Qed.

Lemma exact_int l : leaf_ok l -> exact l -> start_of l = leaf_int l /\ snd (xleaf l) = NI (leaf_int l) /\ is_i64 (leaf_int l) /\ leaf_type l <> 1.
Proof.
  destruct l; cbn; intros O E; try contradiction; repeat split; auto; try lia; unfold is_i64, is_i32, is_u32 in *; try lia.
  all: try (destruct b; lia).
  1: apply epoch_near; lia.
  f_equal. apply epoch_near; lia.
Qed.

Lemma combine_nth_error {A B} (la : list A) : forall (lb : list B) j a b, nth_error la j = Some a -> nth_error lb j = Some b ->
  nth_error (combine la lb) j = Some (a, b).
Proof. induction la as [|x la IH]; intros [|y lb] [|j] a b; cbn; try discriminate; [congruence|apply IH]. Qed.

Section Decoded.
Variable nan : Z -> Z -> Z.
Notation samples acc := (map x_fields acc).

Lemma column_col j acc ls : column j acc = map Some ls -> col j (samples acc) = map xleaf ls.
Proof.
  unfold column, col. rewrite map_map. revert ls. induction acc as [|d acc IH]; intros [|l ls]; cbn [map]; try discriminate; [reflexivity|].
  injection 1 as E1 E2. f_equal; [|auto]. rewrite x_fields_leaves. 
  rewrite (nth_indep _ x0 (xleaf l)) by (rewrite map_length; apply nth_error_Some; congruence).
  rewrite map_nth. f_equal. now apply nth_error_nth.
Qed.

(* the j-th metric of a decoded chunk *)
Lemma decoded_nth fs acc j l ls : column j (fs :: acc) = map Some (l :: ls) ->
  exists m, nth_error (m_fields [] fs) j = Some m /\ m_type m = leaf_type l /\ m_start m = start_of l /\
    nth_error (decoded nan fs (samples (fs :: acc))) j = Some (with_deltas m (diffs nan (map xleaf (l :: ls)))).
Proof.
  intros H. pose proof H as Hj. cbn [column map] in Hj. injection Hj as Hj _.
  assert (Lj : (j < length (doc_leaves fs))%nat) by (apply nth_error_Some; congruence).
  destruct (nth_error (m_fields [] fs) j) as [m|] eqn:Em.
  2:{ apply nth_error_None in Em. rewrite m_fields_length in Em. lia. }
  exists m. pose proof (f_equal (fun x => nth_error x j) (m_fields_leaves [] fs)) as Q. cbv beta in Q.
  rewrite (map_nth_error mstart j _ Em), (map_nth_error _ j _ Hj) in Q. injection Q as Q1 Q2.
  repeat split; auto. unfold decoded.
  assert (C : nth_error (columns nan (samples (fs :: acc))) j = Some (diffs nan (map xleaf (l :: ls)))).
  { unfold columns. change (hd [] (map x_fields (fs :: acc))) with (x_fields fs). rewrite <- (column_col j (fs :: acc) (l :: ls) H).
    apply (map_nth_error (fun i => diffs nan (col i (samples (fs :: acc))))).
    rewrite x_fields_leaves, map_length. clear -Lj. revert Lj. generalize (length (doc_leaves fs)). intros n Lj.
    assert (nth_error (seq 0 n) j = Some (nth j (seq 0 n) O)) as -> by (apply nth_error_nth'; now rewrite seq_length).
    now rewrite seq_nth by lia. }
  apply (map_nth_error (fun p => with_deltas (fst p) (snd p)) j) with (d := (m, diffs nan (map xleaf (l :: ls)))).
  now apply combine_nth_error.
Qed.

Lemma decoded_ints fs acc j l ls : Forall wf_fields (fs :: acc) ->
  column j (fs :: acc) = map Some (l :: ls) -> Forall exact (l :: ls) ->
  exists m, nth_error (decoded nan fs (samples (fs :: acc))) j = Some m /\ m_type m = leaf_type l /\
    m_values m = map leaf_int (l :: ls).
Proof.
  intros W H E. destruct (decoded_nth fs acc j l ls H) as (m & Em & Et & Es & Ed).
  exists (with_deltas m (diffs nan (map xleaf (l :: ls)))). repeat split; auto.
  assert (O : Forall leaf_ok (l :: ls)).
  { clear -W H. revert H W. generalize (fs :: acc), (l :: ls). clear. intros acc ls. revert acc.
    induction ls as [|l ls IH]; intros [|d acc] H W; cbn [map column] in H; try discriminate; [constructor|].
    injection H as H1 H2. inversion_clear W as [|? ? Wd Wr]. constructor; [|eapply IH; eauto].
    pose proof (doc_leaves_ok d Wd) as F. rewrite Forall_forall in F. apply F. eapply nth_error_In; eauto. }
  assert (X : Forall (fun l => snd (xleaf l) = NI (leaf_int l) /\ is_i64 (leaf_int l)) (l :: ls)).
  { rewrite Forall_forall in *. intros x Hx. destruct (exact_int x (O x Hx) (E x Hx)) as (_ & ? & ? & _). auto. }
  inversion_clear O as [|? ? Ol _]. inversion_clear E as [|? ? El _]. destruct (exact_int l Ol El) as (S1 & S2 & S3 & S4).
  unfold with_deltas. cbn [m_values]. rewrite Et, Es, S1. replace (leaf_type l =? 1) with false by lia.
  cbn [map]. rewrite undelta_diffs; auto.
  - change (xleaf l :: map xleaf ls) with (map xleaf (l :: ls)). change (leaf_int l :: map leaf_int ls) with (map leaf_int (l :: ls)).
    rewrite map_map. apply map_ext_in. intros x Hx. rewrite Forall_forall in X. destruct (X x Hx) as [Xx Ix].
    unfold nint. rewrite Xx, S2. replace (leaf_int l + (leaf_int x - leaf_int l)) with (leaf_int x) by lia. now apply i64_id.
  - change (xleaf l :: map xleaf ls) with (map xleaf (l :: ls)). rewrite Forall_forall in *. intros x Hx.
    apply in_map_iff in Hx as (y & <- & Hy). destruct (X y Hy) as [-> _]. exact I.
Qed.
End Decoded.
