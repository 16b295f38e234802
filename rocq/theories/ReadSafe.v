(* Reading arbitrary bytes (C10, C11): what can go wrong and when nothing can. *)
Require Import ZArith List Bool Lia ZifyBool ZifyNat.
From Verif Require Import Base BSpec Elements Value Codec CodecRead Itoa CodecRep Api ApiProofs Tree.
Import ListNotations.
Open Scope Z_scope.

(* --------------------------------------------------------------- specification *)

(* Somewhere in r stands an element header (type byte, NUL-free key, NUL) of one of the
   given types followed by a 32-bit length field satisfying P. *)
Definition has_field (types : list Z) (P : Z -> Prop) (r : bytes) : Prop :=
  exists a t k l4 l b, r = a ++ t :: k ++ 0 :: l4 ++ b /\ In t types /\ nul_free k /\
    zlen l4 = 4 /\ readi32 l4 = Ret l /\ P l.

(* string, binary, DBPointer, JavaScript, symbol and code with a negative length *)
Definition negative_length : bytes -> Prop := has_field [2; 5; 12; 13; 14; 15] (fun l => l < 0).
(* a document or array whose length, added to a position in r, exceeds int32 *)
Definition huge_length (r : bytes) : Prop := has_field [3; 4] (fun l => 2147483648 - zlen r <= l) r.

Definition declared_length (r : bytes) : go Z := readi32 (firstn 4 r).

(* --------------------------------------------------------------------- lemmas *)

Lemma goslice_ex (r : bytes) i j : 0 <= i -> i <= j -> j <= zlen r ->
  exists a m b, r = a ++ m ++ b /\ zlen a = i /\ zlen m = j - i /\ goslice r i j = Ret m.
Proof.
  intros H1 H2 H3. destruct (split_at r i) as (a & c & -> & La); [lia|]. zlens_in H3.
  destruct (split_at c (j - i)) as (m & b & -> & Lm); [lia|].
  exists a, m, b. repeat split; auto. apply goslice_app; lia.
Qed.

Lemma find_nul_split l n : find_nul l = Some n ->
  exists k b, l = k ++ 0 :: b /\ nul_free k /\ zlen k = n.
Proof.
  revert n. induction l as [|x l IH]; cbn; intros n H; [discriminate|].
  destruct (x =? 0) eqn:E.
  - injection H as <-. assert (x = 0) by lia. subst. exists [], l. repeat split; constructor.
  - destruct (find_nul l) as [m|]; [|discriminate]. injection H as <-.
    destruct (IH m eq_refl) as (k & b & -> & Hk & Lk). exists (x :: k), b. repeat split.
    + constructor; [lia|auto].
    + rewrite zlen_cons. lia.
Qed.

(* The size-only validation of a value inside a slice never panics; when it succeeds, its
   size is small unless one of the length fields was negative. *)
Lemma core_size_total r pos off t : 0 <= pos < zlen r -> 0 <= off <= zlen r ->
  zlen r + 16 <= 2147483648 -> goindex r pos = Ret t ->
  exists n e, validate_core (fun _ => Fuel) None true pos off r = Ret (n, e) /\ 0 <= n < 4294967296 /\
  (e = None -> n <= 2147483648 + 15 \/
     (In t [2; 5; 12; 13; 14; 15] /\ exists m l, goslice r off (off + 4) = Ret m /\ zlen m = 4 /\
        readi32 m = Ret l /\ l < 0)) /\
  (e = None -> t = 3 \/ t = 4 -> exists m l, goslice r off (off + 4) = Ret m /\ zlen m = 4 /\
        readi32 m = Ret l /\ 5 <= l /\ (off + l <= zlen r \/ 2147483648 - off <= l)).
Proof.
  intros Hp Ho Hs Ht. unfold validate_core. rewrite Ht. cbn [bind].
  assert (Fx : forall n, 0 <= n < 17 -> t <> 3 -> t <> 4 ->
    exists n0 e, (if short off n r then Ret (0, Some ETooSmall) else Ret (n, None)) = Ret (n0, e) /\
      0 <= n0 < 4294967296 /\ (e = None -> n0 <= 2147483648 + 15 \/
     (In t [2; 5; 12; 13; 14; 15] /\ exists m l, goslice r off (off + 4) = Ret m /\ zlen m = 4 /\
        readi32 m = Ret l /\ l < 0)) /\
  (e = None -> t = 3 \/ t = 4 -> exists m l, goslice r off (off + 4) = Ret m /\ zlen m = 4 /\
        readi32 m = Ret l /\ 5 <= l /\ (off + l <= zlen r \/ 2147483648 - off <= l))).
  { intros n Hn H3 H4. destruct (short off n r); do 2 eexists; (split; [reflexivity|]);
      (split; [lia|]); split; intros; try discriminate; try lia; left; lia. }
  assert (Rd : zlen r >= off + 4 -> exists m l, goslice r off (off + 4) = Ret m /\ zlen m = 4 /\ readi32 m = Ret l /\ is_i32 l).
  { intros H. destruct (goslice_ex r off (off + 4)) as (a & m & b & E & La & Lm & G); try lia.
    destruct (readi32_total m) as (l & El & Hl); [lia|]. exists m, l. repeat split; auto; lia || apply Hl. }
  assert (Sh : forall n, 0 <= n < 17 -> short off n r = (zlen r <? off + n)).
  { intros. unfold short. rewrite u32_id by (unfold is_u32; lia). reflexivity. }
  assert (U4 : u32 (off + 4) = off + 4) by (apply u32_id; unfold is_u32; lia).
  destruct ((t =? 6) || (t =? 10) || (t =? 255) || (t =? 127)) eqn:E0.
  { do 2 eexists; split; [reflexivity|]. split; [lia|]. split; intros; try discriminate; [left; lia|].
    lia. }
  destruct (t =? 1) eqn:E1; [apply Fx; lia|].
  destruct ((t =? 2) || (t =? 13) || (t =? 14)) eqn:E2.
  { rewrite Sh by lia. destruct (zlen r <? off + 4) eqn:Es.
    { do 2 eexists; split; [reflexivity|]. split; [lia|]. split; intros; discriminate. }
    rewrite U4. destruct Rd as (m & l & -> & Lm & El & Hl); [lia|]. cbn [bind]. rewrite El. cbn [bind].
    destruct (i32 (zlen r) <? _).
    { do 2 eexists; split; [reflexivity|]. split; [lia|]. split; intros; discriminate. }
    do 2 eexists; split; [reflexivity|]. split; [apply u32_range|]. split; intros _; [|lia].
    destruct (Z.ltb_spec l 0) as [Hn|Hn].
    - right. split; [cbn; lia|eauto 8].
    - left. unfold u32, is_i32 in *. lia. }
  assert (Ct : t = 3 \/ t = 4 -> exists n0 e,
    (if short off 4 r then Ret (0, Some ETooSmall) else
    s <- goslice r off (u32 (off + 4)) ;;
    l <- readi32 s ;;
    if l <? 5 then Ret (4, Some EInvalidReadOnlyDoc) else
    if i32 (zlen r) <? i32 (off + l) then Ret (4, Some ETooSmall) else
    if true then Ret (u32 (4 + (u32 l - 4)), None) else
    sub <- goslice r off (u32 (off + u32 l)) ;;
    '(n, e) <- (fun _ : bytes => (Fuel : vres)) sub ;;
    Ret (u32 (4 + (n - 4)), e)) = Ret (n0, e) /\ 0 <= n0 < 4294967296 /\
    (e = None -> n0 <= 2147483648 + 15 \/
     (In t [2; 5; 12; 13; 14; 15] /\ exists m l, goslice r off (off + 4) = Ret m /\ zlen m = 4 /\
        readi32 m = Ret l /\ l < 0)) /\
    (e = None -> t = 3 \/ t = 4 -> exists m l, goslice r off (off + 4) = Ret m /\ zlen m = 4 /\
        readi32 m = Ret l /\ 5 <= l /\ (off + l <= zlen r \/ 2147483648 - off <= l))).
  { intros _. rewrite Sh by lia. destruct (zlen r <? off + 4) eqn:Es.
    { do 2 eexists; split; [reflexivity|]. split; [lia|]. split; intros; discriminate. }
    rewrite U4. destruct Rd as (m & l & Gm & Lm & El & Hl); [lia|]. rewrite Gm. cbn [bind]. rewrite El. cbn [bind].
    destruct (l <? 5) eqn:E5.
    { do 2 eexists; split; [reflexivity|]. split; [lia|]. split; intros; discriminate. }
    destruct (i32 (zlen r) <? i32 (off + l)) eqn:E6.
    { do 2 eexists; split; [reflexivity|]. split; [lia|]. split; intros; discriminate. }
    do 2 eexists; split; [reflexivity|]. split; [apply u32_range|].
    split; intros _.
    - left. unfold u32, is_i32 in *. lia.
    - intros _. exists m, l. repeat split; auto; [lia|].
      destruct (Z.ltb_spec (off + l) 2147483648); [left|right; lia].
      unfold is_i32 in Hl. rewrite !i32_id in E6 by (unfold is_i32; lia). lia. }
  destruct (t =? 3) eqn:E3; [apply Ct; lia|].
  destruct (t =? 4) eqn:E4; [apply Ct; lia|]. clear Ct.
  destruct (t =? 5) eqn:E5.
  { rewrite Sh by lia. destruct (zlen r <? off + 5) eqn:Es.
    { do 2 eexists; split; [reflexivity|]. split; [lia|]. split; intros; discriminate. }
    rewrite U4. destruct Rd as (m & l & -> & Lm & El & Hl); [lia|]. cbn [bind]. rewrite El. cbn [bind].
    destruct (goindex_ok r (off + 4)) as (st & -> & _); [lia|]. cbn [bind].
    destruct ((5 <? st) && (st <? 128)).
    { do 2 eexists; split; [reflexivity|]. split; [lia|]. split; intros; discriminate. }
    destruct (i32 (zlen r) <? _).
    { do 2 eexists; split; [reflexivity|]. split; [lia|]. split; intros; discriminate. }
    do 2 eexists; split; [reflexivity|]. split; [apply u32_range|]. split; intros _; [|lia].
    destruct (Z.ltb_spec l 0) as [Hn|Hn].
    - right. split; [cbn; lia|eauto 8].
    - left. unfold u32, is_i32 in *. lia. }
  destruct (t =? 7) eqn:E7; [apply Fx; lia|].
  destruct (t =? 8) eqn:E8.
  { rewrite Sh by lia. destruct (zlen r <? off + 1) eqn:Es.
    { do 2 eexists; split; [reflexivity|]. split; [lia|]. split; intros; discriminate. }
    destruct (goindex_ok r off) as (st & -> & _); [lia|]. cbn [bind].
    destruct (_ && _); do 2 eexists; (split; [reflexivity|]); (split; [lia|]); split; intros; try discriminate;
      [left; lia|lia]. }
  destruct (t =? 9) eqn:E9; [apply Fx; lia|].
  destruct (t =? 11) eqn:E11.
  { replace (zlen r <? off) with false by lia.
    destruct (find_nul (skipn (Z.to_nat off) r)) as [n|] eqn:F1.
    2:{ do 2 eexists; split; [reflexivity|]. split; [apply u32_range|]. split; intros; discriminate. }
    destruct (find_nul (skipn (Z.to_nat (off + n + 1)) r)) as [n2|] eqn:F2.
    2:{ do 2 eexists; split; [reflexivity|]. split; [apply u32_range|]. split; intros; discriminate. }
    do 2 eexists; split; [reflexivity|]. split; [apply u32_range|]. split; intros _; [|lia].
    left. apply find_nul_split in F1 as (k1 & b1 & S1 & _ & L1).
    apply find_nul_split in F2 as (k2 & b2 & S2 & _ & L2).
    assert (zlen k1 + zlen k2 <= 2 * zlen r).
    { assert (zlen (skipn (Z.to_nat off) r) <= zlen r) by (unfold zlen; rewrite skipn_length; lia).
      assert (zlen (skipn (Z.to_nat (off + n + 1)) r) <= zlen r - (n + 1) /\ n + 1 <= zlen r).
      { rewrite S1 in H. zlens_in H. posl. unfold zlen in *. rewrite skipn_length. lia. }
      rewrite S2 in H0. zlens_in H0. rewrite S1 in H. zlens_in H. posl. lia. }
    assert (zlen k1 + 1 + zlen k2 + 1 <= zlen r).
    { assert (A : zlen (skipn (Z.to_nat off) r) <= zlen r) by (unfold zlen; rewrite skipn_length; lia).
      assert (B : zlen (skipn (Z.to_nat (off + n + 1)) r) <= zlen r - (n + 1)).
      { rewrite S1 in A. zlens_in A. posl. unfold zlen in *. rewrite skipn_length. lia. }
      rewrite S2 in B. zlens_in B. posl. lia. }
    posl. unfold u32. rewrite Z.mod_small by lia. lia. }
  destruct (t =? 12) eqn:E12.
  { rewrite Sh by lia. destruct (zlen r <? off + 4) eqn:Es.
    { do 2 eexists; split; [reflexivity|]. split; [lia|]. split; intros; discriminate. }
    rewrite U4. destruct Rd as (m & l & -> & Lm & El & Hl); [lia|]. cbn [bind]. rewrite El. cbn [bind].
    destruct (i32 (zlen r) <? _).
    { do 2 eexists; split; [reflexivity|]. split; [lia|]. split; intros; discriminate. }
    do 2 eexists; split; [reflexivity|]. split; [apply u32_range|]. split; intros _; [|lia].
    destruct (Z.ltb_spec l 0) as [Hn|Hn].
    - right. split; [cbn; lia|eauto 8].
    - left. unfold u32, is_i32 in *. lia. }
  destruct (t =? 15) eqn:E15.
  { rewrite Sh by lia. destruct (zlen r <? off + 4) eqn:Es.
    { do 2 eexists; split; [reflexivity|]. split; [lia|]. split; intros; discriminate. }
    rewrite U4. destruct Rd as (m & l & -> & Lm & El & Hl); [lia|]. cbn [bind]. rewrite El. cbn [bind].
    destruct (i32 (zlen r) <? _).
    { do 2 eexists; split; [reflexivity|]. split; [lia|]. split; intros; discriminate. }
    do 2 eexists; split; [reflexivity|]. split; [apply u32_range|]. split; intros _; [|lia].
    destruct (Z.ltb_spec l 0) as [Hn|Hn].
    - right. split; [cbn; lia|eauto 8].
    - left. unfold u32, is_i32 in *. lia. }
  destruct (t =? 16) eqn:E16; [apply Fx; lia|].
  destruct ((t =? 17) || (t =? 18)) eqn:E17; [apply Fx; lia|].
  destruct (t =? 19) eqn:E19; [apply Fx; lia|].
  do 2 eexists; split; [reflexivity|]. split; [lia|]. split; intros; discriminate.
Qed.

(* What a step that yields an element has read. *)
Definition elem_at (r : bytes) (pos p1 ende : Z) (t : Z) (k : bytes) : Prop :=
  pos + 2 <= p1 <= ende /\ zlen k = p1 - pos - 2 /\ nul_free k /\
  exists a b, r = a ++ t :: k ++ 0 :: b /\ zlen a = pos.

Lemma step_total r pos ende : 0 <= pos -> ende <= zlen r -> zlen r + 16 <= 2147483648 ->
  exists s, rd_step r pos ende = Ret s /\
  match s with
  | RElem p v => 0 <= pos < ende /\ 0 <= p /\ exists p1 t k, v = MkValue pos p1 (Some r) None /\ elem_at r pos p1 ende t k /\
      (pos + 2 <= p \/ negative_length r) /\
      (t = 3 \/ t = 4 -> huge_length r \/ exists m l, goslice r p1 (p1 + 4) = Ret m /\
         readi32 m = Ret l /\ 5 <= l /\ p1 + l <= zlen r)
  | _ => True
  end.
Proof.
  intros Hp He Hs. unfold rd_step. destruct (ende <=? pos) eqn:E0; [eexists; split; [reflexivity|exact I]|].
  destruct (goindex_ok r pos) as (t & Ht & Nt); [lia|]. rewrite Ht. cbn [bind].
  destruct (t =? 0) eqn:Et; [eexists; split; [reflexivity|exact I]|].
  rewrite (u32_id (pos + 1)) by (unfold is_u32; lia).
  destruct (goslice_ex r pos (pos + 1)) as (a & mt & c & Er & La & Lm & _); try lia.
  destruct mt as [|t' [|? ?]]; zlens_in Lm; posl; try (zlens_in Lm; lia).
  assert (t' = t) as ->.
  { rewrite Er in Ht. rewrite (goindex_eq _ _ a t' c) in Ht; [congruence|lst|lia]. }
  cbn [app] in Er. unfold rd_validate_key.
  assert (Sl : slice r (pos + 1) ende = firstn (Z.to_nat (ende - pos - 1)) c).
  { unfold slice. rewrite Er. change (a ++ t :: c) with (a ++ [t] ++ c). rewrite app_assoc.
    rewrite skipn_zlen by zl. f_equal. lia. }
  rewrite Sl. destruct (find_nul _) as [n|] eqn:Fn.
  2:{ replace ((ende <=? zlen r) || (pos + 1 =? ende)) with true by lia. cbn [bind]. eexists; split; [reflexivity|exact I]. }
  cbn [bind]. apply find_nul_split in Fn as (k & b & Ek & Hk & Lk).
  assert (Lc : zlen r = pos + 1 + zlen c) by (rewrite Er; zl).
  assert (Lb : zlen k + 1 + zlen b = ende - pos - 1).
  { assert (A : zlen (firstn (Z.to_nat (ende - pos - 1)) c) = ende - pos - 1)
      by (unfold zlen in *; rewrite firstn_length; lia).
    rewrite Ek in A. zlens_in A. lia. }
  set (p1 := u32 (pos + 1 + (n + 1))).
  assert (Ep : p1 = pos + 2 + zlen k) by (unfold p1; rewrite u32_id; unfold is_u32; posl; lia).
  clearbody p1. posl.
  assert (EA : elem_at r pos p1 ende t k).
  { split; [lia|]. split; [lia|]. split; [exact Hk|].
    exists a, (b ++ skipn (Z.to_nat (ende - pos - 1)) c). split; [|lia].
    rewrite Er. do 2 f_equal. rewrite <- (firstn_skipn (Z.to_nat (ende - pos - 1)) c) at 1.
    rewrite Ek. rewrite <- app_assoc. reflexivity. }
  destruct (core_size_total r pos p1 t) as (n2 & e & -> & Hn & Hsz & Hct); auto; try lia.
  cbn [bind]. destruct e as [e|]; [eexists; split; [reflexivity|exact I]|].
  eexists; split; [reflexivity|]. split; [lia|]. split; [apply u32_range|]. exists p1, t, k. split; [reflexivity|]. split; [exact EA|].
  specialize (Hsz eq_refl). specialize (Hct eq_refl).
  assert (Fld : forall m l types (P : Z -> Prop), goslice r p1 (p1 + 4) = Ret m -> zlen m = 4 -> readi32 m = Ret l ->
    In t types -> P l -> has_field types P r).
  { intros m l types P Gm Lm4 El Ht' HP. destruct EA as (_ & _ & _ & a' & b' & Er' & La').
    pose proof (goslice_inv _ _ _ _ Gm) as (G1 & G2 & G3 & G4 & _).
    assert (p1 + 4 <= zlen r) by lia.
    assert (Lb' : zlen r = pos + zlen k + 2 + zlen b') by (rewrite Er'; zl).
    destruct (split_at b' 4) as (x & y & Eb & Lx); [lia|].
    assert (x = m).
    { rewrite Er', Eb in Gm. rewrite (goslice_eq _ _ _ (a' ++ t :: k ++ [0]) x y) in Gm; [congruence|lst|zl|zl]. }
    subst x. exists a', t, k, m, l, y. rewrite <- Eb. repeat split; auto. }
  split.
  - destruct Hsz as [Hsz|(Hi & m & l & Gm & Lm4 & El & Hl)].
    + left. rewrite u32_id by (unfold is_u32; lia). lia.
    + right. eapply Fld; eauto.
  - intros T34. destruct (Hct T34) as (m & l & Gm & Lm4 & El & Hl5 & [Hl|Hl]).
    + right. eauto 8.
    + left. unfold huge_length. eapply Fld; eauto; [cbn; lia|]. lia.
Qed.

Lemma iter_total fuel : forall r pos ende, 0 <= pos -> ende <= zlen r -> zlen r + 16 <= 2147483648 ->
  (exists es e, iter_loop fuel r pos ende = Ret (es, e)) \/
  (iter_loop fuel r pos ende = Fuel /\ (Z.of_nat fuel <= Z.max 0 (ende - pos) \/ negative_length r)).
Proof.
  induction fuel as [|fuel IH]; intros r pos ende Hp He Hs.
  - right. split; [reflexivity|]. left. lia.
  - cbn [iter_loop]. destruct (step_total r pos ende) as (s & -> & S); auto. cbn [bind].
    destruct s as [p e|p|p v]; [left; eauto..|].
    destruct S as (S1 & Hc & p1 & t & k & -> & EA & S2 & S3).
    destruct (IH r p ende Hc He Hs) as [(es & e & E)|(E & F)].
    + left. rewrite E. cbn. eauto.
    + right. rewrite E. split; [reflexivity|]. destruct F as [F|F]; [|auto].
      destruct S2 as [S2|S2]; [|auto]. left. lia.
Qed.

Lemma has_field_sub types (P Q : Z -> Prop) a m b :
  (forall l, P l -> Q l) -> has_field types P m -> has_field types Q (a ++ m ++ b).
Proof.
  intros HPQ (a0 & t & k & l4 & l & b0 & -> & Ht & Hk & L4 & El & HP).
  exists (a ++ a0), t, k, l4, l, (b0 ++ b). split; [lst|]. auto 8.
Qed.

Lemma negative_sub a m b : negative_length m -> negative_length (a ++ m ++ b).
Proof. apply has_field_sub; auto. Qed.

Lemma huge_sub a m b : huge_length m -> huge_length (a ++ m ++ b).
Proof. apply has_field_sub. intros l. zl. Qed.

(* ReadDocument: never panics on a non-negative declared length ... *)
Lemma read_document_total fuel r l : zlen r + 16 <= 2147483648 ->
  declared_length r = Ret l -> 0 <= l ->
  (exists res, read_document fuel r = Ret res) \/
  (read_document fuel r = Fuel /\ (Z.of_nat fuel <= zlen r \/ negative_length r)).
Proof.
  intros Hs Hl H0. unfold read_document, doc_unmarshal.
  destruct (zlen r <? 5) eqn:E5; [left; cbn; eauto|].
  destruct (goslice_ex r 0 4) as (a & m & b & Er & La & Lm & G); try lia.
  rewrite G. cbn [bind]. destruct a; [|zlens_in La; posl; lia]. cbn [app] in Er.
  assert (m = firstn 4 r) as ->.
  { rewrite Er. symmetry. change 4%nat with (Z.to_nat 4). replace 4 with (zlen m) by lia.
    unfold zlen. rewrite Nat2Z.id, firstn_app, firstn_all, Nat.sub_diag. cbn. apply app_nil_r. }
  unfold declared_length in Hl. rewrite Hl. cbn [bind].
  destruct (zlen r <? l) eqn:El; [left; cbn; eauto|].
  rewrite u32_id by (unfold is_u32; lia).
  destruct (iter_total fuel r 4 l) as [(es & e & ->)|(-> & F)]; try lia.
  - left. cbn. destruct e; eauto.
  - right. split; [reflexivity|]. destruct F as [F|F]; [left; lia|auto].
Qed.

Lemma rd_validate_total fuel : forall r, zlen r + 16 <= 2147483648 ->
  (exists res, rd_validate fuel r = Ret res) \/
  (rd_validate fuel r = Fuel /\ (Z.of_nat fuel <= zlen r \/ negative_length r)) \/
  huge_length r.
Proof.
  induction fuel as [|k IH]; intros r Hs.
  { right. left. split; [reflexivity|]. left. posl. lia. }
  cbn [rd_validate]. unfold rd_elements.
  destruct (zlen r <? 5) eqn:E5; [left; cbn; eauto|].
  destruct (goslice_ex r 0 4) as (a & m & b & Er & La & Lm & G); try lia.
  rewrite G. cbn [bind]. destruct (readi32_total m) as (l & El & _); [lia|].
  rewrite El. cbn [bind]. destruct ((zlen r <? l) || (l <? 0)) eqn:Eb; [left; cbn; eauto|].
  rewrite u32_id by (unfold is_u32; lia).
  set (f := fun (_ : unit) (v : value) => _).
  assert (Lp : forall n pos, 0 <= pos ->
    (exists res, rd_loop f n r pos l tt = Ret (tt, res)) \/
    (rd_loop f n r pos l tt = Fuel /\ (Z.of_nat n <= Z.max 0 (l - pos) \/ Z.of_nat k <= zlen r - 2 \/ negative_length r)) \/
    huge_length r).
  { induction n as [|n IHn]; intros pos Hp.
    { right. left. split; [reflexivity|]. lia. }
    cbn [rd_loop]. destruct (step_total r pos l) as (s & -> & S); try lia. cbn [bind].
    destruct s as [p e|p|p v]; [left; eauto..|].
    destruct S as (S1 & Hc & p1 & t & key & -> & EA & S2 & S3).
    destruct EA as (A1 & A2 & A3 & aa & bb & Er' & La').
    assert (Tt : goindex r pos = Ret t) by (rewrite Er'; apply (goindex_eq _ _ aa t (key ++ 0 :: bb)); [reflexivity|lia]).
    assert (Cont : (exists res, rd_loop f n r p l tt = Ret (tt, res)) \/
      (rd_loop f n r p l tt = Fuel /\ (Z.of_nat (S n) <= Z.max 0 (l - pos) \/ Z.of_nat k <= zlen r - 2 \/ negative_length r)) \/
      huge_length r).
    { destruct (IHn p Hc) as [C|[(C & F)|C]]; auto. right. left. split; [exact C|]. destruct S2; [|auto]. destruct F as [F|[F|F]]; auto. left. lia. }
    unfold f at 1 3. cbn [v_type]. replace (p1 =? 0) with false by lia. rewrite Tt. cbn [bind].
    destruct ((t =? 3) || (t =? 4)) eqn:T34; [|exact Cont].
    cbn [reader_container_raw]. replace (p1 =? 0) with false by lia. rewrite Tt. cbn [bind].
    rewrite Z.eqb_refl. cbn [negb].
    destruct S3 as [S3|(m4 & l4 & Gm & El4 & H5 & H6)]; [lia|auto|].
    unfold get_reader_raw. rewrite !u32_id by (unfold is_u32; lia). rewrite Gm. cbn [bind]. rewrite El4. cbn [bind].
    rewrite (u32_id l4) by (unfold is_u32; lia). rewrite (u32_id (p1 + l4)) by (unfold is_u32; lia).
    destruct (goslice_ex r p1 (p1 + l4)) as (x & sub & y & Ex & Lx & Lsub & ->); try lia. cbn [bind].
    destruct (IH sub) as [([z e] & ->)|[(-> & F)|F]]; try lia.
    - cbn [bind]. destruct e; [left; eauto|exact Cont].
    - cbn [bind]. right. left. split; [reflexivity|]. right. destruct F as [F|F]; [left; lia|right].
      rewrite Ex. apply negative_sub, F.
    - right. right. rewrite Ex. apply huge_sub, F. }
  destruct (Lp k 4) as [(res & ->)|[(-> & F)|F]]; try lia; auto.
  - left. cbn. eauto.
  - right. left. split; [reflexivity|]. destruct F as [F|[F|F]]; [left; lia..|auto].
Qed.

(* ------------------------------------------- reading a validated element (C11) *)

Lemma iter_loop_more k : forall r pos ende es, iter_loop k r pos ende = Ret (es, None) ->
  iter_loop (S k) r pos ende = Ret (es, None).
Proof.
  induction k as [|k IH]; intros r pos ende es H; [discriminate|].
  change (iter_loop (S (S k)) r pos ende) with
    (st <- rd_step r pos ende ;;
      match st with
      | RStop _ e => Ret ([], Some e)
      | RDone _ => Ret ([], None)
      | RElem p v => '(es, e) <- iter_loop (S k) r p ende ;; Ret (Some v :: es, e)
      end).
  cbn [iter_loop] in H. destruct (rd_step r pos ende) as [s| |]; cbn [bind] in *; try discriminate.
  destruct s as [p e|p|p v]; auto.
  destruct (iter_loop k r p ende) as [[es' e']| |] eqn:E; cbn [bind] in H; try discriminate.
  injection H as <- ->. rewrite (IH _ _ _ _ E). reflexivity.
Qed.

Lemma rd_loop_iter (f : unit -> value -> go (unit * ctl)) :
  (forall v s, f tt v <> Ret (s, CDone)) ->
  forall k r pos ende s p, rd_loop f k r pos ende tt = Ret (s, (p, None)) ->
  exists es, iter_loop k r pos ende = Ret (es, None).
Proof.
  intros Hf. induction k as [|k IH]; intros r pos ende s p H; [discriminate|].
  cbn [rd_loop iter_loop] in *. destruct (rd_step r pos ende) as [st| |]; cbn [bind] in *; try discriminate.
  destruct st as [q e|q|q v]; [discriminate|eauto|].
  destruct (f tt v) as [[[] c]| |] eqn:Ef; cbn [bind] in H; try discriminate.
  destruct c; [|exfalso; eapply Hf; eauto|discriminate].
  destruct (IH _ _ _ _ _ H) as (es & ->). cbn. eauto.
Qed.

(* What Reader.Validate accepts, ReadDocument reads. *)
Lemma validated_reads fuel r n : rd_validate fuel r = Ret (n, None) ->
  exists es, read_document fuel r = Ret (inl es).
Proof.
  destruct fuel as [|k]; [discriminate|]. cbn [rd_validate]. unfold rd_elements, read_document, doc_unmarshal.
  destruct (zlen r <? 5); [discriminate|].
  destruct (goslice r 0 4) as [h| |]; cbn [bind]; try discriminate.
  destruct (readi32 h) as [l| |]; cbn [bind]; try discriminate.
  destruct (zlen r <? l) eqn:El; cbn [orb]; [discriminate|]. destruct (l <? 0) eqn:E0; [discriminate|].
  set (f := fun (_ : unit) (v : value) => _). intros H.
  destruct (rd_loop f k r 4 (u32 l) tt) as [[s [p e]]| |] eqn:E; cbn [bind] in H; try discriminate.
  injection H as -> ->.
  destruct (rd_loop_iter f) with (2 := E) as (es & Ei).
  - intros v s'. unfold f. destruct (v_type v) as [t| |]; cbn [bind]; try discriminate.
    destruct ((t =? 3) || (t =? 4)); [|discriminate].
    destruct (reader_container_raw t v) as [sub| |]; cbn [bind]; try discriminate.
    destruct (rd_validate k sub) as [[z [e|]]| |]; cbn [bind]; discriminate.
  - apply iter_loop_more in Ei. rewrite Ei. cbn. eauto.
Qed.

(* Calling the getter of type t and dropping the result. *)
Definition read_typed fuel (t : Z) (ov : option value) : go unit :=
  if t =? 1 then _ <- v_double ov ;; Ret tt else
  if t =? 2 then _ <- v_string ov ;; Ret tt else
  if t =? 3 then _ <- v_reader_document fuel ov ;; _ <- v_mutable_document fuel ov ;; Ret tt else
  if t =? 4 then _ <- v_reader_array fuel ov ;; _ <- v_mutable_array fuel ov ;; Ret tt else
  if t =? 5 then _ <- v_binary ov ;; Ret tt else
  if t =? 7 then _ <- v_objectid ov ;; Ret tt else
  if t =? 8 then _ <- v_boolean ov ;; Ret tt else
  if t =? 9 then _ <- v_datetime ov ;; _ <- v_time ov ;; Ret tt else
  if t =? 11 then _ <- v_regex ov ;; Ret tt else
  if t =? 12 then _ <- v_dbpointer ov ;; Ret tt else
  if t =? 13 then _ <- v_javascript ov ;; Ret tt else
  if t =? 14 then _ <- v_symbol ov ;; Ret tt else
  if t =? 15 then _ <- v_reader_code fuel ov ;; _ <- v_mutable_code fuel ov ;; Ret tt else
  if t =? 16 then _ <- v_int32 ov ;; Ret tt else
  if t =? 17 then _ <- v_timestamp ov ;; Ret tt else
  if t =? 18 then _ <- v_int64 ov ;; Ret tt else
  if t =? 19 then _ <- v_decimal ov ;; Ret tt else
  Ret tt.

(* The int32 at a position. *)
Definition int_at (data : bytes) (i : Z) : go Z := s <- goslice data i (i + 4) ;; readi32 s.

(* What validation leaves unchecked: the signs and the wrap-around of length fields, and the
   inner length of a binary of subtype 2. *)
Definition length_fields_ok (t off : Z) (data : bytes) : Prop :=
  match t with
  | 2 | 13 | 14 => exists l, int_at data off = Ret l /\ 1 <= l
  | 3 | 4 => True
  | 5 => exists l, int_at data off = Ret l /\ 0 <= l /\ l + zlen data + 16 < 2147483648 /\
      (goindex data (off + 4) = Ret 2 -> exists m, int_at data (off + 5) = Ret m /\ 0 <= m /\ off + 9 + m <= zlen data)
  | 12 => exists l, int_at data off = Ret l /\ 1 <= l /\ l + zlen data + 16 < 2147483648
  | 15 => exists l m, int_at data off = Ret l /\ 0 <= l /\ l + zlen data + 16 < 2147483648 /\
      int_at data (off + 4) = Ret m /\ 1 <= m
  | _ => True
  end.

Lemma int_at_inv data i l : int_at data i = Ret l -> 0 <= i -> i + 4 <= zlen data /\
  exists s, goslice data i (i + 4) = Ret s /\ readi32 s = Ret l.
Proof.
  unfold int_at. intros H Hi. destruct (goslice data i (i + 4)) as [s| |] eqn:E; cbn [bind] in H; try discriminate.
  pose proof (goslice_inv _ _ _ _ E) as G. split; [lia|eauto].
Qed.

Lemma rdu64_total (m : bytes) : zlen m = 8 -> exists x, rdu64 m = Ret x.
Proof.
  intros H. destruct m as [|a [|b [|c [|d [|e [|f [|g [|h [|? ?]]]]]]]]]; zlens_in H; posl; try lia.
  all: cbn; eauto.
Qed.

Lemma skipn_plus {A} (l : list A) : forall n m, skipn n (skipn m l) = skipn (m + n) l.
Proof. induction l as [|x l IH]; intros n [|m]; cbn; rewrite ?skipn_nil; auto. Qed.

Lemma short_off off n data : 0 <= off <= zlen data -> 0 <= n < 17 -> zlen data + 16 <= 2147483648 ->
  short off n data = (zlen data <? off + n).
Proof. intros. unfold short. rewrite u32_id by (unfold is_u32; lia). reflexivity. Qed.

Ltac gslice m :=
  match goal with
  | |- context [goslice ?d ?i ?j] =>
      let a := fresh "a" in let b := fresh "b" in let E := fresh "E" in let G := fresh "G" in
      let La := fresh "La" in let Lm := fresh "Lm" in
      destruct (goslice_ex d i j) as (a & m & b & E & La & Lm & G);
      [try lia|try lia|try lia|rewrite G; clear E; cbn [bind]]
  end.
Ltac u3 := rewrite ?u32_id by (unfold is_u32; lia).

Lemma get_u64_total off data : 0 <= off -> off + 8 <= zlen data -> zlen data + 16 <= 2147483648 ->
  exists x, get_u64 off data = Ret x.
Proof.
  intros. unfold get_u64. u3. gslice m. destruct (rdu64_total m) as (x & ->); [lia|]. eauto.
Qed.

Lemma get_str_total off data l : 0 <= off -> off + 4 <= zlen data -> zlen data + 16 <= 2147483648 ->
  int_at data off = Ret l -> 1 <= l -> off + 4 + l <= zlen data ->
  exists x, get_str off data = Ret x.
Proof.
  intros ? ? ? Hl ? ?. apply int_at_inv in Hl as (_ & s & Gs & Es); [|lia].
  unfold get_str. u3. rewrite Gs. cbn [bind]. rewrite Es. cbn [bind].
  rewrite !i32_id by (rewrite ?i32_id by (unfold is_i32; lia); unfold is_i32; lia).
  gslice m. eauto.
Qed.

Lemma validated_safe fuel st off data n t :
  0 < off <= zlen data -> zlen data + 16 <= 2147483648 -> goindex data st = Ret t ->
  val_validate fuel false (MkValue st off (Some data) None) = Ret (n, None) ->
  length_fields_ok t off data ->
  read_typed fuel t (Some (MkValue st off (Some data) None)) = Ret tt.
Proof.
  intros Ho Hs Ht. cbn [val_validate]. unfold validate_core. rewrite Ht. cbn [bind].
  rewrite !short_off by lia.
  set (ov := Some (MkValue st off (Some data) None)).
  assert (G : forall A tg (k : Z -> bytes -> option document -> go A), t = tg -> getter tg k ov = k off data None).
  { intros A tg k <-. unfold ov, getter. replace (off =? 0) with false by lia. rewrite Ht. cbn [bind].
    rewrite Z.eqb_refl. reflexivity. }
  unfold read_typed.
  destruct ((t =? 6) || (t =? 10) || (t =? 255) || (t =? 127)) eqn:E0.
  { intros _ _. assert (t = 6 \/ t = 10 \/ t = 255 \/ t = 127) as [ -> |[ -> |[ -> | -> ]]] by lia; reflexivity. }
  destruct (t =? 1) eqn:E1.
  { destruct (zlen data <? off + 8) eqn:Es; [discriminate|]. intros _ _.
    unfold v_double. rewrite G by lia. destruct (get_u64_total off data) as (x & ->); try lia. reflexivity. }
  destruct ((t =? 2) || (t =? 13) || (t =? 14)) eqn:E2.
  { intros Hv Hl.
    assert (exists l, int_at data off = Ret l /\ 1 <= l) as (l & Il & Hl1)
      by (assert (t = 2 \/ t = 13 \/ t = 14) as [ -> |[ -> | -> ]] by lia; exact Hl).
    destruct (int_at_inv _ _ _ Il) as (H4 & s & Gs & Es); [lia|].
    revert Hv. destruct (zlen data <? off + 4) eqn:Es4; [discriminate|].
    u3. rewrite Gs. cbn [bind]. rewrite Es. cbn [bind].
    assert (Hi : is_i32 l) by (destruct (readi32_total s) as (l' & E' & R'); [pose proof (goslice_inv _ _ _ _ Gs); lia|congruence]).
    destruct (i32 (zlen data) <? i32 (off + 4 + l)) eqn:E3; [discriminate|].
    destruct (goindex data (u32 (off + 4 + u32 l - 1))) as [b| |] eqn:Eb; cbn [bind]; try discriminate.
    intros _. unfold is_i32 in Hi. rewrite (u32_id l) in Eb by (unfold is_u32; lia).
    rewrite u32_id in Eb by (unfold is_u32; lia).
    assert (off + 4 + l - 1 < zlen data) by (unfold goindex in Eb; destruct ((0 <=? off + 4 + l - 1) && (off + 4 + l - 1 <? zlen data)) eqn:Q; [lia|discriminate]).
    destruct (get_str_total off data l) as (x & Ex); try lia; auto.
    assert (t = 2 \/ t = 13 \/ t = 14) as [ -> |[ -> | -> ]] by lia;
      cbn [Z.eqb Pos.eqb]; [unfold v_string|unfold v_javascript|unfold v_symbol]; rewrite G by lia;
      rewrite Ex; reflexivity. }
  assert (Ct : forall l s n0, goslice data off (off + 4) = Ret s -> readi32 s = Ret l ->
    (l <? 5) = false -> (i32 (zlen data) <? i32 (off + l)) = false ->
    (sub <- goslice data off (u32 (off + u32 l)) ;;
      '(n, e) <- rd_validate fuel sub ;; Ret (u32 (4 + (n - 4)), e)) = Ret (n0, None) ->
    (exists b es, get_reader_raw off data = Ret b /\ read_document fuel b = Ret (inl es))).
  { intros l s n0 Gs Es _ _ Hv. unfold get_reader_raw. rewrite (u32_id (off + 4)) by (unfold is_u32; pose proof (goslice_inv _ _ _ _ Gs); lia).
    rewrite Gs. cbn [bind]. rewrite Es. cbn [bind].
    destruct (goslice data off (u32 (off + u32 l))) as [sub| |]; cbn [bind] in *; try discriminate.
    destruct (rd_validate fuel sub) as [[z [e|]]| |] eqn:Er; cbn [bind] in Hv; try discriminate.
    apply validated_reads in Er as (es & Ees). eauto. }
  destruct (t =? 3) eqn:E3.
  { destruct (zlen data <? off + 4) eqn:E4; [discriminate|]. rewrite (u32_id (off + 4)) by (unfold is_u32; lia).
    destruct (goslice data off (off + 4)) as [s| |] eqn:Gs; cbn [bind]; try discriminate.
    destruct (readi32 s) as [l| |] eqn:Es; cbn [bind]; try discriminate.
    destruct (l <? 5) eqn:E5; [discriminate|].
    destruct (i32 (zlen data) <? i32 (off + l)) eqn:E6; [discriminate|]. intros Hv _.
    destruct (Ct l s n eq_refl Es E5 E6 Hv) as (b & es & Eb & Ed).
    replace (t =? 2) with false by lia.
    unfold v_reader_document, v_mutable_document. rewrite !G by lia.
    unfold get_reader, mutable_container. rewrite Eb. cbn [bind]. rewrite Ed. reflexivity. }
  destruct (t =? 4) eqn:E4.
  { destruct (zlen data <? off + 4) eqn:E4'; [discriminate|]. rewrite (u32_id (off + 4)) by (unfold is_u32; lia).
    destruct (goslice data off (off + 4)) as [s| |] eqn:Gs; cbn [bind]; try discriminate.
    destruct (readi32 s) as [l| |] eqn:Es; cbn [bind]; try discriminate.
    destruct (l <? 5) eqn:E5; [discriminate|].
    destruct (i32 (zlen data) <? i32 (off + l)) eqn:E6; [discriminate|]. intros Hv _.
    destruct (Ct l s n eq_refl Es E5 E6 Hv) as (b & es & Eb & Ed).
    replace (t =? 2) with false by lia.
    unfold v_reader_array, v_mutable_array. rewrite !G by lia.
    unfold get_reader, mutable_container. rewrite Eb. cbn [bind]. rewrite Ed. reflexivity. }
  clear Ct. replace (t =? 2) with false by lia.
  destruct (t =? 5) eqn:E5.
  { assert (t = 5) as -> by lia. destruct (zlen data <? off + 5) eqn:Es5; [discriminate|].
    intros Hv (l & Il & Hl0 & Hl & H2). destruct (int_at_inv _ _ _ Il) as (_ & s & Gs & Es); [lia|].
    revert Hv. rewrite !(u32_id (off + 4)) by (unfold is_u32; lia). rewrite Gs. cbn [bind]. rewrite Es. cbn [bind].
    destruct (goindex data (off + 4)) as [b| |] eqn:Eb; cbn [bind]; try discriminate.
    destruct (_ && _); [discriminate|]. destruct (i32 (zlen data) <? i32 (off + 5 + l)) eqn:E6; [discriminate|]. intros _.
    unfold v_binary. rewrite G by reflexivity. rewrite !(u32_id (off + 4)) by (unfold is_u32; lia).
    rewrite Gs. cbn [bind]. rewrite Es. cbn [bind]. rewrite Eb. cbn [bind].
    destruct (b =? 2) eqn:Eb2.
    - assert (b = 2) as -> by lia. destruct (H2 eq_refl) as (m & Im & Hm & Hm2).
      destruct (int_at_inv _ _ _ Im) as (H9 & s2 & Gs2 & Es2); [lia|].
      rewrite (u32_id (off + 5)), (u32_id (off + 9)) by (unfold is_u32; lia).
      replace (goslice data (off + 5) (off + 9)) with (Ret s2) by (rewrite <- Gs2; f_equal; lia). cbn [bind].
      rewrite Es2. cbn [bind]. rewrite (u32_id (off + 9)) by (unfold is_u32; lia). replace (m <? 0) with false by lia.
      rewrite !i32_id by (rewrite ?i32_id by (unfold is_i32; lia); unfold is_i32; lia).
      gslice x. reflexivity.
    - cbn [bind]. replace (l <? 0) with false by lia.
      rewrite !i32_id in E6 by (unfold is_i32; lia).
      rewrite !i32_id by (rewrite ?i32_id by (unfold is_i32; lia); unfold is_i32; lia).
      rewrite u32_id by (unfold is_u32; lia). gslice x. reflexivity. }
  destruct (t =? 7) eqn:E7.
  { destruct (zlen data <? off + 12) eqn:Es; [discriminate|]. intros _ _.
    unfold v_objectid. rewrite G by lia. u3. gslice x. reflexivity. }
  destruct (t =? 8) eqn:E8.
  { destruct (zlen data <? off + 1) eqn:Es; [discriminate|]. intros _ _.
    unfold v_boolean. rewrite G by lia. destruct (goindex_ok data off) as (b & -> & _); [lia|]. reflexivity. }
  destruct (t =? 9) eqn:E9.
  { destruct (zlen data <? off + 8) eqn:Es; [discriminate|]. intros _ _.
    unfold v_time, v_datetime. rewrite !G by lia. destruct (get_u64_total off data) as (x & ->); try lia. reflexivity. }
  destruct (t =? 11) eqn:E11.
  { intros Hv _. unfold v_regex. rewrite G by lia. revert Hv.
    replace (zlen data <? off) with false by lia.
    destruct (find_nul (skipn (Z.to_nat off) data)) as [x|] eqn:F1; [|discriminate].
    apply find_nul_split in F1 as (k & b & Ek & _ & Lk).
    replace (skipn (Z.to_nat (x + 1)) (skipn (Z.to_nat off) data)) with (skipn (Z.to_nat (off + x + 1)) data).
    - destruct (find_nul _); [reflexivity|discriminate].
    - rewrite skipn_plus. f_equal. posl. lia. }
  destruct (t =? 12) eqn:E12.
  { assert (t = 12) as -> by lia. destruct (zlen data <? off + 4) eqn:Es4; [discriminate|].
    intros Hv (l & Il & Hl0 & Hl). destruct (int_at_inv _ _ _ Il) as (_ & s & Gs & Es); [lia|].
    revert Hv. rewrite !(u32_id (off + 4)) by (unfold is_u32; lia). rewrite Gs. cbn [bind]. rewrite Es. cbn [bind].
    rewrite !i32_id by (unfold is_i32; lia). destruct (zlen data <? off + 4 + l + 12) eqn:E6; [discriminate|]. intros _.
    cbn [Z.eqb Pos.eqb]. unfold v_dbpointer. rewrite G by reflexivity. rewrite !(u32_id (off + 4)) by (unfold is_u32; lia).
    rewrite Gs. cbn [bind]. rewrite Es. cbn [bind]. rewrite (u32_id l) by (unfold is_u32; lia).
    rewrite !u32_id by (unfold is_u32; lia).
    rewrite !i32_id by (rewrite ?i32_id by (unfold is_i32; lia); unfold is_i32; lia).
    gslice x. gslice y. reflexivity. }
  replace (t =? 13) with false by lia. replace (t =? 14) with false by lia.
  destruct (t =? 15) eqn:E15.
  { assert (t = 15) as -> by lia. destruct (zlen data <? off + 4) eqn:Es4; [discriminate|].
    intros Hv (l & m & Il & Hl0 & Hl & Im & Hm).
    destruct (int_at_inv _ _ _ Il) as (_ & s & Gs & Es); [lia|].
    destruct (int_at_inv _ _ _ Im) as (H8 & s2 & Gs2 & Es2); [lia|].
    assert (Hmi : is_i32 m) by (destruct (readi32_total s2) as (m' & E' & R'); [pose proof (goslice_inv _ _ _ _ Gs2); lia|congruence]).
    replace (off + 4 + 4) with (off + 8) in Gs2 by lia.
    revert Hv. rewrite !(u32_id (off + 4)) by (unfold is_u32; lia). rewrite Gs. cbn [bind]. rewrite Es. cbn [bind].
    rewrite !i32_id by (unfold is_i32; lia). destruct (zlen data <? off + l) eqn:E6; [discriminate|].
    rewrite !(u32_id (off + 8)) by (unfold is_u32; lia). rewrite Gs2. cbn [bind]. rewrite Es2. cbn [bind].
    destruct (l - 13 <? m) eqn:E13; [discriminate|]. unfold is_i32 in Hmi.
    rewrite !(u32_id m), !(u32_id l) by (unfold is_u32; lia). rewrite !u32_id by (unfold is_u32; lia).
    destruct (goindex data (off + 8 + m - 1)) as [b| |]; cbn [bind]; try discriminate.
    destruct (negb (b =? 0)); [discriminate|].
    destruct (goslice data (off + 8 + m) (off + l)) as [sub| |] eqn:Gsub; cbn [bind]; try discriminate.
    destruct (rd_validate fuel sub) as [[z [e|]]| |] eqn:Er; cbn [bind]; try discriminate. intros _.
    apply validated_reads in Er as (es & Ees).
    unfold v_reader_code, v_mutable_code. rewrite !G by reflexivity.
    rewrite !(u32_id (off + 4)), !(u32_id (off + 8)) by (unfold is_u32; lia).
    do 4 (rewrite ?Gs2, ?Gs, ?Es2, ?Es; cbn [bind]).
    rewrite !(u32_id l), !(u32_id m) by (unfold is_u32; lia). rewrite !u32_id by (unfold is_u32; lia).
    gslice x. rewrite Gsub. cbn [bind]. rewrite Ees. reflexivity. }
  destruct (t =? 16) eqn:E16.
  { destruct (zlen data <? off + 4) eqn:Es; [discriminate|]. intros _ _.
    unfold v_int32. rewrite G by lia. u3. gslice x. destruct (readi32_total x) as (l & -> & _); [lia|]. reflexivity. }
  destruct (t =? 17) eqn:E17.
  { cbn [orb]. destruct (zlen data <? off + 8) eqn:Es; [discriminate|]. intros _ _.
    unfold v_timestamp. rewrite G by lia. u3. gslice x. destruct (rdu32_total x) as (l & ->); [lia|]. cbn [bind].
    gslice y. destruct (rdu32_total y) as (l' & ->); [lia|]. reflexivity. }
  cbn [orb]. destruct (t =? 18) eqn:E18.
  { destruct (zlen data <? off + 8) eqn:Es; [discriminate|]. intros _ _.
    unfold v_int64. rewrite !G by lia. destruct (get_u64_total off data) as (x & ->); try lia. reflexivity. }
  destruct (t =? 19) eqn:E19; [|discriminate].
  destruct (zlen data <? off + 16) eqn:Es; [discriminate|]. intros _ _.
  unfold v_decimal. rewrite G by lia. u3. gslice x. destruct (rdu64_total x) as (l & ->); [lia|]. cbn [bind].
  gslice y. destruct (rdu64_total y) as (l' & ->); [lia|]. reflexivity.
Qed.

(* ----------------------------------------------------------------- refutations *)

(* a string element whose length field is -6: the reader comes back to the same element *)
Definition looping_doc : bytes := [11; 0; 0; 0; 2; 0; 250; 255; 255; 255; 0].

Lemma looping_step : exists v, rd_step looping_doc 4 11 = Ret (RElem 4 v) /\ v_type v = Ret 2.
Proof. eexists. split; vm_compute; reflexivity. Qed.

Lemma looping_read fuel : read_document fuel looping_doc = Fuel.
Proof.
  unfold read_document. change (doc_unmarshal fuel looping_doc) with (iter_loop fuel looping_doc 4 11).
  enough (H : iter_loop fuel looping_doc 4 11 = Fuel) by now rewrite H.
  induction fuel as [|k IH]; [reflexivity|]. cbn [iter_loop].
  destruct looping_step as (v & -> & _). cbn [bind]. now rewrite IH.
Qed.

Lemma looping_validate fuel : rd_validate fuel looping_doc = Fuel.
Proof.
  destruct fuel as [|k]; [reflexivity|]. cbn [rd_validate]. unfold rd_elements.
  change (zlen looping_doc <? 5) with false. cbv iota.
  change (goslice looping_doc 0 4) with (Ret [11; 0; 0; 0]). cbn [bind].
  change (readi32 [11; 0; 0; 0]) with (Ret 11). cbn [bind].
  change ((zlen looping_doc <? 11) || (11 <? 0)) with false. cbv iota. change (u32 11) with 11.
  set (f := fun (_ : unit) (v : value) => _).
  enough (H : forall m, rd_loop f m looping_doc 4 11 tt = Fuel) by now rewrite H.
  induction m as [|m IH]; [reflexivity|]. cbn [rd_loop].
  destruct looping_step as (v & -> & Hv). cbn [bind]. unfold f at 1. rewrite Hv. cbn [bind Z.eqb Pos.eqb orb].
  exact IH.
Qed.

(* declared length -1 *)
Definition negative_doc : bytes := [255; 255; 255; 255; 1].
Lemma negative_read fuel : (1 <= fuel)%nat -> exists p, read_document fuel negative_doc = Panic p.
Proof.
  intros H. destruct fuel as [|k]; [lia|]. exists PIndex.
  unfold read_document, doc_unmarshal.
  change (zlen negative_doc <? 5) with false. cbv iota.
  change (goslice negative_doc 0 4) with (Ret [255; 255; 255; 255]). cbn [bind].
  change (readi32 [255; 255; 255; 255]) with (Ret (-1)). cbn [bind].
  change (zlen negative_doc <? -1) with false. cbv iota. change (u32 (-1)) with 4294967295.
  cbn [iter_loop]. unfold rd_step. change (4294967295 <=? 4) with false. cbv iota.
  change (goindex negative_doc 4) with (Ret 1). cbn [bind]. change (1 =? 0) with false. cbv iota.
  unfold rd_validate_key. change (u32 (4 + 1)) with 5.
  assert (E : slice negative_doc 5 4294967295 = []).
  { unfold slice. change (skipn (Z.to_nat 5) negative_doc) with (@nil Z). apply firstn_nil. }
  rewrite E. reflexivity.
Qed.

(* an embedded document of declared length 2^31-1 *)
Definition overflow_doc : bytes := [11; 0; 0; 0; 3; 0; 255; 255; 255; 127; 0].
Lemma overflow_validate fuel : (2 <= fuel)%nat -> exists p, rd_validate fuel overflow_doc = Panic p.
Proof. intros H. destruct fuel as [|[|?]]; [lia..|]. eexists. vm_compute. reflexivity. Qed.

(* a string of length 0, whose "terminator" is the last byte of its length *)
Definition empty_string_doc : bytes := [11; 0; 0; 0; 2; 0; 0; 0; 0; 0; 0].
Lemma empty_string_read : exists v n p, read_document 12 empty_string_doc = Ret (inl [Some v]) /\
  elem_validate 12 (Some v) = Ret (n, None) /\ v_type v = Ret 2 /\ v_string (Some v) = Panic p.
Proof. do 3 eexists. split; [vm_compute; reflexivity|]. repeat split; vm_compute; reflexivity. Qed.
