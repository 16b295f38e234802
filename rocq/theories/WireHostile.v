(* Parsing message bodies that come from anywhere (C30): what Validate counts of what
   ReadDocument read. *)
Require Import ZArith List Bool Lia ZifyBool ZifyNat.
From Verif Require Import Base BSpec Elements Value Codec CodecRead Itoa CodecRep Api ApiProofs Tree ReadSafe CodecProps
  Wire WireSpec WireProofs.
Import ListNotations.
Open Scope Z_scope.

Lemma readi32_range b l : readi32 b = Ret l -> -2147483648 <= l <= 2147483647.
Proof.
  unfold readi32. destruct (rdu32 b); cbn [bind]; try discriminate. intros H. injection H as <-.
  pose proof (i32_range a). unfold is_i32 in *. lia.
Qed.

(* A reader that validates is as long as Validate says, or longer. *)
Lemma rd_validate_le fuel r n : zlen r + 16 <= 2147483648 -> rd_validate fuel r = Ret (n, None) -> 0 <= n <= zlen r.
Proof.
  destruct fuel as [|k]; [discriminate|]. intros Hs. cbn [rd_validate]. unfold rd_elements.
  destruct (zlen r <? 5) eqn:E5; [cbn; discriminate|].
  destruct (goslice_ex r 0 4) as (a & m & b & Er & La & Lm & G); try lia.
  rewrite G. cbn [bind]. destruct (readi32_total m) as (l & El & _); [lia|].
  rewrite El. cbn [bind]. destruct ((zlen r <? l) || (l <? 0)) eqn:Eb; [cbn; discriminate|].
  rewrite u32_id by (unfold is_u32; lia).
  set (f := fun (_ : unit) (v : value) => _).
  assert (Lp : forall j pos s x, 0 <= pos -> rd_loop f j r pos l s = Ret (x, (n, None)) -> 0 <= n <= zlen r).
  { induction j as [|j IH]; intros pos s x Hp; cbn [rd_loop]; [discriminate|].
    destruct (step_total r pos l) as (st & E & S); try lia. rewrite E. cbn [bind].
    destruct st as [p e|p|p v].
    - discriminate.
    - unfold rd_step in E. destruct (l <=? pos) eqn:Q; [discriminate|]. destruct (goindex r pos) as [c| |]; try discriminate.
      cbn [bind] in E. destruct (c =? 0).
      + injection E as <-. intros H. injection H as _ <-. rewrite u32_id by (unfold is_u32; lia). lia.
      + destruct (rd_validate_key _ _ _) as [[? [?|]]| |]; cbn [bind] in E; try discriminate.
        destruct (validate_core _ _ _ _ _ _) as [[? [?|]]| |]; cbn [bind] in E; discriminate.
    - destruct S as (S1 & Hc & _). destruct (f s v) as [[s' c]| |] eqn:Ef; cbn [bind]; try discriminate.
      assert (c <> CDone).
      { unfold f in Ef. destruct (v_type v) as [t| |]; cbn [bind] in Ef; try discriminate.
        destruct ((t =? 3) || (t =? 4)); [|injection Ef as _ <-; discriminate].
        destruct (reader_container_raw t v) as [sub| |]; cbn [bind] in Ef; try discriminate.
        destruct (rd_validate k sub) as [[? [?|]]| |]; cbn [bind] in Ef; try discriminate; injection Ef as _ <-; discriminate. }
      destruct c; [eauto|congruence|discriminate]. }
  destruct (rd_loop f k r 4 l tt) as [[x [n' e]]| |] eqn:E; cbn [bind]; try discriminate.
  intros H. injection H as -> ->. eapply (Lp k 4 tt); [lia|exact E].
Qed.

(* Validating a value in full counts no more than its size, which is what reading skips. *)
Lemma deep_le fuel r pos off t n m : 0 <= pos < zlen r -> 0 < off -> off + n <= zlen r -> zlen r + 16 <= 2147483648 ->
  goindex r pos = Ret t -> validate_core (fun _ => Fuel) None true pos off r = Ret (n, None) ->
  (t = 15 -> forall s4 sl, goslice r (off + 4) (off + 8) = Ret s4 -> readi32 s4 = Ret sl -> 0 <= sl) ->
  validate_core (rd_validate fuel) None false pos off r = Ret (m, None) -> 0 <= n -> 0 <= m <= n.
Proof.
  intros Hp Ho Hn Hs Ht V N15 D N0. unfold validate_core in V, D. rewrite Ht in V, D. cbn [bind] in V, D.
  destruct ((t =? 6) || (t =? 10) || (t =? 255) || (t =? 127)); [injection V as <-; injection D as <-; lia|].
  destruct (t =? 1); [destruct (short _ _ _); [discriminate|]; injection V as <-; injection D as <-; lia|].
  destruct ((t =? 2) || (t =? 13) || (t =? 14)).
  { destruct (short _ _ _); [discriminate|]. destruct (goslice r off _); cbn [bind] in *; try discriminate.
    destruct (readi32 _) as [l| |]; cbn [bind] in *; try discriminate. destruct (i32 (zlen r) <? _); [discriminate|].
    cbn [bind] in V. injection V as V. destruct (goindex r (u32 (off + 4 + u32 l - 1))) as [c| |]; cbn [bind] in D; try discriminate.
    destruct (c =? 0); [|discriminate]. injection D as D. pose proof (u32_range (4 + u32 l)). lia. }
  assert (C : (if short off 4 r then Ret (0, Some ETooSmall) else
     s <- goslice r off (u32 (off + 4)) ;; l <- readi32 s ;;
     if l <? 5 then Ret (4, Some EInvalidReadOnlyDoc) else
     if i32 (zlen r) <? i32 (off + l) then Ret (4, Some ETooSmall) else Ret (u32 (4 + (u32 l - 4)), None)) = Ret (n, None) ->
    (if short off 4 r then Ret (0, Some ETooSmall) else
     s <- goslice r off (u32 (off + 4)) ;; l <- readi32 s ;;
     if l <? 5 then Ret (4, Some EInvalidReadOnlyDoc) else
     if i32 (zlen r) <? i32 (off + l) then Ret (4, Some ETooSmall) else
     sub <- goslice r off (u32 (off + u32 l)) ;; '(n, e) <- rd_validate fuel sub ;; Ret (u32 (4 + (n - 4)), e)) = Ret (m, None) ->
    0 <= m <= n).
  { clear V D. intros V D. destruct (short _ _ _); [discriminate|]. destruct (goslice r off _) as [s4| |] eqn:G4; cbn [bind] in *; try discriminate.
    destruct (readi32 _) as [l| |] eqn:El; cbn [bind] in *; try discriminate. destruct (l <? 5) eqn:E5; [discriminate|].
    pose proof (readi32_range _ _ El) as Rl. destruct (i32 (zlen r) <? _); [discriminate|].
    rewrite (u32_id l) in * by (unfold is_u32; lia). replace (4 + (l - 4)) with l in V by lia. injection V as V.
    rewrite u32_id in V by (unfold is_u32; lia). subst l. rewrite u32_id in D by (unfold is_u32; lia).
    destruct (goslice r off (off + n)) as [sub| |] eqn:Gs; cbn [bind] in D; try discriminate.
    pose proof (goslice_inv _ _ _ _ Gs) as (G1 & G2 & G3 & _ & G5).
    destruct (rd_validate fuel sub) as [[n' e]| |] eqn:Er; cbn [bind] in D; try discriminate. injection D as D ->.
    pose proof (zlen_nonneg sub); apply rd_validate_le in Er; [|lia]. replace (4 + (n' - 4)) with n' in D by lia. rewrite u32_id in D by (unfold is_u32; lia). lia. }
  destruct (t =? 3); [exact (C V D)|]. destruct (t =? 4); [exact (C V D)|]. clear C.
  destruct (t =? 5).
  { rewrite V in D. injection D as <-. lia. }
  destruct (t =? 7); [rewrite V in D; injection D as <-; lia|].
  destruct (t =? 8); [rewrite V in D; injection D as <-; lia|].
  destruct (t =? 9); [rewrite V in D; injection D as <-; lia|].
  destruct (t =? 11); [rewrite V in D; injection D as <-; lia|].
  destruct (t =? 12); [rewrite V in D; injection D as <-; lia|].
  destruct (Z.eqb_spec t 15) as [E15|].
  { specialize (N15 E15). destruct (short _ _ _); [discriminate|]. destruct (goslice r off (u32 (off + 4))); cbn [bind] in *; try discriminate.
    destruct (readi32 _) as [l| |] eqn:El; cbn [bind] in *; try discriminate. pose proof (readi32_range _ _ El) as Rl.
    destruct (i32 (zlen r) <? _); [discriminate|]. injection V as V. replace (4 + (u32 l - 4)) with (u32 l) in V by lia.
    assert (l = n) as ->.
    { pose proof (u32_range l) as Ul. unfold is_u32 in Ul. rewrite (u32_id (u32 l)) in V by (unfold is_u32; lia).
      destruct (Z.ltb_spec l 0) as [Q|]; [exfalso|rewrite u32_id in V by (unfold is_u32; lia); lia].
      assert (E : u32 l = l + 4294967296).
      { rewrite <- (u32_id (l + 4294967296)) by (unfold is_u32; lia). unfold u32.
        replace (l + 4294967296) with (l + 1 * 4294967296) by lia. now rewrite Z.mod_add by lia. }
      lia. }
    rewrite (u32_id (off + 4)), (u32_id (off + 8)) in D by (unfold is_u32; lia).
    destruct (goslice r (off + 4) (off + 8)) as [s4| |]; cbn [bind] in D; try discriminate.
    destruct (readi32 s4) as [sl| |] eqn:Esl; cbn [bind] in D; try discriminate. specialize (N15 s4 sl eq_refl Esl).
    pose proof (readi32_range _ _ Esl) as Rsl. destruct (i32 (n - 13) <? sl); [discriminate|].
    rewrite (u32_id sl), (u32_id n) in D by (unfold is_u32; lia).
    destruct (goindex r (u32 (off + 8 + sl - 1))) as [c| |]; cbn [bind] in D; try discriminate. destruct (negb (c =? 0)); [discriminate|].
    rewrite (u32_id (off + n)) in D by (unfold is_u32; lia).
    rewrite (u32_id (off + 8 + sl)) in D by (unfold is_u32; lia).
    destruct (goslice r (off + 8 + sl) (off + n)) as [sub| |] eqn:Gs; cbn [bind] in D; try discriminate.
    pose proof (goslice_inv _ _ _ _ Gs) as (G1 & G2 & G3 & _ & G5).
    destruct (rd_validate fuel sub) as [[n' e]| |] eqn:Er; cbn [bind] in D; try discriminate. injection D as D ->.
    apply rd_validate_le in Er; [|lia]. rewrite u32_id in D by (unfold is_u32; lia). lia. }
  destruct (t =? 16); [rewrite V in D; injection D as <-; lia|].
  destruct ((t =? 17) || (t =? 18)); [rewrite V in D; injection D as <-; lia|].
  destruct (t =? 19); [rewrite V in D; injection D as <-; lia|].
  discriminate.
Qed.

(* Somewhere in r stands the header of a code with scope whose string has a negative length. *)
Definition negative_code (r : bytes) : Prop :=
  exists a k l4 s4 sl b, r = a ++ 15 :: k ++ 0 :: l4 ++ s4 ++ b /\ nul_free k /\
    zlen l4 = 4 /\ zlen s4 = 4 /\ readi32 s4 = Ret sl /\ sl < 0.
Lemma negative_code_sub a m b : negative_code m -> negative_code (a ++ m ++ b).
Proof.
  intros (a0 & k & l4 & s4 & sl & b0 & -> & H). exists (a ++ a0), k, l4, s4, sl, (b0 ++ b). split; [lst|exact H].
Qed.

Lemma rd_step_elem_inv r pos ende p v : rd_step r pos ende = Ret (RElem p v) ->
  exists p1 n, v = MkValue pos p1 (Some r) None /\ validate_core (fun _ => Fuel) None true pos p1 r = Ret (n, None) /\
    p = u32 (p1 + n).
Proof.
  unfold rd_step. destruct (ende <=? pos); [discriminate|]. destruct (goindex r pos) as [c| |]; cbn [bind]; try discriminate.
  destruct (c =? 0); [discriminate|]. destruct (rd_validate_key _ _ _) as [[n0 [e|]]| |]; cbn [bind]; try discriminate.
  destruct (validate_core _ _ _ _ _ _) as [[n [e|]]| |] eqn:E; cbn [bind]; try discriminate.
  intros H. injection H as <- <-. eauto.
Qed.

(* The elements of a document that was read end before the end of the bytes, and so does what
   Validate counts. *)
Lemma iter_size fuel k : forall r pos ende es, 4 <= pos -> ende <= zlen r -> zlen r + 16 <= 2147483648 ->
  ~ negative_length r -> ~ negative_code r -> iter_loop k r pos ende = Ret (es, None) ->
  exists q, pos <= q < ende /\
    forall acc n, doc_validate_with (elem_validate fuel) acc es = Ret (n, None) -> 0 <= acc ->
      acc + (q - pos) < 4294967296 -> acc <= n <= acc + (q - pos).
Proof.
  induction k as [|k IH]; intros r pos ende es Hp He Hs NL NC; cbn [iter_loop]; [discriminate|].
  destruct (step_total r pos ende) as (st & E & S); try lia. rewrite E. cbn [bind].
  destruct st as [p e|p|p v]; [discriminate| |].
  - intros H. injection H as <-. exists pos. split.
    + unfold rd_step in E. destruct (ende <=? pos) eqn:Q; [discriminate|]. lia.
    + intros acc n D _ _. cbn in D. injection D as <-. lia.
  - destruct S as (S1 & Hc & p1 & t & key & -> & EA & S2 & S3).
    destruct (rd_step_elem_inv _ _ _ _ _ E) as (p1' & sz & Q & V & Ep). injection Q as <-.
    destruct EA as (A1 & A2 & A3 & a & b & Er & La).
    assert (Tt : goindex r pos = Ret t) by (rewrite Er; apply (goindex_eq _ _ a t (key ++ 0 :: b)); [reflexivity|lia]).
    assert (Hp1 : 0 <= p1 <= zlen r) by lia.
    destruct (core_size_total r pos p1 t ltac:(lia) Hp1 Hs Tt) as (sz' & e' & V' & Rsz & Bsz & _).
    rewrite V in V'. injection V' as <- <-.
    assert (Small : sz <= 2147483648 + 15).
    { destruct (Bsz eq_refl) as [|(Hi & m & l & Gm & Lm & El & Hl)]; [assumption|]. exfalso. apply NL.
      pose proof (goslice_inv _ _ _ _ Gm) as (G1 & G2 & G3 & _ & G5).
      assert (Lb : zlen r = pos + zlen key + 2 + zlen b) by (rewrite Er; zl).
      destruct (split_at b 4) as (x & y & Eb & Lx); [lia|].
      assert (x = m).
      { rewrite Er, Eb in Gm. rewrite (goslice_eq _ _ _ (a ++ t :: key ++ [0]) x y) in Gm; [congruence|lst|zl|zl]. }
      subst x. exists a, t, key, m, l, y. rewrite <- Eb. repeat split; auto. }
    rewrite u32_id in Ep by (unfold is_u32; lia). subst p.
    destruct (iter_loop k r (p1 + sz) ende) as [[es' e]| |] eqn:El; cbn [bind]; try discriminate.
    intros H. injection H as <- ->.
    destruct (IH r (p1 + sz) ende es' ltac:(lia) He Hs NL NC El) as (q & Hq & X).
    exists q. split; [lia|]. intros acc n D Ha Hb. cbn [doc_validate_with] in D. unfold elem_validate at 1 in D.
    cbn [elem_validate_with v_start v_offset v_data] in D. unfold elem_validate_key in D.
    rewrite (u32_id (pos + 1)), (u32_id (zlen r)) in D by (unfold is_u32; lia).
    replace (zlen r <? p1) with false in D by lia. replace (p1 <? pos + 1) with false in D by lia.
    assert (Sl : slice r (pos + 1) p1 = key ++ [0]).
    { rewrite Er. change (a ++ t :: key ++ 0 :: b) with (a ++ [t] ++ key ++ [0] ++ b). rewrite app_assoc, (app_assoc key).
      unfold slice. rewrite skipn_zlen by zl. replace (Z.to_nat (p1 - (pos + 1))) with (length (key ++ [0])).
      - rewrite firstn_app, Nat.sub_diag, firstn_all. cbn. apply app_nil_r.
      - rewrite app_length. cbn. unfold zlen in *. lia. }
    rewrite Sl, find_nul_cstr in D by exact A3. cbn [bind] in D.
    destruct (val_validate fuel false (MkValue pos p1 (Some r) None)) as [[m [e|]]| |] eqn:Dv; cbn [bind] in D; try discriminate.
    cbn [val_validate] in Dv.
    assert (N15 : t = 15 -> forall s4 sl, goslice r (p1 + 4) (p1 + 8) = Ret s4 -> readi32 s4 = Ret sl -> 0 <= sl).
    { intros T s4 sl G Es. destruct (Z.ltb_spec sl 0) as [Neg|]; [exfalso; apply NC|lia].
      pose proof (goslice_inv _ _ _ _ G) as (G1 & G2 & G3 & _ & G5).
      assert (Lb : zlen r = pos + zlen key + 2 + zlen b) by (rewrite Er; zl).
      destruct (split_at b 4) as (x & y & Eb & Lx); [lia|]. 
      assert (Ly : zlen b = 4 + zlen y) by (rewrite Eb; zl).
      destruct (split_at y 4) as (x2 & y2 & Ey & Lx2); [lia|].
      assert (x2 = s4).
      { rewrite Er, Eb, Ey in G. rewrite (goslice_eq _ _ _ (a ++ t :: key ++ 0 :: x) x2 y2) in G; [congruence|lst|zl|zl]. }
      subst x2 t. exists a, key, x, s4, sl, y2. rewrite <- Ey, <- Eb. auto 8. }
    pose proof (deep_le fuel r pos p1 t sz m ltac:(lia) ltac:(lia) ltac:(lia) Hs Tt V N15 Dv ltac:(lia)) as B.
    rewrite (u32_id (1 + (zlen key + 1) + m)) in D by (unfold is_u32; posl; lia).
    rewrite u32_id in D by (unfold is_u32; posl; lia). posl.
    apply X in D; lia.
Qed.

Lemma read_size fuel fuel' b d n l : zlen b + 16 <= 2147483648 -> ~ negative_length b -> ~ negative_code b ->
  declared_length b = Ret l -> 0 <= l ->
  read_document fuel b = Ret (inl d) -> doc_validate fuel' d = Ret (n, None) -> 5 <= n <= zlen b.
Proof.
  intros Hs NL NC Hl H0 R D. unfold read_document, doc_unmarshal in R.
  destruct (zlen b <? 5) eqn:E5; [discriminate|].
  assert (G : goslice b 0 4 = Ret (firstn 4 b)).
  { unfold goslice, slice. replace (_ && _) with true by (symmetry; lia). reflexivity. }
  rewrite G in R. cbn [bind] in R. unfold declared_length in Hl. rewrite Hl in R. cbn [bind] in R.
  destruct (zlen b <? l) eqn:El; [discriminate|]. rewrite u32_id in R by (unfold is_u32; lia).
  destruct (iter_loop fuel b 4 l) as [[es [e|]]| |] eqn:E; cbn [bind] in R; try discriminate. injection R as ->.
  destruct (iter_size fuel' fuel b 4 l d ltac:(lia) ltac:(lia) Hs NL NC E) as (q & Hq & X).
  unfold doc_validate in D. apply X in D; lia.
Qed.

(* the elements that were read have keys *)
Lemma iter_keys k : forall r pos ende es e, 0 <= pos -> ende <= zlen r -> zlen r + 16 <= 2147483648 ->
  iter_loop k r pos ende = Ret (es, e) -> Forall (fun x => exists key, elem_key x = Ret key) es.
Proof.
  induction k as [|k IH]; intros r pos ende es e Hp He Hs; cbn [iter_loop]; [discriminate|].
  destruct (step_total r pos ende) as (st & E & S); try lia. rewrite E. cbn [bind].
  destruct st as [p e'|p|p v].
  - intros H. injection H as <- _. constructor.
  - intros H. injection H as <- _. constructor.
  - destruct S as (S1 & Hc & p1 & t & key & -> & EA & _). destruct EA as (A1 & A2 & _).
    destruct (iter_loop k r p ende) as [[es' e']| |] eqn:El; cbn [bind]; try discriminate.
    intros H. injection H as <- ->. constructor; [|eapply IH; [| | |exact El]; lia].
    cbn [elem_key]. replace (p1 =? 0) with false by lia. rewrite !u32_id by (unfold is_u32; lia).
    destruct (goslice_ex r (pos + 1) (p1 - 1)) as (? & m & ? & _ & _ & _ & ->); try lia. eauto.
Qed.

Lemma from_skip b k : 0 <= k <= zlen b -> from b k = Ret (skipn (Z.to_nat k) b).
Proof.
  intros Hk. rewrite <- (firstn_skipn (Z.to_nat k) b) at 1. apply from_app. now rewrite zlen_firstn_le.
Qed.
Lemma zlen_skip (b : bytes) k : 0 <= k <= zlen b -> zlen (skipn (Z.to_nat k) b) = zlen b - k.
Proof. intros. unfold zlen in *. rewrite skipn_length. lia. Qed.
Lemma w_i32_ok b : 4 <= zlen b -> exists z, w_i32 b = Ret z.
Proof. intros L. destruct (readi32_total b L) as (z & E & _). eauto. Qed.
Lemma w_i64_ok b : 8 <= zlen b -> exists z, w_i64 b = Ret z.
Proof.
  intros L. unfold w_i64. destruct b as [|x0 [|x1 [|x2 [|x3 [|x4 [|x5 [|x6 [|x7 b]]]]]]]];
    try (zlens_in L; change (zlen (@nil Z)) with 0 in L; lia). eexists. reflexivity.
Qed.
Lemma read_cstring_inv b s : read_cstring b = inl s -> exists post, b = s ++ 0 :: post /\ nul_free s.
Proof.
  unfold read_cstring. destruct (find_nul b) as [n|] eqn:E; [|discriminate]. intros H. injection H as <-.
  apply find_nul_split in E as (k & c & -> & Hk & <-). exists c.
  replace (firstn (Z.to_nat (zlen k)) (k ++ 0 :: c)) with k; [auto|].
  unfold zlen. rewrite Nat2Z.id, firstn_app, firstn_all, Nat.sub_diag. cbn. now rewrite app_nil_r.
Qed.

(* ------------------------------------------------------------------ the specification *)

(* Where the first document of a message body stands. *)
Definition first_document (op : Z) (body : bytes) (p : Z) : Prop :=
  (op = 1 /\ p = 20) \/ (op = 2011 /\ p = 0) \/
  (exists pre ns post, body = pre ++ ns ++ 0 :: post /\ nul_free ns /\ zlen pre = 4 /\
     ((op = 2001 /\ p = zlen ns + 9) \/ (op = 2002 /\ p = zlen ns + 5) \/ (op = 2004 /\ p = zlen ns + 13) \/
      (op = 2006 /\ p = zlen ns + 9))) \/
  (exists db cmd post, body = db ++ 0 :: cmd ++ 0 :: post /\ nul_free db /\ nul_free cmd /\
     op = 2010 /\ p = zlen db + zlen cmd + 2).

(* The bytes from p on *)
Definition at_ (body : bytes) (p : Z) : bytes := skipn (Z.to_nat p) body.

(* Where the documents stand: each follows the one before, which is as long as Validate says. *)
Inductive document_at (fuel : nat) (op : Z) (body : bytes) : Z -> Prop :=
| da_first p : first_document op body p -> p <= zlen body -> document_at fuel op body p
| da_next p d n : document_at fuel op body p -> read_document fuel (at_ body p) = Ret (inl d) ->
    doc_validate fuel d = Ret (n, None) -> p + n <= zlen body -> document_at fuel op body (p + n).

(* A document with a negative length, or one that is read but that Validate panics on, or, in
   messages other than commands, reports as invalid. *)
Definition bad_document (fuel : nat) (op : Z) (b : bytes) : Prop :=
  (exists l, declared_length b = Ret l /\ l < 0) \/
  (exists d, read_document fuel b = Ret (inl d) /\ (forall n, doc_validate fuel d <> Ret (n, None)) /\
     (op = 2010 -> forall r, doc_validate fuel d <> Ret r)).

(* A kill-cursors message with a negative number of cursors *)
Definition negative_cursors (body : bytes) : Prop :=
  exists a n4 b n, body = a ++ n4 ++ b /\ zlen a = 4 /\ zlen n4 = 4 /\ readi32 n4 = Ret n /\ n < 0.
(* A command query without fields *)
Definition empty_command (fuel : nat) (body : bytes) : Prop :=
  exists pre ns f8 b, body = pre ++ ns ++ 0 :: f8 ++ b /\ zlen pre = 4 /\ nul_free ns /\ zlen f8 = 8 /\
    command_ns ns /\ read_document fuel b = Ret (inl []).

(* -------------------------------------------------------------------------- proofs *)

Section Parse.
Variables (fuel : nat) (h : header) (body : bytes).
Hypothesis Hs : zlen body + 16 <= 2147483648.
Hypothesis Hf : enough fuel (zlen body).
Hypothesis NL : ~ negative_length body.
Hypothesis NC : ~ negative_code body.

Definition trouble : Prop :=
  (h_op h = 2007 /\ negative_cursors body) \/ (h_op h = 2004 /\ empty_command fuel body) \/
  exists p, document_at fuel (h_op h) body p /\ bad_document fuel (h_op h) (at_ body p).
Definition ok (r : pres) : Prop := (exists x, r = Ret x) \/ trouble.

Lemma da_range p : document_at fuel (h_op h) body p -> 0 <= p <= zlen body.
Proof.
  induction 1 as [p F L|p d n D IH R V L].
  - split; [|exact L]. destruct F as [(_ & ->)|[(_ & ->)|[(pre & ns & post & _ & _ & _ & H)|(db & cmd & post & _ & _ & _ & _ & ->)]]]; posl; lia.
  - split; [|exact L]. assert (0 <= n); [|lia].
    clear - V. unfold doc_validate in V. assert (X : forall es acc, 0 <= acc -> doc_validate_with (elem_validate fuel) acc es = Ret (n, None) -> 0 <= n).
    { induction es as [|e es IHe]; intros acc Ha; cbn [doc_validate_with].
      - intros H. injection H as <-. exact Ha.
      - destruct (elem_validate fuel e) as [[m [x|]]| |]; cbn [bind]; try discriminate. apply IHe. pose proof (u32_range (acc + m)) as U. unfold is_u32 in U. lia. }
    eapply X; [|exact V]. lia.
Qed.
Lemma at_split p : body = firstn (Z.to_nat p) body ++ at_ body p ++ [].
Proof. rewrite app_nil_r. symmetry. apply firstn_skipn. Qed.
Lemma at_len p : 0 <= p <= zlen body -> zlen (at_ body p) = zlen body - p.
Proof. apply zlen_skip. Qed.
Lemma at_NL p : ~ negative_length (at_ body p).
Proof. intros H. apply NL. rewrite (at_split p). now apply negative_sub. Qed.
Lemma at_NC p : ~ negative_code (at_ body p).
Proof. intros H. apply NC. rewrite (at_split p). now apply negative_code_sub. Qed.

(* one document: it cannot be read, or it is read, is valid, and there is what follows it *)
Lemma doc_cases p : document_at fuel (h_op h) body p ->
  trouble \/ (exists e, read_document fuel (at_ body p) = Ret (inr e)) \/
  (exists d, read_document fuel (at_ body p) = Ret (inl d) /\ Forall (fun x => exists key, elem_key x = Ret key) d /\
     ((exists n, doc_validate fuel d = Ret (n, None) /\ 5 <= n /\ document_at fuel (h_op h) body (p + n)) \/
      (h_op h = 2010 /\ exists n e, doc_validate fuel d = Ret (n, Some e)))).
Proof.
  intros D. pose proof (da_range p D) as Hp. pose proof (at_len p Hp) as Lp.
  destruct (Z.ltb_spec (zlen (at_ body p)) 5) as [S5|S5].
  { right. left. exists ETooSmall. unfold read_document, doc_unmarshal. replace (_ <? 5) with true by lia. reflexivity. }
  assert (exists l, declared_length (at_ body p) = Ret l) as (l & El).
  { unfold declared_length. destruct (readi32_total (firstn 4 (at_ body p))) as (z & E & _); [|eauto].
    change 4%nat with (Z.to_nat 4). rewrite zlen_firstn_le; lia. }
  destruct (Z.ltb_spec l 0) as [Neg|Pos].
  { left. right. right. exists p. split; [exact D|]. left. eauto. }
  destruct (read_document_total fuel (at_ body p) l) as [([d|e] & E)|(_ & [F|F])]; try lia; auto.
  2:{ right. left. eauto. }
  2:{ unfold enough in Hf. lia. }
  2:{ now apply at_NL in F. }
  assert (K : Forall (fun x => exists key, elem_key x = Ret key) d).
  { pose proof E as E'. unfold read_document, doc_unmarshal in E'. replace (_ <? 5) with false in E' by lia.
    assert (G : goslice (at_ body p) 0 4 = Ret (firstn 4 (at_ body p))).
    { unfold goslice, slice. replace (_ && _) with true by (symmetry; lia). reflexivity. }
    rewrite G in E'. cbn [bind] in E'. unfold declared_length in El. rewrite El in E'. cbn [bind] in E'.
    destruct (zlen (at_ body p) <? l) eqn:Ell; [discriminate|]. rewrite u32_id in E' by (unfold is_u32; lia).
    destruct (iter_loop fuel (at_ body p) 4 l) as [[es [e|]]| |] eqn:Ei; cbn [bind] in E'; try discriminate. injection E' as ->.
    eapply iter_keys; [| | |exact Ei]; lia. }
  assert (Bad : (forall n, doc_validate fuel d <> Ret (n, None)) -> (h_op h = 2010 -> forall r, doc_validate fuel d <> Ret r) -> trouble).
  { intros B1 B2. right. right. exists p. split; [exact D|]. right. exists d. auto. }
  destruct (doc_validate fuel d) as [[n [e|]]| |] eqn:V; try (left; apply Bad; intros; discriminate).
  - destruct (Z.eqb_spec (h_op h) 2010) as [Q|Q].
    + right. right. exists d. split; [exact E|]. split; [exact K|]. right. eauto.
    + left. apply Bad; [discriminate|tauto].
  - right. right. exists d. split; [exact E|]. split; [exact K|]. left. exists n.
    pose proof (read_size fuel fuel (at_ body p) d n l ltac:(lia) (at_NL p) (at_NC p) El Pos E V) as B.
    split; [auto|]. split; [lia|]. apply da_next with d; auto. lia.
Qed.

Lemma doc_then p K : document_at fuel (h_op h) body p -> h_op h <> 2010 ->
  (forall d n, Forall (fun x => exists key, elem_key x = Ret key) d -> read_document fuel (at_ body p) = Ret (inl d) ->
     5 <= n -> document_at fuel (h_op h) body (p + n) -> ok (K d n)) ->
  ok (read_doc_then fuel (at_ body p) (fun d => sz <- get_doc_size fuel (Some d) ;; K d sz)).
Proof.
  intros D Q X. unfold read_doc_then.
  destruct (doc_cases p D) as [T|[(e & E)|(d & E & Ks & [(n & V & N5 & D')|(Q' & _)])]]; [now right| | |contradiction].
  - rewrite E. left. cbn. eauto.
  - rewrite E. cbn [bind]. unfold get_doc_size. rewrite V. cbn [bind]. eapply X; eauto.
Qed.

Lemma parse_docs_ok n : h_op h <> 2010 -> forall p acc K, document_at fuel (h_op h) body p -> zlen body - p <= Z.of_nat n ->
  (forall docs, ok (K docs)) -> ok (parse_docs n fuel body p acc K).
Proof.
  intros Q. induction n as [|n IH]; intros p acc K D L X; cbn [parse_docs]; pose proof (da_range p D) as Hp.
  - destruct (p <? zlen body) eqn:E; [|apply X].
    exfalso. lia.
  - destruct (p <? zlen body) eqn:E; [|apply X]. rewrite from_skip by lia. cbn [bind].
    apply (doc_then p (fun d sz => parse_docs n fuel body (p + sz) (acc ++ [d]) K)); auto.
    intros d m _ _ M5 D'. apply IH; auto. pose proof (da_range _ D'). lia.
Qed.

Lemma skipn_twice {A} (l : list A) : forall m n, skipn m (skipn n l) = skipn (n + m) l.
Proof. induction l as [|x l IH]; intros m n; [now rewrite !skipn_nil|]. destruct n; [reflexivity|]. cbn [skipn plus]. apply IH. Qed.
Lemma at_at p n : 0 <= p -> 0 <= n -> skipn (Z.to_nat n) (at_ body p) = at_ body (p + n).
Proof. intros Hp Hn. unfold at_. rewrite skipn_twice. f_equal. lia. Qed.
Lemma ok_ret x : ok (Ret x).
Proof. left. eauto. Qed.

Lemma ns_split ns : 4 <= zlen body -> read_cstring (skipn (Z.to_nat 4) body) = inl ns ->
  exists pre post, body = pre ++ ns ++ 0 :: post /\ nul_free ns /\ zlen pre = 4.
Proof.
  intros L E. destruct (read_cstring_inv _ _ E) as (post & E' & F). exists (firstn (Z.to_nat 4) body), post.
  split; [|split]; [|exact F|now apply zlen_firstn_le].
  rewrite <- E'. symmetry. apply firstn_skipn.
Qed.

Ltac rd32 := rewrite ?from_skip by lia; cbn [bind];
  match goal with |- context [w_i32 ?b] => destruct (w_i32_ok b) as (? & ->); [rewrite ?zlen_skip; lia|] end; cbn [bind].
Ltac rd64 := rewrite ?from_skip by lia; cbn [bind];
  match goal with |- context [w_i64 ?b] => destruct (w_i64_ok b) as (? & ->); [rewrite ?zlen_skip; lia|] end; cbn [bind].
Ltac rdstr ns E := rewrite ?from_skip by lia; cbn [bind];
  match goal with |- context [read_cstring ?b] => destruct (read_cstring b) as [ns|] eqn:E; [|apply ok_ret] end.

Lemma parse_reply_ok : h_op h = 1 -> ok (parse_reply fuel h body).
Proof.
  intros O. unfold parse_reply. destruct (zlen body <? 20) eqn:E; [apply ok_ret|].
  rd32. rd64. rd32. rd32. apply parse_docs_ok; try lia.
  - apply da_first; [left|]; lia.
  - unfold zlen. lia.
  - intros. apply ok_ret.
Qed.

Lemma parse_update_ok : h_op h = 2001 -> ok (parse_update fuel h body).
Proof.
  intros O. unfold parse_update. destruct (zlen body <? 4) eqn:E; [apply ok_ret|].
  rd32. rdstr ns En. destruct (ns_split ns ltac:(lia) En) as (pre & post & Eb & F & L4).
  destruct (zlen body <? 4 + (zlen ns + 1) + 4) eqn:E2; [apply ok_ret|].
  pose proof (zlen_nonneg ns). rd32. rewrite ?from_skip by lia. cbn [bind].
  apply (doc_then (4 + (zlen ns + 1) + 4)); try lia.
  - apply da_first; [|lia]. right. right. left. exists pre, ns, post. repeat (split; [assumption|]). left. lia.
  - intros d n _ _ N5 D. destruct (zlen body <? 4 + (zlen ns + 1) + 4 + n) eqn:E3; [apply ok_ret|]. rewrite from_skip by lia. cbn [bind].
    apply (doc_then (4 + (zlen ns + 1) + 4 + n)); try lia; [exact D|]. intros. apply ok_ret.
Qed.

Lemma parse_insert_ok : h_op h = 2002 -> ok (parse_insert fuel h body).
Proof.
  intros O. unfold parse_insert. destruct (zlen body <? 4) eqn:E; [apply ok_ret|].
  rd32. rdstr ns En. destruct (ns_split ns ltac:(lia) En) as (pre & post & Eb & F & L4).
  pose proof (zlen_nonneg ns). assert (L : zlen body = zlen pre + zlen ns + 1 + zlen post) by (rewrite Eb, !zlen_app, zlen_cons; lia).
  pose proof (zlen_nonneg post). apply parse_docs_ok; try lia.
  - apply da_first; [|lia]. right. right. left. exists pre, ns, post. repeat (split; [assumption|]). lia.
  - unfold zlen in *. lia.
  - intros. apply ok_ret.
Qed.

Lemma parse_delete_ok : h_op h = 2006 -> ok (parse_delete fuel h body).
Proof.
  intros O. unfold parse_delete. destruct (zlen body <? 4) eqn:E; [apply ok_ret|].
  rd32. rdstr ns En. destruct (ns_split ns ltac:(lia) En) as (pre & post & Eb & F & L4).
  destruct (zlen body <? 4 + (zlen ns + 1) + 4) eqn:E2; [apply ok_ret|].
  pose proof (zlen_nonneg ns). rd32. rewrite ?from_skip by lia. cbn [bind].
  apply (doc_then (4 + (zlen ns + 1) + 4)); try lia.
  - apply da_first; [|lia]. right. right. left. exists pre, ns, post. repeat (split; [assumption|]). lia.
  - intros. apply ok_ret.
Qed.

Lemma finish_query_ok f s n ns q pr : Forall (fun x => exists key, elem_key x = Ret key) q ->
  (q = [] -> command_ns ns -> trouble) -> ok (finish_query h f s n ns q pr).
Proof.
  intros K T. unfold finish_query. destruct (is_command_spec ns) as (b & -> & Hb). cbn [bind].
  destruct b; [|apply ok_ret]. assert (C : command_ns ns) by now apply Hb. unfold convert_to_command, namespace_to_db.
  destruct C as (db & rest & Ed & Fd).
  assert (I : index_byte ns 46 = Some (zlen db)) by (apply index_byte_some; rewrite Ed; eauto).
  destruct q as [|x q]; [right; apply T; [auto|]; now apply Hb|].
  rewrite I. assert (G : exists y, goslice ns 0 (zlen db) = Ret y).
  { unfold goslice. replace (_ && _) with true; [eauto|]. symmetry. rewrite Ed, zlen_app, !zlen_cons. pose proof (zlen_nonneg rest). pose proof (zlen_nonneg db). lia. }
  destruct G as (y & ->). cbn [bind first_key]. inversion K as [|? ? (k & Ek) K']; subst. rewrite Ek. cbn [bind]. apply ok_ret.
Qed.

Lemma parse_query_ok : h_op h = 2004 -> ok (parse_query fuel h body).
Proof.
  intros O. unfold parse_query. destruct (zlen body <? 4) eqn:E; [apply ok_ret|].
  rd32. rdstr ns En. destruct (ns_split ns ltac:(lia) En) as (pre & post & Eb & F & L4).
  destruct (zlen body <? 4 + (zlen ns + 1) + 8) eqn:E2; [apply ok_ret|].
  pose proof (zlen_nonneg ns). rd32. rd32. rewrite ?from_skip by lia. cbn [bind].
  apply (doc_then (4 + (zlen ns + 1) + 8)); try lia.
  { apply da_first; [|lia]. right. right. left. exists pre, ns, post. repeat (split; [assumption|]). lia. }
  intros d n Kd Rd N5 D.
  assert (T : d = [] -> command_ns ns -> trouble).
  { intros -> C. right. left. split; [exact O|].
    exists pre, ns, (firstn 8 post), (skipn 8 post). rewrite firstn_skipn.
    assert (Lp : 8 <= zlen post) by (rewrite Eb, !zlen_app, zlen_cons in E2; lia).
    split; [exact Eb|]. split; [exact L4|]. split; [exact F|]. split; [change 8%nat with (Z.to_nat 8); rewrite zlen_firstn_le; lia|].
    split; [exact C|]. replace (skipn 8 post) with (at_ body (4 + (zlen ns + 1) + 8)); [exact Rd|].
    unfold at_. rewrite Eb. rewrite app_assoc, skipn_app.
    rewrite skipn_all2 by (rewrite app_length; unfold zlen in *; lia). cbn [app].
    replace (Z.to_nat (4 + (zlen ns + 1) + 8) - length (pre ++ ns))%nat with 9%nat; [reflexivity|].
    rewrite app_length. unfold zlen in *. lia. }
  destruct (_ <? zlen body) eqn:E3; [|now apply finish_query_ok].
  rewrite from_skip by lia. cbn [bind].
  apply (doc_then (4 + (zlen ns + 1) + 8 + n)); try lia; [exact D|].
  intros. now apply finish_query_ok.
Qed.

Lemma parse_get_more_ok : ok (parse_get_more h body).
Proof.
  unfold parse_get_more. destruct (zlen body <? 4) eqn:E; [apply ok_ret|].
  rd32. rdstr ns En. pose proof (zlen_nonneg ns).
  destruct (zlen body <? 4 + (zlen ns + 1) + 12) eqn:E2; [apply ok_ret|].
  rd32. rd64. apply ok_ret.
Qed.

Lemma read_ids_ok n : forall loc, 0 <= loc -> loc + 8 * Z.of_nat n <= zlen body -> exists l, read_ids n body loc = Ret l.
Proof.
  induction n as [|n IH]; intros loc L0 L; cbn [read_ids]; [eauto|]. rd64.
  destruct (IH (loc + 8)) as (l & ->); try lia. cbn [bind]. eauto.
Qed.
Lemma parse_kill_ok : h_op h = 2007 -> ok (parse_kill_cursors h body).
Proof.
  intros O. unfold parse_kill_cursors. destruct (zlen body <? 8) eqn:E; [apply ok_ret|].
  rd32. rewrite ?from_skip by lia. cbn [bind].
  destruct (w_i32_ok (skipn (Z.to_nat 4) body)) as (n & En); [rewrite zlen_skip; lia|]. rewrite En. cbn [bind].
  destruct (_ <? n * 8) eqn:E1; [apply ok_ret|]. destruct (n <? 0) eqn:E2.
  - right. left. split; [exact O|].
    exists (firstn (Z.to_nat 4) body), (firstn 4 (skipn (Z.to_nat 4) body)), (skipn 4 (skipn (Z.to_nat 4) body)), n.
    rewrite !firstn_skipn. split; [reflexivity|]. split; [apply zlen_firstn_le; lia|].
    split; [change 4%nat with (Z.to_nat 4); rewrite zlen_firstn_le; rewrite ?zlen_skip; lia|].
    split; [|lia]. unfold w_i32 in En. rewrite <- En.
    assert (Lq : 4 <= zlen (skipn (Z.to_nat 4) body)) by (rewrite zlen_skip; lia).
    destruct (skipn (Z.to_nat 4) body) as [|a [|b [|c [|d r]]]]; cbn [length] in Lq; try (unfold zlen in Lq; cbn in Lq; lia). reflexivity.
  - rewrite zlen_skip in E1 by lia. destruct (read_ids_ok (Z.to_nat n) 8) as (l & ->); try lia. cbn [bind]. apply ok_ret.
Qed.

(* the commands keep the rest of the body, not a position *)
Lemma command_doc_ok p early K : document_at fuel (h_op h) body p ->
  (forall d n, 5 <= n -> document_at fuel (h_op h) body (p + n) -> ok (K d (at_ body (p + n)))) ->
  ok (command_doc fuel (at_ body p) early K).
Proof.
  intros D X. unfold command_doc, read_doc_then. pose proof (da_range p D) as Hp.
  destruct (doc_cases p D) as [T|[(e & E)|(d & E & _ & [(n & V & N5 & D')|(_ & n & e & V)])]]; [now right|..]; rewrite E; cbn [bind]; try apply ok_ret.
  - rewrite V. cbn [bind]. destruct (_ <? n) eqn:En; [apply ok_ret|].
    rewrite from_skip by (rewrite at_len in *; lia). cbn [bind]. rewrite at_at by lia. now apply X.
  - rewrite V. cbn [bind]. apply ok_ret.
Qed.
Lemma reply_doc_ok p K : document_at fuel (h_op h) body p -> h_op h <> 2010 ->
  (forall d n, 5 <= n -> document_at fuel (h_op h) body (p + n) -> ok (K d (at_ body (p + n)))) ->
  ok (reply_doc fuel (at_ body p) K).
Proof.
  intros D Q X. unfold reply_doc. pose proof (da_range p D) as Hp.
  apply (doc_then p (fun d size => if zlen (at_ body p) <? size then perr 113 else rest <- from (at_ body p) size ;; K d rest)); auto.
  intros d n _ _ N5 D'. destruct (_ <? n) eqn:En; [apply ok_ret|].
  rewrite from_skip by (rewrite at_len in *; lia). cbn [bind]. rewrite at_at by lia. now apply X.
Qed.
Lemma command_docs_ok n : forall p acc K, document_at fuel (h_op h) body p -> zlen body - p <= Z.of_nat n ->
  (forall docs, ok (K docs)) -> ok (command_docs n fuel (at_ body p) acc K).
Proof.
  induction n as [|n IH]; intros p acc K D L X; cbn [command_docs]; pose proof (da_range p D) as Hp; rewrite at_len by lia.
  - replace (0 <? zlen body - p) with false by lia. apply X.
  - destruct (0 <? zlen body - p) eqn:E; [|apply X]. unfold read_doc_then.
    destruct (doc_cases p D) as [T|[(e & Er)|(d & Er & _ & [(m & V & N5 & D')|(_ & m & e & V)])]]; [now right|..]; rewrite Er; cbn [bind]; try apply ok_ret.
    + rewrite V. cbn [bind]. pose proof (da_range _ D') as Hp'. rewrite from_skip by (rewrite at_len; lia). cbn [bind].
      rewrite at_at by lia. apply IH; auto. lia.
    + rewrite V. cbn [bind]. apply ok_ret.
Qed.
Lemma reply_docs_ok n : h_op h <> 2010 -> forall p acc K, document_at fuel (h_op h) body p -> zlen body - p <= Z.of_nat n ->
  (forall docs, ok (K docs)) -> ok (reply_docs n fuel (at_ body p) acc K).
Proof.
  intros Q. induction n as [|n IH]; intros p acc K D L X; cbn [reply_docs]; pose proof (da_range p D) as Hp; rewrite at_len by lia.
  - replace (0 <? zlen body - p) with false by lia. apply X.
  - destruct (0 <? zlen body - p) eqn:E; [|apply X].
    apply (doc_then p (fun d size => rest <- from (at_ body p) size ;; reply_docs n fuel rest (acc ++ [d]) K)); auto.
    intros d m _ _ N5 D'. pose proof (da_range _ D') as Hp'. rewrite from_skip by (rewrite at_len; lia). cbn [bind].
    rewrite at_at by lia. apply IH; auto. lia.
Qed.

Lemma parse_command_ok : h_op h = 2010 -> ok (parse_command fuel h body).
Proof.
  intros O. unfold parse_command. destruct (read_cstring body) as [db|] eqn:Ed; [|apply ok_ret].
  destruct (read_cstring_inv _ _ Ed) as (p1 & E1 & F1).
  assert (L1 : zlen body = zlen db + 1 + zlen p1) by (rewrite E1, zlen_app, zlen_cons; lia). pose proof (zlen_nonneg db). pose proof (zlen_nonneg p1).
  destruct (zlen body <? zlen db + 1) eqn:X1; [apply ok_ret|]. rewrite from_skip by lia. cbn [bind].
  assert (S1 : skipn (Z.to_nat (zlen db + 1)) body = p1).
  { rewrite E1, skipn_app, skipn_all2 by (unfold zlen; lia). replace (Z.to_nat (zlen db + 1) - length db)%nat with 1%nat by (unfold zlen; lia). reflexivity. }
  rewrite S1. destruct (read_cstring p1) as [cmd|] eqn:Ec; [|apply ok_ret].
  destruct (read_cstring_inv _ _ Ec) as (p2 & E2 & F2).
  assert (L2 : zlen p1 = zlen cmd + 1 + zlen p2) by (rewrite E2, zlen_app, zlen_cons; lia). pose proof (zlen_nonneg cmd). pose proof (zlen_nonneg p2).
  destruct (zlen p1 <? zlen cmd + 1) eqn:X2; [apply ok_ret|]. rewrite from_skip by lia. cbn [bind].
  rewrite <- S1. change (skipn (Z.to_nat (zlen db + 1)) body) with (at_ body (zlen db + 1)). rewrite at_at by lia.
  apply command_doc_ok.
  { apply da_first; [|lia]. right. right. right. exists db, cmd, p2. rewrite <- E2. repeat (split; [assumption|]). lia. }
  intros args n N5 D. apply command_doc_ok; [exact D|]. intros meta m M5 D'. pose proof (da_range _ D').
  apply command_docs_ok; [exact D'| |intros; apply ok_ret].
  match goal with |- _ <= Z.of_nat (length ?b) => change (Z.of_nat (length b)) with (zlen b) end. rewrite at_len; lia.
Qed.
Lemma parse_command_reply_ok : h_op h = 2011 -> ok (parse_command_reply fuel h body).
Proof.
  intros O. unfold parse_command_reply. change body with (at_ body 0) at 1.
  apply reply_doc_ok; try lia.
  { apply da_first; [right; left; lia|apply zlen_nonneg]. }
  intros args n N5 D. apply reply_doc_ok; [exact D|lia|]. intros meta m M5 D'. pose proof (da_range _ D').
  apply reply_docs_ok; [lia|exact D'| |intros; apply ok_ret].
  match goal with |- _ <= Z.of_nat (length ?b) => change (Z.of_nat (length b)) with (zlen b) end. rewrite at_len; lia.
Qed.

Lemma parse_ok : h_op h <> 2013 -> ok (parse fuel h body).
Proof.
  intros N. unfold parse. cbn zeta.
  repeat match goal with |- context [h_op h =? ?n] => destruct (Z.eqb_spec (h_op h) n) as [O|_] end; try contradiction.
  all: eauto using parse_reply_ok, parse_update_ok, parse_insert_ok, parse_query_ok, parse_get_more_ok, parse_delete_ok,
    parse_kill_ok, parse_command_ok, parse_command_reply_ok, ok_ret.
Qed.
End Parse.

(* ------------------------------------------------------------------ OP_MSG *)

(* The documents of an OP_MSG body come with a length field that the parser trusts. *)
Section MsgSpec.
Variables (fuel : nat) (body : bytes).

(* Where a length field stands that has no room, is negative or points past the body *)
Definition bad_length (p : Z) : Prop :=
  zlen body < p + 4 \/ exists l, readi32 (at_ body p) = Ret l /\ (l < 0 \/ zlen body < p + l).
(* The document that stands at p *)
Definition one_document (p : Z) (r : document + gerr) : Prop :=
  exists l, readi32 (at_ body p) = Ret l /\ 0 <= l /\ p + l <= zlen body /\
    read_document fuel (firstn (Z.to_nat l) (at_ body p)) = Ret r.
(* Where the sections start, and where the documents of a sequence stand, with how many bytes
   of the sequence remain there. *)
Inductive section_at : Z -> Prop :=
| sa_first : section_at 4
| sa_unread p e : section_at p -> p < zlen body - 4 -> goindex body p = Ret 0 -> one_document (p + 1) (inr e) ->
    section_at (p + 1)
| sa_body p d n : section_at p -> p < zlen body - 4 -> goindex body p = Ret 0 -> one_document (p + 1) (inl d) ->
    doc_validate fuel d = Ret (n, None) -> section_at (p + 1 + n)
| sa_seq q r : seq_at q r -> r <= 0 -> section_at q
with seq_at : Z -> Z -> Prop :=
| sq_first p size ident post : section_at p -> p < zlen body - 4 -> goindex body p = Ret 1 ->
    readi32 (at_ body (p + 1)) = Ret size -> at_ body (p + 5) = ident ++ 0 :: post -> nul_free ident ->
    seq_at (p + 6 + zlen ident) (size - 6 - zlen ident)
| sq_next q r d l : seq_at q r -> 0 < r -> readi32 (at_ body q) = Ret l -> one_document q (inl d) -> seq_at (q + l) (r - l).

Definition bad_message : Prop :=
  (exists p, section_at p /\ p < zlen body - 4 /\ goindex body p = Ret 0 /\
     (bad_length (p + 1) \/
      exists d, one_document (p + 1) (inl d) /\ forall n, doc_validate fuel d <> Ret (n, None))) \/
  (exists q r, seq_at q r /\ 0 < r /\ bad_length q).
End MsgSpec.

Section Msg.
Variables (fuel : nat) (h : header) (body : bytes).
Hypothesis Hs : zlen body + 16 <= 2147483648.
Hypothesis Hf : enough fuel (zlen body).
Hypothesis NL : ~ negative_length body.
Hypothesis NC : ~ negative_code body.

Lemma cut_split p l : body = firstn (Z.to_nat p) body ++ firstn (Z.to_nat l) (at_ body p) ++ skipn (Z.to_nat l) (at_ body p).
Proof. now rewrite firstn_skipn, (at_split body p), app_nil_r at 1. Qed.

Lemma one_doc_cases p : 0 <= p <= zlen body ->
  bad_length body p \/
  (exists e, one_document fuel body p (inr e)) \/
  (exists d, one_document fuel body p (inl d) /\
     forall n, doc_validate fuel d = Ret (n, None) -> 5 <= n /\ p + n <= zlen body).
Proof.
  intros Hp. pose proof (at_len body p Hp) as Lp.
  destruct (Z.ltb_spec (zlen body) (p + 4)) as [S4|S4]; [left; left; exact S4|].
  destruct (readi32_total (at_ body p)) as (l & El & _); [lia|].
  destruct (Z.ltb_spec l 0); [left; right; eauto|]. destruct (Z.ltb_spec (zlen body) (p + l)); [left; right; eauto|].
  right. set (s := firstn (Z.to_nat l) (at_ body p)). assert (Ls : zlen s = l) by (apply zlen_firstn_le; lia).
  destruct (Z.ltb_spec l 5) as [L5|L5].
  { left. exists ETooSmall, l. repeat (split; [assumption|]). fold s. unfold read_document, doc_unmarshal.
    replace (zlen s <? 5) with true by lia. reflexivity. }
  assert (D : declared_length s = Ret l).
  { unfold declared_length. rewrite <- El. unfold s.
    assert (4 <= zlen (at_ body p)) by lia.
    destruct (at_ body p) as [|a [|b [|c [|d r]]]]; try (unfold zlen in *; cbn [length] in *; lia).
    destruct (Z.to_nat l) as [|[|[|[|k]]]] eqn:Ek; try lia. reflexivity. }
  assert (NLs : ~ negative_length s) by (intros X; apply NL; rewrite (cut_split p l); now apply negative_sub).
  assert (NCs : ~ negative_code s) by (intros X; apply NC; rewrite (cut_split p l); now apply negative_code_sub).
  destruct (read_document_total fuel s l) as [([d|e] & E)|(_ & [F|F])]; try lia; auto.
  - right. exists d. split; [exists l; auto|]. intros n V.
    pose proof (read_size fuel fuel s d n l ltac:(lia) NLs NCs D ltac:(lia) E V). lia.
  - left. exists e, l. auto.
  - unfold enough in Hf. lia.
  - contradiction.
Qed.

Lemma one_doc_run {B} p r (K : Z -> document + gerr -> go B) : 0 <= p <= zlen body -> one_document fuel body p r ->
  exists l, readi32 (at_ body p) = Ret l /\ 0 <= l /\ p + l <= zlen body /\ (forall d, r = inl d -> 5 <= l) /\
  (b <- from body p ;; sz <- w_i32 b ;; s <- goslice body p (p + sz) ;; r <- read_document fuel s ;; K sz r) = K l r.
Proof.
  intros Hp (l & El & L0 & L1 & E). exists l. repeat (split; [assumption|]). split.
  { intros d ->. destruct (Z.ltb_spec l 5); [|lia]. exfalso. revert E. unfold read_document, doc_unmarshal.
    pose proof (at_len body p Hp). rewrite zlen_firstn_le by lia. replace (l <? 5) with true by lia. discriminate. }
  rewrite from_skip by lia. cbn [bind]. unfold w_i32. fold (at_ body p). rewrite El. cbn [bind].
  unfold goslice. replace (_ && _) with true by (symmetry; lia). cbn [bind]. unfold slice.
  replace (p + l - p) with l by lia. fold (at_ body p). rewrite E. reflexivity.
Qed.

Definition good {B} (P : B -> Prop) (r : go B) : Prop := (exists x, r = Ret x /\ P x) \/ bad_message fuel body.

Lemma seq_docs_ok n : forall q r acc, seq_at fuel body q r -> 0 <= q <= zlen body -> zlen body - q <= Z.of_nat n ->
  good (fun x => match x with inr _ => True
                 | inl (_, q') => q <= q' <= zlen body /\ exists r', seq_at fuel body q' r' /\ r' <= 0 end)
       (seq_docs n fuel body q r acc).
Proof.
  induction n as [|n IH]; intros q r acc S Hq L; cbn [seq_docs]; destruct (0 <? r) eqn:Er.
  2,4: left; eexists; split; [reflexivity|]; cbn; split; [lia|exists r; split; [exact S|lia]].
  - right. right. exists q, r. split; [exact S|]. split; [lia|]. left. lia.
  - destruct (one_doc_cases q Hq) as [B|[(e & O)|(d & O & _)]].
    + right. right. exists q, r. split; [exact S|]. split; [lia|exact B].
    + left. destruct (one_doc_run q (inr e) (fun sz x => match x with inr e => Ret (inr e) | inl d => seq_docs n fuel body (q + sz) (r - sz) (acc ++ [d]) end) Hq O)
        as (l & _ & _ & _ & _ & ->). eexists. split; [reflexivity|exact I].
    + destruct (one_doc_run q (inl d) (fun sz x => match x with inr e => Ret (inr e) | inl d => seq_docs n fuel body (q + sz) (r - sz) (acc ++ [d]) end) Hq O)
        as (l & El & L0 & L1 & L5 & ->). specialize (L5 d eq_refl).
      destruct (IH (q + l) (r - l) (acc ++ [d])) as [(x & E & P)|T]; try lia; [eapply sq_next; eauto; lia| |now right].
      left. exists x. split; [exact E|]. destruct x as [[ds q']|]; [|exact I]. split; [lia|apply P].
Qed.

Lemma parse_section_ok p : section_at fuel body p -> 4 <= p < zlen body - 4 ->
  good (fun x => match x with inr _ => True | inl (_, p') => p < p' <= zlen body /\ section_at fuel body p' end)
       (parse_section fuel body p).
Proof.
  intros S Hp. unfold parse_section.
  assert (exists k, goindex body p = Ret k) as (k & Ek).
  { unfold goindex. replace (_ && _) with true by (symmetry; lia).
    destruct (nth_error body (Z.to_nat p)) eqn:En; [eauto|]. apply nth_error_None in En. unfold zlen in *. lia. }
  rewrite Ek. cbn [bind]. destruct (Z.eqb_spec k 0) as [->|K0].
  - destruct (one_doc_cases (p + 1)) as [B|[(e & O)|(d & O & Z5)]]; try lia.
    + right. left. exists p. repeat (split; [auto; lia|]). left. exact B.
    + left. destruct (one_doc_run (p + 1) (inr e) (fun _ r => n <- get_doc_size fuel (match r with inl d => Some d | inr _ => None end) ;;
         Ret (@inl (section * Z) gerr (Body (match r with inl d => Some d | inr _ => None end), p + 1 + n))) ltac:(lia) O) as (l & _ & _ & _ & _ & ->).
      cbn [get_doc_size bind]. eexists. split; [reflexivity|]. cbn. split; [lia|].
      replace (p + 1 + 0) with (p + 1) by lia. eapply sa_unread; eauto; lia.
    + destruct (one_doc_run (p + 1) (inl d) (fun _ r => n <- get_doc_size fuel (match r with inl d => Some d | inr _ => None end) ;;
         Ret (@inl (section * Z) gerr (Body (match r with inl d => Some d | inr _ => None end), p + 1 + n))) ltac:(lia) O) as (l & _ & _ & _ & _ & ->).
      cbn [get_doc_size]. destruct (doc_validate fuel d) as [[n [e|]]| |] eqn:V.
      2:{ left. cbn [bind]. eexists. split; [reflexivity|]. cbn. specialize (Z5 n eq_refl). split; [lia|]. eapply sa_body; eauto; lia. }
      all: right; left; exists p; repeat (split; [auto; lia|]); right; exists d; split; [exact O|]; intros; rewrite V; discriminate.
  - destruct (Z.eqb_spec k 1) as [->|K1].
    2:{ left. eexists. split; [reflexivity|exact I]. }
    rewrite !from_skip by lia. cbn [bind].
    destruct (w_i32_ok (skipn (Z.to_nat (p + 1)) body)) as (size & Esz); [rewrite zlen_skip; lia|]. rewrite Esz. cbn [bind].
    replace (p + 1 + 4) with (p + 5) by lia. destruct (read_cstring _) as [ident|e] eqn:Ei.
    2:{ left. eexists. split; [reflexivity|exact I]. }
    destruct (read_cstring_inv _ _ Ei) as (post & Ep & F).
    pose proof (at_len body (p + 5) ltac:(lia)) as La. unfold at_ in La. rewrite Ep, zlen_app, zlen_cons in La.
    pose proof (zlen_nonneg ident). pose proof (zlen_nonneg post).
    replace (p + 5 + (zlen ident + 1)) with (p + 6 + zlen ident) by lia.
    replace (size - 1 - 4 - zlen ident - 1) with (size - 6 - zlen ident) by lia.
    destruct (seq_docs_ok (length body) (p + 6 + zlen ident) (size - 6 - zlen ident) []) as [(x & E & P)|T].
    + eapply sq_first; eauto; lia.
    + lia.
    + unfold zlen in *. lia.
    + rewrite E. cbn [bind]. left. destruct x as [[ds q]|e]; eexists; (split; [reflexivity|]); cbn; [|exact I].
      destruct P as (Q & r' & Sr & R0). split; [lia|]. eapply sa_seq; eauto.
    + now right.
Qed.

Lemma parse_sections_ok n : forall p acc, section_at fuel body p -> 4 <= p <= zlen body -> zlen body - p <= Z.of_nat n ->
  good (fun x => match x with inr _ => True | inl (_, p') => 4 <= p' <= zlen body end) (parse_sections n fuel body p acc).
Proof.
  induction n as [|n IH]; intros p acc S Hp L; cbn [parse_sections]; destruct (p <? zlen body - 4) eqn:E; try lia.
  1,3: left; eexists; (split; [reflexivity|]); cbn; lia.
  destruct (parse_section_ok p S) as [(x & Ex & P)|T]; [lia| |now right]. rewrite Ex. cbn [bind].
  destruct x as [[s p']|e]; [|left; eexists; split; [reflexivity|exact I]].
  destruct P as (Q & S'). apply IH; auto; lia.
Qed.

Lemma parse_msg_ok : (exists x, parse_msg fuel h body = Ret x) \/ bad_message fuel body.
Proof.
  unfold parse_msg. destruct (zlen body <? 4) eqn:E; [left; eexists; reflexivity|].
  rewrite from_skip by lia. cbn [bind]. destruct (w_i32_ok (skipn (Z.to_nat 0) body)) as (f & ->); [rewrite zlen_skip; lia|]. cbn [bind].
  destruct (parse_sections_ok (length body) 4 [] (sa_first fuel body)) as [(x & Ex & P)|T]; [lia|unfold zlen; lia| |now right].
  rewrite Ex. cbn [bind]. left. destruct x as [[items p]|e]; [|eauto].
  destruct (_ && _) eqn:C; [|cbn [bind]; eauto].
  rewrite from_skip by lia. cbn [bind]. destruct (w_i32_ok (skipn (Z.to_nat p) body)) as (c & ->); [rewrite zlen_skip; lia|]. cbn [bind]. eauto.
Qed.
End Msg.
