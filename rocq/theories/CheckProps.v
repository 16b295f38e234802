(* C110: Value.Validate of a value found in any bytes. *)
Require Import ZArith List Bool Lia ZifyBool ZifyNat.
From Verif Require Import Base BSpec Elements Value Codec CodecRead Itoa CodecRep Api ApiProofs Tree
  GetterProofs ReadSafe CodecProps ValidProps.
Import ListNotations.
Open Scope Z_scope.

(* ------------------------------------------------------------- specification *)

(* p begins with the 32-bit number l, and s is what follows *)
Definition begins (p : bytes) (l : Z) (s : bytes) : Prop :=
  exists l4, p = l4 ++ s /\ zlen l4 = 4 /\ readi32 l4 = Ret l.
(* The lengths at the head of a value of type t that p begins with, in n bytes of data, are not
   negative and do not overflow 31 bits; code with scope has room for both of its lengths. *)
Definition sane (t : Z) (p : bytes) (n : Z) : Prop :=
  match t with
  | 2 | 13 | 14 => forall l s, begins p l s -> 0 <= l /\ n + l + 4 < 2147483648
  | 3 | 4 => forall l s, begins p l s -> n + l < 2147483648
  | 15 => forall l s, begins p l s -> 0 <= l /\ n + l < 2147483648 /\
            (l <= zlen p -> exists m c, begins s m c /\ 0 <= m)
  | _ => True
  end.

(* ----------------------------------------------------------------- proofs *)

Lemma begins_ex p : 4 <= zlen p -> exists l s, begins p l s /\ is_i32 l.
Proof.
  intros H. destruct (split_at p 4) as (l4 & s & -> & L4); [lia|]. destruct (readi32_total l4) as (l & R & I); [lia|].
  exists l, s. split; [|auto]. exists l4. auto.
Qed.
Lemma sub_validate fuel p a m b : p = a ++ m ++ b -> zlen p + 16 <= 2147483648 -> ~ negative_length p -> ~ huge_length p ->
  zlen p < Z.of_nat fuel -> exists q e, rd_validate fuel m = Ret (q, e).
Proof.
  intros -> Hs Ng Hg Hf. zlens_in Hs. zlens_in Hf. pose proof (zlen_nonneg a). pose proof (zlen_nonneg b).
  destruct (rd_validate_total fuel m) as [([q e] & E)|[(_ & [C|C])|C]]; [lia|eauto|lia| |].
  - exfalso. apply Ng. now apply negative_sub.
  - exfalso. apply Hg. now apply huge_sub.
Qed.
Lemma container_returns fuel hd p : 0 < zlen hd -> zlen (hd ++ p) + 16 <= 2147483648 ->
  (forall l s, begins p l s -> zlen (hd ++ p) + l < 2147483648) -> ~ negative_length p -> ~ huge_length p -> zlen p < Z.of_nat fuel ->
  exists n e, (if zlen (hd ++ p) <? zlen hd + 4 then Ret (0, Some ETooSmall) else
    s <- goslice (hd ++ p) (zlen hd) (u32 (zlen hd + 4)) ;;
    l <- readi32 s ;;
    if l <? 5 then Ret (4, Some EInvalidReadOnlyDoc) else
    if i32 (zlen (hd ++ p)) <? i32 (zlen hd + l) then Ret (4, Some ETooSmall) else
    sub <- goslice (hd ++ p) (zlen hd) (u32 (zlen hd + u32 l)) ;;
    '(n, e) <- rd_validate fuel sub ;;
    Ret (u32 (4 + (n - 4)), e)) = Ret (n, e).
Proof.
  intros Hh Hs Sn Ng Hg Hf. assert (Lr : zlen (hd ++ p) = zlen hd + zlen p) by zl. pose proof (zlen_nonneg p).
  destruct (zlen (hd ++ p) <? zlen hd + 4) eqn:E4; [eauto|].
  destruct (begins_ex p) as (l & s & B & Il); [lia|]. specialize (Sn l s B). destruct B as (l4 & Ep & L4 & R4). unfold is_i32 in Il.
  rewrite (u32_id (zlen hd + 4)) by (unfold is_u32; lia). rewrite (goslice_eq _ _ _ hd l4 s) by (subst; auto; lia). cbn [bind]. rewrite R4. cbn [bind].
  destruct (l <? 5) eqn:E5; [eauto|]. rewrite !i32_id by (unfold is_i32; lia).
  destruct (zlen (hd ++ p) <? zlen hd + l) eqn:El; [eauto|].
  rewrite !u32_id; try (unfold is_u32; lia). 2: rewrite u32_id; unfold is_u32; lia.
  destruct (split_at p l) as (m & b & Em & Lm); [lia|]. rewrite (goslice_eq _ _ _ hd m b) by (try rewrite Em; auto; lia). cbn [bind].
  destruct (sub_validate fuel p [] m b) as (q & e & ->); auto; [lia|]. cbn [bind]. eauto.
Qed.

(* Value.Validate returns, with an error or not, for any value in any bytes with sane lengths. *)
Theorem C110_returns_partial : forall fuel hd pos t p, 0 < zlen hd -> zlen (hd ++ p) + 16 <= 2147483648 ->
  goindex (hd ++ p) pos = Ret t -> sane t p (zlen (hd ++ p)) -> ~ negative_length p -> ~ huge_length p -> zlen p < Z.of_nat fuel ->
  exists n e, val_validate fuel false (MkValue pos (zlen hd) (Some (hd ++ p)) None) = Ret (n, e).
Proof.
  intros fuel hd pos t p Hh Hs Gt Sn Ng Hg Hf. cbn [val_validate]. unfold validate_core. rewrite Gt. cbn [bind].
  pose proof (container_returns fuel hd p Hh Hs) as Ct.
  set (r := hd ++ p) in *. assert (Lr : zlen r = zlen hd + zlen p) by (unfold r; zl). pose proof (zlen_nonneg p).
  rewrite !short_off by lia.
  assert (F4 : forall l4 s, p = l4 ++ s -> zlen l4 = 4 -> goslice r (zlen hd) (u32 (zlen hd + 4)) = Ret l4).
  { intros l4 s -> L. zlens_in Lr. pose proof (zlen_nonneg s). rewrite u32_id by (unfold is_u32; lia). apply goslice_app; lia. }
  destruct ((t =? 6) || (t =? 10) || (t =? 255) || (t =? 127)) eqn:E0; [eauto|].
  destruct (t =? 1) eqn:E1; [destruct (zlen r <? zlen hd + 8); eauto|].
  destruct ((t =? 2) || (t =? 13) || (t =? 14)) eqn:E2.
  { assert (Sn2 : forall l s, begins p l s -> 0 <= l /\ zlen r + l + 4 < 2147483648)
      by (assert (t = 2 \/ t = 13 \/ t = 14) as [-> | [-> | ->]] by lia; exact Sn).
    destruct (zlen r <? zlen hd + 4) eqn:E4; [eauto|]. destruct (begins_ex p) as (l & s & B & Il); [lia|]. specialize (Sn2 l s B).
    destruct B as (l4 & Ep & L4 & R4). unfold is_i32 in Il. rewrite (F4 l4 s) by auto. cbn [bind]. rewrite R4. cbn [bind].
    rewrite !i32_id by (unfold is_i32; lia). destruct (zlen r <? zlen hd + 4 + l) eqn:El; [eauto|].
    rewrite !(u32_id l) by (unfold is_u32; lia). rewrite (u32_id (zlen hd + 4 + l - 1)) by (unfold is_u32; lia).
    destruct (goindex_ok r (zlen hd + 4 + l - 1)) as (b & -> & _); [lia|]. cbn [bind]. destruct (b =? 0); eauto. }
  destruct (t =? 3) eqn:E3. { assert (t = 3) by lia. subst t. apply Ct; auto. }
  destruct (t =? 4) eqn:E4'. { assert (t = 4) by lia. subst t. apply Ct; auto. }
  destruct (t =? 5) eqn:E5.
  { destruct (zlen r <? zlen hd + 5) eqn:E; [eauto|]. destruct (begins_ex p) as (l & s & (l4 & Ep & L4 & R4) & Il); [lia|].
    rewrite (F4 l4 s) by auto. cbn [bind]. rewrite R4. cbn [bind]. rewrite (u32_id (zlen hd + 4)) by (unfold is_u32; lia).
    destruct (goindex_ok r (zlen hd + 4)) as (b & -> & _); [lia|]. cbn [bind]. destruct ((5 <? b) && (b <? 128)); [eauto|].
    destruct (i32 (zlen r) <? i32 (zlen hd + 5 + l)); eauto. }
  destruct (t =? 7); [destruct (zlen r <? zlen hd + 12); eauto|].
  destruct (t =? 8).
  { destruct (zlen r <? zlen hd + 1) eqn:E; [eauto|]. destruct (goindex_ok r (zlen hd)) as (b & -> & _); [lia|]. cbn [bind].
    destruct (negb (b =? 0) && negb (b =? 1)); eauto. }
  destruct (t =? 9); [destruct (zlen r <? zlen hd + 8); eauto|].
  destruct (t =? 11).
  { replace (zlen r <? zlen hd) with false by lia. destruct (find_nul (skipn (Z.to_nat (zlen hd)) r)) as [q|]; [|eauto].
    destruct (find_nul (skipn (Z.to_nat (zlen hd + q + 1)) r)); eauto. }
  destruct (t =? 12).
  { destruct (zlen r <? zlen hd + 4) eqn:E; [eauto|]. destruct (begins_ex p) as (l & s & (l4 & Ep & L4 & R4) & Il); [lia|].
    rewrite (F4 l4 s) by auto. cbn [bind]. rewrite R4. cbn [bind]. destruct (i32 (zlen r) <? i32 (zlen hd + 4 + l + 12)); eauto. }
  destruct (t =? 15) eqn:E15.
  { assert (t = 15) by lia. subst t. cbn [sane] in Sn. destruct (zlen r <? zlen hd + 4) eqn:E; [eauto|].
    destruct (begins_ex p) as (l & s & B & Il); [lia|]. destruct (Sn l s B) as (Hl & Hn & Hc). destruct B as (l4 & Ep & L4 & R4).
    unfold is_i32 in Il. rewrite (F4 l4 s) by auto. cbn [bind]. rewrite R4. cbn [bind]. rewrite !i32_id by (unfold is_i32; lia).
    destruct (zlen r <? zlen hd + l) eqn:El; [eauto|]. destruct Hc as (m & c & (c4 & Es & Lc & Rc) & Hm); [lia|].
    rewrite (u32_id (zlen hd + 4)), (u32_id (zlen hd + 8)) by (unfold is_u32; subst; zlens_in Lr; pose proof (zlen_nonneg c); lia).
    rewrite (goslice_eq r _ _ (hd ++ l4) c4 c); [|unfold r; rewrite Ep, Es; lst|zl|zl]. cbn [bind]. rewrite Rc. cbn [bind].
    pose proof (ValidProps.readi32_range _ _ Rc) as Im. unfold is_i32 in Im.
    destruct (l - 13 <? m) eqn:E13; [eauto|].
    rewrite (u32_id m), (u32_id (zlen hd + 8 + m - 1)), (u32_id l), (u32_id (zlen hd + 8 + m)), (u32_id (zlen hd + l)) by (unfold is_u32; lia).
    destruct (goindex_ok r (zlen hd + 8 + m - 1)) as (b & -> & _); [lia|]. cbn [bind]. destruct (negb (b =? 0)); [eauto|].
    destruct (split_at p (8 + m)) as (x & y & Exy & Lx); [lia|]. assert (Ly : zlen p = 8 + m + zlen y) by (rewrite Exy; zl).
    destruct (split_at y (l - 8 - m)) as (d & z & Ed & Ld); [lia|].
    rewrite (goslice_eq r _ _ (hd ++ x) d z); [|unfold r; rewrite Exy, Ed; lst|zl|zl]. cbn [bind].
    destruct (sub_validate fuel p x d z) as (q & e & ->); auto; [rewrite Exy, Ed; lst|lia|]. cbn [bind]. eauto. }
  destruct (t =? 16); [destruct (zlen r <? zlen hd + 4); eauto|].
  destruct ((t =? 17) || (t =? 18)); [destruct (zlen r <? zlen hd + 8); eauto|].
  destruct (t =? 19); [destruct (zlen r <? zlen hd + 16); eauto|]. eauto.
Qed.
Print Assumptions C110_returns_partial.

Lemma scope_len k c : zlen (scope_doc k c) = 11 + zlen k + zlen c.
Proof. unfold scope_doc. zl. Qed.
Lemma scope_reads k c fuel : nul_free k -> zlen k + zlen c + 27 <= 2147483648 -> (2 <= fuel)%nat ->
  read_document fuel (scope_doc k c) = Ret (inl [Some (MkValue 4 (6 + zlen k) (Some (scope_doc k c)) None)]).
Proof.
  intros Nk Hs Hf. pose proof (zlen_nonneg k). pose proof (zlen_nonneg c).
  unfold read_document, doc_unmarshal. rewrite scope_len. replace (11 + zlen k + zlen c <? 5) with false by lia.
  set (n := 11 + zlen k + zlen c). set (p := le32 (4 + zlen c) ++ c).
  assert (Ed : scope_doc k c = le32 n ++ 15 :: k ++ 0 :: p ++ [0]) by reflexivity.
  assert (Lp : zlen p = 4 + zlen c) by (unfold p; zl).
  rewrite (goslice_eq _ _ _ [] (le32 n) (15 :: k ++ 0 :: p ++ [0])) by (auto; zl). cbn [bind].
  rewrite readi32_le by (unfold is_i32; lia). cbn [bind]. replace (n <? n) with false by lia. rewrite u32_id by (unfold is_u32; lia).
  destruct fuel as [|[|fuel]]; [lia|lia|]. cbn [iter_loop].
  assert (S1 : rd_step (scope_doc k c) 4 n = Ret (RElem (n - 1) (MkValue 4 (6 + zlen k) (Some (scope_doc k c)) None))).
  { rewrite Ed. pose proof (step_make (le32 n) 15 k p [0] (n - 4)) as M. rewrite zlen_le32 in M.
    replace (4 + (n - 4)) with n in M by lia. rewrite M; auto; try lia.
    - do 2 f_equal. unfold n; lia.
    - unfold n. zl.
    - unfold n. zl.
    - cbn [sized]. unfold p. rewrite <- app_assoc, readi32_firstn by apply zlen_le32. split; [zl|].
      rewrite readi32_le by (unfold is_i32; lia). f_equal. zl. }
  assert (S2 : rd_step (scope_doc k c) (n - 1) n = Ret (RDone (n - 1))).
  { assert (E : scope_doc k c = (le32 n ++ 15 :: k ++ 0 :: p) ++ 0 :: []) by (rewrite Ed; lst).
    assert (L : zlen (le32 n ++ 15 :: k ++ 0 :: p) = n - 1) by (unfold n; zl).
    rewrite E, <- L. apply rd_step_end. lia. }
  rewrite S1. cbn [bind]. rewrite S2. reflexivity.
Qed.

(* Reader.Validate and ReadDocument accept a document with code with scope of four to six bytes,
   too short for the length of the code, or with a negative length of code, under any key and with
   anything behind; Value.Validate of its element panics. *)
Theorem C110_scope_refuted : forall k c fuel, nul_free k -> zlen k + zlen c + 27 <= 2147483648 -> zlen k + zlen c + 11 < Z.of_nat fuel ->
  zlen c <= 2 \/ (exists m c', c = le32 (- m) ++ c' /\ zlen k + 13 < m <= 2147483648) ->
  exists v, (exists q, rd_validate fuel (scope_doc k c) = Ret (q, None)) /\
    read_document fuel (scope_doc k c) = Ret (inl [Some v]) /\ exists x, val_validate fuel false v = Panic x.
Proof.
  intros k c fuel Nk Hs Hf Hc. pose proof (zlen_nonneg k). pose proof (zlen_nonneg c).
  eexists. split; [now apply C103_scope_refuted|]. split; [apply scope_reads; auto; lia|].
  cbn [val_validate]. unfold validate_core. set (r := scope_doc k c). assert (Lr : zlen r = 11 + zlen k + zlen c) by apply scope_len.
  assert (Er : r = (le32 (11 + zlen k + zlen c) ++ 15 :: k ++ [0]) ++ le32 (4 + zlen c) ++ c ++ [0]) by (unfold r, scope_doc; lst).
  rewrite (goindex_eq r 4 (le32 (11 + zlen k + zlen c)) 15 (k ++ 0 :: (le32 (4 + zlen c) ++ c) ++ [0])) by (unfold r, scope_doc; auto; now rewrite zlen_le32).
  cbn [bind Z.eqb Pos.eqb orb]. rewrite !short_off by lia. replace (zlen r <? 6 + zlen k + 4) with false by lia.
  rewrite !(u32_id (6 + zlen k + 4)) by (unfold is_u32; lia). rewrite (u32_id (6 + zlen k + 8)) by (unfold is_u32; lia).
  rewrite (goslice_eq r _ _ (le32 (11 + zlen k + zlen c) ++ 15 :: k ++ [0]) (le32 (4 + zlen c)) (c ++ [0])); [|auto|zl|zl].
  cbn [bind]. rewrite readi32_le by (unfold is_i32; lia). cbn [bind]. rewrite !i32_id by (unfold is_i32; lia).
  replace (zlen r <? 6 + zlen k + (4 + zlen c)) with false by lia.
  destruct Hc as [Hc|(m & c' & Ec & Hm)].
  - unfold goslice. replace ((0 <=? 6 + zlen k + 4) && (6 + zlen k + 4 <=? 6 + zlen k + 8) && (6 + zlen k + 8 <=? zlen r)) with false by lia.
    cbn [bind]. eauto.
  - assert (Lc : zlen c = 4 + zlen c') by (rewrite Ec; zl). pose proof (zlen_nonneg c').
    rewrite (goslice_eq r _ _ ((le32 (11 + zlen k + zlen c) ++ 15 :: k ++ [0]) ++ le32 (4 + zlen c)) (le32 (- m)) (c' ++ [0]));
      [|rewrite Er, Ec; lst|zl|zl].
    cbn [bind]. rewrite readi32_le by (unfold is_i32; lia). cbn [bind]. replace (4 + zlen c - 13 <? - m) with false by lia.
    assert (U : u32 (6 + zlen k + 8 + u32 (- m) - 1) = 4294967296 + (6 + zlen k + 8 - m - 1)) by (unfold u32; lia).
    rewrite U. unfold goindex. replace ((0 <=? 4294967296 + (6 + zlen k + 8 - m - 1)) && (4294967296 + (6 + zlen k + 8 - m - 1) <? zlen r)) with false by lia.
    cbn [bind]. eauto.
Qed.
Print Assumptions C110_scope_refuted.

(* So does Value.Validate of a string, code or symbol with a negative length that points before
   the data, wherever it stands. *)
Theorem C110_string_refuted : forall fuel hd pos t m rest, In t [2; 13; 14] -> zlen (hd ++ rest) + 20 <= 2147483648 ->
  zlen hd + 3 < m <= 2147483648 - zlen hd -> goindex (hd ++ le32 (- m) ++ rest) pos = Ret t ->
  exists x, val_validate fuel false (MkValue pos (zlen hd) (Some (hd ++ le32 (- m) ++ rest)) None) = Panic x.
Proof.
  intros fuel hd pos t m rest It Hs Hm Gt. cbn [val_validate]. unfold validate_core. rewrite Gt. cbn [bind].
  zlens_in Hs. pose proof (zlen_nonneg hd). pose proof (zlen_nonneg rest).
  set (r := hd ++ le32 (- m) ++ rest). assert (Lr : zlen r = zlen hd + 4 + zlen rest) by (unfold r; zl). rewrite !short_off by lia.
  destruct ((t =? 6) || (t =? 10) || (t =? 255) || (t =? 127)) eqn:E0; [cbn in It; lia|].
  destruct (t =? 1) eqn:E1; [cbn in It; lia|].
  destruct ((t =? 2) || (t =? 13) || (t =? 14)) eqn:E2; [|cbn in It; lia].
  replace (zlen r <? zlen hd + 4) with false by lia. rewrite u32_id by (unfold is_u32; lia).
  unfold r at 1. rewrite goslice_app by (auto; rewrite zlen_le32; auto). cbn [bind]. rewrite readi32_le by (unfold is_i32; lia). cbn [bind].
  rewrite !i32_id by (unfold is_i32; lia). replace (zlen r <? zlen hd + 4 + - m) with false by lia.
  assert (U : u32 (zlen hd + 4 + u32 (- m) - 1) = 4294967296 + (zlen hd + 3 - m)) by (unfold u32; lia). rewrite U.
  unfold goindex. replace ((0 <=? 4294967296 + (zlen hd + 3 - m)) && (4294967296 + (zlen hd + 3 - m) <? zlen r)) with false by lia.
  cbn [bind]. eauto.
Qed.
Print Assumptions C110_string_refuted.

(* the hypotheses are met: sane code with scope, and one with a scope that is refused *)
Example C110_nonvacuous :
  let hd := [15; 97; 0] in
  let p := [15; 0; 0; 0;  2; 0; 0; 0; 120; 0;  5; 0; 0; 0; 0; 7] in
  goindex (hd ++ p) 0 = Ret 15 /\ sane 15 p (zlen (hd ++ p)) /\
  val_validate 20 false (MkValue 0 3 (Some (hd ++ p)) None) = Ret (15, None) /\
  exists v, read_document 20 (scope_doc [97] [1; 2]) = Ret (inl [Some v]) /\ val_validate 20 false v = Panic PIndex.
Proof.
  cbv zeta. split; [reflexivity|]. split; [|split; [reflexivity|eexists; split; reflexivity]].
  intros l s (l4 & E & L4 & R). change [15; 0; 0; 0; 2; 0; 0; 0; 120; 0; 5; 0; 0; 0; 0; 7] with ([15; 0; 0; 0] ++ [2; 0; 0; 0; 120; 0; 5; 0; 0; 0; 0; 7]) in E.
  apply app_pre in E as [<- <-]; [|now rewrite L4]. vm_compute in R. injection R as <-. split; [lia|]. split; [reflexivity|].
  intros _. exists 2, [120; 0; 5; 0; 0; 0; 0; 7]. split; [|lia]. exists [2; 0; 0; 0]. auto.
Qed.
