(* What Reader.Validate accepts (C103): the grammar of the accepted byte strings, written down
   independently of the code, and the proof that the code accepts exactly those. *)
Require Import ZArith List Bool Lia ZifyBool ZifyNat.
From Verif Require Import Base BSpec Elements Value Codec CodecRead Itoa CodecRep Api ApiProofs Tree
  GetterProofs ReadSafe CodecProps.
From Verif Require FtdcRawProps.
Import ListNotations.
Open Scope Z_scope.

(* ------------------------------------------------------------- specification *)

(* p is as long as a value of type t is, when rest follows it *)
Definition sized (t : Z) (p rest : bytes) : Prop :=
  match t with
  | 6 | 10 | 127 | 255 => p = []
  | 1 | 9 | 17 | 18 => zlen p = 8
  | 16 => zlen p = 4
  | 7 => zlen p = 12
  | 19 => zlen p = 16
  | 8 => p = [0] \/ p = [1]
  | 2 | 13 | 14 => exists l4 s, p = l4 ++ s /\ zlen l4 = 4 /\ readi32 l4 = Ret (zlen s)
  | 3 | 4 => 5 <= zlen p /\ readi32 (firstn 4 p) = Ret (zlen p)
  | 5 => exists l4 st s, p = l4 ++ st :: s /\ zlen l4 = 4 /\ readi32 l4 = Ret (zlen s) /\ (st <= 5 \/ 128 <= st)
  | 11 => exists a b, p = a ++ 0 :: b ++ [0] /\ nul_free a /\ nul_free b
  | 12 => exists l4 s o, p = l4 ++ s ++ o /\ zlen l4 = 4 /\ readi32 l4 = Ret (zlen s) /\ zlen o = 12
  | 15 => 4 <= zlen (p ++ rest) /\ readi32 (firstn 4 (p ++ rest)) = Ret (zlen p)
  | _ => False
  end.

(* A document: a length, not more than what there is, and elements up to a NUL where a type is
   due, within that length.  Anything may follow the NUL.  Documents and arrays inside are
   documents. *)
Inductive accepted : bytes -> Prop :=
| acc_doc l4 body l : zlen l4 = 4 -> readi32 l4 = Ret l -> l <= 4 + zlen body ->
    acc_body (l - 4) body -> accepted (l4 ++ body)
with acc_body : Z -> bytes -> Prop :=
| acc_end n junk : 1 <= n -> acc_body n (0 :: junk)
| acc_elem n t k p rest : t <> 0 -> nul_free k -> zlen k + 2 <= n -> sized t p rest ->
    (t = 3 \/ t = 4 -> accepted p) ->
    acc_body (n - 2 - zlen k - zlen p) rest -> acc_body n (t :: k ++ 0 :: p ++ rest).
Scheme accepted_mind := Induction for accepted Sort Prop
  with acc_body_mind := Induction for acc_body Sort Prop.

(* --------------------------------------------------------------------- proofs *)

Lemma readi32_range m l : readi32 m = Ret l -> is_i32 l.
Proof.
  destruct m as [|a [|b [|c [|d m]]]]; try discriminate. intros E. unfold readi32 in E.
  destruct (rdu32 (a :: b :: c :: d :: m)) as [u| |]; cbn [bind] in E; try discriminate. injection E as <-.
  unfold is_i32, i32, u32. lia.
Qed.

Lemma readi32_firstn l4 s : zlen l4 = 4 -> readi32 (firstn 4 (l4 ++ s)) = readi32 l4.
Proof.
  intros H. f_equal. change 4%nat with (Z.to_nat 4). rewrite <- H. unfold zlen. rewrite Nat2Z.id, firstn_app, firstn_all, Nat.sub_diag.
  cbn [firstn]. apply app_nil_r.
Qed.

Section Core.
Variables (h b : bytes) (pos t : Z).
Hypothesis Hh : 0 < zlen h.
Hypothesis Hs : zlen (h ++ b) + 16 <= 2147483648.
Hypothesis Ht : goindex (h ++ b) pos = Ret t.
Let core := validate_core (fun _ => Fuel) None true pos (zlen h) (h ++ b).

Lemma short_b n : 0 <= n < 17 -> short (zlen h) n (h ++ b) = (zlen b <? n).
Proof. intros. pose proof Hs as Hs0. zlens_in Hs0. posl. unfold short. rewrite u32_id by (unfold is_u32; lia). rewrite zlen_app. lia. Qed.
Lemma four_b : 4 <= zlen b -> exists l4 c l, b = l4 ++ c /\ zlen l4 = 4 /\ readi32 l4 = Ret l /\ is_i32 l /\
  goslice (h ++ b) (zlen h) (u32 (zlen h + 4)) = Ret l4.
Proof.
  intros H. destruct (split_at b 4) as (l4 & c & E & L); [lia|]. destruct (readi32_total l4) as (l & R & I); [lia|].
  exists l4, c, l. repeat split; auto; try apply I. pose proof Hs as Hs0. zlens_in Hs0. posl. rewrite u32_id by (unfold is_u32; lia). rewrite E.
  apply goslice_app; lia.
Qed.

Lemma core_sized_in p rest : b = p ++ rest -> sized t p rest -> core = Ret (zlen p, None).
Proof.
  intros E Z0. unfold core, validate_core. rewrite Ht. cbn [bind]. unfold sized in Z0.
  assert (Lb : zlen b = zlen p + zlen rest) by (rewrite E; zl). posl. pose proof Hs as Hs0. zlens_in Hs0. rewrite !short_b by lia.
  assert (F4 : forall l4 c, b = l4 ++ c -> zlen l4 = 4 -> goslice (h ++ b) (zlen h) (u32 (zlen h + 4)) = Ret l4).
  { intros l4 c -> L. zlens_in Lb. rewrite u32_id by (unfold is_u32; lia). apply goslice_app; lia. }
  assert (Fx : forall n, zlen p = n -> 0 <= n < 17 -> (if zlen b <? n then Ret (0, Some ETooSmall) else Ret (n, None)) = Ret (zlen p, @None gerr)).
  { intros n Hn Hr. replace (zlen b <? n) with false by lia. now rewrite Hn. }
  assert (I32 : forall x, 0 <= x < 2147483648 -> i32 x = x) by (intros; apply i32_id; unfold is_i32; lia).
  assert (D : In t [6; 10; 127; 255] \/ In t [1; 9; 17; 18] \/ t = 16 \/ t = 7 \/ t = 19 \/ t = 8 \/ In t [2; 13; 14] \/ In t [3; 4] \/ t = 5 \/ t = 11 \/ t = 12 \/ t = 15).
  { destruct t as [|q|q]; try contradiction. do 8 (destruct q as [q|q|]; try contradiction; try (cbn; tauto)). }
  destruct D as [D|[D|[D|[D|[D|[D|[D|[D|[D|[D|[D|D]]]]]]]]]]].
  - cbn [In] in D. destruct D as [<-|[<-|[<-|[<-|[]]]]]; rewrite Z0; reflexivity.
  - cbn [In] in D. destruct D as [<-|[<-|[<-|[<-|[]]]]]; cbn; apply Fx; auto; lia.
  - subst t. cbn; apply Fx; auto; lia.
  - subst t. cbn; apply Fx; auto; lia.
  - subst t. cbn; apply Fx; auto; lia.
  - subst t. cbn [orb Z.eqb Pos.eqb]. destruct Z0 as [-> | ->]; cbn [app] in E; replace (zlen b <? 1) with false by (rewrite E; zl);
      (rewrite E, (goindex_app h _ rest) by reflexivity); reflexivity.
  - assert (exists l4 s, p = l4 ++ s /\ zlen l4 = 4 /\ readi32 l4 = Ret (zlen s)) as (l4 & s & -> & L4 & R4).
    { cbn [In] in D. destruct D as [<-|[<-|[<-|[]]]]; exact Z0. }
    rewrite <- app_assoc in E. zlens_in Lb. posl.
    replace ((t =? 6) || (t =? 10) || (t =? 255) || (t =? 127)) with false by (cbn [In] in D; lia).
    replace (t =? 1) with false by (cbn [In] in D; lia). replace ((t =? 2) || (t =? 13) || (t =? 14)) with true by (cbn [In] in D; lia).
    replace (zlen b <? 4) with false by lia. rewrite (F4 l4 (s ++ rest)) by auto. cbn [bind]. rewrite R4. cbn [bind].
    rewrite zlen_app, !I32 by lia. replace (zlen h + zlen b <? zlen h + 4 + zlen s) with false by lia. cbn [bind].
    rewrite zlen_app. rewrite (u32_id (zlen s)), u32_id by (unfold is_u32; lia). now rewrite L4.
  - assert (5 <= zlen p /\ readi32 (firstn 4 p) = Ret (zlen p)) as [L5 R4].
    { cbn [In] in D. destruct D as [<-|[<-|[]]]; exact Z0. }
    destruct (split_at p 4) as (l4 & s & -> & L4); [lia|]. rewrite readi32_firstn in R4 by auto.
    rewrite <- app_assoc in E. zlens_in Lb. zlens_in L5. posl.
    replace ((t =? 6) || (t =? 10) || (t =? 255) || (t =? 127)) with false by (cbn [In] in D; lia).
    replace (t =? 1) with false by (cbn [In] in D; lia). replace ((t =? 2) || (t =? 13) || (t =? 14)) with false by (cbn [In] in D; lia).
    replace (zlen b <? 4) with false by lia. rewrite (F4 l4 (s ++ rest)) by auto. cbn [bind]. rewrite R4. cbn [bind].
    rewrite zlen_app. rewrite !zlen_app. rewrite !I32 by lia. replace (zlen l4 + zlen s <? 5) with false by lia.
    replace (zlen h + zlen b <? zlen h + (zlen l4 + zlen s)) with false by lia.
    rewrite (u32_id (zlen l4 + zlen s)), u32_id by (unfold is_u32; lia). replace (4 + (zlen l4 + zlen s - 4)) with (zlen l4 + zlen s) by lia.
    destruct (t =? 3) eqn:E3; [reflexivity|]. destruct (t =? 4) eqn:E4; [reflexivity|cbn [In] in D; lia].
  - subst t. destruct Z0 as (l4 & st & s & -> & L4 & R4 & St). cbn [orb Z.eqb Pos.eqb]. rewrite <- app_assoc in E. cbn [app] in E. zlens_in Lb. posl.
    replace (zlen b <? 5) with false by lia. rewrite (F4 l4 (st :: s ++ rest)) by auto. cbn [bind]. rewrite R4. cbn [bind].
    rewrite (u32_id (zlen h + 4)) by (unfold is_u32; lia).
    rewrite (goindex_eq (h ++ b) (zlen h + 4) (h ++ l4) st (s ++ rest)); [|rewrite E; lst|zl]. cbn [bind].
    replace ((5 <? st) && (st <? 128)) with false by lia. rewrite zlen_app, !I32 by lia.
    replace (zlen h + zlen b <? zlen h + 5 + zlen s) with false by lia. rewrite (u32_id (zlen s)), u32_id by (unfold is_u32; lia).
    rewrite zlen_app, zlen_cons. do 2 f_equal. lia.
  - subst t. destruct Z0 as (x & y & -> & Nx & Ny). cbn [orb Z.eqb Pos.eqb].
    replace (zlen (h ++ b) <? zlen h) with false by zl. zlens_in Lb. posl. change (zlen [0]) with 1 in *.
    rewrite skipn_zlen by reflexivity. rewrite E. rewrite <- !app_assoc. cbn [app]. rewrite (find_nul_cstr x) by auto.
    rewrite <- !app_assoc. cbn [app].
    replace (h ++ x ++ 0 :: y ++ 0 :: rest) with ((h ++ x ++ [0]) ++ y ++ 0 :: rest) by lst.
    rewrite skipn_zlen by zl. rewrite (find_nul_cstr y) by auto. do 2 f_equal. rewrite u32_id by (unfold is_u32; lia). zl.
  - subst t. destruct Z0 as (l4 & s & o & -> & L4 & R4 & Lo). cbn [orb Z.eqb Pos.eqb]. rewrite <- !app_assoc in E. zlens_in Lb. posl.
    replace (zlen b <? 4) with false by lia. rewrite (F4 l4 (s ++ o ++ rest)) by auto. cbn [bind]. rewrite R4. cbn [bind].
    rewrite zlen_app, !I32 by lia. replace (zlen h + zlen b <? zlen h + 4 + zlen s + 12) with false by lia.
    rewrite (u32_id (zlen s)), u32_id by (unfold is_u32; lia). do 2 f_equal. zl.
  - subst t. destruct Z0 as [L4 R4]. cbn [orb Z.eqb Pos.eqb]. rewrite <- E in L4, R4.
    replace (zlen b <? 4) with false by lia. destruct (split_at b 4) as (l4 & c & Eb & Ll); [lia|].
    rewrite (F4 l4 c) by auto. cbn [bind]. rewrite Eb, readi32_firstn in R4 by auto. rewrite R4. cbn [bind].
    rewrite zlen_app, !I32 by lia. replace (zlen h + zlen b <? zlen h + zlen p) with false by lia.
    rewrite (u32_id (zlen p)), u32_id by (unfold is_u32; lia). do 2 f_equal. lia.
Qed.

Lemma core_sized_out n : core = Ret (n, None) -> zlen h + n <= zlen (h ++ b) ->
  (In t [2; 5; 12; 13; 14; 15] -> forall l4 c l, b = l4 ++ c -> zlen l4 = 4 -> readi32 l4 = Ret l -> 0 <= l) ->
  exists p rest, b = p ++ rest /\ zlen p = n /\ sized t p rest.
Proof.
  unfold core, validate_core. rewrite Ht. cbn [bind]. posl. pose proof Hs as Hs0. zlens_in Hs0. rewrite !short_b by lia. rewrite zlen_app.
  intros C Hn Ng.
  assert (Fx : forall m, (if zlen b <? m then Ret (0, Some ETooSmall) else Ret (m, @None gerr)) = Ret (n, None) -> 0 <= m ->
    exists p rest, b = p ++ rest /\ zlen p = n /\ zlen p = m).
  { intros m E M. destruct (zlen b <? m) eqn:Em; [discriminate|]. injection E as <-.
    destruct (split_at b m) as (p & rest & Eb & L); [lia|]. exists p, rest. auto. }
  assert (U : forall l, 0 <= l -> is_i32 l -> u32 l = l) by (unfold is_i32; intros; apply u32_id; unfold is_u32; lia).
  destruct ((t =? 6) || (t =? 10) || (t =? 255) || (t =? 127)) eqn:E0.
  { injection C as <-. exists [], b. split; [reflexivity|]. split; [reflexivity|].
    assert (t = 6 \/ t = 10 \/ t = 255 \/ t = 127) as [ -> |[ -> |[ -> | -> ]]] by lia; reflexivity. }
  destruct (t =? 1) eqn:E1.
  { destruct (Fx 8 C) as (p & rest & Eb & L & L8); [lia|]. exists p, rest. replace t with 1 by lia. auto. }
  destruct ((t =? 2) || (t =? 13) || (t =? 14)) eqn:E2.
  { destruct (zlen b <? 4) eqn:Es; [discriminate|]. destruct four_b as (l4 & c & l & Eb & L4 & R4 & I4 & G); [lia|].
    rewrite G in C. cbn [bind] in C. rewrite R4 in C. cbn [bind] in C.
    specialize (Ng ltac:(cbn [In]; lia) l4 c l Eb L4 R4). destruct (i32 _ <? i32 _); [discriminate|].
    injection C as <-. rewrite (U l) in * by auto. unfold is_i32 in I4. rewrite u32_id in * by (unfold is_u32; lia).
    destruct (split_at c l) as (x & rest & Ec & Lx); [rewrite Eb in Hn; zlens_in Hn; lia|].
    exists (l4 ++ x), rest. split; [rewrite Eb, Ec; lst|]. split; [zl|].
    assert (Q : exists l0 s, l4 ++ x = l0 ++ s /\ zlen l0 = 4 /\ readi32 l0 = Ret (zlen s)) by (exists l4, x; rewrite Lx; auto).
    assert (t = 2 \/ t = 13 \/ t = 14) as [ -> |[ -> | -> ]] by lia; exact Q. }
  assert (Ct : (if zlen b <? 4 then Ret (0, Some ETooSmall) else
    s <- goslice (h ++ b) (zlen h) (u32 (zlen h + 4)) ;;
    l <- readi32 s ;;
    if l <? 5 then Ret (4, Some EInvalidReadOnlyDoc) else
    if i32 (zlen h + zlen b) <? i32 (zlen h + l) then Ret (4, Some ETooSmall) else
    if true then Ret (u32 (4 + (u32 l - 4)), None) else
    sub <- goslice (h ++ b) (zlen h) (u32 (zlen h + u32 l)) ;;
    '(n, e) <- (Fuel : vres) ;;
    Ret (u32 (4 + (n - 4)), e)) = Ret (n, None) -> exists p rest, b = p ++ rest /\ zlen p = n /\ 5 <= zlen p /\ readi32 (firstn 4 p) = Ret (zlen p)).
  { clear C. intros C. destruct (zlen b <? 4) eqn:Es; [discriminate|]. destruct four_b as (l4 & c & l & Eb & L4 & R4 & I4 & G); [lia|].
    rewrite G in C. cbn [bind] in C. rewrite R4 in C. cbn [bind] in C. destruct (l <? 5) eqn:E5; [discriminate|].
    destruct (i32 _ <? i32 _); [discriminate|]. injection C as <-. rewrite (U l) in * by (auto; lia). unfold is_i32 in I4.
    rewrite u32_id in * by (unfold is_u32; lia). destruct (split_at c (l - 4)) as (x & rest & Ec & Lx); [rewrite Eb in Hn; zlens_in Hn; lia|].
    exists (l4 ++ x), rest. split; [rewrite Eb, Ec; lst|]. split; [zl|]. split; [zl|]. rewrite readi32_firstn by auto.
    rewrite R4. f_equal. zl. }
  destruct (t =? 3) eqn:E3.
  { destruct (Ct C) as (p & rest & Eb & L & Q). exists p, rest. replace t with 3 by lia. auto. }
  destruct (t =? 4) eqn:E4.
  { destruct (Ct C) as (p & rest & Eb & L & Q). exists p, rest. replace t with 4 by lia. auto. }
  clear Ct. destruct (t =? 5) eqn:E5.
  { destruct (zlen b <? 5) eqn:Es; [discriminate|]. destruct four_b as (l4 & c & l & Eb & L4 & R4 & I4 & G); [lia|].
    rewrite G in C. cbn [bind] in C. rewrite R4 in C. cbn [bind] in C.
    specialize (Ng ltac:(cbn [In]; lia) l4 c l Eb L4 R4).
    destruct c as [|st c]; [rewrite Eb in Es; zlens_in Es; lia|]. rewrite (u32_id (zlen h + 4)) in C by (unfold is_u32; lia).
    rewrite (goindex_eq (h ++ b) (zlen h + 4) (h ++ l4) st c) in C; [|rewrite Eb; lst|zl]. cbn [bind] in C.
    destruct ((5 <? st) && (st <? 128)) eqn:Est; [discriminate|]. destruct (i32 _ <? i32 _); [discriminate|].
    injection C as <-. rewrite (U l) in * by auto. unfold is_i32 in I4. rewrite u32_id in * by (unfold is_u32; lia).
    destruct (split_at c l) as (x & rest & Ec & Lx); [rewrite Eb in Hn; zlens_in Hn; lia|].
    exists (l4 ++ st :: x), rest. split; [rewrite Eb, Ec; lst|]. split; [zl|]. replace t with 5 by lia.
    exists l4, st, x. rewrite Lx. repeat split; auto. lia. }
  destruct (t =? 7) eqn:E7.
  { destruct (Fx 12 C) as (p & rest & Eb & L & L8); [lia|]. exists p, rest. replace t with 7 by lia. auto. }
  destruct (t =? 8) eqn:E8.
  { destruct (zlen b <? 1) eqn:Es; [discriminate|]. destruct b as [|x c] eqn:Eb; [discriminate|].
    rewrite (goindex_app h x c) in C by reflexivity. cbn [bind] in C. destruct (_ && _) eqn:Ex; [discriminate|]. injection C as <-.
    exists [x], c. replace t with 8 by lia. split; [reflexivity|]. split; [reflexivity|].
    assert (x = 0 \/ x = 1) as [-> | ->] by lia; cbn; auto. }
  destruct (t =? 9) eqn:E9.
  { destruct (Fx 8 C) as (p & rest & Eb & L & L8); [lia|]. exists p, rest. replace t with 9 by lia. auto. }
  destruct (t =? 11) eqn:E11.
  { pose proof (zlen_nonneg b). replace (zlen h + zlen b <? zlen h) with false in C by lia. rewrite skipn_zlen in C by reflexivity.
    destruct (find_nul b) as [m|] eqn:F1; [|discriminate]. apply find_nul_split in F1 as (x & c & Eb & Nx & Lx).
    replace (h ++ b) with ((h ++ x ++ [0]) ++ c) in C by (rewrite Eb; lst). rewrite skipn_zlen in C by zl.
    destruct (find_nul c) as [m'|] eqn:F2; [|discriminate]. apply find_nul_split in F2 as (y & rest & Ec & Ny & Ly).
    injection C as <-. exists (x ++ 0 :: y ++ [0]), rest. split; [rewrite Eb, Ec; lst|].
    assert (Lb : zlen b = zlen x + 1 + zlen y + 1 + zlen rest) by (rewrite Eb, Ec; zl). posl.
    rewrite u32_id by (unfold is_u32; lia). split; [zl|]. replace t with 11 by lia. exists x, y. auto. }
  destruct (t =? 12) eqn:E12.
  { destruct (zlen b <? 4) eqn:Es; [discriminate|]. destruct four_b as (l4 & c & l & Eb & L4 & R4 & I4 & G); [lia|].
    rewrite G in C. cbn [bind] in C. rewrite R4 in C. cbn [bind] in C.
    specialize (Ng ltac:(cbn [In]; lia) l4 c l Eb L4 R4). destruct (i32 _ <? i32 _); [discriminate|].
    injection C as <-. rewrite (U l) in * by auto. unfold is_i32 in I4. rewrite u32_id in * by (unfold is_u32; lia).
    destruct (split_at c l) as (x & c' & Ec & Lx); [rewrite Eb in Hn; zlens_in Hn; lia|].
    destruct (split_at c' 12) as (o & rest & Ec' & Lo); [rewrite Eb, Ec in Hn; zlens_in Hn; lia|].
    exists (l4 ++ x ++ o), rest. split; [rewrite Eb, Ec, Ec'; lst|]. split; [zl|]. replace t with 12 by lia.
    exists l4, x, o. rewrite Lx. auto. }
  destruct (t =? 15) eqn:E15.
  { destruct (zlen b <? 4) eqn:Es; [discriminate|]. destruct four_b as (l4 & c & l & Eb & L4 & R4 & I4 & G); [lia|].
    rewrite G in C. cbn [bind] in C. rewrite R4 in C. cbn [bind] in C.
    specialize (Ng ltac:(cbn [In]; lia) l4 c l Eb L4 R4). destruct (i32 _ <? i32 _); [discriminate|].
    injection C as <-. rewrite (U l) in * by auto. unfold is_i32 in I4. rewrite u32_id in * by (unfold is_u32; lia).
    destruct (split_at b l) as (p & rest & Ep & Lp); [lia|]. exists p, rest. split; [exact Ep|]. split; [lia|].
    replace t with 15 by lia. cbn [sized]. rewrite <- Ep. split; [lia|]. rewrite Eb, readi32_firstn by auto. rewrite R4. f_equal. lia. }
  destruct (t =? 16) eqn:E16.
  { destruct (Fx 4 C) as (p & rest & Eb & L & L8); [lia|]. exists p, rest. replace t with 16 by lia. auto. }
  destruct ((t =? 17) || (t =? 18)) eqn:E17.
  { destruct (Fx 8 C) as (p & rest & Eb & L & L8); [lia|]. exists p, rest. assert (t = 17 \/ t = 18) as [-> | ->] by lia; auto. }
  destruct (t =? 19) eqn:E19; [|discriminate].
  destruct (Fx 16 C) as (p & rest & Eb & L & L8); [lia|]. exists p, rest. replace t with 19 by lia. auto.
Qed.
End Core.

Lemma app_pre {A} (a b c d : list A) : a ++ b = c ++ d -> zlen a = zlen c -> a = c /\ b = d.
Proof.
  revert c. induction a as [|x a IH]; intros [|y c] E L; zlens_in L; posl; try (exfalso; posl; lia); [auto|].
  cbn [app] in E. injection E as <- E. destruct (IH c E) as [-> ->]; [lia|]. auto.
Qed.

Lemma step_shape pre b ende p v : zlen (pre ++ b) + 16 <= 2147483648 -> ende <= zlen (pre ++ b) ->
  rd_step (pre ++ b) (zlen pre) ende = Ret (RElem p v) ->
  exists t k c n, b = t :: k ++ 0 :: c /\ t <> 0 /\ nul_free k /\ zlen k + 2 <= ende - zlen pre /\
    v = MkValue (zlen pre) (zlen pre + 2 + zlen k) (Some (pre ++ b)) None /\
    validate_core (fun _ => Fuel) None true (zlen pre) (zlen pre + 2 + zlen k) (pre ++ b) = Ret (n, None) /\
    p = u32 (zlen pre + 2 + zlen k + n).
Proof.
  intros Hs He E. pose proof (zlen_nonneg pre) as Hp.
  destruct (step_total (pre ++ b) (zlen pre) ende Hp He Hs) as (s & E' & St). rewrite E in E'. injection E' as <-.
  destruct St as (S1 & Hc & p1 & t & k & Ev & (A1 & A2 & A3 & a & c & Er & La) & _).
  destruct (app_pre pre b a (t :: k ++ 0 :: c) Er) as [<- Eb]; [lia|].
  assert (Ep : p1 = zlen pre + 2 + zlen k) by lia. subst p1.
  unfold rd_step in E. destruct (ende <=? zlen pre); [discriminate|].
  assert (G : goindex (pre ++ b) (zlen pre) = Ret t) by (rewrite Eb; now apply goindex_app).
  rewrite G in E. cbn [bind] in E. destruct (t =? 0) eqn:T0; [discriminate|].
  destruct (rd_validate_key (pre ++ b) (u32 (zlen pre + 1)) ende) as [[n [e|]]| |]; cbn [bind] in E; try discriminate.
  destruct (validate_core _ None true (zlen pre) (u32 (zlen pre + 1 + n)) (pre ++ b)) as [[m [e|]]| |] eqn:V; cbn [bind] in E; try discriminate.
  injection E as Ep Q. rewrite Ev in Q. injection Q as Q. rewrite Q in *.
  exists t, k, c, m. repeat split; auto; lia.
Qed.

Lemma step_make pre t k p rest n : zlen (pre ++ t :: k ++ 0 :: p ++ rest) + 16 <= 2147483648 ->
  n <= zlen (t :: k ++ 0 :: p ++ rest) -> t <> 0 -> nul_free k -> zlen k + 2 <= n -> sized t p rest ->
  rd_step (pre ++ t :: k ++ 0 :: p ++ rest) (zlen pre) (zlen pre + n) =
    Ret (RElem (zlen pre + 2 + zlen k + zlen p) (MkValue (zlen pre) (zlen pre + 2 + zlen k) (Some (pre ++ t :: k ++ 0 :: p ++ rest)) None)).
Proof.
  intros Hs Hn T0 Nk Hk Z0. set (r := pre ++ t :: k ++ 0 :: p ++ rest) in *.
  assert (Lr : zlen r = zlen pre + (1 + (zlen k + (1 + (zlen p + zlen rest))))) by (unfold r; zl). zlens_in Hn.
  pose proof (zlen_nonneg pre). pose proof (zlen_nonneg k). pose proof (zlen_nonneg p). pose proof (zlen_nonneg rest).
  unfold rd_step. replace (zlen pre + n <=? zlen pre) with false by lia.
  assert (G : goindex r (zlen pre) = Ret t) by (now apply goindex_app). rewrite G. cbn [bind]. replace (t =? 0) with false by lia.
  rewrite (u32_id (zlen pre + 1)) by (unfold is_u32; lia). unfold rd_validate_key.
  assert (Sl : slice r (zlen pre + 1) (zlen pre + n) = k ++ 0 :: firstn (Z.to_nat (n - 2 - zlen k)) (p ++ rest)).
  { unfold slice, r. replace (pre ++ t :: k ++ 0 :: p ++ rest) with ((pre ++ [t]) ++ k ++ 0 :: p ++ rest) by lst.
    rewrite skipn_zlen by zl. rewrite firstn_app. replace (Z.to_nat (zlen pre + n - (zlen pre + 1))) with (length k + (1 + Z.to_nat (n - 2 - zlen k)))%nat by (unfold zlen in *; lia).
    rewrite firstn_all2 by lia. f_equal. replace (_ + _ - _)%nat with (1 + Z.to_nat (n - 2 - zlen k))%nat by lia. reflexivity. }
  rewrite Sl, find_nul_cstr by auto. cbn [bind].
  replace (u32 (zlen pre + 1 + (zlen k + 1))) with (zlen pre + 2 + zlen k) by (rewrite u32_id; unfold is_u32; lia).
  assert (C : validate_core (fun _ => Fuel) None true (zlen pre) (zlen (pre ++ t :: k ++ [0])) ((pre ++ t :: k ++ [0]) ++ (p ++ rest)) = Ret (zlen p, None)).
  { replace ((pre ++ t :: k ++ [0]) ++ p ++ rest) with r by (unfold r; lst). 
    replace r with ((pre ++ t :: k ++ [0]) ++ p ++ rest) by (unfold r; lst).
    apply (core_sized_in _ _ _ t) with (rest := rest); auto.
    - zl.
    - replace ((pre ++ t :: k ++ [0]) ++ p ++ rest) with r by (unfold r; lst). lia.
    - replace ((pre ++ t :: k ++ [0]) ++ p ++ rest) with r by (unfold r; lst). exact G. }
  replace ((pre ++ t :: k ++ [0]) ++ p ++ rest) with r in C by (unfold r; lst).
  replace (zlen (pre ++ t :: k ++ [0])) with (zlen pre + 2 + zlen k) in C by zl. rewrite C. cbn [bind].
  rewrite u32_id by (unfold is_u32; lia). reflexivity.
Qed.

Lemma raw_slice hd p rest : zlen (hd ++ p ++ rest) + 16 <= 2147483648 -> 5 <= zlen p -> readi32 (firstn 4 p) = Ret (zlen p) ->
  get_reader_raw (zlen hd) (hd ++ p ++ rest) = Ret p.
Proof.
  intros Hs L5 R4. zlens_in Hs. pose proof (zlen_nonneg hd). pose proof (zlen_nonneg rest).
  destruct (split_at p 4) as (l4 & s & -> & L4); [lia|]. rewrite readi32_firstn in R4 by auto.
  unfold get_reader_raw. rewrite (u32_id (zlen hd + 4)) by (unfold is_u32; lia).
  rewrite (goslice_eq _ _ _ hd l4 (s ++ rest)); [|lst|lia|lia]. cbn [bind]. rewrite R4. cbn [bind].
  rewrite (u32_id (zlen (l4 ++ s))), u32_id by (unfold is_u32; lia). apply goslice_app; lia.
Qed.

Lemma field_negative pre t k l4 c l types : nul_free k -> zlen l4 = 4 -> readi32 l4 = Ret l -> In t types -> l < 0 ->
  has_field types (fun l => l < 0) (pre ++ t :: k ++ 0 :: l4 ++ c).
Proof. intros. exists pre, t, k, l4, l, c. auto 10. Qed.

Lemma validate_sound k : forall r q, rd_validate k r = Ret (q, None) -> zlen r + 16 <= 2147483648 -> ~ negative_length r -> accepted r.
Proof.
  induction k as [|k IH]; intros r q V Hs Ng; [discriminate|]. cbn [rd_validate] in V. unfold rd_elements in V.
  destruct (zlen r <? 5) eqn:E5; [discriminate|].
  destruct (split_at r 4) as (l4 & body & Er & L4); [lia|].
  rewrite (goslice_eq r 0 4 [] l4 body) in V; [|auto|reflexivity|rewrite L4; reflexivity]. cbn [bind] in V.
  destruct (readi32 l4) as [l| |] eqn:R4; cbn [bind] in V; try discriminate.
  destruct (zlen r <? l) eqn:El; cbn [orb] in V; [discriminate|]. destruct (l <? 0) eqn:E0; [discriminate|].
  rewrite u32_id in V by (unfold is_u32; lia). set (f := fun (_ : unit) (v : value) => _) in V.
  assert (Lp : forall n pre b s q, r = pre ++ b -> rd_loop f n r (zlen pre) l tt = Ret (s, (q, None)) -> acc_body (l - zlen pre) b).
  { clear V. induction n as [|n IHn]; intros pre b s q' Epre V; [discriminate|]. cbn [rd_loop] in V.
    destruct (rd_step r (zlen pre) l) as [st| |] eqn:St; cbn [bind] in V; try discriminate.
    destruct st as [p e|p|p v]; [discriminate|..].
    - unfold rd_step in St. destruct (l <=? zlen pre) eqn:Lp; [discriminate|].
      destruct b as [|x b]. { rewrite app_nil_r in Epre. rewrite Epre in El. lia. }
      rewrite Epre, (goindex_app pre x b) in St by reflexivity. cbn [bind] in St.
      destruct (x =? 0) eqn:X0.
      + replace x with 0 by lia. apply acc_end. lia.
      + rewrite <- Epre in St. destruct (rd_validate_key r (u32 (zlen pre + 1)) l) as [[m [e|]]| |]; cbn [bind] in St; try discriminate.
        destruct (validate_core _ None true (zlen pre) (u32 (zlen pre + 1 + m)) r) as [[m' [e|]]| |]; cbn [bind] in St; discriminate.
    - rewrite Epre in St. destruct (step_shape pre b l p v) as (t & key & c & m & Eb & T0 & Nk & Hk & Ev & C & Ep); auto; try (rewrite <- Epre; lia).
      assert (Lr : zlen r = zlen pre + (1 + (zlen key + (1 + zlen c)))) by (rewrite Epre, Eb; zl).
      pose proof (zlen_nonneg pre). pose proof (zlen_nonneg key). pose proof (zlen_nonneg c).
      assert (G : goindex r (zlen pre) = Ret t) by (rewrite Epre, Eb; now apply goindex_app).
      rewrite <- Epre in C.
      destruct (core_size_total r (zlen pre) (zlen pre + 2 + zlen key) t) as (n' & e' & C' & Rn & Sz & _); auto; try lia.
      rewrite C in C'. injection C' as <- <-.
      assert (Hm : m <= 2147483648 + 15).
      { destruct (Sz eq_refl) as [?|(I & x & y & Gx & Lx & Ry & Hy)]; [lia|]. exfalso. apply Ng.
        pose proof (goslice_inv _ _ _ _ Gx) as (G1 & G2 & G3 & _).
        destruct (split_at c 4) as (w & z & Ec & Lw); [lia|].
        assert (x = w). { rewrite (goslice_eq r _ _ (pre ++ t :: key ++ [0]) w z) in Gx; [congruence|rewrite Epre, Eb, Ec; lst|zl|zl]. }
        subst x. rewrite Epre, Eb, Ec. apply (field_negative pre t key w z y); auto. }
      rewrite u32_id in Ep by (unfold is_u32; lia).
      destruct (f tt v) as [[[] ct]| |] eqn:Ef; cbn [bind] in V; try discriminate.
      destruct ct; try discriminate.
      2:{ exfalso. unfold f in Ef. destruct (v_type v) as [t'| |]; cbn [bind] in Ef; try discriminate.
          destruct ((t' =? 3) || (t' =? 4)); [|discriminate].
          destruct (reader_container_raw t' v) as [sub| |]; cbn [bind] in Ef; try discriminate.
          destruct (rd_validate k sub) as [[z [e|]]| |]; cbn [bind] in Ef; discriminate. }
      assert (Hl : p < l).
      { destruct n as [|n]; [discriminate|]. cbn [rd_loop] in V. unfold rd_step in V. destruct (l <=? p) eqn:X; [discriminate|lia]. }
      destruct (core_sized_out (pre ++ t :: key ++ [0]) c (zlen pre) t) with (n := m) as (pl & rest & Ec & Lpl & Z0).
      + zl.
      + replace ((pre ++ t :: key ++ [0]) ++ c) with r by (rewrite Epre, Eb; lst). lia.
      + replace ((pre ++ t :: key ++ [0]) ++ c) with r by (rewrite Epre, Eb; lst). exact G.
      + replace ((pre ++ t :: key ++ [0]) ++ c) with r by (rewrite Epre, Eb; lst).
        replace (zlen (pre ++ t :: key ++ [0])) with (zlen pre + 2 + zlen key) by zl. exact C.
      + replace ((pre ++ t :: key ++ [0]) ++ c) with r by (rewrite Epre, Eb; lst).
        replace (zlen (pre ++ t :: key ++ [0])) with (zlen pre + 2 + zlen key) by zl. lia.
      + intros I w z y Ew Lw Ry. destruct (Z.ltb_spec y 0) as [Hy|Hy]; [|lia]. exfalso. apply Ng.
        rewrite Epre, Eb, Ew. apply (field_negative pre t key w z y); auto.
      + rewrite Eb, Ec. apply acc_elem; auto; try lia.
        * intros T34. unfold f in Ef. rewrite Ev in Ef. cbn [v_type] in Ef.
          replace (zlen pre + 2 + zlen key =? 0) with false in Ef by lia. rewrite <- Epre, G in Ef. cbn [bind] in Ef.
          replace ((t =? 3) || (t =? 4)) with true in Ef by lia. cbn [reader_container_raw] in Ef.
          replace (zlen pre + 2 + zlen key =? 0) with false in Ef by lia. rewrite G in Ef. cbn [bind] in Ef.
          rewrite Z.eqb_refl in Ef. cbn [negb] in Ef.
          assert (Er' : r = (pre ++ t :: key ++ [0]) ++ pl ++ rest) by (rewrite Epre, Eb, Ec; lst).
          assert (Z3 : 5 <= zlen pl /\ readi32 (firstn 4 pl) = Ret (zlen pl)) by (destruct T34 as [-> | ->]; exact Z0).
          assert (Gr : get_reader_raw (zlen pre + 2 + zlen key) r = Ret pl).
          { replace (zlen pre + 2 + zlen key) with (zlen (pre ++ t :: key ++ [0])) by zl. rewrite Er'. apply raw_slice; try tauto.
            rewrite <- Er'. lia. }
          rewrite Gr in Ef. cbn [bind] in Ef. destruct (rd_validate k pl) as [[z [e|]]| |] eqn:Vp; cbn [bind] in Ef; try discriminate.
          apply (IH pl z Vp).
          -- rewrite Er' in Hs. zlens_in Hs. pose proof (zlen_nonneg rest). lia.
          -- intros N. apply Ng. rewrite Er'. now apply negative_sub.
        * specialize (IHn (pre ++ t :: key ++ 0 :: pl) rest s q').
          replace (l - zlen (pre ++ t :: key ++ 0 :: pl)) with (l - zlen pre - 2 - zlen key - zlen pl) in IHn by zl.
          apply IHn.
          -- rewrite Epre, Eb, Ec. lst.
          -- replace (zlen (pre ++ t :: key ++ 0 :: pl)) with p by zl. exact V. }
  destruct (rd_loop f k r 4 l tt) as [[s [q' e']]| |] eqn:E; cbn [bind] in V; try discriminate. injection V as <- ->.
  rewrite Er. apply acc_doc with l; auto.
  - rewrite Er in El. zlens_in El. lia.
  - replace (l - 4) with (l - zlen l4) by lia. apply (Lp k l4 body s q' Er). now rewrite L4.
Qed.

Definition rdv_cb (k : nat) : unit -> value -> go (unit * ctl) := fun _ v =>
  t <- v_type v ;;
  if (t =? 3) || (t =? 4) then
    sub <- reader_container_raw t v ;;
    '(_, e) <- rd_validate k sub ;;
    Ret (tt, match e with Some e => CErr e | None => CNext end)
  else Ret (tt, CNext).

Lemma validate_complete r : accepted r -> zlen r + 16 <= 2147483648 ->
  forall k, (zlen r < Z.of_nat k)%Z -> exists q, rd_validate k r = Ret (q, None).
Proof.
  intros A. induction A using accepted_mind with
    (P0 := fun n b (_ : acc_body n b) => forall k m pre, zlen (pre ++ b) + 16 <= 2147483648 -> n <= zlen b -> zlen b < Z.of_nat m ->
       zlen b <= Z.of_nat k -> exists q, rd_loop (rdv_cb k) m (pre ++ b) (zlen pre) (zlen pre + n) tt = Ret (tt, (q, None))).
  - intros Hs [|k] Hk; zlens_in Hk; posl; [lia|]. zlens_in Hs. pose proof (zlen_nonneg body).
    assert (1 <= l - 4) by (inversion a; subst; posl; lia).
    destruct (IHA k k l4) as (q & E); try (zl; fail).
    exists q. cbn [rd_validate]. unfold rd_elements. rewrite zlen_app. replace (zlen l4 + zlen body <? 5) with false by lia.
    rewrite (goslice_eq _ 0 4 [] l4 body); [|auto|reflexivity|rewrite e; reflexivity]. cbn [bind]. rewrite e0. cbn [bind].
    replace ((zlen l4 + zlen body <? l) || (l <? 0)) with false by lia.
    rewrite u32_id by (unfold is_u32; lia). fold (rdv_cb k). replace 4 with (zlen l4) by lia. replace l with (zlen l4 + (l - 4)) at 1 by lia.
    rewrite E. reflexivity.
  - intros k [|m] pre Hs Hn Hm Hk; [pose proof (zlen_nonneg (0 :: junk)); lia|]. cbn [rd_loop]. unfold rd_step.
    replace (zlen pre + n <=? zlen pre) with false by lia. rewrite goindex_app by reflexivity. cbn [bind]. rewrite Z.eqb_refl. cbn [bind]. eauto.
  - intros k0 [|m] pre Hs Hn Hm Hk; [pose proof (zlen_nonneg (t :: k ++ 0 :: p ++ rest)); lia|].
    cbn [rd_loop]. rewrite step_make by auto. cbn [bind].
    zlens_in Hs. zlens_in Hn. zlens_in Hm. zlens_in Hk.
    pose proof (zlen_nonneg pre). pose proof (zlen_nonneg k). pose proof (zlen_nonneg p). pose proof (zlen_nonneg rest).
    set (r := pre ++ t :: k ++ 0 :: p ++ rest).
    assert (G : goindex r (zlen pre) = Ret t) by (now apply goindex_app).
    assert (C : rdv_cb k0 tt (MkValue (zlen pre) (zlen pre + 2 + zlen k) (Some r) None) = Ret (tt, CNext)).
    { unfold rdv_cb. cbn [v_type]. replace (zlen pre + 2 + zlen k =? 0) with false by lia. rewrite G. cbn [bind].
      destruct ((t =? 3) || (t =? 4)) eqn:T34; [|reflexivity]. cbn [reader_container_raw].
      replace (zlen pre + 2 + zlen k =? 0) with false by lia. rewrite G. cbn [bind]. rewrite Z.eqb_refl. cbn [negb].
      assert (T : t = 3 \/ t = 4) by lia.
      assert (Z3 : 5 <= zlen p /\ readi32 (firstn 4 p) = Ret (zlen p)) by (destruct T as [-> | ->]; exact s).
      assert (Er' : r = (pre ++ t :: k ++ [0]) ++ p ++ rest) by (unfold r; lst).
      assert (Gr : get_reader_raw (zlen pre + 2 + zlen k) r = Ret p).
      { replace (zlen pre + 2 + zlen k) with (zlen (pre ++ t :: k ++ [0])) by zl. rewrite Er'. apply raw_slice; try tauto. zl. }
      rewrite Gr. cbn [bind]. destruct (H T) with (k := k0) as (q & ->); [lia|lia|]. reflexivity. }
    rewrite C. cbn [bind].
    destruct (IHA k0 m (pre ++ t :: k ++ 0 :: p)) as (q & E); try (zl; fail).
    exists q. replace r with ((pre ++ t :: k ++ 0 :: p) ++ rest) by (unfold r; lst).
    replace (zlen pre + 2 + zlen k + zlen p) with (zlen (pre ++ t :: k ++ 0 :: p)) by zl.
    replace (zlen pre + n) with (zlen (pre ++ t :: k ++ 0 :: p) + (n - 2 - zlen k - zlen p)) by zl. exact E.
Qed.

Lemma sized_app t p rest junk : sized t p rest -> sized t p (rest ++ junk).
Proof.
  intros Z0. destruct (Z.eqb_spec t 15) as [->|N].
  - cbn [sized] in *. destruct Z0 as [L R]. rewrite app_assoc. split; [zlens; pose proof (zlen_nonneg junk); zl|].
    destruct (split_at (p ++ rest) 4) as (a & b & E & La); [lia|]. rewrite E in R |- *. rewrite <- app_assoc, readi32_firstn in * by auto. exact R.
  - destruct t as [|q|q]; try exact Z0. repeat (destruct q as [q|q|]; try exact Z0). now elim N.
Qed.

Lemma accepted_app r junk : accepted r -> accepted (r ++ junk).
Proof.
  intros A. induction A using accepted_mind with (P0 := fun n b (_ : acc_body n b) => acc_body n (b ++ junk)).
  - rewrite <- app_assoc. apply acc_doc with l; auto. zl.
  - cbn [app]. now apply acc_end.
  - replace ((t :: k ++ 0 :: p ++ rest) ++ junk) with (t :: k ++ 0 :: p ++ (rest ++ junk)) by lst.
    apply acc_elem; auto. now apply sized_app.
Qed.

(* What Value.Validate checks of a value beyond its size, for a value read from bytes *)
Definition ends (s : bytes) : Prop := s = [] \/ exists s', s = s' ++ [0].
Definition checked (t : Z) (p rest : bytes) : Prop :=
  match t with
  | 2 | 13 | 14 => exists l4 s, p = l4 ++ s /\ zlen l4 = 4 /\ readi32 l4 = Ret (zlen s) /\ ends s
  | 3 | 4 => accepted p
  | 15 => forall l4 c4 c n, p ++ rest = l4 ++ c4 ++ c -> zlen l4 = 4 -> zlen c4 = 4 -> readi32 c4 = Ret n -> 0 <= n ->
      exists s d, p = l4 ++ c4 ++ s ++ d /\ zlen s = n /\ ends s /\ accepted d
  | _ => True
  end.

Lemma last_cases (s : bytes) : s = [] \/ exists s' x, s = s' ++ [x].
Proof. induction s using rev_ind; eauto. Qed.

Lemma ends_last hd s rest i : goindex (hd ++ s ++ rest) i = Ret 0 -> i = zlen hd + zlen s - 1 -> ends s.
Proof.
  intros G ->. destruct (last_cases s) as [->|(s' & x & ->)]; [now left|right]. exists s'.
  rewrite (goindex_eq _ _ (hd ++ s') x rest) in G; [congruence|lst|zl].
Qed.

Lemma value_checked fuel hd pos t p rest n : 0 < zlen hd -> zlen (hd ++ p ++ rest) + 16 <= 2147483648 ->
  goindex (hd ++ p ++ rest) pos = Ret t -> sized t p rest -> ~ negative_length p ->
  val_validate fuel false (MkValue pos (zlen hd) (Some (hd ++ p ++ rest)) None) = Ret (n, None) -> checked t p rest.
Proof.
  intros Hh Hs Gt Z0 Ng V. cbn [val_validate] in V. unfold validate_core in V. rewrite Gt in V. cbn [bind] in V.
  set (r := hd ++ p ++ rest) in *. assert (Lr : zlen r = zlen hd + (zlen p + zlen rest)) by (unfold r; zl).
  pose proof (zlen_nonneg p). pose proof (zlen_nonneg rest).
  rewrite !short_off in V by lia.
  assert (F4 : forall l4 c, p ++ rest = l4 ++ c -> zlen l4 = 4 -> goslice r (zlen hd) (u32 (zlen hd + 4)) = Ret l4).
  { intros l4 c E L. assert (zlen l4 <= zlen (p ++ rest)) by (rewrite E; pose proof (zlen_nonneg c); zl). zlens_in H1.
    rewrite u32_id by (unfold is_u32; lia). unfold r. rewrite E. apply goslice_app; lia. }
  destruct ((t =? 6) || (t =? 10) || (t =? 255) || (t =? 127)) eqn:E0.
  { assert (t = 6 \/ t = 10 \/ t = 255 \/ t = 127) as [-> | [-> | [-> | ->]]] by lia; exact I. }
  destruct (t =? 1) eqn:E1; [replace t with 1 by lia; exact I|].
  destruct ((t =? 2) || (t =? 13) || (t =? 14)) eqn:E2.
  { assert (Z2 : exists l4 s, p = l4 ++ s /\ zlen l4 = 4 /\ readi32 l4 = Ret (zlen s))
      by (assert (t = 2 \/ t = 13 \/ t = 14) as [-> | [-> | ->]] by lia; exact Z0).
    destruct Z2 as (l4 & s & Ep & L4 & R4).
    assert (ends s).
    { assert (Lp : zlen p = 4 + zlen s) by (rewrite Ep; zl). pose proof (zlen_nonneg s).
      rewrite (F4 l4 (s ++ rest)) in V; [|rewrite Ep; lst|auto]. replace (zlen r <? zlen hd + 4) with false in V by lia.
      cbn [bind] in V. rewrite R4 in V. cbn [bind] in V.
      rewrite !i32_id in V by (unfold is_i32; lia). replace (zlen r <? zlen hd + 4 + zlen s) with false in V by lia.
      rewrite (u32_id (zlen s)), (u32_id (zlen hd + 4 + zlen s - 1)) in V by (unfold is_u32; lia).
      destruct (goindex r (zlen hd + 4 + zlen s - 1)) as [b| |] eqn:Gb; cbn [bind] in V; try discriminate.
      destruct (b =? 0) eqn:B0; [|discriminate].
      apply (ends_last (hd ++ l4) s rest (zlen hd + 4 + zlen s - 1)); [|zl].
      replace ((hd ++ l4) ++ s ++ rest) with r by (unfold r; rewrite Ep; lst). rewrite Gb. f_equal. lia. }
    assert (t = 2 \/ t = 13 \/ t = 14) as [-> | [-> | ->]] by lia; exists l4, s; auto. }
  assert (Ct : t = 3 \/ t = 4 -> (sub <- goslice r (zlen hd) (u32 (zlen hd + u32 (zlen p))) ;; '(n, e) <- rd_validate fuel sub ;; Ret (u32 (4 + (n - 4)), e)) = Ret (n, None) -> accepted p).
  { intros _ C. rewrite !u32_id in C; try (unfold is_u32; lia). 2: rewrite u32_id; unfold is_u32; lia.
    unfold r in C. rewrite goslice_app in C by auto. cbn [bind] in C.
    destruct (rd_validate fuel p) as [[q e]| |] eqn:Vp; cbn [bind] in C; try discriminate. injection C as _ ->.
    apply (validate_sound fuel p q Vp); [lia|auto]. }
  destruct ((t =? 3) || (t =? 4)) eqn:E34.
  { assert (T : t = 3 \/ t = 4) by lia.
    assert (Z3 : 5 <= zlen p /\ readi32 (firstn 4 p) = Ret (zlen p)) by (destruct T as [-> | ->]; exact Z0).
    destruct Z3 as [L5 R4]. destruct (split_at p 4) as (l4 & s & Ep & L4); [lia|].
    assert (R4' : readi32 l4 = Ret (zlen p)) by (rewrite <- R4; rewrite Ep at 1; now rewrite readi32_firstn).
    assert (accepted p).
    { apply (Ct T). rewrite <- V.
      replace ((if t =? 3 then _ else _) : vres) with (if zlen r <? zlen hd + 4 then Ret (0, Some ETooSmall) else
        s <- goslice r (zlen hd) (u32 (zlen hd + 4)) ;;
        l <- readi32 s ;;
        if l <? 5 then Ret (4, Some EInvalidReadOnlyDoc) else
        if i32 (zlen r) <? i32 (zlen hd + l) then Ret (4, Some ETooSmall) else
        sub <- goslice r (zlen hd) (u32 (zlen hd + u32 l)) ;;
        '(n, e) <- rd_validate fuel sub ;;
        Ret (u32 (4 + (n - 4)), e)) by (destruct T as [-> | ->]; reflexivity).
      replace (zlen r <? zlen hd + 4) with false by lia. rewrite (F4 l4 (s ++ rest)); [|rewrite Ep; lst|auto]. cbn [bind].
      rewrite R4'. cbn [bind]. replace (zlen p <? 5) with false by lia. rewrite !i32_id by (unfold is_i32; lia).
      replace (zlen r <? zlen hd + zlen p) with false by lia. reflexivity. }
    destruct T as [-> | ->]; auto. }
  replace (t =? 3) with false in V by lia. replace (t =? 4) with false in V by lia.
  destruct (t =? 5) eqn:E5; [replace t with 5 by lia; exact I|].
  destruct (t =? 7) eqn:E7; [replace t with 7 by lia; exact I|].
  destruct (t =? 8) eqn:E8; [replace t with 8 by lia; exact I|].
  destruct (t =? 9) eqn:E9; [replace t with 9 by lia; exact I|].
  destruct (t =? 11) eqn:E11; [replace t with 11 by lia; exact I|].
  destruct (t =? 12) eqn:E12; [replace t with 12 by lia; exact I|].
  destruct (t =? 15) eqn:E15.
  2:{ destruct (t =? 16) eqn:E16; [replace t with 16 by lia; exact I|].
      destruct ((t =? 17) || (t =? 18)) eqn:E17; [assert (t = 17 \/ t = 18) as [-> | ->] by lia; exact I|].
      destruct (t =? 19) eqn:E19; [replace t with 19 by lia; exact I|discriminate]. }
  assert (t = 15) by lia. subst t. cbn [sized checked] in *. destruct Z0 as [_ R4].
  intros l4 c4 c m E L4 Lc R Hm. pose proof (zlen_nonneg c).
  assert (Lp : zlen p + zlen rest = 8 + zlen c) by (transitivity (zlen (p ++ rest)); [zl|rewrite E; zl]).
  rewrite E, readi32_firstn in R4 by auto.
  replace (zlen r <? zlen hd + 4) with false in V by lia. rewrite (F4 l4 (c4 ++ c)) in V by auto. cbn [bind] in V. rewrite R4 in V. cbn [bind] in V.
  rewrite !i32_id in V by (unfold is_i32; lia). replace (zlen r <? zlen hd + zlen p) with false in V by lia.
  rewrite (u32_id (zlen hd + 4)), (u32_id (zlen hd + 8)) in V by (unfold is_u32; lia).
  rewrite (goslice_eq r _ _ (hd ++ l4) c4 c) in V; [|unfold r; rewrite E; lst|zl|zl]. cbn [bind] in V. rewrite R in V. cbn [bind] in V.
  destruct (zlen p - 13 <? m) eqn:Hm13; [discriminate|].
  rewrite (u32_id m), (u32_id (zlen hd + 8 + m - 1)) in V by (unfold is_u32; lia).
  destruct (goindex r (zlen hd + 8 + m - 1)) as [b| |] eqn:Gb; cbn [bind] in V; try discriminate.
  destruct (b =? 0) eqn:B0; cbn [negb] in V; [|discriminate].
  destruct (split_at p 8) as (x & y & Ep & Lx); [lia|].
  assert (Ex : x = l4 ++ c4 /\ y ++ rest = c).
  { apply app_pre; [|zl]. transitivity (p ++ rest); [rewrite Ep; lst|rewrite E; lst]. }
  destruct Ex as [-> <-].
  assert (Ly : zlen p = 8 + zlen y) by (rewrite Ep; zl).
  destruct (split_at y m) as (s & d & -> & Ls); [lia|]. exists s, d. split; [rewrite Ep; lst|]. split; [auto|]. zlens_in Ly.
  assert (Er : r = (hd ++ l4 ++ c4 ++ s) ++ d ++ rest) by (unfold r; rewrite Ep; lst).
  split.
  - apply (ends_last (hd ++ l4 ++ c4) s (d ++ rest) (zlen hd + 8 + m - 1)); [|zl].
    replace ((hd ++ l4 ++ c4) ++ s ++ d ++ rest) with r by (rewrite Er; lst). rewrite Gb. f_equal. lia.
  - rewrite (u32_id (zlen hd + 8 + m)), (u32_id (zlen p)), u32_id in V by (unfold is_u32; lia).
    rewrite (goslice_eq r _ _ (hd ++ l4 ++ c4 ++ s) d rest) in V; [|auto|zl|zl]. cbn [bind] in V.
    destruct (rd_validate fuel d) as [[q e]| |] eqn:Vp; cbn [bind] in V; try discriminate. injection V as _ ->.
    pose proof (zlen_nonneg s). apply (validate_sound fuel d q Vp); [lia|].
    intros N. apply Ng. rewrite Ep. replace ((l4 ++ c4) ++ s ++ d) with ((l4 ++ c4 ++ s) ++ d ++ []) by (rewrite app_nil_r; lst). now apply negative_sub.
Qed.

(* ------------------------------------------------------------------- theorems *)

(* Reader.Validate accepts exactly the strings of the grammar above. *)
Theorem C103_validate_partial : forall r fuel, zlen r + 16 <= 2147483648 -> ~ negative_length r -> zlen r < Z.of_nat fuel ->
  ((exists q, rd_validate fuel r = Ret (q, None)) <-> accepted r).
Proof.
  intros r fuel Hs Ng Hf. split.
  - intros (q & V). exact (validate_sound fuel r q V Hs Ng).
  - intros A. exact (validate_complete r A Hs fuel Hf).
Qed.
Print Assumptions C103_validate_partial.

(* It stops at the first NUL where a type is due: what follows changes nothing. *)
Theorem C103_stops : forall r junk fuel q, zlen (r ++ junk) + 16 <= 2147483648 -> ~ negative_length r -> zlen (r ++ junk) < Z.of_nat fuel ->
  rd_validate fuel r = Ret (q, None) -> exists q', rd_validate fuel (r ++ junk) = Ret (q', None).
Proof.
  intros r junk fuel q Hs Ng Hf V. apply validate_complete; auto. apply accepted_app.
  apply (validate_sound fuel r q V); auto. zlens_in Hs. pose proof (zlen_nonneg junk). lia.
Qed.
Print Assumptions C103_stops.

(* A document of n bytes whose terminator comes at once is accepted, whatever its other bytes:
   the declared length is not compared with the place of the terminator. *)
Theorem C103_length_refuted : forall junk fuel, zlen junk + 21 <= 2147483648 -> zlen junk + 5 < Z.of_nat fuel ->
  exists q, rd_validate fuel (le32 (5 + zlen junk) ++ 0 :: junk) = Ret (q, None).
Proof.
  intros junk fuel Hs Hf. pose proof (zlen_nonneg junk). apply validate_complete; try (zl; fail).
  apply acc_doc with (5 + zlen junk); [apply zlen_le32|apply readi32_le; unfold is_i32; lia|zl|]. apply acc_end. lia.
Qed.
Print Assumptions C103_length_refuted.

(* A string of any bytes, with no terminator among them, is accepted inside a document. *)
Definition string_doc (k s : bytes) : bytes := le32 (11 + zlen k + zlen s) ++ 2 :: k ++ 0 :: (le32 (zlen s) ++ s) ++ [0].
Theorem C103_string_refuted : forall k s fuel, nul_free k -> zlen k + zlen s + 27 <= 2147483648 -> zlen k + zlen s + 11 < Z.of_nat fuel ->
  exists q, rd_validate fuel (string_doc k s) = Ret (q, None).
Proof.
  intros k s fuel Nk Hs Hf. pose proof (zlen_nonneg k). pose proof (zlen_nonneg s). unfold string_doc.
  apply validate_complete; try (zl; fail).
  apply acc_doc with (11 + zlen k + zlen s); [apply zlen_le32|apply readi32_le; unfold is_i32; lia|zl|].
  apply acc_elem; auto; try lia.
  - exists (le32 (zlen s)), s. split; [auto|]. split; [apply zlen_le32|apply readi32_le; unfold is_i32; lia].
  - apply acc_end. zl.
Qed.
Print Assumptions C103_string_refuted.

(* Nor does it look inside code with scope. *)
Definition scope_doc (k c : bytes) : bytes := le32 (11 + zlen k + zlen c) ++ 15 :: k ++ 0 :: (le32 (4 + zlen c) ++ c) ++ [0].
Theorem C103_scope_refuted : forall k c fuel, nul_free k -> zlen k + zlen c + 27 <= 2147483648 -> zlen k + zlen c + 11 < Z.of_nat fuel ->
  exists q, rd_validate fuel (scope_doc k c) = Ret (q, None).
Proof.
  intros k c fuel Nk Hs Hf. pose proof (zlen_nonneg k). pose proof (zlen_nonneg c). unfold scope_doc.
  apply validate_complete; try (zl; fail).
  apply acc_doc with (11 + zlen k + zlen c); [apply zlen_le32|apply readi32_le; unfold is_i32; lia|zl|].
  apply acc_elem; auto; try lia.
  - cbn [sized]. rewrite <- app_assoc, readi32_firstn by apply zlen_le32. split; [zl|]. rewrite readi32_le by (unfold is_i32; lia). f_equal. zl.
  - apply acc_end. zl.
Qed.
Print Assumptions C103_scope_refuted.

(* Value.Validate of a value found in the bytes p, after hd and before rest, finds the terminators
   of strings, code and symbols, the documents inside, and the parts of code with scope. *)
Theorem C103_value_partial : forall fuel hd pos t p rest n, 0 < zlen hd -> zlen (hd ++ p ++ rest) + 16 <= 2147483648 ->
  goindex (hd ++ p ++ rest) pos = Ret t -> sized t p rest -> ~ negative_length p ->
  val_validate fuel false (MkValue pos (zlen hd) (Some (hd ++ p ++ rest)) None) = Ret (n, None) -> checked t p rest.
Proof. exact value_checked. Qed.
Print Assumptions C103_value_partial.

(* Element.Validate refuses an element whose key, the bytes k between its type and its
   value, has no terminator, whatever the value. *)
Theorem C103_key : forall fuel h t k p d, k <> [] -> zlen (h ++ t :: k ++ p) < 4294967296 -> ~ In 0 k ->
  elem_validate fuel (Some (MkValue (zlen h) (zlen h + 1 + zlen k) (Some (h ++ t :: k ++ p)) d)) = Ret (1 + zlen k, Some EInvalidKey).
Proof.
  intros fuel h t k p d Nk Hl N0. unfold elem_validate, elem_validate_with, elem_validate_key. cbn [v_start v_offset v_data].
  pose proof (zlen_nonneg h). pose proof (zlen_nonneg k). pose proof (zlen_nonneg p).
  assert (1 <= zlen k) by (destruct k; [congruence|unfold zlen; cbn [length]; lia]).
  assert (L : zlen (h ++ t :: k ++ p) = zlen h + 1 + zlen k + zlen p) by (unfold zlen; rewrite app_length; cbn [length]; rewrite app_length; lia).
  rewrite L in *. rewrite !(u32_id (zlen h + 1)) by (unfold is_u32; lia). rewrite !(u32_id (zlen h + 1 + zlen k + zlen p)) by (unfold is_u32; lia).
  replace (zlen h + 1 + zlen k + zlen p <? zlen h + 1 + zlen k) with false by lia.
  replace (zlen h + 1 + zlen k <? zlen h + 1) with false by lia.
  assert (E : slice (h ++ t :: k ++ p) (zlen h + 1) (zlen h + 1 + zlen k) = k).
  { unfold slice. replace (Z.to_nat (zlen h + 1)) with (length h + 1)%nat by (unfold zlen; lia).
    replace (Z.to_nat (zlen h + 1 + zlen k - (zlen h + 1))) with (length k) by (unfold zlen; lia).
    replace (skipn (length h + 1) (h ++ t :: k ++ p)) with (k ++ p) by (clear; induction h; cbn; auto).
    now rewrite firstn_app, firstn_all, Nat.sub_diag, firstn_O, app_nil_r. }
  rewrite E, find_nul_none by (unfold nul_free; rewrite Forall_forall; intros x Ix ->; auto).
  cbn [bind]. f_equal. f_equal. rewrite u32_id by (unfold is_u32; lia). lia.
Qed.
Print Assumptions C103_key.

Example C103_nonvacuous :
  let r := [27; 0; 0; 0;  3; 97; 0;  11; 0; 0; 0; 8; 98; 0; 1; 10; 0; 0;  2; 99; 0;  1; 0; 0; 0; 0;  0] in
  rd_validate 28 r = Ret (27, None) /\ ~ negative_length r /\ accepted r /\
  rd_validate 28 (string_doc [97] [65; 66]) = Ret (14, None) /\
  ~ accepted [12; 0; 0; 0; 8; 97; 0; 2; 0; 0; 0; 0].
Proof.
  cbv zeta. split; [vm_compute; reflexivity|]. split; [apply FtdcRawProps.neg_field_sound; vm_compute; reflexivity|].
  split; [|split; [vm_compute; reflexivity|]].
  - apply (C103_validate_partial _ 28); [unfold zlen; cbn; lia|apply FtdcRawProps.neg_field_sound; vm_compute; reflexivity|unfold zlen; cbn; lia|].
    exists 27. vm_compute. reflexivity.
  - intros A. destruct (validate_complete _ A ltac:(unfold zlen; cbn; lia) 13%nat) as (q & V); [unfold zlen; cbn; lia|]. vm_compute in V. discriminate.
Qed.

Example C103_value_nonvacuous :
  let hd := [15; 99; 0] in let p := [17; 0; 0; 0; 2; 0; 0; 0; 65; 0; 7; 0; 0; 0; 10; 0; 0] in
  goindex (hd ++ p ++ [0]) 0 = Ret 15 /\ sized 15 p [0] /\ ~ negative_length p /\
  val_validate 30 false (MkValue 0 3 (Some (hd ++ p ++ [0])) None) = Ret (17, None).
Proof.
  cbv zeta. split; [reflexivity|]. split; [cbn [sized]; unfold zlen; cbn [length app]; split; [lia|reflexivity]|].
  split; [apply FtdcRawProps.neg_field_sound; vm_compute; reflexivity|]. vm_compute. reflexivity.
Qed.
