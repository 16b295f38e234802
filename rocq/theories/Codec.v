(* Representation relation between Go values and BSON trees, and the proofs that
   validation, serialization and reading agree with the specification BSpec.v. *)
Require Import ZArith List Bool Lia ZifyBool ZifyNat.
From Verif Require Import Base BSpec Elements Value.
Import ListNotations.
Open Scope Z_scope.

Ltac lst := unfold enc_frame, enc_string, enc_cstring; repeat first [rewrite <- app_assoc | progress cbn [app]]; reflexivity.

Lemma goslice_eq {A} (data : list A) i j p mid q :
  data = p ++ mid ++ q -> i = zlen p -> j = zlen p + zlen mid -> goslice data i j = Ret mid.
Proof. intros -> ? ?. now apply goslice_app. Qed.

Lemma goindex_eq {A} (data : list A) i p x q :
  data = p ++ x :: q -> i = zlen p -> goindex data i = Ret x.
Proof. intros -> ?. now apply goindex_app. Qed.

Lemma readi32_le z : is_i32 z -> readi32 (le32 z) = Ret z.
Proof. intros. rewrite <- le32_u32. now apply readi32_le32'. Qed.

Lemma find_nul_cstr k rest : nul_free k -> find_nul (k ++ 0 :: rest) = Some (zlen k).
Proof.
  induction 1 as [|x k Hx Hk IH]; cbn; [reflexivity|].
  destruct (x =? 0) eqn:E; [lia|]. rewrite IH. f_equal. rewrite zlen_cons. lia.
Qed.

Lemma find_nul_none k : nul_free k -> find_nul k = None.
Proof.
  induction 1 as [|x k Hx Hk IH]; cbn; [reflexivity|].
  destruct (x =? 0) eqn:E; [lia|]. now rewrite IH.
Qed.

Lemma skipn_zlen {A} (p q : list A) i : i = zlen p -> skipn (Z.to_nat i) (p ++ q) = q.
Proof. intros ->. rewrite to_nat_zlen, skipn_app, skipn_all, Nat.sub_diag. reflexivity. Qed.

(* tactics: discharge the arithmetic of slicing *)
Ltac rng := unfold is_u32, is_i32, is_u64, is_i64, is_u8 in *; zl.
Ltac gs p mid q :=
  erewrite (goslice_eq _ _ _ p mid q); [cbn [bind] | try lst | try zl | try zl].
Ltac gi p x q :=
  erewrite (goindex_eq _ _ p x q); [cbn [bind] | try lst | try zl].
Ltac u32s := repeat match goal with |- context [u32 ?x] => rewrite (u32_id x) by rng end.
Ltac i32s := repeat match goal with |- context [i32 ?x] => rewrite (i32_id x) by rng end.
Ltac ift := match goal with |- context [if ?b then _ else _] =>
   first [ replace b with true by (unfold short; u32s; i32s; zl)
         | replace b with false by (unfold short; u32s; i32s; zl) ] end; cbn [orb andb negb].

(* What is needed of Reader.Validate on the containers inside t. *)
Definition rdv_ok (rdv : bytes -> vres) (t : bval) : Prop :=
  match t with
  | BDoc fs => rdv (enc_doc fs) = Ret (zlen (enc_doc fs), None)
  | BArray vs => rdv (enc_array vs) = Ret (zlen (enc_array vs), None)
  | BCode _ fs => rdv (enc_doc fs) = Ret (zlen (enc_doc fs), None)
  | _ => True
  end.

Lemma enc_string_split s : enc_string s = le32 (zlen s + 1) ++ (s ++ [0]).
Proof. reflexivity. Qed.

Lemma container_lazy rdv so p c post (data := p ++ enc_frame c ++ post) :
  zlen data < 2147483648 ->
  (so = false -> rdv (enc_frame c) = Ret (zlen (enc_frame c), None)) ->
  (if short (zlen p) 4 data then Ret (0, Some ETooSmall) else
    s <- goslice data (zlen p) (u32 (zlen p + 4)) ;;
    l <- readi32 s ;;
    if l <? 5 then Ret (4, Some EInvalidReadOnlyDoc) else
    if i32 (zlen data) <? i32 (zlen p + l) then Ret (4, Some ETooSmall) else
    if so then Ret (u32 (4 + (u32 l - 4)), None) else
    sub <- goslice data (zlen p) (u32 (zlen p + u32 l)) ;;
    '(n, e) <- rdv sub ;;
    Ret (u32 (4 + (n - 4)), e)) = Ret (zlen (enc_frame c), None).
Proof.
  intros Hs Hr. subst data. zlens_in Hs.
  ift. u32s. gs p (le32 (zlen c + 5)) (c ++ [0] ++ post).
  rewrite readi32_le by rng. cbn [bind].
  ift. ift. destruct so.
  - u32s. do 2 f_equal. zl.
  - u32s. gs p (enc_frame c) post. rewrite Hr by auto. cbn [bind].
    zlens. u32s. do 2 f_equal. lia.
Qed.

Lemma core_lazy rdv so start p t post (data := p ++ enc_body t ++ post) :
  goindex data start = Ret (tag t) -> wf t -> zlen data < 2147483648 ->
  (so = false -> rdv_ok rdv t) ->
  validate_core rdv None so start (zlen p) data = Ret (zlen (enc_body t), None).
Proof.
  intros Ht Hw Hs Hr. unfold validate_core. rewrite Ht. cbn [bind]. subst data.
  destruct t; cbn [tag Z.eqb Pos.eqb orb] in *; cbn [wf] in Hw.
  - (* double *) cbn [enc_body] in *. zlens_in Hs. ift. reflexivity.
  - (* string *) cbn [enc_body] in *. unfold enc_string in *. zlens_in Hs. ift. u32s.
    gs p (le32 (zlen s + 1)) (s ++ [0] ++ post). rewrite readi32_le by rng. cbn [bind].
    ift. destruct so; cbn [bind].
    + u32s. do 2 f_equal. zl.
    + u32s. gi (p ++ le32 (zlen s + 1) ++ s) 0 post. u32s. cbn. do 2 f_equal. zl.
  - (* document *) rewrite enc_body_doc in *. apply container_lazy; auto.
  - (* array *) rewrite enc_body_array in *. apply container_lazy; auto.
  - (* binary *) destruct Hw as [Hsub Hb]. cbn [enc_body] in *. unfold subtype_ok in Hsub.
    destruct (sub =? 2) eqn:E; zlens_in Hs.
    + ift. u32s. gs p (le32 (zlen b + 4)) ([2] ++ le32 (zlen b) ++ b ++ post).
      rewrite readi32_le by rng. cbn [bind].
      gi (p ++ le32 (zlen b + 4)) 2 (le32 (zlen b) ++ b ++ post). ift. ift.
      u32s. do 2 f_equal. zl.
    + ift. u32s. gs p (le32 (zlen b)) ([sub] ++ b ++ post).
      rewrite readi32_le by rng. cbn [bind].
      gi (p ++ le32 (zlen b)) sub (b ++ post). ift. ift.
      u32s. do 2 f_equal. zl.
  - reflexivity.
  - (* oid *) cbn [enc_body] in *. destruct Hw as [_ L]. zlens_in Hs. ift. rewrite L. reflexivity.
  - (* bool *) cbn [enc_body] in *. zlens_in Hs. ift. gi p (if b then 1 else 0) post.
    destruct b; reflexivity.
  - cbn [enc_body] in *. zlens_in Hs. ift. reflexivity.
  - reflexivity.
  - (* regex *) cbn [enc_body] in *. unfold enc_cstring in *. destruct Hw as [[_ Hp] [_ Ho]].
    zlens_in Hs. ift.
    replace (p ++ ((p0 ++ [0]) ++ o ++ [0]) ++ post) with (p ++ (p0 ++ 0 :: o ++ 0 :: post)) by lst.
    rewrite skipn_zlen by reflexivity. rewrite find_nul_cstr by auto.
    replace (p ++ (p0 ++ 0 :: o ++ 0 :: post)) with ((p ++ p0 ++ [0]) ++ (o ++ 0 :: post)) by lst.
    rewrite skipn_zlen by zl. rewrite find_nul_cstr by auto. u32s. do 2 f_equal. zl.
  - (* dbpointer *) cbn [enc_body] in *. unfold enc_string in *. destruct Hw as [_ [_ L]].
    zlens_in Hs. ift. u32s.
    gs p (le32 (zlen ns + 1)) (ns ++ [0] ++ o ++ post). rewrite readi32_le by rng. cbn [bind].
    ift. u32s. do 2 f_equal. zl.
  - (* javascript *) cbn [enc_body] in *. unfold enc_string in *. zlens_in Hs. ift. u32s.
    gs p (le32 (zlen s + 1)) (s ++ [0] ++ post). rewrite readi32_le by rng. cbn [bind].
    ift. destruct so; cbn [bind].
    + u32s. do 2 f_equal. zl.
    + u32s. gi (p ++ le32 (zlen s + 1) ++ s) 0 post. u32s. cbn. do 2 f_equal. zl.
  - (* symbol *) cbn [enc_body] in *. unfold enc_string in *. zlens_in Hs. ift. u32s.
    gs p (le32 (zlen s + 1)) (s ++ [0] ++ post). rewrite readi32_le by rng. cbn [bind].
    ift. destruct so; cbn [bind].
    + u32s. do 2 f_equal. zl.
    + u32s. gi (p ++ le32 (zlen s + 1) ++ s) 0 post. u32s. cbn. do 2 f_equal. zl.
  - (* code *) rewrite enc_body_code in *. set (sc := enc_doc scope) in *.
    assert (5 <= zlen sc) by (subst sc; unfold enc_doc; rewrite zlen_enc_frame; posl; lia).
    rewrite zlen_enc_string in *. zlens_in Hs. ift. u32s.
    gs p (le32 (4 + (zlen code + 5) + zlen sc)) (enc_string code ++ sc ++ post).
    rewrite readi32_le by rng. cbn [bind]. ift. destruct so.
    + u32s. do 2 f_equal. zl.
    + u32s. unfold enc_string in *.
      gs (p ++ le32 (4 + (zlen code + 5) + zlen sc)) (le32 (zlen code + 1)) (code ++ [0] ++ sc ++ post).
      rewrite readi32_le by rng. cbn [bind]. ift. u32s.
      gi (p ++ le32 (4 + (zlen code + 5) + zlen sc) ++ le32 (zlen code + 1) ++ code) 0 (sc ++ post).
      cbn [Z.eqb negb]. u32s.
      gs (p ++ le32 (4 + (zlen code + 5) + zlen sc) ++ le32 (zlen code + 1) ++ code ++ [0]) sc post.
      cbn in Hr. fold sc in Hr. rewrite Hr by auto. cbn [bind]. u32s. do 2 f_equal. zl.
  - cbn [enc_body] in *. zlens_in Hs. ift. reflexivity.
  - cbn [enc_body] in *. zlens_in Hs. ift. reflexivity.
  - cbn [enc_body] in *. zlens_in Hs. ift. reflexivity.
  - cbn [enc_body] in *. zlens_in Hs. ift. reflexivity.
  - reflexivity.
  - reflexivity.
Qed.
