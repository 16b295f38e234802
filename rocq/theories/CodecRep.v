(* The representation relation between Go values and BSON trees, and the agreement of
   Validate and the writers with the specification. *)
Require Import ZArith List Bool Lia ZifyBool ZifyNat.
From Verif Require Import Base BSpec Elements Value Codec CodecRead Itoa.
Import ListNotations.
Open Scope Z_scope.

Definition fits (data : bytes) := zlen data < 2147483648.

(* rep k v t: the Go value v, seen as an element, has key k and holds the tree t.  Its
   data may lie inside a larger slice (pre, post), and containers may be held as bytes
   (d = nil) or as a Document. *)
Fixpoint rep (k : bytes) (v : value) (t : bval) {struct t} : Prop :=
  match v with
  | MkValue st off data d =>
      nul_free k /\ exists pre post, st = zlen pre /\ off = zlen pre + zlen k + 2 /\
      match d with
      | None =>
          data = Some (pre ++ tag t :: enc_cstring k ++ enc_body t ++ post) /\
          fits (pre ++ tag t :: enc_cstring k ++ enc_body t ++ post)
      | Some es =>
          match t with
          | BDoc fs =>
              data = Some (pre ++ 3 :: enc_cstring k ++ post) /\
              fits (pre ++ 3 :: enc_cstring k ++ post) /\
              (fix go (es : document) fs {struct fs} := match es, fs with
                 | [], [] => True
                 | Some v :: es, (k, t) :: fs => rep k v t /\ go es fs
                 | _, _ => False
                 end) es fs
          | BArray vs =>
              data = Some (pre ++ 4 :: enc_cstring k ++ post) /\
              fits (pre ++ 4 :: enc_cstring k ++ post) /\
              (fix go (es : document) vs {struct vs} := match es, vs with
                 | [], [] => True
                 | Some v :: es, t :: vs => (exists k, zlen (enc_elem k t) < 2147483648 /\ rep k v t) /\ go es vs
                 | _, _ => False
                 end) es vs
          | BCode c fs =>
              exists l4, zlen l4 = 4 /\
              data = Some (pre ++ 15 :: enc_cstring k ++ l4 ++ enc_string c ++ post) /\
              fits (pre ++ 15 :: enc_cstring k ++ l4 ++ enc_string c ++ post) /\
              (fix go (es : document) fs {struct fs} := match es, fs with
                 | [], [] => True
                 | Some v :: es, (k, t) :: fs => rep k v t /\ go es fs
                 | _, _ => False
                 end) es fs
          | _ => False
          end
      end
  end.

Fixpoint rep_doc (es : document) (fs : list (bytes * bval)) {struct fs} : Prop :=
  match es, fs with
  | [], [] => True
  | Some v :: es, (k, t) :: fs => rep k v t /\ rep_doc es fs
  | _, _ => False
  end.

Fixpoint rep_arr (es : document) (vs : list bval) {struct vs} : Prop :=
  match es, vs with
  | [], [] => True
  | Some v :: es, t :: vs => (exists k, zlen (enc_elem k t) < 2147483648 /\ rep k v t) /\ rep_arr es vs
  | _, _ => False
  end.

(* Case analysis on rep. *)
Lemma rep_inv k v t : rep k v t ->
  nul_free k /\ exists pre post,
  (let data := pre ++ tag t :: enc_cstring k ++ enc_body t ++ post in
   v = MkValue (zlen pre) (zlen pre + zlen k + 2) (Some data) None /\ fits data)
  \/ (exists fs es, t = BDoc fs /\
      let data := pre ++ 3 :: enc_cstring k ++ post in
      v = MkValue (zlen pre) (zlen pre + zlen k + 2) (Some data) (Some es) /\ fits data /\
      rep_doc es fs)
  \/ (exists vs es, t = BArray vs /\
      let data := pre ++ 4 :: enc_cstring k ++ post in
      v = MkValue (zlen pre) (zlen pre + zlen k + 2) (Some data) (Some es) /\ fits data /\
      rep_arr es vs)
  \/ (exists c fs es l4, t = BCode c fs /\ zlen l4 = 4 /\
      let data := pre ++ 15 :: enc_cstring k ++ l4 ++ enc_string c ++ post in
      v = MkValue (zlen pre) (zlen pre + zlen k + 2) (Some data) (Some es) /\ fits data /\
      rep_doc es fs).
Proof.
  destruct v as [st off data d]. intros H.
  destruct d as [es|].
  - destruct t; cbn [rep] in H; destruct H as (Hk & pre & post & -> & -> & H); try contradiction;
      (split; [exact Hk|]; exists pre, post).
    + right; left. destruct H as (-> & Hf & H). exists fs, es. auto.
    + right; right; left. destruct H as (-> & Hf & H). exists vs, es. auto.
    + right; right; right. destruct H as (l4 & Hl & -> & Hf & H). exists code, scope, es, l4. auto.
  - assert (nul_free k /\ exists pre post, st = zlen pre /\ off = zlen pre + zlen k + 2 /\
      data = Some (pre ++ tag t :: enc_cstring k ++ enc_body t ++ post) /\
      fits (pre ++ tag t :: enc_cstring k ++ enc_body t ++ post)) as H'
      by (destruct t; exact H).
    destruct H' as (Hk & pre & post & -> & -> & -> & Hf). split; [exact Hk|].
    exists pre, post. left. auto.
Qed.

Lemma rep_lazy k pre post t :
  let data := pre ++ tag t :: enc_cstring k ++ enc_body t ++ post in
  nul_free k -> fits data ->
  rep k (MkValue (zlen pre) (zlen pre + zlen k + 2) (Some data) None) t.
Proof.
  intros data Hk Hf.
  assert (nul_free k /\ exists pre0 post0, zlen pre = zlen pre0 /\
      zlen pre + zlen k + 2 = zlen pre0 + zlen k + 2 /\
      Some data = Some (pre0 ++ tag t :: enc_cstring k ++ enc_body t ++ post0) /\
      fits (pre0 ++ tag t :: enc_cstring k ++ enc_body t ++ post0)) as G.
  { split; [exact Hk|]. exists pre, post. auto. }
  destruct t; exact G.
Qed.

Definition vgood (t : bval) : Prop := forall k v so fuel,
  rep k v t -> wf t -> zlen (enc_body t) < 2147483648 -> zlen (enc_body t) < Z.of_nat fuel ->
  val_validate fuel so v = Ret (zlen (enc_body t), None).

Lemma elem_key_validate_rep k v t :
  rep k v t -> elem_validate_key (v_start v) (v_offset v) (v_data v) = Ret (zlen k + 1, None).
Proof.
  intros H. apply rep_inv in H as (Hk & pre & post & H).
  assert (K : forall x rest, fits (pre ++ x :: enc_cstring k ++ rest) ->
    elem_validate_key (zlen pre) (zlen pre + zlen k + 2) (Some (pre ++ x :: enc_cstring k ++ rest))
    = Ret (zlen k + 1, None)).
  { intros x rest Hf. unfold fits in Hf. zlens_in Hf. unfold elem_validate_key. u32s.
    replace (zlen (pre ++ x :: enc_cstring k ++ rest) <? zlen pre + zlen k + 2) with false by zl.
    replace (zlen pre + zlen k + 2 <? zlen pre + 1) with false by zl.
    replace (pre ++ x :: enc_cstring k ++ rest) with ((pre ++ [x]) ++ enc_cstring k ++ rest) by lst.
    rewrite slice_app by zl. unfold enc_cstring. rewrite find_nul_cstr by auto. reflexivity. }
  destruct H as [H|[H|[H|H]]].
  - destruct H as [-> Hf]. apply K, Hf.
  - destruct H as (fs & es & -> & -> & Hf & _). apply K, Hf.
  - destruct H as (fs & es & -> & -> & Hf & _). apply K, Hf.
  - destruct H as (c & fs & es & l4 & -> & _ & -> & Hf & _). apply K, Hf.
Qed.

Lemma elem_validate_rep k v t fuel :
  vgood t -> rep k v t -> wf t -> zlen (enc_elem k t) < 2147483648 ->
  zlen (enc_body t) < Z.of_nat fuel ->
  elem_validate fuel (Some v) = Ret (zlen (enc_elem k t), None).
Proof.
  intros Hg Hr Hw Hs Hf. pose proof (zlen_enc_elem k t) as Hz. rewrite Hz in *.
  unfold elem_validate, elem_validate_with.
  rewrite (elem_key_validate_rep k v t) by auto. cbn [bind].
  rewrite (Hg k) by (auto; posl; lia). cbn [bind]. u32s. do 2 f_equal. lia.
Qed.

Lemma doc_validate_loop fuel fs : forall es acc,
  fields_in vgood fs -> rep_doc es fs -> wf_fields fs -> 0 <= acc ->
  acc + zlen (enc_elems fs) < 2147483648 -> zlen (enc_elems fs) < Z.of_nat fuel ->
  doc_validate_with (elem_validate fuel) acc es = Ret (acc + zlen (enc_elems fs), None).
Proof.
  induction fs as [|[k t] fs IH]; intros [|[v|] es] acc Hg Hr Hw Ha Hs Hf; cbn in Hr; try contradiction.
  - cbn. do 2 f_equal. zl.
  - apply Forall_cons_iff in Hg as [Hg1 Hg]. apply Forall_cons_iff in Hw as [[Hk Ht] Hw].
    destruct Hr as [Hr1 Hr]. cbn [fst snd] in *. rewrite zlen_enc_elems_cons in *.
    cbn [doc_validate_with]. pose proof (zlen_enc_elem k t).
    rewrite (elem_validate_rep k v t) by (auto; posl; lia). cbn [bind].
    fold (doc_validate_with (elem_validate fuel)).
    rewrite u32_id by rng. rewrite IH; auto; try (posl; lia). do 2 f_equal. lia.
Qed.

Lemma arr_validate_loop fuel vs : forall es i acc,
  Forall vgood vs -> rep_arr es vs -> Forall wf vs -> 0 <= acc ->
  acc + zlen (enc_items i vs) < 2147483648 -> zlen (enc_items i vs) < Z.of_nat fuel ->
  arr_validate_with (val_validate fuel false) (Z.of_nat i) acc es
    = Ret (acc + zlen (enc_items i vs), None).
Proof.
  induction vs as [|t vs IH]; intros [|[v|] es] i acc Hg Hr Hw Ha Hs Hf; cbn in Hr; try contradiction.
  - cbn. do 2 f_equal. zl.
  - apply Forall_cons_iff in Hg as [Hg1 Hg]. apply Forall_cons_iff in Hw as [Ht Hw].
    destruct Hr as [(k & Hk1 & Hr1) Hr]. cbn [enc_items] in *. zlens_in Hs. zlens_in Hf.
    rewrite zlen_enc_elem in *.
    cbn [arr_validate_with]. rewrite (Hg1 k) by (auto; posl; lia). cbn [bind].
    fold (arr_validate_with (val_validate fuel false)).
    rewrite itoa_index_key. rewrite u32_id by rng.
    replace (Z.of_nat i + 1) with (Z.of_nat (S i)) by lia.
    rewrite IH; auto; try (posl; lia). do 2 f_equal. zlens. rewrite zlen_enc_elem. lia.
Qed.

Lemma vgood_all t : vgood t.
Proof.
  assert (HL : forall k t pre post so fuel, nul_free k -> wf t ->
    let data := pre ++ tag t :: enc_cstring k ++ enc_body t ++ post in
    fits data -> zlen (enc_body t) < 2147483648 -> zlen (enc_body t) < Z.of_nat fuel ->
    val_validate fuel so (MkValue (zlen pre) (zlen pre + zlen k + 2) (Some data) None)
    = Ret (zlen (enc_body t), None)).
  { intros k t0 pre post so fuel Hk Hw data Hf Hs Hfu. cbn [val_validate].
    assert (E : data = (pre ++ tag t0 :: enc_cstring k) ++ enc_body t0 ++ post)
      by (unfold data; lst).
    rewrite E in *. replace (zlen pre + zlen k + 2) with (zlen (pre ++ tag t0 :: enc_cstring k)) by zl.
    apply core_lazy; auto.
    - apply (goindex_eq _ _ pre (tag t0) (enc_cstring k ++ enc_body t0 ++ post)); [lst|auto].
    - intros _. apply rdv_ok_all; auto. }
  induction t using bval_ind'; intros k v so fuel Hr Hw Hs Hfu;
    destruct (rep_inv _ _ _ Hr) as (Hk & pre & post & C);
    destruct C as [C|[C|[C|C]]];
    try (destruct C as [-> Hf]; apply HL; auto; fail);
    try (destruct C as (? & ? & E & _); discriminate E);
    try (destruct C as (? & ? & ? & ? & E & _); discriminate E).
  - (* document *)
    destruct C as (fs' & es & E & -> & Hf & Hd). inversion E; subst fs'. clear E.
    cbn [val_validate]. unfold validate_core.
    gi pre 3 (enc_cstring k ++ post). cbn [Z.eqb Pos.eqb orb].
    rewrite enc_body_doc in *. apply wf_doc in Hw. unfold enc_doc in *.
    zlens_in Hs. zlens_in Hfu.
    change (elem_validate_with (val_validate fuel false)) with (elem_validate fuel).
    rewrite (doc_validate_loop fuel fs) by (auto; posl; lia). cbn [bind].
    do 2 f_equal. zl.
  - (* array *)
    destruct C as (vs' & es & E & -> & Hf & Hd). inversion E; subst vs'. clear E.
    cbn [val_validate]. unfold validate_core.
    gi pre 4 (enc_cstring k ++ post). cbn [Z.eqb Pos.eqb orb].
    rewrite enc_body_array in *. apply wf_array in Hw. unfold enc_array in *.
    zlens_in Hs. zlens_in Hfu.
    change 0 with (Z.of_nat 0) at 1.
    rewrite (arr_validate_loop fuel vs) by (auto; posl; lia). cbn [bind].
    do 2 f_equal. zl.
  - (* code with scope *)
    destruct C as (c' & fs' & es & l4 & E & Hl4 & -> & Hf & Hd). inversion E; subst c' fs'. clear E.
    cbn [val_validate]. unfold validate_core.
    gi pre 15 (enc_cstring k ++ l4 ++ enc_string c ++ post). cbn [Z.eqb Pos.eqb orb].
    rewrite enc_body_code in *. apply wf_code in Hw as [_ Hw]. unfold enc_doc in *.
    zlens_in Hs. zlens_in Hfu. unfold fits in Hf. zlens_in Hf.
    ift. u32s.
    gs (pre ++ 15 :: enc_cstring k ++ l4) (le32 (zlen c + 1)) (c ++ [0] ++ post).
    rewrite readi32_le by rng. cbn [bind]. ift. u32s.
    change (elem_validate_with (val_validate fuel false)) with (elem_validate fuel).
    destruct so; cbn [bind].
    + rewrite (doc_validate_loop fuel fs) by (auto; posl; lia). cbn [bind].
      u32s. do 2 f_equal. zl.
    + gi (pre ++ 15 :: enc_cstring k ++ l4 ++ le32 (zlen c + 1) ++ c) 0 post.
      cbn [Z.eqb].
      rewrite (doc_validate_loop fuel fs) by (auto; posl; lia). cbn [bind].
      u32s. do 2 f_equal. zl.
Qed.

Lemma fields_vgood fs : fields_in vgood fs.
Proof. apply Forall_forall. intros. apply vgood_all. Qed.

(* Value.Validate, Document.Validate and Array.Validate compute the encoded size. *)
Theorem doc_validate_rep fuel es fs :
  rep_doc es fs -> wf_fields fs -> small fs -> zlen (enc_doc fs) < Z.of_nat fuel ->
  doc_validate fuel es = Ret (zlen (enc_doc fs), None).
Proof.
  intros Hr Hw Hs Hf. unfold doc_validate, small, enc_doc in *. zlens_in Hs. zlens_in Hf.
  rewrite (doc_validate_loop fuel fs) by (auto using fields_vgood; posl; lia).
  do 2 f_equal. zl.
Qed.

Theorem arr_validate_rep fuel es vs :
  rep_arr es vs -> Forall wf vs -> zlen (enc_array vs) < 2147483648 ->
  zlen (enc_array vs) < Z.of_nat fuel ->
  arr_validate fuel es = Ret (zlen (enc_array vs), None).
Proof.
  intros Hr Hw Hs Hf. unfold arr_validate, enc_array in *. zlens_in Hs. zlens_in Hf.
  change 0 with (Z.of_nat 0) at 1.
  rewrite (arr_validate_loop fuel vs); auto; try (posl; lia).
  - do 2 f_equal. zl.
  - apply Forall_forall. intros. apply vgood_all.
Qed.

(* ------------------------------------------------------------------ writing *)

Lemma put_nil {A} (b : list A) pos : put b pos [] = b.
Proof. unfold put. zlens. rewrite Z.add_0_r. cbn. apply firstn_skipn. Qed.

Lemma copy_at_ok b start src :
  0 <= start -> start + zlen src <= zlen b -> copy_at b start src = Ret (put b start src, zlen src).
Proof.
  intros. unfold copy_at. posl. replace (zlen b <? start) with false by lia.
  rewrite firstn_all2; [auto|]. unfold zlen in *. lia.
Qed.

Lemma writes_ok bs start w r : writes bs start w r -> start + zlen bs <= zlen w ->
  r = (put w start bs, zlen bs, None).
Proof. intros [H _]. exact H. Qed.

Definition wgood (t : bval) : Prop := forall k v (key : bool) fuel start b,
  rep k v t -> wf t -> zlen (enc_elem k t) < 2147483648 ->
  zlen (enc_body t) < Z.of_nat fuel -> 0 <= start ->
  let out := if key then enc_elem k t else enc_body t in
  start + zlen out + (if key then 0 else 1) <= zlen b ->
  val_write fuel key v start (zlen (enc_elem k t)) b = Ret (put b start out, zlen out, None).

Lemma write_element_rep t k v (key : bool) fuel start b :
  wgood t -> rep k v t -> wf t -> zlen (enc_elem k t) < 2147483648 ->
  zlen (enc_body t) < Z.of_nat fuel -> 0 <= start ->
  let out := if key then enc_elem k t else enc_body t in
  start + zlen out + (if key then 0 else 1) <= zlen b ->
  write_element fuel key (Some v) start b = Ret (put b start out, zlen out, None).
Proof.
  intros Hg Hr Hw Hs Hf H0 out Hb. unfold write_element, write_element_with.
  rewrite (elem_validate_rep k v t) by (auto using vgood_all). cbn [bind].
  rewrite (Hg k) by auto. reflexivity.
Qed.

Lemma put_snoc {A} (b x y : list A) pos pos' :
  pos' = pos + zlen x -> 0 <= pos -> pos + zlen x + zlen y <= zlen b ->
  put (put b pos x) pos' y = put b pos (x ++ y).
Proof. intros ->. intros. apply put_put; lia. Qed.

Lemma doc_write_loop_rep fuel fs : forall es pos total b,
  fields_in wgood fs -> rep_doc es fs -> wf_fields fs -> 0 <= pos ->
  pos + zlen (enc_elems fs) <= zlen b ->
  zlen (enc_elems fs) < 2147483648 -> zlen (enc_elems fs) < Z.of_nat fuel ->
  doc_write_loop (write_element fuel true) es pos total b
    = Ret (put b pos (enc_elems fs), pos + zlen (enc_elems fs), total + zlen (enc_elems fs), None).
Proof.
  induction fs as [|[k t] fs IH]; intros [|[v|] es] pos total b Hg Hr Hw H0 Hb Hs Hf;
    cbn in Hr; try contradiction.
  - cbn [doc_write_loop enc_elems]. rewrite put_nil. zlens. now rewrite !Z.add_0_r.
  - apply Forall_cons_iff in Hg as [Hg1 Hg]. apply Forall_cons_iff in Hw as [[Hk Ht] Hw].
    destruct Hr as [Hr1 Hr]. cbn [fst snd] in *. rewrite zlen_enc_elems_cons in *.
    cbn [doc_write_loop]. pose proof (zlen_enc_elem k t).
    rewrite (write_element_rep t k v true) by (auto; posl; lia). cbn [bind].
    fold (doc_write_loop (write_element fuel true)).
    rewrite IH; auto; try (rewrite ?put_zlen; posl; lia).
    rewrite put_snoc by (posl; lia). cbn [enc_elems]. zlens.
    f_equal. f_equal. f_equal; [f_equal|]; lia.
Qed.

Lemma i32_enc_ok b start z : 0 <= start -> start + 4 <= zlen b ->
  int32_encode start b z = (put b start (le32 z), 4, None).
Proof. intros. rewrite (writes_ok _ _ _ _ (int32_writes start b z H)) by zl. f_equal. Qed.

Lemma byte_enc_ok b start z : 0 <= start -> start + 1 <= zlen b ->
  byte_encode start b z = (put b start [z], 1, None).
Proof. intros. rewrite (writes_ok _ _ _ _ (byte_writes start b z H)) by zl. f_equal. Qed.

Lemma doc_write_rep_gen fuel fs es start b :
  fields_in wgood fs -> rep_doc es fs -> wf_fields fs -> small fs -> 0 <= start ->
  start + zlen (enc_doc fs) <= zlen b -> zlen (enc_doc fs) < Z.of_nat fuel ->
  doc_write fuel es start (zlen (enc_doc fs)) b
    = Ret (put b start (enc_doc fs), zlen (enc_doc fs), None).
Proof.
  intros Hg Hr Hw Hs H0 Hb Hf. unfold doc_write, doc_write_with, small, enc_doc in *.
  set (c := enc_elems fs) in *. zlens_in Hs. zlens_in Hb. zlens_in Hf.
  replace (zlen b <? start + zlen (enc_frame c)) with false by zl. zlens.
  rewrite i32_id by rng.
  rewrite i32_enc_ok by zl.
  cbn [bind].
  rewrite (doc_write_loop_rep fuel fs); auto; try (rewrite ?put_zlen; fold c; zl).
  cbn [bind]. fold c.
  rewrite put_snoc by zl.
  rewrite byte_enc_ok by (rewrite ?put_zlen; zl).
  rewrite put_snoc by zl.
  unfold enc_frame. rewrite <- app_assoc. do 3 f_equal. lia.
Qed.

Lemma rep_tag k v t : rep k v t ->
  match v_data v with None => Panic PIndex | Some data => goindex data (v_start v) end
  = Ret (tag t).
Proof.
  intros Hr. destruct (rep_inv _ _ _ Hr) as (_ & pre & post & C).
  destruct C as [C|[C|[C|C]]].
  - destruct C as [-> _]. cbn [v_data v_start].
    gi pre (tag t) (enc_cstring k ++ enc_body t ++ post). reflexivity.
  - destruct C as (? & ? & -> & -> & _). cbn [v_data v_start].
    gi pre 3 (enc_cstring k ++ post). reflexivity.
  - destruct C as (? & ? & -> & -> & _). cbn [v_data v_start].
    gi pre 4 (enc_cstring k ++ post). reflexivity.
  - destruct C as (c & ? & ? & l4 & -> & ? & -> & _). cbn [v_data v_start].
    gi pre 15 (enc_cstring k ++ l4 ++ enc_string c ++ post). reflexivity.
Qed.

Lemma arr_write_loop_rep fuel vs : forall es i pos total b,
  Forall wgood vs -> rep_arr es vs -> Forall wf vs -> 0 <= pos ->
  zlen (enc_items i vs) < Z.of_nat fuel ->
  pos + zlen (enc_items i vs) + 1 <= zlen b ->
  arr_write_loop (write_element fuel false) (Z.of_nat i) es pos total b
    = Ret (put b pos (enc_items i vs), pos + zlen (enc_items i vs), total + zlen (enc_items i vs), None).
Proof.
  induction vs as [|t vs IH]; intros [|[v|] es] i pos total b Hg Hr Hw H0 Hk Hb;
    cbn in Hr; try contradiction.
  - cbn [arr_write_loop enc_items]. rewrite put_nil. zlens. now rewrite !Z.add_0_r.
  - apply Forall_cons_iff in Hg as [Hg1 Hg]. apply Forall_cons_iff in Hw as [Ht Hw].
    destruct Hr as [(k & Hk1 & Hr1) Hr]. cbn [enc_items] in *. zlens_in Hb. zlens_in Hk.
    pose proof (zlen_enc_elem (index_key i) t) as Hz. rewrite Hz in *.
    cbn [arr_write_loop].
    rewrite (rep_tag _ _ _ Hr1).
    cbn [bind]. rewrite itoa_index_key.
    replace (zlen b <=? pos) with false by zl.
    rewrite copy_at_ok by (rewrite ?put_zlen; zl). cbn [bind].
    fold (arr_write_loop (write_element fuel false)).
    rewrite (put_snoc b [tag t]) by zl.
    rewrite (write_element_rep t k v false); auto; try (rewrite ?put_zlen; zl).
    cbn [bind]. rewrite put_snoc by zl.
    replace (Z.of_nat i + 1) with (Z.of_nat (S i)) by lia.
    rewrite IH; auto; try (rewrite ?put_zlen; zl).
    rewrite put_snoc by zl.
    replace ((([tag t] ++ index_key i ++ [0]) ++ enc_body t) ++ enc_items (S i) vs)
      with (enc_elem (index_key i) t ++ enc_items (S i) vs) by (unfold enc_elem; lst).
    f_equal. f_equal. f_equal; [f_equal|]; zlens; rewrite Hz; zl.
Qed.

Lemma arr_write_rep_gen fuel vs es start b :
  Forall wgood vs -> rep_arr es vs -> Forall wf vs -> zlen (enc_array vs) < 2147483648 ->
  0 <= start ->
  start + zlen (enc_array vs) <= zlen b -> zlen (enc_array vs) < Z.of_nat fuel ->
  arr_write fuel es start (zlen (enc_array vs)) b
    = Ret (put b start (enc_array vs), zlen (enc_array vs), None).
Proof.
  intros Hg Hr Hw Hs H0 Hb Hf. unfold arr_write, arr_write_with, enc_array in *.
  set (c := enc_items 0 vs) in *. zlens_in Hs. zlens_in Hb. zlens_in Hf.
  replace (zlen b <? start + zlen (enc_frame c)) with false by zl. zlens.
  rewrite i32_id by rng.
  rewrite i32_enc_ok by zl.
  cbn [bind]. change 0 with (Z.of_nat 0) at 1.
  rewrite (arr_write_loop_rep fuel vs); auto; try (rewrite ?put_zlen; fold c; zl).
  cbn [bind]. fold c.
  rewrite put_snoc by zl.
  rewrite byte_enc_ok by (rewrite ?put_zlen; zl).
  rewrite put_snoc by zl.
  unfold enc_frame. rewrite <- app_assoc. do 3 f_equal. lia.
Qed.

Lemma put_mid {A} (p m m' q : list A) pos : pos = zlen p -> zlen m = zlen m' ->
  put (p ++ m ++ q) pos m' = p ++ m' ++ q.
Proof.
  intros -> E. unfold put. rewrite to_nat_zlen, firstn_app, firstn_all, Nat.sub_diag. cbn.
  rewrite app_nil_r. f_equal. f_equal. rewrite app_assoc. rewrite skipn_zlen; [auto|].
  rewrite zlen_app. lia.
Qed.

(* the plain case: the bytes of the element are copied from its data *)
Lemma plain_rep k t pre post (key : bool) start b :
  let data := pre ++ tag t :: enc_cstring k ++ enc_body t ++ post in
  let out := if key then enc_elem k t else enc_body t in
  fits data -> 0 <= start -> start + zlen out + (if key then 0 else 1) <= zlen b ->
  (src <- goslice data (if key then zlen pre else zlen pre + zlen k + 2)
            (u32 (zlen pre + zlen (enc_elem k t))) ;;
   '(b1, n) <- copy_at b start src ;;
   Ret (b1, n, None : option gerr)) = Ret (put b start out, zlen out, None).
Proof.
  intros data out Hf H0 Hb. unfold fits, data in Hf. zlens_in Hf.
  pose proof (zlen_enc_elem k t) as Hz.
  rewrite u32_id by rng.
  replace (goslice data (if key then zlen pre else zlen pre + zlen k + 2)
            (zlen pre + zlen (enc_elem k t))) with (Ret out).
  - cbn [bind]. rewrite copy_at_ok by (auto; destruct key; lia). reflexivity.
  - symmetry. destruct key; unfold out, data.
    + apply (goslice_eq _ _ _ pre (enc_elem k t) post); [unfold enc_elem; lst|auto|auto].
    + apply (goslice_eq _ _ _ (pre ++ tag t :: enc_cstring k) (enc_body t) post); [lst|zl|zl].
Qed.

Lemma val_write_lazy : forall k t pre post (key : bool) fuel start b, nul_free k -> wf t ->
    let data := pre ++ tag t :: enc_cstring k ++ enc_body t ++ post in
    let out := if key then enc_elem k t else enc_body t in
    fits data -> 0 <= start -> start + zlen out + (if key then 0 else 1) <= zlen b ->
    val_write fuel key (MkValue (zlen pre) (zlen pre + zlen k + 2) (Some data) None)
      start (zlen (enc_elem k t)) b = Ret (put b start out, zlen out, None).
Proof.
  intros k t0 pre post key fuel start b Hk Hw data out Hf H0 Hb. cbn [val_write].
    pose proof (zlen_enc_elem k t0) as Hz.
    pose proof (plain_rep k t0 pre post key start b Hf H0 Hb) as HP. fold data in HP. fold out in HP.
    unfold write_core.
    match goal with |- (if ?c then _ else _) = _ => replace c with false end.
    2:{ destruct key; unfold out in Hb; symmetry; apply Z.ltb_ge; posl; lia. }
    replace (zlen pre + zlen k + 2 =? 0) with false by zl.
    unfold data at 1. gi pre (tag t0) (enc_cstring k ++ enc_body t0 ++ post).
    destruct t0; cbn [tag Z.eqb Pos.eqb]; try exact HP.
    (* code with scope: the length field is rewritten with the value it has *)
    unfold data in *. clear data. cbn [tag] in *. apply wf_code in Hw as [Hc Hw'].
    rewrite !enc_body_code in *. unfold enc_doc in *.
    unfold fits in Hf. zlens_in Hf.
    set (sc := enc_elems scope) in *. rewrite u32_id in HP by rng. u32s.
    match goal with |- context [goslice ?d _ _] => set (data := d) in * end.
    gs (pre ++ 15 :: enc_cstring k ++ le32 (4 + zlen (enc_string code) + zlen (enc_frame sc)))
       (le32 (zlen code + 1)) ((code ++ [0]) ++ enc_frame sc ++ post).
    { rewrite readi32_le by rng. cbn [bind]. u32s.
      gs (pre ++ 15 :: enc_cstring k ++ le32 (4 + zlen (enc_string code) + zlen (enc_frame sc)) ++ enc_string code)
         (le32 (zlen sc + 5)) (sc ++ [0] ++ post).
      - rewrite readi32_le by rng. cbn [bind]. i32s.
        rewrite i32_enc_ok by (unfold data; zl).
        unfold data at 1.
        match goal with |- context [put ?x ?p (le32 ?v)] =>
          replace (put x p (le32 v)) with data; [exact HP|] end.
        symmetry.
        match goal with |- put _ _ (le32 ?v) = _ =>
          replace v with (4 + zlen (enc_string code) + zlen (enc_frame sc)) by zl end.
        set (l4 := le32 (4 + zlen (enc_string code) + zlen (enc_frame sc))) in *.
        unfold data.
        replace (pre ++ 15 :: enc_cstring k ++ (l4 ++ enc_string code ++ enc_frame sc) ++ post)
          with ((pre ++ 15 :: enc_cstring k) ++ l4 ++ enc_string code ++ enc_frame sc ++ post) by lst.
        rewrite put_mid; [lst|zl|zl].
      - unfold data. lst. }
    unfold data. lst.
Qed.

Lemma wgood_all t : wgood t.
Proof.
  induction t using bval_ind'; intros k v key fuel start bf Hr Hw Hs Hfu H0 out Hb;
    destruct (rep_inv _ _ _ Hr) as (Hk & pre & post & C);
    destruct C as [C|[C|[C|C]]];
    try (destruct C as [-> Hf]; apply val_write_lazy; auto; fail);
    try (destruct C as (? & ? & E & _); discriminate E);
    try (destruct C as (? & ? & ? & ? & E & _); discriminate E).
  - (* document *)
    destruct C as (fs' & es & E & -> & Hf & Hd). inversion E; subst fs'. clear E.
    pose proof (zlen_enc_elem k (BDoc fs)) as Hz. unfold out in *. clear out.
    rewrite enc_body_doc in *.
    apply wf_doc in Hw. unfold fits in Hf. zlens_in Hf.
    cbn [val_write]. unfold write_core.
    match goal with |- (if ?c then _ else _) = _ => replace c with false end.
    2:{ destruct key; symmetry; apply Z.ltb_ge; posl; lia. }
    replace (zlen pre + zlen k + 2 =? 0) with false by zl.
    gi pre 3 (enc_cstring k ++ post). cbn [Z.eqb Pos.eqb].
    replace (u32 (zlen (enc_elem k (BDoc fs)) - u32 (zlen pre + zlen k + 2 - zlen pre)))
      with (zlen (enc_doc fs)) by (u32s; posl; lia).
    change (fun e => write_element_with (elem_validate fuel) (fun v => val_write fuel true v) e)
      with (write_element fuel true).
    match goal with |- context [doc_write_with (write_element fuel true) es] =>
      change (doc_write_with (write_element fuel true) es) with (doc_write fuel es) end.
    destruct key.
    + gs pre (3 :: enc_cstring k) post. rewrite copy_at_ok by zl. cbn [bind].
      rewrite doc_write_rep_gen; auto; try (unfold small; rewrite ?put_zlen; zl).
      cbn [bind]. rewrite put_snoc by zl.
      replace ((3 :: enc_cstring k) ++ enc_doc fs) with (enc_elem k (BDoc fs))
        by (unfold enc_elem; rewrite enc_body_doc; lst).
      do 3 f_equal. zl.
    + cbn [bind]. rewrite Z.add_0_r.
      rewrite doc_write_rep_gen; auto; try (unfold small; rewrite ?put_zlen; zl).
  - (* array *)
    destruct C as (vs' & es & E & -> & Hf & Hd). inversion E; subst vs'. clear E.
    pose proof (zlen_enc_elem k (BArray vs)) as Hz. unfold out in *. clear out.
    rewrite enc_body_array in *.
    apply wf_array in Hw. unfold fits in Hf. zlens_in Hf.
    cbn [val_write]. unfold write_core.
    match goal with |- (if ?c then _ else _) = _ => replace c with false end.
    2:{ destruct key; symmetry; apply Z.ltb_ge; posl; lia. }
    replace (zlen pre + zlen k + 2 =? 0) with false by zl.
    gi pre 4 (enc_cstring k ++ post). cbn [Z.eqb Pos.eqb].
    replace (u32 (zlen (enc_elem k (BArray vs)) - u32 (zlen pre + zlen k + 2 - zlen pre)))
      with (zlen (enc_array vs)) by (u32s; posl; lia).
    change (fun e => write_element_with (elem_validate fuel) (fun v => val_write fuel false v) e)
      with (write_element fuel false).
    match goal with |- context [arr_write_with (write_element fuel false) es] =>
      change (arr_write_with (write_element fuel false) es) with (arr_write fuel es) end.
    destruct key.
    + gs pre (4 :: enc_cstring k) post. rewrite copy_at_ok by zl. cbn [bind].
      rewrite arr_write_rep_gen; auto; try (rewrite ?put_zlen; zl).
      cbn [bind]. rewrite put_snoc by zl.
      replace ((4 :: enc_cstring k) ++ enc_array vs) with (enc_elem k (BArray vs))
        by (unfold enc_elem; rewrite enc_body_array; lst).
      do 3 f_equal. zl.
    + cbn [bind]. rewrite Z.add_0_r.
      rewrite arr_write_rep_gen; auto; try (rewrite ?put_zlen; zl).
  - (* code with scope *)
    destruct C as (c' & fs' & es & l4 & E & Hl4 & -> & Hf & Hd). inversion E; subst c' fs'. clear E.
    pose proof (zlen_enc_elem k (BCode c fs)) as Hz. unfold out in *. clear out.
    rewrite enc_body_code in *.
    apply wf_code in Hw as [_ Hw]. unfold fits in Hf. zlens_in Hf.
    cbn [val_write]. unfold write_core.
    match goal with |- (if ?c then _ else _) = _ => replace c with false end.
    2:{ destruct key; symmetry; apply Z.ltb_ge; zl. }
    replace (zlen pre + zlen k + 2 =? 0) with false by zl.
    gi pre 15 (enc_cstring k ++ l4 ++ enc_string c ++ post). cbn [Z.eqb Pos.eqb].
    zlens_in Hz. zlens_in Hfu. rewrite Hz in Hs.
    u32s. gs (pre ++ 15 :: enc_cstring k ++ l4) (le32 (zlen c + 1)) (c ++ [0] ++ post).
    rewrite readi32_le by rng. cbn [bind].
    rewrite (doc_validate_rep fuel es fs); auto; try (unfold small; zl). cbn [bind].
    i32s. rewrite i32_enc_ok by zl.
    replace (8 + (zlen c + 1) + zlen (enc_doc fs)) with (4 + zlen (enc_string c) + zlen (enc_doc fs)) by zl.
    set (l4' := le32 (4 + zlen (enc_string c) + zlen (enc_doc fs))) in *.
    assert (Hl4' : zlen l4' = 4) by (unfold l4'; zl).
    replace (pre ++ 15 :: enc_cstring k ++ l4 ++ enc_string c ++ post)
      with ((pre ++ 15 :: enc_cstring k) ++ l4 ++ enc_string c ++ post) by lst.
    rewrite put_mid; [|zl|zl]. u32s.
    match goal with |- context [doc_write_with ?f es] =>
      change (doc_write_with f es) with (doc_write fuel es) end.
    assert (E : enc_body (BCode c fs) = l4' ++ enc_string c ++ enc_doc fs) by apply enc_body_code.
    destruct key.
    + gs pre (15 :: enc_cstring k ++ l4' ++ enc_string c) post.
      rewrite copy_at_ok by zl. cbn [bind].
      rewrite doc_write_rep_gen; auto; try (unfold small; rewrite ?put_zlen; zl).
      cbn [bind]. rewrite put_snoc by zl.
      replace ((15 :: enc_cstring k ++ l4' ++ enc_string c) ++ enc_doc fs)
        with (enc_elem k (BCode c fs)) by (unfold enc_elem; rewrite E; lst).
      do 3 f_equal. zl.
    + gs (pre ++ 15 :: enc_cstring k) (l4' ++ enc_string c) post.
      rewrite copy_at_ok by zl. cbn [bind].
      rewrite doc_write_rep_gen; auto; try (unfold small; rewrite ?put_zlen; zl).
      cbn [bind]. rewrite put_snoc by zl.
      rewrite <- app_assoc. do 3 f_equal. zl.
Qed.

Lemma fields_wgood fs : fields_in wgood fs.
Proof. apply Forall_forall. intros. apply wgood_all. Qed.

(* Writing into any window that is large enough. *)
Theorem doc_write_any_buffer fuel fs es start b :
  rep_doc es fs -> wf_fields fs -> small fs -> 0 <= start ->
  start + zlen (enc_doc fs) <= zlen b -> zlen (enc_doc fs) < Z.of_nat fuel ->
  doc_write fuel es start (zlen (enc_doc fs)) b
    = Ret (put b start (enc_doc fs), zlen (enc_doc fs), None).
Proof. intros. apply doc_write_rep_gen; auto using fields_wgood. Qed.

Theorem arr_write_any_buffer fuel vs es start b :
  rep_arr es vs -> Forall wf vs -> zlen (enc_array vs) < 2147483648 -> 0 <= start ->
  start + zlen (enc_array vs) <= zlen b -> zlen (enc_array vs) < Z.of_nat fuel ->
  arr_write fuel es start (zlen (enc_array vs)) b
    = Ret (put b start (enc_array vs), zlen (enc_array vs), None).
Proof.
  intros. apply arr_write_rep_gen; auto. apply Forall_forall. intros. apply wgood_all.
Qed.

Lemma put_all {A} (b x : list A) : zlen x = zlen b -> put b 0 x = x.
Proof.
  intros E. unfold put. cbn. rewrite Z.add_0_l, E, to_nat_zlen, skipn_all. apply app_nil_r.
Qed.

Lemma zlen_zeros n : 0 <= n -> zlen (zeros n) = n.
Proof. intros. unfold zeros, zlen. rewrite repeat_length. lia. Qed.

Theorem doc_marshal_rep fuel es fs :
  rep_doc es fs -> wf_fields fs -> small fs -> zlen (enc_doc fs) < Z.of_nat fuel ->
  doc_marshal fuel es = Ret (inl (enc_doc fs)).
Proof.
  intros Hr Hw Hs Hf. unfold doc_marshal. rewrite (doc_validate_rep fuel es fs) by auto.
  cbn [bind]. rewrite doc_write_any_buffer; auto; try (rewrite ?zlen_zeros; posl; lia).
  cbn [bind]. rewrite put_all; [auto|]. rewrite zlen_zeros; posl; lia.
Qed.

Theorem arr_marshal_rep fuel es vs :
  rep_arr es vs -> Forall wf vs -> zlen (enc_array vs) < 2147483648 ->
  zlen (enc_array vs) < Z.of_nat fuel ->
  arr_marshal fuel es = Ret (inl (enc_array vs)).
Proof.
  intros Hr Hw Hs Hf. unfold arr_marshal. rewrite (arr_validate_rep fuel es vs) by auto.
  cbn [bind]. rewrite arr_write_any_buffer; auto; try (rewrite ?zlen_zeros; posl; lia).
  cbn [bind]. rewrite put_all; [auto|]. rewrite zlen_zeros; posl; lia.
Qed.

Theorem elem_marshal_rep fuel k v t :
  rep k v t -> wf t -> zlen (enc_elem k t) < 2147483648 -> zlen (enc_body t) < Z.of_nat fuel ->
  elem_marshal fuel (Some v) = Ret (inl (enc_elem k t)).
Proof.
  intros Hr Hw Hs Hf. unfold elem_marshal.
  rewrite (elem_validate_rep k v t) by auto using vgood_all. cbn [bind].
  rewrite (wgood_all t k v true); auto; try (rewrite ?zlen_zeros; posl; lia).
  cbn [bind]. rewrite put_all; [auto|]. rewrite zlen_zeros; posl; lia.
Qed.

Theorem elem_key_rep k v t : rep k v t -> elem_key (Some v) = Ret k.
Proof.
  intros Hr. destruct (rep_inv _ _ _ Hr) as (_ & pre & post & C).
  assert (K : forall x rest d, fits (pre ++ x :: enc_cstring k ++ rest) ->
    elem_key (Some (MkValue (zlen pre) (zlen pre + zlen k + 2)
      (Some (pre ++ x :: enc_cstring k ++ rest)) d)) = Ret k).
  { intros x rest d Hf. unfold fits in Hf. zlens_in Hf. cbn [elem_key].
    replace (zlen pre + zlen k + 2 =? 0) with false by zl. u32s.
    gs (pre ++ [x]) k ([0] ++ rest). reflexivity. }
  destruct C as [C|[C|[C|C]]].
  - destruct C as [-> H]. apply K, H.
  - destruct C as (? & ? & -> & -> & H & _). apply K, H.
  - destruct C as (? & ? & -> & -> & H & _). apply K, H.
  - destruct C as (c & ? & ? & l4 & -> & ? & -> & H & _). apply K, H.
Qed.
