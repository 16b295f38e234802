(* Reading well-formed bytes: Reader.Validate and the element iterators. *)
Require Import ZArith List Bool Lia ZifyBool ZifyNat.
From Verif Require Import Base BSpec Elements Value Codec.
Import ListNotations.
Open Scope Z_scope.

(* ---------------------------------------------------------------- reading *)

Lemma zlen_enc_elem k t : zlen (enc_elem k t) = zlen k + 2 + zlen (enc_body t).
Proof. unfold enc_elem. zl. Qed.

Lemma rd_step_elem pre k t rest ende (r := pre ++ enc_elem k t ++ rest) :
  nul_free k -> wf t -> zlen r < 2147483648 ->
  zlen pre + zlen (enc_elem k t) < ende -> ende <= zlen r ->
  rd_step r (zlen pre) ende =
    Ret (RElem (zlen pre + zlen (enc_elem k t))
               (MkValue (zlen pre) (zlen pre + zlen k + 2) (Some r) None)).
Proof.
  intros Hk Hw Hs He1 He2. unfold rd_step. rewrite zlen_enc_elem in *.
  replace (ende <=? zlen pre) with false by zl.
  assert (Er : r = (pre ++ tag t :: enc_cstring k) ++ enc_body t ++ rest).
  { unfold r, enc_elem. lst. }
  assert (Ht : goindex r (zlen pre) = Ret (tag t)).
  { apply (goindex_eq _ _ pre (tag t) (enc_cstring k ++ enc_body t ++ rest)); [|auto].
    unfold r, enc_elem. lst. }
  rewrite Ht. cbn [bind].
  pose proof (tag_range t). replace (tag t =? 0) with false by lia.
  assert (Hz : zlen r = zlen pre + zlen k + 2 + zlen (enc_body t) + zlen rest)
    by (rewrite Er; zl).
  u32s. unfold rd_validate_key.
  replace (slice r (zlen pre + 1) ende) with
    (k ++ 0 :: firstn (Z.to_nat (ende - zlen pre - 2 - zlen k)) (enc_body t ++ rest)).
  2:{ unfold slice. rewrite Er.
      replace ((pre ++ tag t :: enc_cstring k) ++ enc_body t ++ rest)
        with ((pre ++ [tag t]) ++ (k ++ [0]) ++ enc_body t ++ rest) by lst.
      rewrite skipn_zlen by zl.
      replace (Z.to_nat (ende - (zlen pre + 1)))
        with (length (k ++ [0%Z]) + Z.to_nat (ende - zlen pre - 2 - zlen k))%nat.
      2:{ rewrite app_length. cbn [length]. unfold zlen in *. lia. }
      rewrite firstn_app_2. lst. }
  rewrite find_nul_cstr by auto. cbn [bind].
  replace (zlen pre + 1 + (zlen k + 1)) with (zlen (pre ++ tag t :: enc_cstring k)) by zl.
  u32s. rewrite Er. rewrite core_lazy; auto; try (rewrite <- Er; auto; fail).
  2:{ discriminate. }
  cbn [bind]. rewrite <- Er. u32s. f_equal. f_equal; [zl|f_equal; zl].
Qed.

Lemma rd_step_end pre post ende (r := pre ++ 0 :: post) :
  zlen pre < ende -> rd_step r (zlen pre) ende = Ret (RDone (zlen pre)).
Proof.
  intros. unfold rd_step. replace (ende <=? zlen pre) with false by lia.
  gi pre 0 post. reflexivity.
Qed.

Lemma zlen_enc_elems_cons k t fs :
  zlen (enc_elems ((k, t) :: fs)) = zlen (enc_elem k t) + zlen (enc_elems fs).
Proof. cbn [enc_elems]. now zlens. Qed.

Definition fields_in (P : bval -> Prop) (fs : list (bytes * bval)) :=
  Forall (fun kv => P (snd kv)) fs.

(* the callback of Reader.Validate *)
Definition validate_cb k := (fun (_ : unit) (v : value) =>
          t <- v_type v ;;
          if (t =? 3) || (t =? 4) then
            sub <- reader_container_raw t v ;;
            '(_, e) <- rd_validate k sub ;;
            Ret (tt, match e with Some e => CErr e | None => CNext end)
          else Ret (tt, CNext)).

Definition rdv_ok_doc (k : nat) (t : bval) : Prop :=
  match t with
  | BDoc fs => rd_validate k (enc_doc fs) = Ret (zlen (enc_doc fs), None)
  | BArray vs => rd_validate k (enc_array vs) = Ret (zlen (enc_array vs), None)
  | _ => True
  end.

Lemma container_reader tg p c post st d (data := p ++ enc_frame c ++ post) :
  goindex data st = Ret tg -> zlen data < 2147483648 -> 0 < zlen p ->
  reader_container_raw tg (MkValue st (zlen p) (Some data) d) = Ret (enc_frame c).
Proof.
  intros Ht Hs Hp. unfold reader_container_raw. rewrite Ht. cbn [bind].
  replace (zlen p =? 0) with false by lia. rewrite Z.eqb_refl. cbn [negb].
  unfold get_reader_raw. subst data. zlens_in Hs. u32s.
  gs p (le32 (zlen c + 5)) (c ++ [0] ++ post). rewrite readi32_le by rng. cbn [bind].
  u32s. gs p (enc_frame c) post. reflexivity.
Qed.

Lemma validate_cb_ok k pre key t rest (r := pre ++ enc_elem key t ++ rest) :
  wf t -> zlen r < 2147483648 -> rdv_ok_doc k t ->
  validate_cb k tt (MkValue (zlen pre) (zlen pre + zlen key + 2) (Some r) None) = Ret (tt, CNext).
Proof.
  intros Hw Hs Hr. unfold validate_cb, v_type.
  replace (zlen pre + zlen key + 2 =? 0) with false by zl.
  assert (Ht : goindex r (zlen pre) = Ret (tag t)).
  { apply (goindex_eq _ _ pre (tag t) (enc_cstring key ++ enc_body t ++ rest)); [|auto].
    unfold r, enc_elem. lst. }
  assert (Er : r = (pre ++ tag t :: enc_cstring key) ++ enc_body t ++ rest).
  { unfold r, enc_elem. lst. }
  rewrite Ht. cbn [bind].
  replace (zlen pre + zlen key + 2) with (zlen (pre ++ tag t :: enc_cstring key)) by zl.
  destruct t; cbn [tag Z.eqb Pos.eqb orb] in *; try reflexivity.
  - rewrite Er in *. rewrite enc_body_doc in *. cbn [rdv_ok_doc] in Hr. unfold enc_doc in *.
    rewrite container_reader by (auto; zl). cbn [bind].
    rewrite Hr. reflexivity.
  - rewrite Er in *. rewrite enc_body_array in *. cbn [rdv_ok_doc] in Hr. unfold enc_array in *.
    rewrite container_reader by (auto; zl). cbn [bind].
    rewrite Hr. reflexivity.
Qed.

Lemma rd_loop_fields k fs : forall fuel pre post ende,
  wf_fields fs -> fields_in (rdv_ok_doc k) fs ->
  let r := pre ++ enc_elems fs ++ 0 :: post in
  zlen r < 2147483648 -> zlen pre + zlen (enc_elems fs) < ende -> ende <= zlen r ->
  zlen (enc_elems fs) < Z.of_nat fuel ->
  rd_loop (validate_cb k) fuel r (zlen pre) ende tt
    = Ret (tt, (zlen pre + zlen (enc_elems fs) + 1, None)).
Proof.
  induction fs as [|[key t] fs IH]; intros fuel pre post ende Hw Hr r Hs He1 He2 Hf.
  - cbn [enc_elems app] in *. destruct fuel as [|fuel]; [zl|]. cbn [rd_loop].
    subst r. rewrite rd_step_end by zl. cbn [bind]. zlens_in Hs. u32s. do 3 f_equal. zl.
  - destruct fuel as [|fuel]; [zl|]. cbn [rd_loop].
    apply Forall_cons_iff in Hw as [[Hk Ht] Hw]. apply Forall_cons_iff in Hr as [Hr1 Hr].
    cbn [fst snd] in *. rewrite zlen_enc_elems_cons in *.
    assert (Er : r = pre ++ enc_elem key t ++ (enc_elems fs ++ 0 :: post)).
    { unfold r. cbn [enc_elems]. now rewrite <- app_assoc. }
    pose proof (zlen_enc_elem key t).
    rewrite Er in *. rewrite rd_step_elem; auto; try apply Hk; try zl. cbn [bind].
    rewrite validate_cb_ok by auto. cbn [bind].
    replace (pre ++ enc_elem key t ++ enc_elems fs ++ 0 :: post)
      with ((pre ++ enc_elem key t) ++ enc_elems fs ++ 0 :: post) by (now rewrite <- app_assoc).
    replace (zlen pre + zlen (enc_elem key t)) with (zlen (pre ++ enc_elem key t)) by zl.
    rewrite IH; auto; try zl. do 3 f_equal. zl.
Qed.

Lemma rd_validate_doc fs : forall fuel post,
  wf_fields fs -> (forall k, (k < fuel)%nat -> zlen (enc_elems fs) < Z.of_nat k ->
    fields_in (rdv_ok_doc k) fs) ->
  zlen (enc_doc fs ++ post) < 2147483648 ->
  zlen (enc_doc fs) < Z.of_nat fuel ->
  rd_validate fuel (enc_doc fs ++ post) = Ret (zlen (enc_doc fs), None).
Proof.
  intros fuel post Hw Hr Hs Hf. unfold enc_doc in *. zlens_in Hs. zlens_in Hf.
  destruct fuel as [|k]; [posl; lia|]. cbn [rd_validate].
  fold (validate_cb k). unfold rd_elements.
  ift. zlens. gs (@nil Z) (le32 (zlen (enc_elems fs) + 5)) (enc_elems fs ++ [0] ++ post).
  rewrite readi32_le by rng. cbn [bind]. ift. u32s.
  change 4 with (zlen (le32 (zlen (enc_elems fs) + 5))) at 1.
  replace (enc_frame (enc_elems fs) ++ post) with
    (le32 (zlen (enc_elems fs) + 5) ++ enc_elems fs ++ 0 :: post) by lst.
  rewrite rd_loop_fields; auto; try zl; [|apply Hr; zl].
  cbn [bind]. do 2 f_equal. zl.
Qed.

(* every container inside a tree is shorter than the tree *)
Lemma in_field_len k t fs : In (k, t) fs -> zlen (enc_body t) <= zlen (enc_elems fs) - 2.
Proof.
  induction fs as [|[k' t'] fs IH]; intros []; rewrite zlen_enc_elems_cons, zlen_enc_elem; posl.
  - inversion H; subst. lia.
  - apply IH in H. lia.
Qed.

Lemma rdv_ok_doc_all t : forall k,
  wf t -> zlen (enc_body t) < 2147483648 -> zlen (enc_body t) < Z.of_nat k -> rdv_ok_doc k t.
Proof.
  assert (HF : forall fs, fields_in (fun t => forall k,
      wf t -> zlen (enc_body t) < 2147483648 -> zlen (enc_body t) < Z.of_nat k -> rdv_ok_doc k t) fs ->
    forall k, wf_fields fs -> zlen (enc_doc fs) < 2147483648 -> zlen (enc_doc fs) < Z.of_nat k ->
    rd_validate k (enc_doc fs) = Ret (zlen (enc_doc fs), None)).
  { intros fs IH k Hw Hs Hf. rewrite <- (app_nil_r (enc_doc fs)) at 1.
    apply rd_validate_doc; auto.
    - intros k' Hk Hk'. apply Forall_forall. intros [key t'] Hin.
      pose proof (in_field_len _ _ _ Hin).
      unfold fields_in in IH. rewrite Forall_forall in IH. apply (IH _ Hin).
      + unfold wf_fields in Hw. rewrite Forall_forall in Hw. apply (Hw _ Hin).
      + unfold enc_doc in Hs. zlens_in Hs. cbn. posl. lia.
      + cbn. lia.
    - now rewrite app_nil_r. }
  induction t using bval_ind'; intros k; try (intros; exact I).
  - intros Hw Hs Hf. rewrite enc_body_doc in *. apply wf_doc in Hw. apply HF; auto.
  - intros Hw Hs Hf. rewrite enc_body_array in *. apply wf_array in Hw.
    cbn [rdv_ok_doc]. unfold enc_array in *. rewrite enc_items_fields in *.
    apply HF; auto.
    + clear Hs Hf Hw. generalize O. induction H; intros i; constructor; auto.
      apply IHForall.
    + clear Hs Hf H. generalize O. induction Hw; intros i; constructor; auto.
      * split; auto. apply index_key_ok.
      * apply IHHw.
Qed.

(* Reader.Validate accepts every well-formed document *)
Theorem reader_validate_wf fs fuel post :
  wf_fields fs -> zlen (enc_doc fs ++ post) < 2147483648 ->
  zlen (enc_doc fs) < Z.of_nat fuel ->
  rd_validate fuel (enc_doc fs ++ post) = Ret (zlen (enc_doc fs), None).
Proof.
  intros Hw Hs Hf. apply rd_validate_doc; auto.
  intros k Hk Hk'. apply Forall_forall. intros [key t] Hin.
  pose proof (in_field_len _ _ _ Hin). apply rdv_ok_doc_all; cbn.
  - unfold wf_fields in Hw. rewrite Forall_forall in Hw. apply (Hw _ Hin).
  - unfold enc_doc in Hs. zlens_in Hs. posl. lia.
  - lia.
Qed.

Lemma rdv_ok_all t k :
  wf t -> zlen (enc_body t) < 2147483648 -> zlen (enc_body t) < Z.of_nat k ->
  rdv_ok (rd_validate k) t.
Proof.
  intros Hw Hs Hf. destruct t; try exact I.
  - apply (rdv_ok_doc_all (BDoc fs)); auto.
  - apply (rdv_ok_doc_all (BArray vs)); auto.
  - cbn [rdv_ok]. apply wf_code in Hw as [_ Hw]. rewrite enc_body_code in *.
    zlens_in Hs. zlens_in Hf. rewrite <- (app_nil_r (enc_doc scope)) at 1.
    apply reader_validate_wf; auto; [rewrite app_nil_r|]; posl; lia.
Qed.
