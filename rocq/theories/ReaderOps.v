(* Model of Reader.ElementAt and Reader.RecursiveLookup (reader.go), and the proof that
   they agree with the document in the bytes (C49). *)
Require Import ZArith List Bool Lia ZifyBool ZifyNat.
From Verif Require Import Base BSpec Elements Value Codec CodecRead Itoa CodecRep Api ApiProofs Tree GetterProofs.
Import ListNotations.
Open Scope Z_scope.

(* reader.go:164-171 the callback of ElementAt; the state is (current, elem) *)
Definition at_cb (index : nat) (s : nat * elem) (v : value) : go ((nat * elem) * ctl) :=
  let (current, el) := s in
  if negb (current =? index)%nat then Ret ((S current, el), CNext)
  else Ret ((current, Some v), CDone).

(* reader.go:158-181 Reader.ElementAt *)
Definition rd_element_at (fuel : nat) (r : bytes) (index : nat) : go (value + gerr) :=
  '((_, el), (_, e)) <- rd_elements (at_cb index) fuel r (O, None) ;;
  match e with
  | Some e => Ret (inr e)
  | None => match el with None => Ret (inr EOutOfBounds) | Some v => Ret (inl v) end
  end.

(* reader.go:120-150 the callback of RecursiveLookup; sub is the lookup of key[1:] *)
Definition lookup_cb (sub : bytes -> go (elem * option gerr)) (k : bytes) (last : bool)
    (el : elem) (v : value) : go (elem * ctl) :=
  k' <- elem_key (Some v) ;;
  if bytes_eqb k k' then
    if last then Ret (Some v, CDone) else
    t <- v_type v ;;
    if (t =? 3) || (t =? 4) then
      b <- reader_container_raw t v ;;
      '(e, er) <- sub b ;;
      match er with
      | Some x => Ret (el, CErr x)
      | None => Ret (e, CDone)
      end
    else Ret (el, CErr EInvalidDepth)
  else Ret (el, CNext).

(* reader.go:113-156 Reader.RecursiveLookup *)
Fixpoint rd_lookup (fuel : nat) (keys : list bytes) (r : bytes) : go (elem * option gerr) :=
  match keys with
  | [] => Ret (None, Some EEmptyKey)
  | k :: ks =>
      '(el, (_, e)) <- rd_elements
          (lookup_cb (rd_lookup fuel ks) k (match ks with [] => true | _ => false end)) fuel r None ;;
      match el, e with
      | None, None => Ret (None, Some ENotFound)
      | _, _ => Ret (el, e)
      end
  end.

(* reader.go:225-231 Reader.MarshalBSON *)
Definition rd_marshal (fuel : nat) (r : bytes) : go (bytes + gerr) :=
  '(_, e) <- rd_validate fuel r ;;
  match e with Some x => Ret (inr x) | None => Ret (inl r) end.

(* ------------------------------------------------------------- specification *)

Fixpoint first_key (k : bytes) (fs : list (bytes * bval)) : option bval :=
  match fs with
  | [] => None
  | (k', t) :: r => if bytes_eqb k k' then Some t else first_key k r
  end.

(* The element a path of keys leads to: first match in documents, arrays seen as
   documents with keys "0", "1", ... *)
Fixpoint find_path (keys : list bytes) (fs : list (bytes * bval)) : (bytes * bval) + gerr :=
  match keys with
  | [] => inr EEmptyKey
  | k :: ks =>
      match first_key k fs with
      | None => inr ENotFound
      | Some t =>
          match ks with
          | [] => inl (k, t)
          | _ => match t with
                 | BDoc fs' => find_path ks fs'
                 | BArray vs => find_path ks (index_fields 0 vs)
                 | _ => inr EInvalidDepth
                 end
          end
      end
  end.

(* -------------------------------------------------------------------- proofs *)

(* ElementAt on any bytes: the i-th element the iterator yields. *)
Lemma at_loop fuel : forall r pos ende cur index es e, (cur <= index)%nat ->
  iter_loop fuel r pos ende = Ret (es, e) ->
  exists s p er, rd_loop (at_cb index) fuel r pos ende (cur, None) = Ret (s, (p, er)) /\
  match nth_error es (index - cur) with
  | Some el => snd s = el /\ er = None /\ el <> None
  | None => snd s = None /\ er = e
  end.
Proof.
  induction fuel as [|fuel IH]; intros r pos ende cur index es e Hc H; cbn in H; [discriminate|].
  cbn [rd_loop]. destruct (rd_step r pos ende) as [[p x|p|p v]|?|] eqn:E; cbn in *; try discriminate.
  - injection H as <- <-. do 3 eexists; split; [reflexivity|]. rewrite nth_error_nil || destruct (index - cur)%nat; cbn; auto.
  - injection H as <- <-. do 3 eexists; split; [reflexivity|]. destruct (index - cur)%nat; cbn; auto.
  - destruct (iter_loop fuel r p ende) as [[es' e']|?|] eqn:E'; cbn in H; try discriminate.
    injection H as <- <-. destruct (Nat.eqb_spec cur index); cbn [negb bind].
    + subst. do 3 eexists; split; [reflexivity|]. rewrite Nat.sub_diag. cbn. split; [auto|]. split; [auto|discriminate].
    + destruct (IH r p ende (S cur) index es' e') as (s & p' & er & L & M); auto; [lia|].
      do 3 eexists; split; [exact L|]. replace (index - cur)%nat with (S (index - S cur)) by lia. exact M.
Qed.

Lemma element_at_iter fuel r index es l :
  readi32 (firstn 4 r) = Ret l -> 0 <= l ->
  read_document fuel r = Ret (inl es) ->
  rd_element_at fuel r index = Ret (match nth_error es index with
                                    | Some (Some v) => inl v
                                    | _ => inr EOutOfBounds end).
Proof.
  intros Hl Hp H. unfold read_document, doc_unmarshal in H. unfold rd_element_at, rd_elements.
  destruct (zlen r <? 5) eqn:E5; [discriminate|].
  assert (G : goslice r 0 4 = Ret (firstn 4 r)).
  { unfold goslice. replace ((0 <=? 0) && (0 <=? 4) && (4 <=? zlen r)) with true by lia. reflexivity. }
  rewrite G in *. cbn [bind] in *. rewrite Hl in *. cbn [bind] in *.
  destruct (zlen r <? l) eqn:El; cbn in H; [discriminate|]. replace (false || (l <? 0)) with false by lia.
  destruct (iter_loop fuel r 4 (u32 l)) as [[es' e]|?|] eqn:E; cbn in H; try discriminate.
  destruct e; [discriminate|]. injection H as <-.
  destruct (at_loop fuel r 4 (u32 l) 0 index es' None) as ([c el] & p & er & L & M); auto; [lia|].
  rewrite L. cbn [bind]. rewrite Nat.sub_0_r in M. destruct (nth_error es' index) as [[v|]|].
  - destruct M as (M1 & M2 & _). cbn in M1. subst. reflexivity.
  - destruct M as (_ & _ & M). now contradiction M.
  - destruct M as [M1 M2]. cbn in M1. subst. reflexivity.
Qed.

(* rd_elements on the encoding of a document is the loop over its fields. *)
Lemma rd_elements_doc {S} (f : S -> value -> go (S * ctl)) fuel fs post s :
  zlen (enc_doc fs ++ post) < 2147483648 ->
  rd_elements f fuel (enc_doc fs ++ post) s =
  rd_loop f fuel (le32 (zlen (enc_elems fs) + 5) ++ enc_elems fs ++ 0 :: post)
    (zlen (le32 (zlen (enc_elems fs) + 5))) (zlen (enc_elems fs) + 5) s.
Proof.
  intros Hs. unfold enc_doc in *. zlens_in Hs. unfold rd_elements.
  ift. gs (@nil Z) (le32 (zlen (enc_elems fs) + 5)) (enc_elems fs ++ [0] ++ post).
  rewrite readi32_le by rng. cbn [bind]. ift. u32s.
  f_equal. lst.
Qed.

Lemma lookup_loop sub k last : forall fs fuel pre post,
  wf_fields fs -> let r := pre ++ enc_elems fs ++ 0 :: post in
  zlen r < 2147483648 -> zlen (enc_elems fs) < Z.of_nat fuel ->
  let res := rd_loop (lookup_cb sub k last) fuel r (zlen pre) (zlen pre + zlen (enc_elems fs) + 1) None in
  match first_key k fs with
  | None => exists p, res = Ret (None, (p, None))
  | Some t => exists pre' post', r = pre' ++ enc_elem k t ++ post' /\ In (k, t) fs /\
      exists p2, res = ('(s', c) <- lookup_cb sub k last None (lz pre' k t post') ;;
        match c with
        | CNext => Fuel
        | CDone => Ret (s', (u32 (p2 + 1), None))
        | CErr e => Ret (s', (p2, Some e))
        end)
  end.
Proof.
  induction fs as [|[k' t] fs IH]; intros fuel pre post W r Hs F res.
  - cbn [first_key]. destruct fuel; [cbn [enc_elems] in F; zlens_in F; lia|].
    unfold res, r. cbn [rd_loop enc_elems app]. rewrite rd_step_end by zl. cbn [bind]. eauto.
  - apply Forall_cons_iff in W as [[[_ Wk] Wt] W]. cbn [fst snd] in *.
    rewrite zlen_enc_elems_cons in *. pose proof (zlen_enc_elem k' t). posl.
    destruct fuel as [|fuel]; [lia|].
    assert (Er : r = pre ++ enc_elem k' t ++ (enc_elems fs ++ 0 :: post)).
    { unfold r. cbn [enc_elems]. now rewrite <- app_assoc. }
    assert (Lr : zlen r = zlen pre + zlen (enc_elem k' t) + (zlen (enc_elems fs) + 1 + zlen post)).
    { rewrite Er. zl. }
    assert (Step : rd_step r (zlen pre) (zlen pre + (zlen (enc_elem k' t) + zlen (enc_elems fs)) + 1)
      = Ret (RElem (zlen pre + zlen (enc_elem k' t)) (lz pre k' t (enc_elems fs ++ 0 :: post)))).
    { rewrite Er. rewrite rd_step_elem by (auto; rewrite <- ?Er; posl; lia).
      unfold lz, enc_elem. cbn [app]. rewrite <- !app_assoc. reflexivity. }
    assert (Fit : lzfits pre k' t (enc_elems fs ++ 0 :: post)).
    { unfold lzfits, fits. rewrite Er in Hs. unfold enc_elem in Hs. zlens_in Hs. zl. }
    unfold res. rewrite zlen_enc_elems_cons. cbn [rd_loop]. rewrite Step. cbn [bind].
    cbn [first_key]. pose proof (bytes_eqb_eq k k') as B. destruct (bytes_eqb k k') eqn:Ek.
    + assert (k = k') by (now apply B). subst k'.
      exists pre, (enc_elems fs ++ 0 :: post). split; [exact Er|]. split; [now left|].
      eexists. destruct (lookup_cb _ _ _ _ _) as [[s' [| |e]]|?|] eqn:Ecb; cbn [bind]; try reflexivity.
      exfalso. unfold lookup_cb in Ecb. rewrite lz_key in Ecb by auto. cbn [bind] in Ecb.
      rewrite Ek in Ecb. destruct last; [discriminate|]. rewrite lz_type in Ecb. cbn [bind] in Ecb.
      destruct ((tag t =? 3) || (tag t =? 4)); [|discriminate].
      destruct (reader_container_raw _ _) as [x|?|]; cbn in Ecb; try discriminate.
      destruct (sub x) as [[? [?|]]|?|]; cbn in Ecb; discriminate.
    + assert (Hcb : lookup_cb sub k last None (lz pre k' t (enc_elems fs ++ 0 :: post)) = Ret (None, CNext)).
      { unfold lookup_cb. rewrite lz_key by auto. cbn [bind]. now rewrite Ek. }
      rewrite Hcb. cbn [bind].
      specialize (IH fuel (pre ++ enc_elem k' t) post W).
      replace ((pre ++ enc_elem k' t) ++ enc_elems fs ++ 0 :: post) with r in IH
        by (rewrite Er, <- app_assoc; reflexivity).
      cbv zeta in IH. specialize (IH Hs ltac:(lia)).
      replace (zlen (pre ++ enc_elem k' t)) with (zlen pre + zlen (enc_elem k' t)) in IH by zl.
      replace (zlen pre + zlen (enc_elem k' t) + zlen (enc_elems fs) + 1)
        with (zlen pre + (zlen (enc_elem k' t) + zlen (enc_elems fs)) + 1) in IH by lia.
      destruct (first_key k fs).
      * destruct IH as (pre' & post' & E1 & E2 & E3). exists pre', post'. split; [exact E1|].
        split; [now right|]. exact E3.
      * exact IH.
Qed.

Lemma in_fields_wf k t fs : In (k, t) fs -> wf_fields fs -> wf t /\ zlen (enc_elem k t) <= zlen (enc_elems fs).
Proof.
  intros H W. induction W as [|[k' t'] fs [_ Wt] W IH]; [contradiction|].
  rewrite zlen_enc_elems_cons. posl. cbn in H. destruct H as [H|H].
  - injection H as -> ->. split; [exact Wt|lia].
  - destruct (IH H). split; [auto|lia].
Qed.

Lemma index_fields_doc vs : zlen (enc_array vs) = zlen (enc_doc (index_fields 0 vs)).
Proof. now rewrite enc_array_fields. Qed.

Theorem rd_lookup_wf keys : forall fs fuel post,
  wf_fields fs -> zlen (enc_doc fs ++ post) < 2147483648 -> zlen (enc_doc fs) < Z.of_nat fuel ->
  match find_path keys fs with
  | inl (k, t) => exists v, rd_lookup fuel keys (enc_doc fs ++ post) = Ret (Some v, None) /\ rep k v t
  | inr e => rd_lookup fuel keys (enc_doc fs ++ post) = Ret (None, Some e)
  end.
Proof.
  induction keys as [|k ks IH]; intros fs fuel post W Hs F; cbn [find_path rd_lookup]; [reflexivity|].
  rewrite rd_elements_doc by auto.
  set (last := match ks with [] => true | _ => false end).
  set (L4 := le32 (zlen (enc_elems fs) + 5)).
  assert (Hl : zlen L4 = 4) by reflexivity.
  unfold enc_doc in Hs, F. zlens_in Hs. zlens_in F. posl.
  pose proof (lookup_loop (rd_lookup fuel ks) k last fs fuel L4 post W) as LL. cbv zeta in LL.
  specialize (LL ltac:(zlens; lia) ltac:(lia)).
  replace (zlen (enc_elems fs) + 5) with (zlen L4 + zlen (enc_elems fs) + 1) by lia.
  assert (Hin : forall t, first_key k fs = Some t -> nul_free k).
  { intros t E. clear -E W. induction W as [|[k' t'] fs [[_ Wk] Wt] W IH]; [discriminate|].
    cbn in *. pose proof (bytes_eqb_eq k k') as B. destruct (bytes_eqb k k').
    - assert (k = k') by (now apply B). subst. exact Wk.
    - now apply IH. }
  destruct (first_key k fs) as [t|] eqn:Ef.
  - specialize (Hin t eq_refl).
    destruct LL as (pre & post' & Er & Hi & p2 & LL). rewrite LL. clear LL.
    destruct (in_fields_wf _ _ _ Hi W) as [Wt Lt].
    assert (Fit : lzfits pre k t post').
    { unfold lzfits, fits. replace (pre ++ tag t :: enc_cstring k ++ enc_body t ++ post') with (pre ++ enc_elem k t ++ post').
      - rewrite <- Er. zlens. lia.
      - unfold enc_elem. now rewrite <- app_comm_cons, <- app_assoc. }
    pose proof (zlen_enc_elem k t) as Lk. posl.
    unfold lookup_cb. rewrite lz_key by auto. cbn [bind].
    assert (Ek : bytes_eqb k k = true) by (now apply bytes_eqb_eq). rewrite Ek.
    destruct ks as [|k2 ks]; subst last.
    + cbn [bind]. eexists; split; [reflexivity|]. now apply lz_rep.
    + rewrite lz_type. cbn [bind].
      pose proof (lzfits_len _ _ _ _ Fit) as Lf.
      destruct t as [ | |fs'|vs| | | | | | | | | | | | | | | | | ]; try reflexivity; cbn [tag Z.eqb Pos.eqb orb].
      * assert (RC : reader_container_raw 3 (lz pre k (BDoc fs') post') = Ret (enc_doc fs')).
        { unfold lz. unfold enc_doc.
          replace (pre ++ tag (BDoc fs') :: enc_cstring k ++ enc_body (BDoc fs') ++ post')
            with ((pre ++ 3 :: enc_cstring k) ++ enc_frame (enc_elems fs') ++ post') by (rewrite enc_body_doc; unfold enc_doc; lst).
          replace (zlen pre + zlen k + 2) with (zlen (pre ++ 3 :: enc_cstring k)) by zl.
          apply container_reader.
          - gi pre 3 (enc_cstring k ++ enc_frame (enc_elems fs') ++ post'). reflexivity.
          - rewrite enc_body_doc in Lf. unfold enc_doc in Lf. cbn [tag] in Lf. zlens. zlens_in Lf. lia.
          - zl. }
        rewrite RC. cbn [bind]. apply wf_doc in Wt. rewrite enc_body_doc in *.
        specialize (IH fs' fuel [] Wt ltac:(rewrite app_nil_r; lia) ltac:(lia)). rewrite app_nil_r in IH.
        destruct (find_path (k2 :: ks) fs') as [[k' t']|e].
        -- destruct IH as (v & E & R). rewrite E. cbn [bind]. eauto.
        -- rewrite IH. reflexivity.
      * assert (RC : reader_container_raw 4 (lz pre k (BArray vs) post') = Ret (enc_array vs)).
        { unfold lz. unfold enc_array.
          replace (pre ++ tag (BArray vs) :: enc_cstring k ++ enc_body (BArray vs) ++ post')
            with ((pre ++ 4 :: enc_cstring k) ++ enc_frame (enc_items 0 vs) ++ post') by (rewrite enc_body_array; unfold enc_array; lst).
          replace (zlen pre + zlen k + 2) with (zlen (pre ++ 4 :: enc_cstring k)) by zl.
          apply container_reader.
          - gi pre 4 (enc_cstring k ++ enc_frame (enc_items 0 vs) ++ post'). reflexivity.
          - rewrite enc_body_array in Lf. unfold enc_array in Lf. cbn [tag] in Lf. zlens. zlens_in Lf. lia.
          - zl. }
        rewrite RC. cbn [bind]. apply wf_array in Wt. rewrite enc_body_array in *.
        rewrite enc_array_fields in *.
        specialize (IH (index_fields 0 vs) fuel [] (wf_index_fields vs 0 Wt)
          ltac:(rewrite app_nil_r; lia) ltac:(lia)). rewrite app_nil_r in IH.
        destruct (find_path (k2 :: ks) (index_fields 0 vs)) as [[k' t']|e].
        -- destruct IH as (v & E & R). rewrite E. cbn [bind]. eauto.
        -- rewrite IH. reflexivity.
  - destruct LL as [p LL]. rewrite LL. reflexivity.
Qed.

Lemma rep_doc_nth fs : forall es i, rep_doc es fs ->
  match nth_error fs i with
  | Some (k, t) => exists v, nth_error es i = Some (Some v) /\ rep k v t
  | None => nth_error es i = None
  end.
Proof.
  induction fs as [|[k t] fs IH]; intros [|[v|] es] i R; cbn in R; try contradiction.
  - now destruct i.
  - destruct R as [R1 R2]. destruct i; cbn; eauto. now apply IH.
Qed.

Theorem rd_element_at_wf fs fuel post i :
  wf_fields fs -> zlen (enc_doc fs ++ post) < 2147483648 -> zlen (enc_doc fs) < Z.of_nat fuel ->
  match nth_error fs i with
  | Some (k, t) => exists v, rd_element_at fuel (enc_doc fs ++ post) i = Ret (inl v) /\ rep k v t
  | None => rd_element_at fuel (enc_doc fs ++ post) i = Ret (inr EOutOfBounds)
  end.
Proof.
  intros W Hs F. destruct (read_document_wf fs post fuel) as (es & E & R); auto.
  assert (G := fun H1 H2 => element_at_iter fuel _ i es (zlen (enc_elems fs) + 5) H1 H2 E).
  specialize (G ltac:(unfold enc_doc, enc_frame in *; rewrite <- app_assoc;
    change (firstn 4 (le32 ?x ++ ?y)) with (le32 x); apply readi32_le; zlens_in Hs; rng) ltac:(posl; lia)).
  rewrite G. pose proof (rep_doc_nth fs es i R) as N.
  destruct (nth_error fs i) as [[k t]|].
  - destruct N as (v & -> & Rv). eauto.
  - now rewrite N.
Qed.

Theorem rd_marshal_wf fs fuel :
  wf_fields fs -> small fs -> zlen (enc_doc fs) < Z.of_nat fuel ->
  rd_marshal fuel (enc_doc fs) = Ret (inl (enc_doc fs)).
Proof.
  intros W S F. unfold rd_marshal.
  pose proof (reader_validate_wf fs fuel []) as V. rewrite app_nil_r in V. rewrite V by auto. reflexivity.
Qed.
