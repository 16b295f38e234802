(* Constructors build the element they name, and getters return what it holds. *)
Require Import ZArith List Bool Lia ZifyBool ZifyNat.
From Verif Require Import Base BSpec Elements Value Codec CodecRead Itoa CodecRep Api.
Import ListNotations.
Open Scope Z_scope.

(* The value whose bytes are the encoding of (k, t), inside a larger slice. *)
Definition lz (pre k : bytes) (t : bval) (post : bytes) : value :=
  MkValue (zlen pre) (zlen pre + zlen k + 2)
    (Some (pre ++ tag t :: enc_cstring k ++ enc_body t ++ post)) None.
Definition lzfits (pre k : bytes) (t : bval) (post : bytes) : Prop :=
  fits (pre ++ tag t :: enc_cstring k ++ enc_body t ++ post).

Definition efits (k : bytes) (t : bval) : Prop := zlen (enc_elem k t) < 2147483648.

Lemma lz_rep pre k t post : nul_free k -> lzfits pre k t post -> rep k (lz pre k t post) t.
Proof. intros. now apply rep_lazy. Qed.

Lemma efits_lz k t : efits k t -> lzfits [] k t [].
Proof. unfold efits, lzfits, fits, enc_elem. cbn [app]. now rewrite app_nil_r. Qed.

Lemma lz_nil k t : lz [] k t [] = MkValue 0 (zlen k + 2) (Some (enc_elem k t)) None.
Proof. unfold lz, enc_elem. cbn [app]. rewrite app_nil_r. reflexivity. Qed.

(* -------------------------------------------------------------- constructors *)

Lemma built_exact bs w off d r : writes bs 0 w r -> zlen w = zlen bs ->
  built off d r = Ret (MkValue 0 off (Some bs) d).
Proof. intros W L. rewrite (writes_exact bs w r L W). reflexivity. Qed.

Lemma built_elem key t enc n :
  (forall s w, 0 <= s -> writes (enc_body t) s w (enc s w)) ->
  n = zlen (enc_body t) -> efits key t ->
  built (hdr key) None (element_of (tag t) enc 0 (buf key n) key) = Ret (lz [] key t []).
Proof.
  intros Hw -> Hf. unfold efits in Hf. rewrite zlen_enc_elem in Hf.
  unfold hdr, buf. posl. u32s.
  rewrite (built_exact (tag t :: enc_cstring key ++ enc_body t) (zeros (1 + zlen key + 1 + zlen (enc_body t)))).
  - rewrite lz_nil. unfold enc_elem. do 2 f_equal. lia.
  - apply element_writes; [lia|]. auto.
  - rewrite zlen_zeros by lia. zl.
Qed.

Lemma built_hdr key tg d : zlen key + 2 < 2147483648 ->
  built (hdr key) d (header_only tg key (buf key 0))
  = Ret (MkValue 0 (zlen key + 2) (Some (tg :: enc_cstring key)) d).
Proof.
  intros Hf. unfold hdr, buf. posl. u32s. unfold header_only.
  rewrite (built_exact (tg :: enc_cstring key) (zeros (1 + zlen key + 1 + 0))).
  - do 2 f_equal; lia.
  - apply (writes_seq [tg]); [lia|apply byte_writes; lia|]. intros. apply cstring_writes. lia.
  - rewrite zlen_zeros by lia. zl.
Qed.

Lemma built_hdr_lz key t : enc_body t = [] -> efits key t ->
  built (hdr key) None (header_only (tag t) key (buf key 0)) = Ret (lz [] key t []).
Proof.
  intros E Hf. unfold efits in Hf. rewrite zlen_enc_elem in Hf. posl.
  rewrite built_hdr by lia. rewrite lz_nil. unfold enc_elem. now rewrite E, app_nil_r.
Qed.

Ltac ctor t := intros; apply (built_elem _ t); [intros|cbn [enc_body]; zl|assumption].

Lemma ec_double_lz k b : efits k (BDouble b) -> ec_double k b = Ret (lz [] k (BDouble b) []).
Proof. ctor (BDouble b). now apply double_writes. Qed.
Lemma ec_string_lz k s : efits k (BString s) -> ec_string k s = Ret (lz [] k (BString s) []).
Proof. ctor (BString s). now apply string_writes. Qed.
Lemma ec_binary_subtype_lz k b bt : efits k (BBinary bt b) ->
  ec_binary_subtype k b bt = Ret (lz [] k (BBinary bt b) []).
Proof.
  intros. apply (built_elem _ (BBinary bt b)); auto.
  - intros. now apply binary_writes.
  - cbn [enc_body]. destruct (bt =? 2); zl.
Qed.
Lemma ec_undefined_lz k : efits k BUndefined -> ec_undefined k = Ret (lz [] k BUndefined []).
Proof. now apply built_hdr_lz. Qed.
Lemma ec_objectid_lz k o : zlen o = 12 -> efits k (BOid o) -> ec_objectid k o = Ret (lz [] k (BOid o) []).
Proof. ctor (BOid o). now apply slice_writes. Qed.
Lemma ec_boolean_lz k b : efits k (BBool b) -> ec_boolean k b = Ret (lz [] k (BBool b) []).
Proof. ctor (BBool b). now apply boolean_writes. Qed.
Lemma ec_datetime_lz k i : efits k (BDateTime i) -> ec_datetime k i = Ret (lz [] k (BDateTime i) []).
Proof. ctor (BDateTime i). now apply int64_writes. Qed.
Lemma ec_null_lz k : efits k BNull -> ec_null k = Ret (lz [] k BNull []).
Proof. now apply built_hdr_lz. Qed.
Lemma ec_regex_lz k p o : efits k (BRegex p o) -> ec_regex k p o = Ret (lz [] k (BRegex p o) []).
Proof. ctor (BRegex p o). now apply regex_writes. Qed.
Lemma ec_dbpointer_lz k ns o : zlen o = 12 -> efits k (BDBPointer ns o) ->
  ec_dbpointer k ns o = Ret (lz [] k (BDBPointer ns o) []).
Proof. ctor (BDBPointer ns o). now apply dbpointer_writes. Qed.
Lemma ec_javascript_lz k s : efits k (BJavaScript s) -> ec_javascript k s = Ret (lz [] k (BJavaScript s) []).
Proof. ctor (BJavaScript s). now apply string_writes. Qed.
Lemma ec_symbol_lz k s : efits k (BSymbol s) -> ec_symbol k s = Ret (lz [] k (BSymbol s) []).
Proof. ctor (BSymbol s). now apply string_writes. Qed.
Lemma ec_int32_lz k i : efits k (BInt32 i) -> ec_int32 k i = Ret (lz [] k (BInt32 i) []).
Proof. ctor (BInt32 i). now apply int32_writes. Qed.
Lemma ec_timestamp_lz k t i : efits k (BTimestamp t i) ->
  ec_timestamp k t i = Ret (lz [] k (BTimestamp t i) []).
Proof. ctor (BTimestamp t i). now apply timestamp_writes. Qed.
Lemma ec_int64_lz k i : efits k (BInt64 i) -> ec_int64 k i = Ret (lz [] k (BInt64 i) []).
Proof. ctor (BInt64 i). now apply int64_writes. Qed.
Lemma ec_decimal_lz k h l : efits k (BDecimal h l) -> ec_decimal k h l = Ret (lz [] k (BDecimal h l) []).
Proof. ctor (BDecimal h l). now apply decimal_writes. Qed.
Lemma ec_minkey_lz k : efits k BMinKey -> ec_minkey k = Ret (lz [] k BMinKey []).
Proof. now apply built_hdr_lz. Qed.
Lemma ec_maxkey_lz k : efits k BMaxKey -> ec_maxkey k = Ret (lz [] k BMaxKey []).
Proof. now apply built_hdr_lz. Qed.

Lemma ec_subdocument_reader_lz k fs : efits k (BDoc fs) ->
  ec_subdocument_reader k (enc_doc fs) = Ret (lz [] k (BDoc fs) []).
Proof.
  intros Hf. pose proof Hf as Hf'. unfold efits in Hf. rewrite zlen_enc_elem, enc_body_doc in Hf.
  unfold ec_subdocument_reader, buf, hdr. posl. u32s.
  assert (W : writes (enc_elem k (BDoc fs)) 0 (zeros (1 + zlen k + 1 + zlen (enc_doc fs)))
    (andthen (header_only 3 k (zeros (1 + zlen k + 1 + zlen (enc_doc fs))))
       (fun w _ => (put w (1 + zlen k + 1) (enc_doc fs), zlen (enc_doc fs), None)))).
  { unfold enc_elem. rewrite enc_body_doc. unfold header_only. cbn [tag].
    change (3 :: enc_cstring k ++ enc_doc fs) with (([3] ++ enc_cstring k) ++ enc_doc fs).
    apply writes_seq; [lia| |].
    - apply (writes_seq [3]); [lia|apply byte_writes; lia|]. intros. apply cstring_writes. lia.
    - intros w L. zlens. rewrite zlen_zeros in L by lia.
      replace (0 + (1 + 0 + (zlen k + 1))) with (1 + zlen k + 1) by lia.
      apply put_writes; [lia|]. lia. }
  apply writes_exact in W.
  2:{ rewrite zlen_zeros, zlen_enc_elem, enc_body_doc by lia. lia. }
  destruct (header_only 3 k _) as [[w n] [e|]] eqn:E; cbn [andthen] in *.
  - discriminate.
  - injection W as W1 W2. cbn [built]. rewrite W1, lz_nil. do 2 f_equal. lia.
Qed.

(* The containers: the bytes hold the header, the children are kept as a Document. *)
Lemma ec_subdocument_rep k es fs : nul_free k -> zlen k + 2 < 2147483648 -> rep_doc es fs ->
  exists v, ec_subdocument k es = Ret v /\ rep k v (BDoc fs) /\ v_d v = Some es.
Proof.
  intros Hk Hl Hr. eexists. split; [apply built_hdr; auto|].
  split; [|reflexivity]. cbn [rep]. split; [auto|]. exists [], []. cbn [app].
  split; [reflexivity|]. split; [zl|]. rewrite app_nil_r.
  split; [reflexivity|]. split; [unfold fits; zl|]. exact Hr.
Qed.

Lemma ec_array_rep k es vs : nul_free k -> zlen k + 2 < 2147483648 -> rep_arr es vs ->
  exists v, ec_array k es = Ret v /\ rep k v (BArray vs) /\ v_d v = Some es.
Proof.
  intros Hk Hl Hr. eexists. split; [apply built_hdr; auto|].
  split; [|reflexivity]. cbn [rep]. split; [auto|]. exists [], []. cbn [app].
  split; [reflexivity|]. split; [zl|]. rewrite app_nil_r.
  split; [reflexivity|]. split; [unfold fits; zl|]. exact Hr.
Qed.

Lemma ec_code_rep k c es fs : nul_free k -> zlen k + zlen c + 11 < 2147483648 -> rep_doc es fs ->
  exists v, ec_code_with_scope k c es = Ret v /\ rep k v (BCode c fs) /\ v_d v = Some es.
Proof.
  intros Hk Hl Hr. unfold ec_code_with_scope, buf, hdr. posl. u32s. i32s.
  set (l4 := le32 (1 + zlen k + 1 + 4 + 4 + zlen c + 1)).
  rewrite (built_exact (15 :: enc_cstring k ++ l4 ++ enc_string c) (zeros (1 + zlen k + 1 + (4 + 4 + zlen c + 1)))).
  3:{ unfold l4. rewrite zlen_zeros by lia. zl. }
  2:{ apply (writes_seq [15]); [lia|apply byte_writes; lia|]. intros.
      apply writes_seq; [zl|apply cstring_writes; zl|]. intros. zlens.
      replace (0 + (1 + 0) + (zlen k + 1)) with (1 + zlen k + 1) by lia.
      apply writes_seq; [zl|apply int32_writes; zl|]. intros. unfold l4; zlens.
      apply string_writes; zl. }
  eexists. split; [reflexivity|]. split; [|reflexivity].
  cbn [rep]. split; [auto|]. exists [], []. cbn [app].
  split; [reflexivity|]. split; [zl|]. exists l4.
  split; [reflexivity|]. rewrite app_nil_r.
  split; [reflexivity|]. split; [unfold fits, l4; zl|]. exact Hr.
Qed.

(* ------------------------------------------------------------------ getters *)

Lemma lz_type pre k t post : v_type (lz pre k t post) = Ret (tag t).
Proof.
  cbn. replace (zlen pre + zlen k + 2 =? 0) with false by zl.
  now apply goindex_app.
Qed.

Lemma lz_key pre k t post : lzfits pre k t post -> elem_key (Some (lz pre k t post)) = Ret k.
Proof.
  intros Hf. unfold lzfits, fits in Hf. zlens_in Hf. cbn [elem_key lz].
  replace (zlen pre + zlen k + 2 =? 0) with false by zl. u32s.
  gs (pre ++ [tag t]) k ([0] ++ enc_body t ++ post). reflexivity.
Qed.

Lemma getter_lz {A} tg (f : Z -> bytes -> option document -> go A) pre k t post :
  tag t = tg ->
  getter tg f (Some (lz pre k t post)) =
  f (zlen (pre ++ tag t :: enc_cstring k)) ((pre ++ tag t :: enc_cstring k) ++ enc_body t ++ post) None.
Proof.
  intros <-. cbn [getter lz].
  replace (zlen pre + zlen k + 2 =? 0) with false by zl.
  rewrite (goindex_app pre (tag t)) by reflexivity. cbn [bind].
  rewrite Z.eqb_refl. cbn [negb]. f_equal; [zl|lst].
Qed.

Lemma getter_ok_lz {A} tg (get : option value -> go A) pre k t post x :
  tag t = tg -> get (Some (lz pre k t post)) = Ret x ->
  getter_ok tg get (Some (lz pre k t post)) = Ret (Some x).
Proof.
  intros <- Hg. cbn [getter_ok lz]. 
  replace (zlen pre + zlen k + 2 =? 0) with false by zl.
  rewrite (goindex_app pre (tag t)) by reflexivity. cbn [bind].
  rewrite Z.eqb_refl. cbn [negb]. fold (lz pre k t post). now rewrite Hg.
Qed.

Lemma lzfits_len pre k t post : lzfits pre k t post ->
  zlen (pre ++ tag t :: enc_cstring k) + zlen (enc_body t) + zlen post < 2147483648.
Proof. unfold lzfits, fits. intros H. zlens_in H. zl. Qed.

Ltac glz := intros; match goal with H : lzfits ?pre ?k ?t ?post |- _ =>
   apply lzfits_len in H; rewrite getter_lz by reflexivity;
   let p := fresh "p" in set (p := pre ++ tag t :: enc_cstring k) in *; clearbody p;
   cbn [enc_body] in * end.

Lemma get_u64_at p x post : is_u64 x -> zlen p + 8 + zlen post < 2147483648 ->
  get_u64 (zlen p) (p ++ le64 x ++ post) = Ret x.
Proof. intros. unfold get_u64. posl. u32s. gs p (le64 x) post. now apply rdu64_le64'. Qed.

Lemma get_u64_i64_at p x post : is_i64 x -> zlen p + 8 + zlen post < 2147483648 ->
  (u <- get_u64 (zlen p) (p ++ le64 x ++ post) ;; Ret (i64 u)) = Ret x.
Proof.
  intros. rewrite <- (le64_u64 x). rewrite get_u64_at by (auto using u64_range).
  cbn [bind]. now rewrite i64_u64.
Qed.

Lemma get_str_at p s post : zlen p + zlen s + 5 + zlen post < 2147483648 ->
  get_str (zlen p) (p ++ enc_string s ++ post) = Ret s.
Proof.
  intros. unfold get_str, enc_string. posl. u32s.
  gs p (le32 (zlen s + 1)) (s ++ [0] ++ post). rewrite readi32_le by rng. cbn [bind]. i32s.
  gs (p ++ le32 (zlen s + 1)) s ([0] ++ post). reflexivity.
Qed.

Lemma v_double_lz pre k b post : is_u64 b -> lzfits pre k (BDouble b) post ->
  v_double (Some (lz pre k (BDouble b) post)) = Ret b.
Proof. unfold v_double. glz. now apply get_u64_at. Qed.

Lemma v_string_lz pre k s post : lzfits pre k (BString s) post ->
  v_string (Some (lz pre k (BString s) post)) = Ret s.
Proof. unfold v_string. glz. apply get_str_at. zl. Qed.
Lemma v_javascript_lz pre k s post : lzfits pre k (BJavaScript s) post ->
  v_javascript (Some (lz pre k (BJavaScript s) post)) = Ret s.
Proof. unfold v_javascript. glz. apply get_str_at. zl. Qed.
Lemma v_symbol_lz pre k s post : lzfits pre k (BSymbol s) post ->
  v_symbol (Some (lz pre k (BSymbol s) post)) = Ret s.
Proof. unfold v_symbol. glz. apply get_str_at. zl. Qed.

Lemma v_binary_lz pre k s b post : lzfits pre k (BBinary s b) post ->
  v_binary (Some (lz pre k (BBinary s b) post)) = Ret (s, b).
Proof.
  unfold v_binary. glz. posl. destruct (s =? 2) eqn:E.
  - assert (s = 2) by lia. subst s. zlens_in H. u32s.
    gs p (le32 (zlen b + 4)) ([2] ++ le32 (zlen b) ++ b ++ post).
    rewrite readi32_le by rng. cbn [bind].
    gi (p ++ le32 (zlen b + 4)) 2 (le32 (zlen b) ++ b ++ post).
    cbn [Z.eqb Pos.eqb].
    gs (p ++ le32 (zlen b + 4) ++ [2]) (le32 (zlen b)) (b ++ post).
    rewrite readi32_le by rng. cbn [bind].
    replace (zlen b <? 0) with false by zl. u32s. i32s.
    gs (p ++ le32 (zlen b + 4) ++ [2] ++ le32 (zlen b)) b post. reflexivity.
  - zlens_in H. u32s. gs p (le32 (zlen b)) ([s] ++ b ++ post).
    rewrite readi32_le by rng. cbn [bind].
    gi (p ++ le32 (zlen b)) s (b ++ post). rewrite E. cbn [bind].
    replace (zlen b <? 0) with false by zl. u32s. i32s.
    gs (p ++ le32 (zlen b) ++ [s]) b post. reflexivity.
Qed.

Lemma v_objectid_lz pre k o post : zlen o = 12 -> lzfits pre k (BOid o) post ->
  v_objectid (Some (lz pre k (BOid o) post)) = Ret o.
Proof. unfold v_objectid. glz. posl. u32s. now gs p o post. Qed.

Lemma v_boolean_lz pre k b post : lzfits pre k (BBool b) post ->
  v_boolean (Some (lz pre k (BBool b) post)) = Ret b.
Proof. unfold v_boolean. glz. gi p (if b then 1 else 0) post. now destruct b. Qed.

Lemma v_datetime_lz pre k i post : is_i64 i -> lzfits pre k (BDateTime i) post ->
  v_datetime (Some (lz pre k (BDateTime i) post)) = Ret i.
Proof. unfold v_datetime. glz. now apply get_u64_i64_at. Qed.

Lemma v_int64_lz pre k i post : is_i64 i -> lzfits pre k (BInt64 i) post ->
  v_int64 (Some (lz pre k (BInt64 i) post)) = Ret i.
Proof. unfold v_int64. glz. now apply get_u64_i64_at. Qed.

Lemma v_int32_lz pre k i post : is_i32 i -> lzfits pre k (BInt32 i) post ->
  v_int32 (Some (lz pre k (BInt32 i) post)) = Ret i.
Proof. unfold v_int32. glz. zlens_in H0. u32s. gs p (le32 i) post. now apply readi32_le. Qed.

Lemma v_timestamp_lz pre k t i post : is_u32 t -> is_u32 i -> lzfits pre k (BTimestamp t i) post ->
  v_timestamp (Some (lz pre k (BTimestamp t i) post)) = Ret (t, i).
Proof.
  unfold v_timestamp. glz. zlens_in H1. u32s.
  gs (p ++ le32 i) (le32 t) post. rewrite rdu32_le32' by auto. cbn [bind].
  gs p (le32 i) (le32 t ++ post). rewrite rdu32_le32' by auto. reflexivity.
Qed.

Lemma v_decimal_lz pre k h l post : is_u64 h -> is_u64 l -> lzfits pre k (BDecimal h l) post ->
  v_decimal (Some (lz pre k (BDecimal h l) post)) = Ret (l, h).
Proof.
  unfold v_decimal. glz. zlens_in H1. u32s.
  gs p (le64 l) (le64 h ++ post). rewrite rdu64_le64' by auto. cbn [bind].
  gs (p ++ le64 l) (le64 h) post. rewrite rdu64_le64' by auto. reflexivity.
Qed.

Lemma v_regex_lz pre k r o post : nul_free r -> nul_free o -> lzfits pre k (BRegex r o) post ->
  v_regex (Some (lz pre k (BRegex r o) post)) = Ret (r, o).
Proof.
  unfold v_regex. glz. rewrite skipn_zlen by reflexivity. unfold enc_cstring.
  replace (((r ++ [0]) ++ o ++ [0]) ++ post) with (r ++ 0 :: o ++ 0 :: post) by lst.
  rewrite find_nul_cstr by auto.
  replace (r ++ 0 :: o ++ 0 :: post) with ((r ++ [0]) ++ (o ++ 0 :: post)) by lst.
  rewrite skipn_zlen by zl. rewrite find_nul_cstr by auto.
  do 2 f_equal.
  - replace ((r ++ [0]) ++ o ++ 0 :: post) with ([] ++ r ++ ([0] ++ o ++ 0 :: post)) by lst.
    now apply slice_app.
  - apply slice_app; zl.
Qed.

Lemma v_dbpointer_lz pre k ns o post : zlen o = 12 -> lzfits pre k (BDBPointer ns o) post ->
  v_dbpointer (Some (lz pre k (BDBPointer ns o) post)) = Ret (ns, o).
Proof.
  unfold v_dbpointer. glz. unfold enc_string in *. zlens_in H0. posl. u32s.
  gs p (le32 (zlen ns + 1)) (ns ++ [0] ++ o ++ post). rewrite readi32_le by rng. cbn [bind].
  u32s. i32s.
  gs (p ++ le32 (zlen ns + 1) ++ ns ++ [0]) o post.
  gs (p ++ le32 (zlen ns + 1)) ns ([0] ++ o ++ post). reflexivity.
Qed.

Lemma get_reader_raw_at p c post : zlen p + zlen c + 5 + zlen post < 2147483648 ->
  get_reader_raw (zlen p) (p ++ enc_frame c ++ post) = Ret (enc_frame c).
Proof.
  intros. unfold get_reader_raw. posl. u32s.
  gs p (le32 (zlen c + 5)) (c ++ [0] ++ post). rewrite readi32_le by rng. cbn [bind]. u32s.
  gs p (enc_frame c) post. reflexivity.
Qed.

(* --------------------------------------------------------- reading documents *)

Lemma iter_loop_fields fs : forall fuel pre post ende,
  wf_fields fs -> zlen (pre ++ enc_elems fs ++ 0 :: post) < 2147483648 ->
  ende = zlen pre + zlen (enc_elems fs) + 1 ->
  zlen (enc_elems fs) < Z.of_nat fuel ->
  exists es, iter_loop fuel (pre ++ enc_elems fs ++ 0 :: post) (zlen pre) ende = Ret (es, None)
    /\ rep_doc es fs.
Proof.
  induction fs as [|[k t] fs IH]; intros fuel pre post ende W Hs He Hf.
  - destruct fuel; [cbn [enc_elems] in Hf; zlens_in Hf; lia|]. exists []. cbn [iter_loop enc_elems app].
    rewrite rd_step_end by (cbn [enc_elems] in He; zlens_in He; lia). cbn. auto.
  - apply Forall_cons_iff in W as [[[Wb Wk] Wt] W]. cbn in Wb, Wk, Wt.
    rewrite zlen_enc_elems_cons in *. pose proof (zlen_enc_elem k t). posl.
    destruct fuel; [lia|].
    cbn [enc_elems iter_loop] in *. rewrite <- app_assoc in *.
    rewrite rd_step_elem; auto; [|lia|zl].
    cbn [bind].
    destruct (IH fuel (pre ++ enc_elem k t) post ende) as (es & E & R); auto; try lia.
    + rewrite <- app_assoc. exact Hs.
    + zlens. lia.
    + rewrite <- app_assoc in E. rewrite zlen_app in E. rewrite E. cbn [bind].
      eexists; split; [reflexivity|]. cbn [rep_doc]. split; [|exact R].
      unfold enc_elem. replace (pre ++ (tag t :: enc_cstring k ++ enc_body t) ++ enc_elems fs ++ 0 :: post)
        with (pre ++ tag t :: enc_cstring k ++ enc_body t ++ (enc_elems fs ++ 0 :: post)) by lst.
      apply rep_lazy; auto. unfold fits. unfold enc_elem in Hs. zlens_in Hs. zl.
Qed.

(* ReadDocument on the encoding (with any bytes after it) rebuilds the tree. *)
Lemma read_document_wf fs post fuel :
  wf_fields fs -> zlen (enc_doc fs ++ post) < 2147483648 -> zlen (enc_doc fs) < Z.of_nat fuel ->
  exists es, read_document fuel (enc_doc fs ++ post) = Ret (inl es) /\ rep_doc es fs.
Proof.
  intros W Hs Hf. unfold enc_doc in *. pose proof Hs as Hs'. zlens_in Hs. zlens_in Hf. posl.
  destruct (iter_loop_fields fs fuel (le32 (zlen (enc_elems fs) + 5)) post (zlen (enc_elems fs) + 5))
    as (es & E & R); auto; try (zlens; lia).
  exists es. split; [|exact R]. unfold read_document, doc_unmarshal.
  replace (zlen (enc_frame (enc_elems fs) ++ post) <? 5) with false by zl.
  gs (@nil Z) (le32 (zlen (enc_elems fs) + 5)) ((enc_elems fs ++ [0]) ++ post).
  rewrite readi32_le by rng. cbn [bind].
  replace (zlen (enc_frame (enc_elems fs) ++ post) <? zlen (enc_elems fs) + 5) with false by zl.
  u32s. unfold enc_frame. zlens_in E.
  replace ((le32 (zlen (enc_elems fs) + 5) ++ enc_elems fs ++ [0]) ++ post)
    with (le32 (zlen (enc_elems fs) + 5) ++ enc_elems fs ++ 0 :: post) by lst.
  rewrite E. reflexivity.
Qed.

Lemma rep_doc_array_idx vs : forall i es, rep_doc es (index_fields i vs) ->
  zlen (enc_items i vs) < 2147483648 -> rep_arr es vs.
Proof.
  induction vs as [|t vs IH]; intros i [|[v|] es] H L; cbn in *; auto.
  destruct H as [H1 H2]. zlens_in L. posl.
  split; [|eapply IH; eauto; lia]. eexists; split; [|exact H1]. lia.
Qed.

Lemma wf_index_fields vs : forall i, Forall wf vs -> wf_fields (index_fields i vs).
Proof.
  induction vs as [|t vs IH]; intros i H; [constructor|].
  inversion_clear H. constructor; [split; [apply index_key_ok|auto]|]. now apply IH.
Qed.

Lemma enc_array_fields vs : enc_array vs = enc_doc (index_fields 0 vs).
Proof. unfold enc_array, enc_doc. now rewrite enc_items_fields. Qed.

Lemma read_array_wf vs fuel :
  Forall wf vs -> zlen (enc_array vs) < 2147483648 -> zlen (enc_array vs) < Z.of_nat fuel ->
  exists es, read_document fuel (enc_array vs) = Ret (inl es)
    /\ rep_doc es (index_fields 0 vs) /\ rep_arr es vs.
Proof.
  intros W Hs Hf. destruct (read_document_wf (index_fields 0 vs) [] fuel) as (es & E & R).
  - now apply wf_index_fields.
  - rewrite app_nil_r, <- enc_array_fields. exact Hs.
  - rewrite <- enc_array_fields. exact Hf.
  - rewrite app_nil_r, <- enc_array_fields in E. exists es. split; [exact E|]. split; [exact R|].
    apply (rep_doc_array_idx vs 0); auto. unfold enc_array in Hs. zlens_in Hs. lia.
Qed.
