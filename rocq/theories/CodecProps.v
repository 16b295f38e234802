(* Properties of the codec: C01-C14, C47-C49.  Each theorem is stated over the API model
   (constructors, getters, Validate, MarshalBSON, ReadDocument, Reader) and the independent
   specification in BSpec.v.  A fuel argument bounds the number of loop steps: the statements
   hold for every fuel above a bound in the length of the bytes, and never conclude Fuel. *)
Require Import ZArith List Bool Lia ZifyBool ZifyNat.
From Verif Require Import Base BSpec Elements Value Codec CodecRead Itoa CodecRep Api ApiProofs Tree
  GetterProofs ReaderOps ReadSafe.
Import ListNotations.
Open Scope Z_scope.

(* ------------------------------------------------------------------ C01, C02 *)

(* The element r was constructed under key k: same key, type tg, and the getter and its OK
   variant return x. *)
Definition holds {A} (r : go value) (k : bytes) (tg : Z) (get : option value -> go A)
    (get_ok : option value -> go (option A)) (x : A) : Prop :=
  exists v, r = Ret v /\ elem_key (Some v) = Ret k /\ v_type v = Ret tg /\
    get (Some v) = Ret x /\ get_ok (Some v) = Ret (Some x).
(* Types with no getter, or no OK variant. *)
Definition typed (r : go value) (k : bytes) (tg : Z) : Prop :=
  exists v, r = Ret v /\ elem_key (Some v) = Ret k /\ v_type v = Ret tg.
Definition holds' {A} (r : go value) (k : bytes) (tg : Z) (get : option value -> go A) (x : A) : Prop :=
  exists v, r = Ret v /\ elem_key (Some v) = Ret k /\ v_type v = Ret tg /\ get (Some v) = Ret x.

(* the element fits: type byte, key, NUL and n bytes of value *)
Definition elem_fits (k : bytes) (n : Z) := zlen k + 2 + n < 2147483648.

Lemma lz_holds {A} r k t (get : option value -> go A) x :
  efits k t -> r = Ret (lz [] k t []) -> get (Some (lz [] k t [])) = Ret x ->
  holds r k (tag t) get (getter_ok (tag t) get) x.
Proof.
  intros F E G. exists (lz [] k t []). split; [exact E|].
  split; [apply lz_key, efits_lz, F|]. split; [apply lz_type|]. split; [exact G|].
  now apply getter_ok_lz.
Qed.
Lemma lz_typed r k t : efits k t -> r = Ret (lz [] k t []) -> typed r k (tag t).
Proof.
  intros F E. exists (lz [] k t []). split; [exact E|]. split; [apply lz_key, efits_lz, F|apply lz_type].
Qed.
Lemma lz_holds' {A} r k t (get : option value -> go A) x :
  efits k t -> r = Ret (lz [] k t []) -> get (Some (lz [] k t [])) = Ret x -> holds' r k (tag t) get x.
Proof.
  intros F E G. exists (lz [] k t []). split; [exact E|]. split; [apply lz_key, efits_lz, F|].
  split; [apply lz_type|exact G].
Qed.

Lemma elem_fits_efits k n t : zlen (enc_body t) = n -> elem_fits k n -> efits k t.
Proof. intros L F. unfold efits, elem_fits in *. rewrite zlen_enc_elem. lia. Qed.

Theorem C01_scalar_constructors_round_trip : forall k,
  (forall bits, is_u64 bits -> elem_fits k 8 -> holds (ec_double k bits) k 1 v_double v_double_ok bits) /\
  (forall s, elem_fits k (zlen s + 5) -> holds (ec_string k s) k 2 v_string v_string_ok s) /\
  (forall b, elem_fits k (zlen b + 5) -> holds (ec_binary k b) k 5 v_binary v_binary_ok (0, b)) /\
  (forall b st, elem_fits k (zlen b + 9) -> holds (ec_binary_subtype k b st) k 5 v_binary v_binary_ok (st, b)) /\
  (elem_fits k 0 -> typed (ec_undefined k) k 6) /\
  (forall o, zlen o = 12 -> elem_fits k 12 -> holds (ec_objectid k o) k 7 v_objectid v_objectid_ok o) /\
  (forall b, elem_fits k 1 -> holds (ec_boolean k b) k 8 v_boolean v_boolean_ok b) /\
  (forall i, is_i64 i -> elem_fits k 8 -> holds (ec_datetime k i) k 9 v_datetime v_datetime_ok i) /\
  (elem_fits k 0 -> typed (ec_null k) k 10) /\
  (forall p o, nul_free p -> nul_free o -> elem_fits k (zlen p + zlen o + 2) ->
     holds' (ec_regex k p o) k 11 v_regex (p, o)) /\
  (forall ns o, zlen o = 12 -> elem_fits k (zlen ns + 17) ->
     holds (ec_dbpointer k ns o) k 12 v_dbpointer v_dbpointer_ok (ns, o)) /\
  (forall s, elem_fits k (zlen s + 5) -> holds (ec_javascript k s) k 13 v_javascript v_javascript_ok s) /\
  (forall s, elem_fits k (zlen s + 5) -> holds' (ec_symbol k s) k 14 v_symbol s) /\
  (forall i, is_i32 i -> elem_fits k 4 -> holds (ec_int32 k i) k 16 v_int32 v_int32_ok i) /\
  (forall t i, is_u32 t -> is_u32 i -> elem_fits k 8 ->
     holds (ec_timestamp k t i) k 17 v_timestamp v_timestamp_ok (t, i)) /\
  (forall i, is_i64 i -> elem_fits k 8 -> holds (ec_int64 k i) k 18 v_int64 v_int64_ok i) /\
  (elem_fits k 0 -> typed (ec_minkey k) k 255) /\
  (elem_fits k 0 -> typed (ec_maxkey k) k 127).
Proof.
  intros k.
  assert (BL : forall st b, zlen (enc_body (BBinary st b)) <= zlen b + 9).
  { intros. cbn [enc_body]. destruct (st =? 2); zl. }
  repeat match goal with |- _ /\ _ => split end; intros;
    lazymatch goal with
    | |- holds (ec_double k ?x) _ _ _ _ _ => pose (bt := BDouble x)
    | |- holds (ec_string k ?x) _ _ _ _ _ => pose (bt := BString x)
    | |- holds (ec_binary k ?x) _ _ _ _ _ => pose (bt := BBinary 0 x)
    | |- holds (ec_binary_subtype k ?x ?y) _ _ _ _ _ => pose (bt := BBinary y x)
    | |- typed (ec_undefined _) _ _ => pose (bt := BUndefined)
    | |- holds (ec_objectid k ?x) _ _ _ _ _ => pose (bt := BOid x)
    | |- holds (ec_boolean k ?x) _ _ _ _ _ => pose (bt := BBool x)
    | |- holds (ec_datetime k ?x) _ _ _ _ _ => pose (bt := BDateTime x)
    | |- typed (ec_null _) _ _ => pose (bt := BNull)
    | |- holds' (ec_regex k ?x ?y) _ _ _ _ => pose (bt := BRegex x y)
    | |- holds (ec_dbpointer k ?x ?y) _ _ _ _ _ => pose (bt := BDBPointer x y)
    | |- holds (ec_javascript k ?x) _ _ _ _ _ => pose (bt := BJavaScript x)
    | |- holds' (ec_symbol k ?x) _ _ _ _ => pose (bt := BSymbol x)
    | |- holds (ec_int32 k ?x) _ _ _ _ _ => pose (bt := BInt32 x)
    | |- holds (ec_timestamp k ?x ?y) _ _ _ _ _ => pose (bt := BTimestamp x y)
    | |- holds (ec_int64 k ?x) _ _ _ _ _ => pose (bt := BInt64 x)
    | |- typed (ec_minkey _) _ _ => pose (bt := BMinKey)
    | |- typed (ec_maxkey _) _ _ => pose (bt := BMaxKey)
    end;
    assert (F : efits k bt) by (unfold efits, elem_fits in *; rewrite zlen_enc_elem;
      unfold bt; lazymatch goal with
      | |- context [BBinary 0 _] => cbn [enc_body Z.eqb]; zl
      | |- context [BBinary ?st ?b] => pose proof (BL st b); lia
      | _ => cbn [enc_body]; zl
      end);
    pose proof (efits_lz k bt F) as FL; unfold bt in F, FL.
  - apply (lz_holds _ k bt v_double); [exact F|apply ec_double_lz; first [exact F|assumption]|apply v_double_lz; first [exact FL|assumption]].
  - apply (lz_holds _ k bt v_string); [exact F|apply ec_string_lz; first [exact F|assumption]|apply v_string_lz; first [exact FL|assumption]].
  - apply (lz_holds _ k bt v_binary); [exact F|apply ec_binary_subtype_lz; first [exact F|assumption]|apply v_binary_lz; first [exact FL|assumption]].
  - apply (lz_holds _ k bt v_binary); [exact F|apply ec_binary_subtype_lz; first [exact F|assumption]|apply v_binary_lz; first [exact FL|assumption]].
  - apply (lz_typed _ k bt); [exact F|apply ec_undefined_lz; exact F].
  - apply (lz_holds _ k bt v_objectid); [exact F|apply ec_objectid_lz; first [exact F|assumption]|apply v_objectid_lz; first [exact FL|assumption]].
  - apply (lz_holds _ k bt v_boolean); [exact F|apply ec_boolean_lz; first [exact F|assumption]|apply v_boolean_lz; first [exact FL|assumption]].
  - apply (lz_holds _ k bt v_datetime); [exact F|apply ec_datetime_lz; first [exact F|assumption]|apply v_datetime_lz; first [exact FL|assumption]].
  - apply (lz_typed _ k bt); [exact F|apply ec_null_lz; exact F].
  - apply (lz_holds' _ k bt v_regex); [exact F|apply ec_regex_lz; first [exact F|assumption]|apply v_regex_lz; first [exact FL|assumption]].
  - apply (lz_holds _ k bt v_dbpointer); [exact F|apply ec_dbpointer_lz; first [exact F|assumption]|apply v_dbpointer_lz; first [exact FL|assumption]].
  - apply (lz_holds _ k bt v_javascript); [exact F|apply ec_javascript_lz; first [exact F|assumption]|apply v_javascript_lz; first [exact FL|assumption]].
  - apply (lz_holds' _ k bt v_symbol); [exact F|apply ec_symbol_lz; first [exact F|assumption]|apply v_symbol_lz; first [exact FL|assumption]].
  - apply (lz_holds _ k bt v_int32); [exact F|apply ec_int32_lz; first [exact F|assumption]|apply v_int32_lz; first [exact FL|assumption]].
  - apply (lz_holds _ k bt v_timestamp); [exact F|apply ec_timestamp_lz; first [exact F|assumption]|apply v_timestamp_lz; first [exact FL|assumption]].
  - apply (lz_holds _ k bt v_int64); [exact F|apply ec_int64_lz; first [exact F|assumption]|apply v_int64_lz; first [exact FL|assumption]].
  - apply (lz_typed _ k bt); [exact F|apply ec_minkey_lz; exact F].
  - apply (lz_typed _ k bt); [exact F|apply ec_maxkey_lz; exact F].
Qed.
Print Assumptions C01_scalar_constructors_round_trip.

Example C01_nonvacuous : holds (ec_string [97; 98] [104; 0; 105]) [97; 98] 2 v_string v_string_ok [104; 0; 105].
Proof. apply C01_scalar_constructors_round_trip. unfold elem_fits, zlen. cbn. lia. Qed.

(* C02: the getter exchanges the halves, so it returns d only when they are equal. *)
Theorem C02_decimal_refuted : exists k h l v, is_u64 h /\ is_u64 l /\
  ec_decimal k h l = Ret v /\ v_decimal (Some v) = Ret (l, h) /\ (l, h) <> (h, l).
Proof.
  exists [97], 1, 2. eexists. split; [unfold is_u64; lia|]. split; [unfold is_u64; lia|].
  split; [vm_compute; reflexivity|]. split; [vm_compute; reflexivity|discriminate].
Qed.
Print Assumptions C02_decimal_refuted.

(* What does hold: the bytes are right and both halves come back, exchanged. *)
Theorem C02_decimal_partial : forall k h l, is_u64 h -> is_u64 l -> elem_fits k 16 ->
  holds (ec_decimal k h l) k 19 v_decimal v_decimal_ok (l, h) /\
  exists v, ec_decimal k h l = Ret v /\ v_data v = Some (enc_elem k (BDecimal h l)).
Proof.
  intros k h l Hh Hl Hf. assert (F : efits k (BDecimal h l)).
  { unfold efits, elem_fits in *. rewrite zlen_enc_elem. cbn [enc_body]. zl. }
  split.
  - apply (lz_holds _ k (BDecimal h l) v_decimal); [exact F|exact (ec_decimal_lz _ _ _ F)|].
    apply v_decimal_lz; auto using efits_lz.
  - exists (lz [] k (BDecimal h l) []). split; [exact (ec_decimal_lz _ _ _ F)|].
    rewrite lz_nil. reflexivity.
Qed.
Print Assumptions C02_decimal_partial.

(* ------------------------------------------------------------------ C03, C04 *)

(* enough fuel for a document of n bytes *)
Definition enough (fuel : nat) (n : Z) := n < Z.of_nat fuel.

Theorem C03_validate_size_is_bytes_written : forall fs fuel,
  wf_fields fs -> small fs -> enough fuel (zlen (enc_doc fs)) ->
  exists es n b, build_doc fs = Ret es /\ doc_validate fuel es = Ret (n, None) /\
    doc_marshal fuel es = Ret (inl b) /\ zlen b = n /\
    (exists c, b = le32 n ++ c ++ [0]) /\
    (* writing into a larger buffer touches exactly n bytes *)
    (forall p o q, zlen o = n ->
       doc_write fuel es (zlen p) n (p ++ o ++ q) = Ret (p ++ b ++ q, n, None)).
Proof.
  intros fs fuel W S F. destruct (build_doc_rep fs W S) as (es & B & R).
  exists es, (zlen (enc_doc fs)), (enc_doc fs). split; [exact B|].
  split; [now apply doc_validate_rep|]. split; [now apply doc_marshal_rep|]. split; [reflexivity|].
  split.
  - exists (enc_elems fs). unfold enc_doc at 1. unfold enc_frame. do 2 f_equal. unfold enc_doc. zl.
  - intros p o q Lo. rewrite (doc_write_any_buffer fuel fs) by (auto; zlens; posl; lia).
    now rewrite put_app by lia.
Qed.
Print Assumptions C03_validate_size_is_bytes_written.

Theorem C04_marshal_is_the_bson_encoding : forall fs fuel,
  wf_fields fs -> small fs -> enough fuel (zlen (enc_doc fs)) ->
  exists es, build_doc fs = Ret es /\ doc_marshal fuel es = Ret (inl (enc_doc fs)).
Proof.
  intros fs fuel W S F. destruct (build_doc_rep fs W S) as (es & B & R).
  exists es. split; [exact B|]. now apply doc_marshal_rep.
Qed.
Print Assumptions C04_marshal_is_the_bson_encoding.

(* a document with a subdocument, an array, code with scope and a binary of subtype 2 *)
Definition sample : list (bytes * bval) :=
  [([97], BDoc [([98], BInt32 (-1)); ([], BString [104; 105])]);
   ([97], BArray [BBool true; BArray []; BDouble 4607182418800017408]);
   ([99], BCode [120] [([100], BNull)]);
   ([101], BBinary 2 [1; 2; 3]);
   ([102], BRegex [94] [105])].
Lemma sample_ok : wf_fields sample /\ small sample /\ enough 200 (zlen (enc_doc sample)).
Proof.
  split; [|split; vm_compute; reflexivity].
  unfold sample, wf_fields, wf_field, cstr_ok, bytes_ok, nul_free, subtype_ok.
  repeat (constructor; cbn; unfold is_u8, is_i32, is_u64, nul_free; try lia).
Qed.
Example C04_nonvacuous : exists es b, build_doc sample = Ret es /\ doc_marshal 200 es = Ret (inl b) /\ zlen b = 103.
Proof. do 2 eexists. split; [vm_compute; reflexivity|]. split; [vm_compute; reflexivity|reflexivity]. Qed.

(* ------------------------------------------------------------- C05, C06, C07 *)

Theorem C05_marshal_read_round_trip_partial : forall fs fuel,
  wf_fields fs -> small fs -> enough fuel (zlen (enc_doc fs)) ->
  exists es b es', build_doc fs = Ret es /\ doc_marshal fuel es = Ret (inl b) /\
    read_document fuel b = Ret (inl es') /\
    (* walking the constructed and the read document gives the same tree *)
    obs_doc fuel es' = obs_doc fuel es /\
    (* which is the tree itself when no decimal is in it (C02) *)
    obs_doc fuel es' = Ret (swapf fs) /\
    (Forall (fun kv => no_dec (snd kv)) fs -> obs_doc fuel es' = Ret fs).
Proof.
  intros fs fuel W S F. destruct (build_doc_rep fs W S) as (es & B & R).
  destruct (read_document_wf fs [] fuel) as (es' & E & R'); auto.
  { now rewrite app_nil_r. }
  rewrite app_nil_r in E. exists es, (enc_doc fs), es'.
  pose proof (obs_doc_rep fuel es fs R W S F) as O. pose proof (obs_doc_rep fuel es' fs R' W S F) as O'.
  repeat split; auto; try congruence; [now apply doc_marshal_rep|].
  intros N. rewrite O'. f_equal. clear - N. induction N as [|[k t] fs N1 N2 IH]; [reflexivity|].
  unfold swapf in *. cbn in *. rewrite IH, swapd_id by auto. reflexivity.
Qed.
Print Assumptions C05_marshal_read_round_trip_partial.

Theorem C06_read_marshal_byte_fidelity : forall fs fuel,
  wf_fields fs -> small fs -> enough fuel (zlen (enc_doc fs)) ->
  exists es, read_document fuel (enc_doc fs) = Ret (inl es) /\
    doc_marshal fuel es = Ret (inl (enc_doc fs)) /\
    rd_marshal fuel (enc_doc fs) = Ret (inl (enc_doc fs)).
Proof.
  intros fs fuel W S F. destruct (read_document_wf fs [] fuel) as (es & E & R); auto.
  { now rewrite app_nil_r. }
  rewrite app_nil_r in E. exists es. split; [exact E|]. split; [now apply doc_marshal_rep|now apply rd_marshal_wf].
Qed.
Print Assumptions C06_read_marshal_byte_fidelity.

Theorem C07_encoding_injective_and_self_delimiting : forall fs1 fs2 p1 p2,
  wf_fields fs1 -> wf_fields fs2 -> small fs1 -> small fs2 ->
  enc_doc fs1 ++ p1 = enc_doc fs2 ++ p2 -> fs1 = fs2 /\ p1 = p2.
Proof. exact enc_doc_inj. Qed.
Print Assumptions C07_encoding_injective_and_self_delimiting.
Example C07_nonvacuous : enc_doc sample ++ [7] = enc_doc sample ++ [7] -> sample = sample /\ [7] = [7].
Proof. apply C07_encoding_injective_and_self_delimiting; apply sample_ok. Qed.

(* ------------------------------------------------------------------- C08, C09 *)

(* values carrying arbitrary keys *)
Definition build_keyed (kvs : list (bytes * bval)) : go document := build_doc kvs.

Lemma rep_doc_arr kvs : forall es, rep_doc es kvs ->
  Forall (fun kv => zlen (enc_elem (fst kv) (snd kv)) < 2147483648) kvs -> rep_arr es (map snd kvs).
Proof.
  induction kvs as [|[k t] kvs IH]; intros [|[v|] es] R L; cbn in *; auto.
  destruct R as [R1 R2]. inversion_clear L. cbn in *. split; eauto.
Qed.

Theorem C08_arrays_use_index_keys : forall kvs fuel,
  wf_fields kvs -> small kvs -> zlen (enc_array (map snd kvs)) < 2147483648 ->
  enough fuel (zlen (enc_array (map snd kvs))) ->
  exists es, build_keyed kvs = Ret es /\
    arr_validate fuel es = Ret (zlen (enc_array (map snd kvs)), None) /\
    arr_marshal fuel es = Ret (inl (enc_array (map snd kvs))).
Proof.
  intros kvs fuel W S La F. destruct (build_doc_rep kvs W S) as (es & B & R).
  assert (RA : rep_arr es (map snd kvs)).
  { apply rep_doc_arr; auto. apply Forall_forall. intros [k t] Hin.
    destruct (in_fields_wf _ _ _ Hin W) as [_ L]. cbn. unfold small, enc_doc in S. zlens_in S. lia. }
  assert (Wv : Forall wf (map snd kvs)).
  { clear - W. induction W as [|[k t] kvs [_ Wt] W IH]; cbn; constructor; auto. }
  exists es. split; [exact B|]. split; [now apply arr_validate_rep|now apply arr_marshal_rep].
Qed.
Print Assumptions C08_arrays_use_index_keys.

(* enc_array is the document with keys "0", "1", ... *)
Theorem C08_array_keys : forall vs,
  enc_array vs = enc_doc (combine (map index_key (seq 0 (length vs))) vs).
Proof.
  intros vs. rewrite enc_array_fields. f_equal. generalize 0%nat.
  induction vs as [|v vs IH]; intros i; cbn; [reflexivity|]. now rewrite IH.
Qed.
Print Assumptions C08_array_keys.
Example C08_nonvacuous : exists es, build_keyed sample = Ret es /\
  arr_marshal 200 es = Ret (inl (enc_array (map snd sample))) /\ index_key 10 = [49; 48].
Proof. eexists. split; [vm_compute; reflexivity|]. split; vm_compute; reflexivity. Qed.

Theorem C09_reader_validate_accepts_well_formed : forall fs fuel post,
  wf_fields fs -> zlen (enc_doc fs ++ post) < 2147483648 -> enough fuel (zlen (enc_doc fs)) ->
  rd_validate fuel (enc_doc fs ++ post) = Ret (zlen (enc_doc fs), None).
Proof. exact reader_validate_wf. Qed.
Print Assumptions C09_reader_validate_accepts_well_formed.
Example C09_nonvacuous : rd_validate 200 (enc_doc sample ++ [1; 2; 3]) = Ret (103, None).
Proof. vm_compute. reflexivity. Qed.

(* ------------------------------------------------------------------- C10, C11 *)

(* False in general: reading loops on a negative string length, panics on a negative
   document length, and Reader.Validate panics on an embedded document of length 2^31-1. *)
Theorem C10_reading_refuted :
  (forall fuel, read_document fuel looping_doc = Fuel) /\
  (forall fuel, rd_validate fuel looping_doc = Fuel) /\
  (forall fuel, (1 <= fuel)%nat -> exists p, read_document fuel negative_doc = Panic p) /\
  (forall fuel, (2 <= fuel)%nat -> exists p, rd_validate fuel overflow_doc = Panic p).
Proof.
  split; [exact looping_read|]. split; [exact looping_validate|].
  split; [exact negative_read|exact overflow_validate].
Qed.
Print Assumptions C10_reading_refuted.

(* True otherwise: those are the only ways.  Any bytes below 2^31-16 bytes with a declared
   length of at least zero and no negative length field are read in at most len+1 steps. *)
Theorem C10_read_document_partial : forall r l,
  zlen r + 16 <= 2147483648 -> declared_length r = Ret l -> 0 <= l ->
  (forall fuel p, read_document fuel r <> Panic p) /\
  (~ negative_length r -> forall fuel, enough fuel (zlen r) -> exists res, read_document fuel r = Ret res).
Proof.
  intros r l Hs Hd Hl. split.
  - intros fuel p E. destruct (read_document_total fuel r l Hs Hd Hl) as [(x & E')|(E' & _)]; congruence.
  - intros N fuel F. destruct (read_document_total fuel r l Hs Hd Hl) as [(x & E')|(E' & [C|C])]; eauto.
    + unfold enough in F. lia.
    + contradiction.
Qed.
Print Assumptions C10_read_document_partial.

Theorem C10_reader_validate_partial : forall r, zlen r + 16 <= 2147483648 -> ~ huge_length r ->
  (forall fuel p, rd_validate fuel r <> Panic p) /\
  (~ negative_length r -> forall fuel, enough fuel (zlen r) -> exists res, rd_validate fuel r = Ret res).
Proof.
  intros r Hs Hh. split.
  - intros fuel p E. destruct (rd_validate_total fuel r Hs) as [(x & E')|[(E' & _)|C]]; congruence || contradiction.
  - intros N fuel F. destruct (rd_validate_total fuel r Hs) as [(x & E')|[(E' & [C|C])|C]]; eauto; try contradiction.
    unfold enough in F. lia.
Qed.
Print Assumptions C10_reader_validate_partial.

(* garbage that meets the hypotheses: it is read, with an error *)
Example C10_nonvacuous : declared_length [9; 0; 0; 0; 77; 65; 0; 3; 4] = Ret 9 /\
  ~ negative_length [9; 0; 0; 0; 77; 65; 0; 3; 4] /\
  read_document 10 [9; 0; 0; 0; 77; 65; 0; 3; 4] = Ret (inr EInvalidElement).
Proof.
  split; [reflexivity|]. split; [|vm_compute; reflexivity].
  intros (a & t & k & l4 & l & b & E & Ht & _). assert (In t [9; 0; 0; 0; 77; 65; 0; 3; 4]).
  { rewrite E. apply in_or_app. right. left. reflexivity. }
  cbn in *. lia.
Qed.

Theorem C11_validated_element_refuted : exists b v n p,
  read_document 12 b = Ret (inl [Some v]) /\ elem_validate 12 (Some v) = Ret (n, None) /\
  v_type v = Ret 2 /\ v_string (Some v) = Panic p.
Proof.
  exists empty_string_doc. destruct empty_string_read as (v & n & p & H1 & H2 & H3 & H4).
  exists v, n, p. auto.
Qed.
Print Assumptions C11_validated_element_refuted.

(* For an element inside data (type byte at st, value at off): if Element.Validate accepts
   it and its length fields are sane, every getter of its type returns. *)
Theorem C11_validated_element_partial : forall fuel st off data n t,
  0 < off <= zlen data -> zlen data + 16 <= 2147483648 -> goindex data st = Ret t ->
  elem_validate fuel (Some (MkValue st off (Some data) None)) = Ret (n, None) ->
  length_fields_ok t off data ->
  read_typed fuel t (Some (MkValue st off (Some data) None)) = Ret tt.
Proof.
  intros fuel st off data n t Ho Hs Ht Hv Hl. unfold elem_validate, elem_validate_with in Hv.
  destruct (elem_validate_key _ _ _) as [[m [e|]]| |]; cbn [bind] in Hv; try discriminate.
  destruct (val_validate fuel false _) as [[m' e']| |] eqn:E; cbn [bind] in Hv; try discriminate.
  injection Hv as _ ->. exact (validated_safe fuel st off data m' t Ho Hs Ht E Hl).
Qed.
Print Assumptions C11_validated_element_partial.
Example C11_nonvacuous : exists n,
  elem_validate 20 (Some (MkValue 0 2 (Some [2; 0; 3; 0; 0; 0; 104; 105; 0]) None)) = Ret (n, None) /\
  length_fields_ok 2 2 [2; 0; 3; 0; 0; 0; 104; 105; 0].
Proof. eexists. split; [vm_compute; reflexivity|]. exists 3. split; [reflexivity|lia]. Qed.

(* What Reader.Validate accepts, ReadDocument reads. *)
Theorem C11_validated_document_is_read : forall fuel r n,
  rd_validate fuel r = Ret (n, None) -> exists es, read_document fuel r = Ret (inl es).
Proof. exact validated_reads. Qed.
Print Assumptions C11_validated_document_is_read.

(* ------------------------------------------------------------------------ C12 *)

(* A writer for the bytes bs at start, without mention of how it writes. *)
Definition window (bs : bytes) (start : Z) (w : bytes) (r : wres) : Prop :=
  (forall p o q, w = p ++ o ++ q -> zlen p = start -> zlen o = zlen bs -> r = (p ++ bs ++ q, zlen bs, None)) /\
  (zlen w < start + zlen bs -> exists w' n, r = (w', n, Some ETooSmall) /\ zlen w' = zlen w).

Lemma writes_window bs start w r : writes bs start w r -> window bs start w r.
Proof.
  intros [H1 H2]. split.
  - intros p o q -> Hp Ho. rewrite H1 by (zlens; posl; lia). now rewrite put_app by lia.
  - intros H. destruct (H2 H) as (w' & n & E & L & _). eauto.
Qed.

Theorem C12_encoders_stay_in_their_window : forall start w, 0 <= start ->
  (forall t, window [t] start w (byte_encode start w t)) /\
  (forall s, window (enc_cstring s) start w (cstring_encode start w s)) /\
  (forall b, window (le64 b) start w (double_encode start w b)) /\
  (forall s, window (enc_string s) start w (string_encode start w s)) /\
  (forall b st, window (enc_body (BBinary st b)) start w (binary_encode start w b st)) /\
  (forall b : bool, window [if b then 1 else 0] start w (boolean_encode start w b)) /\
  (forall p o, window (enc_body (BRegex p o)) start w (regex_encode start w p o)) /\
  (forall ns o, window (enc_body (BDBPointer ns o)) start w (dbpointer_encode start w ns o)) /\
  (forall i, window (le32 i) start w (int32_encode start w i)) /\
  (forall i, window (le64 i) start w (int64_encode start w i)) /\
  (forall t i, window (enc_body (BTimestamp t i)) start w (timestamp_encode start w t i)) /\
  (forall h l, window (enc_body (BDecimal h l)) start w (decimal_encode start w h l)) /\
  (forall b, window b start w (encode_byte_slice start w b)) /\
  (* whole elements: type byte, key, NUL, value *)
  (forall t bs enc key, (forall s w, 0 <= s -> writes bs s w (enc s w)) ->
     window (t :: enc_cstring key ++ bs) start w (element_of t enc start w key)).
Proof.
  intros start w H. repeat match goal with |- _ /\ _ => split end; intros; apply writes_window;
    auto using byte_writes, cstring_writes, double_writes, string_writes, binary_writes, boolean_writes,
      regex_writes, dbpointer_writes, int32_writes, int64_writes, timestamp_writes, decimal_writes,
      slice_writes, element_writes.
Qed.
Print Assumptions C12_encoders_stay_in_their_window.
Example C12_nonvacuous : string_encode 2 [9; 9; 9; 9; 9; 9; 9; 9; 9] [104] = ([9; 9; 2; 0; 0; 0; 104; 0; 9], 6, None)
  /\ string_encode 4 [9; 9; 9; 9; 9; 9; 9; 9; 9] [104] = ([9; 9; 9; 9; 2; 0; 0; 0; 9], 4, Some ETooSmall).
Proof. split; vm_compute; reflexivity. Qed.

(* ------------------------------------------------------------------------ C13 *)

Theorem C13_ok_getters : forall fuel,
  ok_variant (fun t => t =? 1) v_double v_double_ok /\
  ok_variant (fun t => t =? 2) v_string v_string_ok /\
  ok_variant (fun t => t =? 3) (v_reader_document fuel) (v_reader_document_ok fuel) /\
  ok_variant (fun t => t =? 3) (v_mutable_document fuel) (v_mutable_document_ok fuel) /\
  ok_variant (fun t => t =? 4) (v_reader_array fuel) (v_reader_array_ok fuel) /\
  ok_variant (fun t => t =? 4) (v_mutable_array fuel) (v_mutable_array_ok fuel) /\
  ok_variant (fun t => t =? 5) v_binary v_binary_ok /\
  ok_variant (fun t => t =? 7) v_objectid v_objectid_ok /\
  ok_variant (fun t => t =? 8) v_boolean v_boolean_ok /\
  ok_variant (fun t => t =? 9) v_datetime v_datetime_ok /\
  ok_variant (fun t => t =? 9) v_time v_time_ok /\
  ok_variant (fun t => t =? 12) v_dbpointer v_dbpointer_ok /\
  ok_variant (fun t => t =? 13) v_javascript v_javascript_ok /\
  ok_variant (fun t => t =? 15) (v_reader_code fuel) (v_reader_code_ok fuel) /\
  ok_variant (fun t => t =? 15) (v_mutable_code fuel) (v_mutable_code_ok fuel) /\
  ok_variant (fun t => t =? 16) v_int32 v_int32_ok /\
  ok_variant (fun t => t =? 17) v_timestamp v_timestamp_ok /\
  ok_variant (fun t => t =? 18) v_int64 v_int64_ok /\
  ok_variant (fun t => (t =? 16) || (t =? 18)) v_int v_int_ok /\
  ok_variant (fun t => t =? 19) v_decimal v_decimal_ok.
Proof.
  intros fuel. repeat match goal with |- _ /\ _ => split end;
    first [exact (getter_ok_variant _ _) | exact time_ok_variant | exact int_ok_variant].
Qed.
Print Assumptions C13_ok_getters.
Example C13_nonvacuous : vstate_of (Some (MkValue 0 2 (Some [8; 0; 1]) None)) (Typed 8) /\
  v_boolean_ok (Some (MkValue 0 2 (Some [8; 0; 1]) None)) = Ret (Some true) /\
  v_int32_ok (Some (MkValue 0 2 (Some [8; 0; 1]) None)) = Ret None /\ vstate_of None Absent.
Proof. split; [|repeat split]. exists 8. repeat split; cbn; lia. Qed.

(* ------------------------------------------------------------------------ C14 *)

(* How a client gets an element with key k and content t: by constructing it, by reading
   bytes, or from one of those by calling the Mutable getter of its type, which stores the
   Document it made in the value. *)
Inductive obtained (k : bytes) (t : bval) : value -> Prop :=
| ob_built v : build k t = Ret v -> obtained k t v
| ob_read fs i fuel post es v : wf_fields fs -> zlen (enc_doc fs ++ post) < 2147483648 ->
    enough fuel (zlen (enc_doc fs)) -> read_document fuel (enc_doc fs ++ post) = Ret (inl es) ->
    nth_error fs i = Some (k, t) -> nth_error es i = Some (Some v) -> obtained k t v
| ob_mutdoc fuel v es : obtained k t v -> enough fuel (zlen (enc_body t)) ->
    v_mutable_document fuel (Some v) = Ret es -> obtained k t (with_doc v es)
| ob_mutarr fuel v es : obtained k t v -> enough fuel (zlen (enc_body t)) ->
    v_mutable_array fuel (Some v) = Ret es -> obtained k t (with_doc v es)
| ob_mutcode fuel v c es : obtained k t v -> enough fuel (zlen (enc_body t)) ->
    v_mutable_code fuel (Some v) = Ret (c, es) -> obtained k t (with_doc v es).

Lemma getter_type {A} tg (f : Z -> bytes -> option document -> go A) v x t0 :
  v_type v = Ret t0 -> getter tg f (Some v) = Ret x -> t0 = tg.
Proof.
  destruct v as [st off [data|] d]; cbn; try discriminate.
  destruct (off =? 0); [discriminate|]. intros -> H. cbn in H.
  destruct (t0 =? tg) eqn:E; cbn in H; [lia|discriminate].
Qed.

Lemma obtained_rep k t v : nul_free k -> wf t -> zlen (enc_elem k t) < 2147483648 ->
  obtained k t v -> rep k v t.
Proof.
  intros Hk W L O. induction O as [v B|fs i fuel post es v Wf Ls F E Hi Hv|fuel v es O IH F E|fuel v es O IH F E|fuel v c es O IH F E].
  - destruct (build_rep t k Hk W L) as (w & B' & R). congruence.
  - destruct (read_document_wf fs post fuel Wf Ls F) as (es' & E' & R).
    assert (es' = es) by congruence. subst es'.
    pose proof (rep_doc_nth fs es i R) as N. rewrite Hi in N. destruct N as (w & Hw & Rw). congruence.
  - pose proof (getter_type _ _ _ _ _ (rep_type _ _ _ IH) E) as T.
    destruct t; try discriminate T. apply wf_doc in W. rewrite enc_body_doc in F.
    pose proof (zlen_enc_elem k (BDoc fs)) as Z1. rewrite enc_body_doc in Z1. posl.
    destruct (v_mutable_document_rep fuel k v fs IH W ltac:(unfold small; lia) F) as (es' & E' & Rd & Rw). congruence.
  - pose proof (getter_type _ _ _ _ _ (rep_type _ _ _ IH) E) as T.
    destruct t; try discriminate T. apply wf_array in W. rewrite enc_body_array in F.
    pose proof (zlen_enc_elem k (BArray vs)) as Z1. rewrite enc_body_array in Z1. posl.
    destruct (v_mutable_array_rep fuel k v vs IH W ltac:(lia) F) as (es' & E' & Rd & Rw). congruence.
  - pose proof (getter_type _ _ _ _ _ (rep_type _ _ _ IH) E) as T.
    destruct t; try discriminate T. apply wf_code in W as [Wc W].
    pose proof (zlen_enc_elem k (BCode code scope)) as Z1. posl.
    destruct (v_mutable_code_rep fuel k v code scope) as (es' & E' & Rd & Rw); auto; try lia; [|congruence].
    unfold enough in F. rewrite enc_body_code in F. zlens_in F. posl. lia.
Qed.

(* Equal on elements obtained in any of these ways is equality of key and content: in
   particular an equivalence relation. *)
Theorem C14_equal_is_equality : forall fuel k1 t1 v1 k2 t2 v2,
  obtained k1 t1 v1 -> obtained k2 t2 v2 -> nul_free k1 -> nul_free k2 -> wf t1 -> wf t2 ->
  zlen (enc_elem k1 t1) < 2147483648 - 7 -> zlen (enc_elem k2 t2) < 2147483648 - 7 ->
  enough fuel (zlen (enc_body t1)) -> enough fuel (zlen (enc_body t2)) ->
  (exists b, v_equal fuel (Some v1) (Some v2) = Ret b /\ (b = true <-> t1 = t2)) /\
  (exists b, e_equal fuel (Some v1) (Some v2) = Ret b /\ (b = true <-> k1 = k2 /\ t1 = t2)).
Proof.
  intros fuel k1 t1 v1 k2 t2 v2 O1 O2 K1 K2 W1 W2 L1 L2 F1 F2.
  pose proof (obtained_rep k1 t1 v1 K1 W1 ltac:(lia) O1) as R1.
  pose proof (obtained_rep k2 t2 v2 K2 W2 ltac:(lia) O2) as R2.
  pose proof (zlen_enc_elem k1 t1). pose proof (zlen_enc_elem k2 t2). posl.
  split; [apply (v_equal_rep fuel k1 v1 t1 k2 v2 t2)|apply (e_equal_rep fuel k1 v1 t1 k2 v2 t2)]; auto; lia.
Qed.
Print Assumptions C14_equal_is_equality.
(* a constructed subdocument equals the same document read from bytes *)
Definition small_sub : list (bytes * bval) := [([97], BDoc [([98], BInt32 5)])].
Lemma small_sub_wf : wf_fields small_sub.
Proof.
  unfold small_sub, wf_fields, wf_field, cstr_ok, bytes_ok, nul_free.
  repeat (constructor; cbn; unfold is_u8, is_i32, nul_free; try lia).
Qed.
Example C14_nonvacuous : exists v1 v2,
  obtained [97] (BDoc [([98], BInt32 5)]) v1 /\ obtained [97] (BDoc [([98], BInt32 5)]) v2 /\ v1 <> v2 /\
  v_equal 100 (Some v1) (Some v2) = Ret true.
Proof.
  exists (MkValue 0 3 (Some [3; 97; 0]) (Some [Some (MkValue 0 3 (Some [16; 98; 0; 5; 0; 0; 0]) None)])).
  exists (MkValue 4 7 (Some (enc_doc small_sub)) None).
  split; [apply ob_built; vm_compute; reflexivity|]. split.
  - apply (ob_read _ _ small_sub 0 100 [] [Some (MkValue 4 7 (Some (enc_doc small_sub)) None)]).
    + exact small_sub_wf.
    + vm_compute. reflexivity.
    + vm_compute. reflexivity.
    + vm_compute. reflexivity.
    + reflexivity.
    + reflexivity.
  - split; [discriminate|vm_compute; reflexivity].
Qed.

(* ------------------------------------------------------------- C47, C48, C49 *)

Theorem C47_int_refuted : exists k i v, is_i64 i /\ ec_int k i = Ret v /\ v_int (Some v) = Ret 2147483647 /\ i < 0.
Proof.
  exists [97], (-2147483649). eexists. split; [unfold is_i64; lia|]. split; [vm_compute; reflexivity|].
  split; [vm_compute; reflexivity|lia].
Qed.
Print Assumptions C47_int_refuted.

(* Every other integer of every Go integer type survives. *)
Theorem C47_integer_constructors_partial : forall k g, elem_fits k 8 -> goint_ok g ->
  (forall i, g = GInt i -> -2147483648 <= i) ->
  (goint_val g <= 9223372036854775807 -> holds_int (ec_interface_int k g) (goint_val g)) /\
  (9223372036854775807 < goint_val g -> typed (ec_interface_int k g) k 10).
Proof.
  intros k g F G H. unfold elem_fits in F.
  destruct (ec_interface_int_holds k g ltac:(lia) G H) as [H1 H2]. split; [exact H1|].
  intros Hg. assert (E : ec_interface_int k g = ec_null k).
  { destruct g; cbn in *; unfold is_i32, is_i64, is_u8, is_u32 in *; try lia;
      replace (i <? 2147483647) with false by lia; replace (9223372036854775807 <? i) with true by lia; reflexivity. }
  rewrite E. apply (lz_typed _ k BNull); [|apply ec_null_lz]; unfold efits; rewrite zlen_enc_elem; cbn [enc_body]; zl.
Qed.
Print Assumptions C47_integer_constructors_partial.
Theorem C47_int_partial : forall k i, elem_fits k 8 -> is_i64 i -> -2147483648 <= i ->
  holds_int (ec_int k i) i.
Proof. intros k i F. unfold elem_fits in F. apply ec_int_holds. lia. Qed.
Print Assumptions C47_int_partial.
Example C47_nonvacuous : goint_ok (GUint64 18446744073709551615) /\ holds_int (ec_int [97] 2147483647) 2147483647.
Proof. split; [cbn; unfold is_u64; lia|]. apply C47_int_partial; unfold elem_fits, is_i64, zlen; cbn; lia. Qed.

(* ns is the instant in nanoseconds since 1970, also before it *)
Theorem C48_times_survive_to_the_millisecond : forall k ns,
  elem_fits k 8 -> is_i64 (ns / 1000000) ->
  exists v, ec_time k ns = Ret v /\ v_time (Some v) = Ret (ns / 1000000 * 1000000) /\
            v_time_ok (Some v) = Ret (Some (ns / 1000000 * 1000000)).
Proof. intros k ns F. unfold elem_fits in F. apply time_round_trip. lia. Qed.
Print Assumptions C48_times_survive_to_the_millisecond.
Example C48_nonvacuous : exists v, ec_time [97] (-1) = Ret v /\ v_time (Some v) = Ret (-1000000).
Proof. eexists. split; [vm_compute; reflexivity|vm_compute; reflexivity]. Qed.

(* An element v seen through the API has key k and content t. *)
Definition shows fuel (v : value) (k : bytes) (t : bval) : Prop :=
  elem_key (Some v) = Ret k /\ v_type v = Ret (tag t) /\ elem_marshal fuel (Some v) = Ret (inl (enc_elem k t)).

Lemma rep_shows fuel k v t : rep k v t -> wf t -> zlen (enc_elem k t) < 2147483648 ->
  enough fuel (zlen (enc_body t)) -> shows fuel v k t.
Proof.
  intros R W L F. split; [now apply (elem_key_rep k v t)|]. split; [now apply (rep_type k)|].
  now apply elem_marshal_rep.
Qed.

Lemma find_path_wf keys : forall fs k t, wf_fields fs -> find_path keys fs = inl (k, t) ->
  wf t /\ zlen (enc_elem k t) <= zlen (enc_elems fs).
Proof.
  induction keys as [|key ks IH]; intros fs k t W H; [discriminate|]. cbn [find_path] in H.
  destruct (first_key key fs) as [u|] eqn:E; [|discriminate].
  assert (In (key, u) fs) as Hin.
  { clear - E. induction fs as [|[k' t'] fs IH]; cbn in E; [discriminate|].
    pose proof (bytes_eqb_eq key k') as B. destruct (bytes_eqb key k').
    - injection E as ->. left. f_equal. symmetry. now apply B.
    - right. auto. }
  destruct (in_fields_wf _ _ _ Hin W) as [Wu Lu]. pose proof (zlen_enc_elem key u) as Z1. posl.
  destruct ks as [|k2 ks].
  - injection H as <- <-. auto.
  - destruct u; try discriminate.
    + apply wf_doc in Wu. destruct (IH _ _ _ Wu H) as [? L]. split; [auto|].
      rewrite enc_body_doc in Z1. unfold enc_doc in Z1. zlens_in Z1. lia.
    + apply wf_array in Wu. destruct (IH _ _ _ (wf_index_fields _ _ Wu) H) as [? L]. split; [auto|].
      rewrite enc_body_array, enc_array_fields in Z1. unfold enc_doc in Z1. zlens_in Z1. lia.
Qed.

Theorem C49_reader_lookups : forall fs fuel post,
  wf_fields fs -> zlen (enc_doc fs ++ post) < 2147483648 -> enough fuel (zlen (enc_doc fs)) ->
  (forall i, match nth_error fs i with
   | Some (k, t) => exists v, rd_element_at fuel (enc_doc fs ++ post) i = Ret (inl v) /\ shows fuel v k t
   | None => rd_element_at fuel (enc_doc fs ++ post) i = Ret (inr EOutOfBounds)
   end) /\
  (forall keys, match find_path keys fs with
   | inl (k, t) => exists v, rd_lookup fuel keys (enc_doc fs ++ post) = Ret (Some v, None) /\ shows fuel v k t
   | inr e => rd_lookup fuel keys (enc_doc fs ++ post) = Ret (None, Some e)
   end).
Proof.
  intros fs fuel post W L F.
  assert (Le : zlen (enc_elems fs) + 5 < 2147483648) by (unfold enc_doc in L; zlens_in L; posl; lia).
  assert (Fe : zlen (enc_elems fs) + 5 < Z.of_nat fuel) by (unfold enough, enc_doc in F; zlens_in F; lia).
  split.
  - intros i. pose proof (rd_element_at_wf fs fuel post i W L F) as H.
    destruct (nth_error fs i) as [[k t]|] eqn:E; [|exact H]. destruct H as (v & Ev & R).
    exists v. split; [exact Ev|]. apply nth_error_In in E. destruct (in_fields_wf _ _ _ E W) as [Wt Lt].
    pose proof (zlen_enc_elem k t). posl. apply rep_shows; auto; unfold enough; lia.
  - intros keys. pose proof (rd_lookup_wf keys fs fuel post W L F) as H.
    destruct (find_path keys fs) as [[k t]|e] eqn:E; [|exact H]. destruct H as (v & Ev & R).
    exists v. split; [exact Ev|]. destruct (find_path_wf _ _ _ _ W E) as [Wt Lt].
    pose proof (zlen_enc_elem k t). posl. apply rep_shows; auto; unfold enough; lia.
Qed.
Print Assumptions C49_reader_lookups.

(* ElementAt on arbitrary bytes: whenever ReadDocument reads the bytes, the i-th element. *)
Theorem C49_element_at_any_bytes : forall fuel r i es l,
  declared_length r = Ret l -> 0 <= l -> read_document fuel r = Ret (inl es) ->
  rd_element_at fuel r i = Ret match nth_error es i with
                               | Some (Some v) => inl v
                               | _ => inr EOutOfBounds
                               end.
Proof. intros fuel r i es l Hd Hl E. exact (element_at_iter fuel r i es l Hd Hl E). Qed.
Print Assumptions C49_element_at_any_bytes.
Example C49_nonvacuous : find_path [[97]; [98]] sample = inl ([98], BInt32 (-1)) /\
  find_path [[97]; [120]] sample = inr ENotFound /\
  exists v, rd_lookup 200 [[97]; [98]] (enc_doc sample) = Ret (Some v, None).
Proof. split; [reflexivity|]. split; [reflexivity|]. eexists. vm_compute. reflexivity. Qed.
