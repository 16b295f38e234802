(* Properties of extended JSON: Document.MarshalJSON and UnmarshalJSON. *)
Require Import ZArith List Bool Lia ZifyBool ZifyNat String Ascii.
From Verif Require Import Base BSpec Elements Value Codec CodecRead Itoa CodecRep Api ApiProofs Tree GetterProofs CodecProps
  Search Sort Oid Dec128 DecProofs Json JsonSpec JsonProofs JsonParse JsonProps ExtJson ExtJsonProofs TypesProps.
Import List ListNotations.
Open Scope Z_scope.

(* ---------------------------------------------------- C78: what MarshalJSON writes *)

(* The extended JSON of a tree (MongoDB's relaxed form): numbers as numbers, other types as an
   object whose key names the type.  Doubles have six decimals. *)
Definition dobj1 (k : string) (v : jdata) : jdata := DObj [(bstr k, v)].
Section Data.
Variable fmt_time : Z -> bytes.
Fixpoint ext_data (t : bval) : jdata :=
  match t with
  | BDouble x => DNum (fmt_f x)
  | BString s => DStr s
  | BDoc fs => DObj ((fix go fs := match fs with [] => [] | (k, v) :: r => (k, ext_data v) :: go r end) fs)
  | BArray vs => DArr (map ext_data vs)
  | BBinary _ _ => DNull
  | BUndefined => dobj1 "$undefined" (DBool true)
  | BOid o => dobj1 "$oid" (DStr (hex o))
  | BBool b => DBool b
  | BDateTime ms => dobj1 "$date" (DStr (fmt_time (ms * 1000000)))
  | BNull => DNull
  | BRegex p o => dobj1 "$regularExpression" (DObj [(bstr "pattern", DStr p); (bstr "options", DStr o)])
  | BDBPointer ns o => dobj1 "$dbPointer" (DObj [(bstr "$ref", DStr ns); (bstr "$id", DStr (hex o))])
  | BJavaScript s => dobj1 "$code" (DStr s)
  | BSymbol s => dobj1 "$symbol" (DStr s)
  | BCode c fs => DObj [(bstr "$code", DStr c); (bstr "$scope",
      DObj ((fix go fs := match fs with [] => [] | (k, v) :: r => (k, ext_data v) :: go r end) fs))]
  | BInt32 n | BInt64 n => DNum (itoa_signed n)
  | BTimestamp t i => dobj1 "$timestamp" (DObj [(bstr "t", DNum (itoa_signed t)); (bstr "i", DNum (itoa_signed i))])
  | BDecimal _ _ => DNull
  | BMinKey => dobj1 "$minKey" (DNum (bstr "1"))
  | BMaxKey => dobj1 "$maxKey" (DNum (bstr "1"))
  end.
Definition ext_data_fields (fs : list (bytes * bval)) : list (bytes * jdata) := map (fun kv => (fst kv, ext_data (snd kv))) fs.

Lemma data_fields fs : fields_in (fun t => data_of (ext fmt_time t) = ext_data t) fs ->
  elems_data (ext_fields fmt_time fs) = ext_data_fields fs.
Proof.
  induction 1 as [|[k t] fs E _ IH]; [reflexivity|]. cbn [ext_fields elems_data ext_data_fields map fst snd] in *.
  now rewrite E, IH.
Qed.
Lemma ext_data_go fs : (fix go fs := match fs with [] => [] | (k, v) :: r => (k, ext_data v) :: go r end) fs = ext_data_fields fs.
Proof. induction fs as [|[k v] r IH]; [reflexivity|]. cbn. now rewrite IH. Qed.
Lemma data_ext t : data_of (ext fmt_time t) = ext_data t.
Proof.
  induction t using bval_ind'; try reflexivity.
  - rewrite ext_doc. change (data_of (JDoc ?es)) with (DObj (elems_data es)). rewrite data_fields by auto.
    cbn [ext_data]. now rewrite ext_data_go.
  - cbn [ext data_of ext_data]. f_equal. rewrite map_map. induction H as [|t vs E _ IH]; [reflexivity|]. cbn [map]. now rewrite E, IH.
  - change (data_of (ext fmt_time (BCode c fs))) with
      (DObj [(bstr "$code", DStr c); (bstr "$scope", DObj (elems_data (ext_fields fmt_time fs)))]).
    rewrite data_fields by auto. cbn [ext_data]. now rewrite ext_data_go.
Qed.
Lemma data_ext_fields fs : elems_data (ext_fields fmt_time fs) = ext_data_fields fs.
Proof. apply data_fields, Forall_forall. intros. apply data_ext. Qed.
Lemma jgood_doc fs : wf_fields fs -> write_fields fmt_time fs -> jgood (JDoc (ext_fields fmt_time fs)).
Proof. intros W Wr. apply jgood_fields; auto. apply Forall_forall. intros kv _ W1 W2. exact (jgood_ext fmt_time _ W1 W2). Qed.

Theorem C78_partial n N fs es : wf_fields fs -> small fs -> write_fields fmt_time fs ->
  doc_obtained fs es N -> enough n (zlen (enc_doc fs)) ->
  exists t, doc_marshal_json fmt_time n es = Ret (inl t) /\ json t (DObj (ext_data_fields fs)).
Proof.
  intros W S Wr O F. destruct (doc_obtained_good n N fs es W S F O) as (R & _).
  unfold doc_marshal_json. rewrite (doc_json_rep fmt_time n es fs R W (write_shown fmt_time fs Wr) S F). cbn [bind].
  destruct (marshal_ok (JDoc (ext_fields fmt_time fs)) (jgood_doc fs W Wr)) as (t & M & V).
  exists t. split; [exact M|]. apply value_json. rewrite <- data_ext_fields. exact V.
Qed.
Lemma one_json n k t j : nul_free k -> wf t -> zlen k + zlen (enc_body t) < 2147483640 ->
  (forall v, rep k v t -> val_json fmt_time (S n) v = Ret j) ->
  exists es, build_doc [(k, t)] = Ret es /\ doc_json fmt_time (S n) es = Ret [JElem k j].
Proof.
  intros Nk W L J. destruct (build_rep t k Nk W) as (v & B & R).
  { unfold efits. rewrite zlen_enc_elem. lia. }
  exists [Some v]. cbn [build_doc]. rewrite B. split; [reflexivity|].
  unfold doc_json. cbn [mapM]. unfold elem_json. rewrite (elem_key_rep k _ t) by auto. cbn [bind item_json].
  rewrite J by auto. reflexivity.
Qed.
(* A decimal is written as the decimal with the two halves exchanged; a binary value as an
   object whose base64 depends on the subtype only, with the data, as they are, for subtype. *)
Theorem C78_decimal_refuted n k h l s : nul_free k -> zlen k < 2147483600 -> is_u64 h -> is_u64 l -> dec_string l h = Ret s ->
  exists es, build_doc [(k, BDecimal h l)] = Ret es /\
    doc_json fmt_time (S n) es = Ret [JElem k (JDoc [JElem (bstr "$numberDecimal") (JString s)])].
Proof.
  intros Nk L Hh Hl D. apply (one_json n k (BDecimal h l)); [exact Nk|exact (conj Hh Hl)|cbn [enc_body]; zlens; lia|].
  intros v R. rewrite val_json_S. cbv zeta. rewrite (rep_type _ _ _ R). cbn [bind tag Z.eqb Pos.eqb].
  destruct (rep_scalar _ _ _ R) as (pre & post & -> & Hf); [cbn; lia..|].
  rewrite v_decimal_lz by auto. cbn [bind]. rewrite D. reflexivity.
Qed.
Theorem C78_binary_refuted n k st b : nul_free k -> wf (BBinary st b) -> zlen k + zlen b < 2147483600 ->
  exists es, build_doc [(k, BBinary st b)] = Ret es /\
    doc_json fmt_time (S n) es = Ret [JElem k (JDoc [JElem (bstr "$binary")
      (JDoc [JElem (bstr "base64") (JString (encode_rune st)); JElem (bstr "subType") (JString b)])])].
Proof.
  intros Nk W L. apply (one_json n k (BBinary st b)); [exact Nk|exact W| |].
  { cbn [enc_body]. posl. destruct (st =? 2); zlens; lia. }
  intros v R. rewrite val_json_S. cbv zeta. rewrite (rep_type _ _ _ R). cbn [bind tag Z.eqb Pos.eqb].
  destruct (rep_scalar _ _ _ R) as (pre & post & -> & Hf); [cbn; lia..|].
  rewrite v_binary_lz by auto. reflexivity.
Qed.
End Data.

(* ------------------------------------------- C79: what comes back from the JSON of a document *)

Section Back.
Variable fmt_time : Z -> bytes.
Variable parse_time : bytes -> option Z.
Variable pf : bytes -> Z * bool.
Variable ff : Z -> bytes.
Notation survives := (survives fmt_time parse_time pf ff).
Notation survive_fields := (survive_fields fmt_time parse_time pf ff).

Lemma wf_renum t : wf t -> survives t -> wf (renum t).
Proof.
  assert (I1 : forall n, is_i64 n -> -2147483648 <= n -> wf (int_tree n)).
  { intros n I L. unfold int_tree. destruct (Z.ltb_spec n 2147483647); cbn; [unfold is_i32; lia|exact I]. }
  assert (I2 : forall fs, fields_in (fun t => wf t -> survives t -> wf (renum t)) fs -> wf_fields fs -> survive_fields fs ->
    wf_fields (renum_fields fs)).
  { intros fs. induction 1 as [|[k u] fs B _ IH]; intros W Sv; [constructor|].
    apply Forall_cons_iff in W as [[Wk Wt] W]. apply Forall_cons_iff in Sv as [[K Sv1] Sv2].
    constructor; [split; [exact Wk|now apply B]|now apply IH]. }
  induction t using bval_ind'; intros W Sv; try exact W.
  - apply wf_doc in W. apply survives_doc in Sv as [_ Sv]. rewrite renum_doc. apply wf_doc. now apply I2.
  - apply wf_array in W. apply survives_array in Sv. cbn [renum]. apply wf_array.
    induction H as [|t vs B _ IH]; [constructor|]. inversion_clear W. inversion_clear Sv. constructor; auto.
  - apply wf_code in W as [Wc W]. apply survives_code in Sv as [_ Sv]. rewrite renum_code. apply wf_code. split; [exact Wc|now apply I2].
  - cbn in *. apply I1; [unfold is_i32 in W; unfold is_i64; lia|exact Sv].
  - cbn in *. now apply I1.
Qed.
Lemma wf_renum_fields fs : wf_fields fs -> survive_fields fs -> wf_fields (renum_fields fs).
Proof.
  induction fs as [|[k t] fs IH]; intros W Sv; [constructor|].
  apply Forall_cons_iff in W as [[Wk Wt] W]. apply Forall_cons_iff in Sv as [[K Sv1] Sv2].
  constructor; [split; [exact Wk|now apply wf_renum]|now apply IH].
Qed.

(* what UnmarshalJSON adds to a document *)
Definition reads_as (t : bytes) (fs : list (bytes * bval)) : Prop :=
  exists es, build_doc fs = Ret es /\ forall d, doc_unmarshal_json parse_time pf ff d t = Ret (d ++ es, None).

(* the text of a document whose fields are shown, and the elements it parses to *)
Lemma write_parse n N fs es : wf_fields fs -> small fs -> write_fields fmt_time fs -> float_back pf ff (JDoc (ext_fields fmt_time fs)) ->
  doc_obtained fs es N -> enough n (zlen (enc_doc fs)) ->
  exists t, doc_marshal_json fmt_time n es = Ret (inl t) /\ doc_bytes pf ff t = Ret (inl (elems_int (ext_fields fmt_time fs))).
Proof.
  intros W S Wr Fl O F. destruct (doc_obtained_good n N fs es W S F O) as (R & _).
  unfold doc_marshal_json. rewrite (doc_json_rep fmt_time n es fs R W (write_shown fmt_time fs Wr) S F). cbn [bind].
  apply C27_document_partial; [now apply jgood_doc|exact Fl].
Qed.
Lemma elems_reads t es fs : doc_bytes pf ff t = Ret (inl es) -> Forall2 (makes_field parse_time) es fs -> wf_fields fs -> small fs ->
  reads_as t fs.
Proof.
  intros B M W S. unfold small, enc_doc in S. zlens_in S.
  destruct (conv_elems_good parse_time es fs M W ltac:(lia) []) as (e & _ & Bd).
  exists e. split; [exact Bd|]. intros d. unfold doc_unmarshal_json. rewrite B. cbn [bind].
  destruct (conv_elems_good parse_time es fs M W ltac:(lia) d) as (e2 & E & B2).
  rewrite E. congruence.
Qed.
Theorem C79_partial n N fs es : wf_fields fs -> small fs -> survive_fields fs -> doc_obtained fs es N ->
  enough n (zlen (enc_doc fs)) -> small (renum_fields fs) ->
  exists t, doc_marshal_json fmt_time n es = Ret (inl t) /\ reads_as t (renum_fields fs).
Proof.
  intros W S Sv O F S2.
  destruct (write_parse n N fs es W S (survive_write _ _ _ _ fs Sv)) as (t & M & B); auto.
  { apply (float_fields fmt_time parse_time pf ff); [|exact Sv]. apply Forall_forall. intros kv _. apply float_ext. }
  exists t. split; [exact M|]. apply (elems_reads t _ _ B); auto; [|now apply wf_renum_fields].
  apply (back_fields fmt_time parse_time pf ff fs); auto. apply Forall_forall. intros kv _. apply back_ok.
Qed.
(* the very same document, if its integers are as EC.Int makes them *)
Theorem C79_same_partial n fs es : wf_fields fs -> small fs -> survive_fields fs -> build_doc fs = Ret es ->
  enough n (zlen (enc_doc fs)) -> renum_fields fs = fs ->
  exists t, doc_marshal_json fmt_time n es = Ret (inl t) /\ doc_unmarshal_json parse_time pf ff [] t = Ret (es, None).
Proof.
  intros W S Sv B F E. destruct (C79_partial n (zlen (enc_doc fs)) fs es W S Sv) as (t & M & es' & B' & R); auto.
  - now constructor.
  - now rewrite E.
  - rewrite E in B'. exists t. split; [exact M|]. rewrite (R []). cbn [app]. congruence.
Qed.

(* An int64 below the int32s comes back as an int32 with its low 32 bits. *)
Theorem C79_int_refuted n k i es : is_i64 i -> i < -2147483648 -> nul_free k -> plain_key k -> zlen k < 2147483600 ->
  build_doc [(k, BInt64 i)] = Ret es -> enough n (zlen k + 100) ->
  exists t, doc_marshal_json fmt_time n es = Ret (inl t) /\ reads_as t [(k, BInt32 (i32 i))].
Proof.
  intros I L Nk K Lk B F.
  assert (Kb : bytes_ok k) by (eapply Forall_impl; [|exact K]; cbn; unfold is_u8; intros; lia).
  assert (Z1 : zlen (enc_doc [(k, BInt64 i)]) = zlen k + 15).
  { unfold enc_doc. cbn [enc_elems]. zlens. rewrite zlen_enc_elem. cbn [enc_body]. zlens. lia. }
  assert (Z2 : zlen (enc_doc [(k, BInt32 (i32 i))]) = zlen k + 11).
  { unfold enc_doc. cbn [enc_elems]. zlens. rewrite zlen_enc_elem. cbn [enc_body]. zlens. lia. }
  destruct (write_parse n (zlen (enc_doc [(k, BInt64 i)])) [(k, BInt64 i)] es) as (t & M & P).
  - constructor; [|constructor]. split; [split; [exact Kb|exact Nk]|exact I].
  - unfold small. lia.
  - constructor; [|constructor]. split; [exact K|exact Logic.I].
  - exact (conj Logic.I Logic.I).
  - now constructor.
  - unfold enough in *. lia.
  - exists t. split; [exact M|]. apply (elems_reads t _ _ P).
    + constructor; [|constructor]. split; [reflexivity|]. apply makes_build. intros k'. cbn [snd as_int ext conv].
      unfold ec_int. replace (i <? 2147483647) with true by lia. reflexivity.
    + constructor; [|constructor]. split; [split; [exact Kb|exact Nk]|]. apply i32_range.
    + unfold small. lia.
Qed.
(* A date comes back without its milliseconds, if the text of an instant has no fraction. *)
Theorem C79_date_refuted n k ms es : is_i64 ms -> is_i64 (ms / 1000 * 1000) -> bytes_ok (fmt_time (ms * 1000000)) ->
  parse_time (fmt_time (ms * 1000000)) = Some (ms * 1000000 / 1000000000 * 1000000000) ->
  nul_free k -> plain_key k -> zlen k < 2147483600 ->
  build_doc [(k, BDateTime ms)] = Ret es -> enough n (zlen k + 100) ->
  exists t, doc_marshal_json fmt_time n es = Ret (inl t) /\ reads_as t [(k, BDateTime (ms / 1000 * 1000))].
Proof.
  intros I I2 T1 T2 Nk K Lk B F.
  assert (Kb : bytes_ok k) by (eapply Forall_impl; [|exact K]; cbn; unfold is_u8; intros; lia).
  assert (Z1 : forall m, zlen (enc_doc [(k, BDateTime m)]) = zlen k + 15).
  { intros m. unfold enc_doc. cbn [enc_elems]. zlens. rewrite zlen_enc_elem. cbn [enc_body]. zlens. lia. }
  destruct (write_parse n (zlen (enc_doc [(k, BDateTime ms)])) [(k, BDateTime ms)] es) as (t & M & P).
  - constructor; [|constructor]. split; [split; [exact Kb|exact Nk]|exact I].
  - unfold small. rewrite Z1. lia.
  - constructor; [|constructor]. split; [exact K|exact T1].
  - exact (conj (conj Logic.I Logic.I) Logic.I).
  - now constructor.
  - unfold enough in *. rewrite Z1. lia.
  - exists t. split; [exact M|]. apply (elems_reads t _ _ P).
    + constructor; [|constructor]. split; [reflexivity|]. apply makes_build. intros k'. cbn [snd].
      change (conv parse_time k' (as_int (ext fmt_time (BDateTime ms)))) with
        (match parse_time (fmt_time (ms * 1000000)) with None => Ret (inr e_time) | Some ns => made (ec_time k' ns) end).
      rewrite T2. cbn [build]. unfold ec_time. do 2 f_equal. rewrite i64_i64_plus.
      rewrite i64_id; unfold is_i64 in *; lia.
    + constructor; [|constructor]. split; [split; [exact Kb|exact Nk]|]. exact I2.
    + unfold small. rewrite Z1. lia.
Qed.
(* An embedded document whose first key is $minKey comes back as a MinKey. *)
Theorem C79_special_refuted n k x fs es : let fs0 := [(k, BDoc ((s_minkey, x) :: fs))] in
  nul_free k -> plain_key k -> wf_fields fs0 -> small fs0 -> survive_fields ((s_minkey, x) :: fs) ->
  build_doc fs0 = Ret es -> enough n (zlen (enc_doc fs0)) ->
  exists t, doc_marshal_json fmt_time n es = Ret (inl t) /\ reads_as t [(k, BMinKey)].
Proof.
  intros fs0 Nk K W S Sv B F.
  destruct (write_parse n (zlen (enc_doc fs0)) fs0 es W S) as (t & M & P).
  - constructor; [|constructor]. split; [exact K|]. apply writable_doc. now apply (survive_write _ _ _ _ _ Sv).
  - refine (conj _ Logic.I). apply (float_fields fmt_time parse_time pf ff ((s_minkey, x) :: fs)); [|exact Sv]. apply Forall_forall. intros kv _. apply float_ext.
  - now constructor.
  - exact F.
  - exists t. split; [exact M|]. apply (elems_reads t _ _ P).
    + constructor; [|constructor]. split; [reflexivity|]. apply makes_build. reflexivity.
    + unfold fs0 in W. apply Forall_cons_iff in W as [[W _] _]. constructor; [|constructor]. split; [exact W|exact Logic.I].
    + unfold small, fs0 in *. unfold enc_doc in *. cbn [enc_elems] in *. zlens. zlens_in S. rewrite zlen_enc_elem in *. cbn [enc_body] in *. posl.
      change (zlen (@nil Z)) with 0. lia.
Qed.
(* The JSON of a binary value cannot be read: UnmarshalJSON panics. *)
Theorem C79_binary_refuted n k st b es : nul_free k -> plain_key k -> wf (BBinary st b) -> zlen k + zlen b < 2147483600 ->
  build_doc [(k, BBinary st b)] = Ret es ->
  exists t, doc_marshal_json fmt_time (S n) es = Ret (inl t) /\ forall d, doc_unmarshal_json parse_time pf ff d t = Panic p_assert.
Proof.
  intros Nk K W L B. destruct (C78_binary_refuted fmt_time n k st b Nk W L) as (es' & B' & J).
  assert (es' = es) by congruence. subst es'. unfold doc_marshal_json. rewrite J. cbn [bind].
  match goal with |- exists t, Json.doc_marshal ?js = _ /\ _ => destruct (C27_document_partial pf ff js) as (t & M & P) end.
  - cbn in W. assert (plain_key s_binary) by (now apply plain_lit).
    assert (plain_key (bstr "base64")) by (now apply plain_lit). assert (plain_key (bstr "subType")) by (now apply plain_lit).
    assert (bytes_ok (encode_rune st)).
    { destruct W as [U _]. unfold subtype_ok, is_u8 in U. unfold encode_rune. destruct (Z.leb_spec st 127); [constructor; [unfold is_u8; lia|constructor]|].
      replace (st <=? 2047) with true by lia. constructor; [unfold is_u8; lia|]. constructor; [unfold is_u8; lia|constructor]. }
    cbn [jgood]. tauto.
  - cbn. tauto.
  - exists t. split; [exact M|]. intros d. unfold doc_unmarshal_json. rewrite P. reflexivity.
Qed.
End Back.

(* ------------------------------------------------- C80: UnmarshalJSON and panics *)

Fixpoint jdata_tree (P : jdata -> Prop) (Hn : P DNull) (Hb : forall b, P (DBool b)) (Hd : forall t, P (DNum t)) (Hs : forall s, P (DStr s))
  (Ha : forall vs, Forall P vs -> P (DArr vs)) (Ho : forall ms, Forall (fun m => P (snd m)) ms -> P (DObj ms)) (d : jdata) : P d :=
  let tree := jdata_tree P Hn Hb Hd Hs Ha Ho in
  match d with
  | DNull => Hn | DBool b => Hb b | DNum t => Hd t | DStr s => Hs s
  | DArr vs => Ha vs ((fix all vs : Forall P vs := match vs with [] => Forall_nil _ | v :: r => Forall_cons v (tree v) (all r) end) vs)
  | DObj ms => Ho ms ((fix all ms : Forall (fun m => P (snd m)) ms :=
      match ms with [] => Forall_nil _ | m :: r => Forall_cons m (tree (snd m)) (all r) end) ms)
  end.

(* the bytes of the strings and keys of a value *)
Fixpoint weight (d : jdata) : Z :=
  match d with
  | DStr s => zlen s
  | DArr vs => (fix go vs := match vs with [] => 0 | v :: r => weight v + go r end) vs
  | DObj ms => (fix go ms := match ms with [] => 0 | (k, v) :: r => zlen k + weight v + go r end) ms
  | _ => 0
  end.
Fixpoint weights (vs : list jdata) : Z := match vs with [] => 0 | v :: r => weight v + weights r end.
Fixpoint mweights (ms : list (bytes * jdata)) : Z := match ms with [] => 0 | (k, v) :: r => zlen k + weight v + mweights r end.
Lemma weight_arr vs : weight (DArr vs) = weights vs. Proof. reflexivity. Qed.
Lemma weight_obj ms : weight (DObj ms) = mweights ms. Proof. reflexivity. Qed.
Lemma weight_pos d : 0 <= weight d.
Proof.
  induction d as [|b|t|s|vs F|ms F] using jdata_tree; try (cbn; lia).
  - cbn. apply zlen_nonneg.
  - rewrite weight_arr. induction F as [|v vs W _ IH]; cbn [weights]; lia.
  - rewrite weight_obj. induction F as [|[k v] ms W _ IH]; cbn [mweights snd] in *; [lia|]. pose proof (zlen_nonneg k). lia.
Qed.
Lemma encode_rune_len r : (length (encode_rune r) <= 4)%nat.
Proof. unfold encode_rune. repeat (destruct (_ : bool)); cbn; lia. Qed.
Lemma unescape_2 d r : unescape (92 :: d :: r) =
  if d =? 92 then 92 :: unescape r else if d =? 47 then 47 :: unescape r else if d =? 98 then 8 :: unescape r else
  if d =? 102 then 12 :: unescape r else if d =? 110 then 10 :: unescape r else if d =? 114 then 13 :: unescape r else
  if d =? 116 then 9 :: unescape r else if d =? 34 then 34 :: unescape r else
  if d =? 117 then match r with _ :: _ :: _ :: _ :: _ => unescape (92 :: 117 :: r) | _ => [] end else [].
Proof.
  destruct (Z.eqb_spec d 117) as [->|N]; [destruct r as [|a [|b [|c [|e r]]]]; reflexivity|].
  cbn [unescape]. change (92 <? 32) with false. change (92 =? 92) with true. cbv iota. replace (d =? 117) with false by lia. reflexivity.
Qed.
Lemma unescape_len n : forall s, (length s <= n)%nat -> (length (unescape s) <= length s)%nat.
Proof.
  induction n as [|n IH]; intros s L; [destruct s; [cbn; lia|cbn in L; lia]|].
  destruct s as [|c r]; [cbn; lia|]. cbn [length] in L.
  destruct (Z.eqb_spec c 92) as [->|N].
  - destruct r as [|d r]; [cbn; lia|]. cbn [length] in L. rewrite unescape_2. pose proof (IH r ltac:(lia)) as I.
    assert (forall x, (length (x :: unescape r) <= length (92%Z :: d :: r))%nat) as C by (intros; cbn [length]; lia).
    repeat (match goal with |- (length (if ?b then _ else _) <= _)%nat => destruct b; [try apply C|] end); try (cbn; lia).
    destruct r as [|h1 [|h2 [|h3 [|h4 r]]]]; try (cbn; lia). rewrite unescape_u. cbv zeta. cbn [length] in *.
    assert (forall x, (length (encode_rune x ++ unescape r) <= S (S (S (S (S (S (length r)))))))%nat) as E.
    { intros x. rewrite app_length. pose proof (encode_rune_len x). specialize (IH r ltac:(lia)). lia. }
    destruct r as [|b [|u [|g1 [|g2 [|g3 [|g4 r]]]]]]; try apply E.
    destruct (_ && _ && _); [|apply E]. rewrite app_length. cbn [length] in *.
    match goal with |- (length (encode_rune ?x) + _ <= _)%nat => pose proof (encode_rune_len x) end. specialize (IH r ltac:(lia)). lia.
  - cbn [unescape]. destruct (c <? 32); [cbn; lia|]. replace (c =? 92) with false by lia. cbn [length]. specialize (IH r ltac:(lia)). lia.
Qed.
Lemma ub_len t s : ub t s -> zlen s <= zlen t.
Proof. intros [_ <-]. pose proof (unescape_len (length t) t (le_n _)). unfold zlen. lia. Qed.
Lemma weight_text :
  (forall t v, value_text loose_number ub t v -> weight v <= zlen t) /\
  (forall t vs, items loose_number ub t vs -> weights vs <= zlen t) /\
  (forall t ms, members loose_number ub t ms -> mweights ms <= zlen t).
Proof.
  apply json_mut; intros; rewrite ?weight_arr, ?weight_obj; cbn [weight weights mweights];
    repeat match goal with H : ub _ _ |- _ => apply ub_len in H end; zlens; posl; try lia.
Qed.

(* the forms of extended JSON that are as they should be: a string where a string is
   expected, an object where an object is, and a scope that is not itself such a form *)
Definition of_string : list bytes := [s_decimal; s_symbol; s_date; s_oid; s_binary].
Definition of_object : list bytes := [s_timestamp; s_dbpointer; s_regex].
Definition is_str (d : jdata) : Prop := match d with DStr _ => True | _ => False end.
Definition is_obj (d : jdata) : Prop := match d with DObj _ => True | _ => False end.
Definition plain_obj (d : jdata) : Prop :=
  match d with DObj [] => True | DObj ((k, _) :: _) => ~ In k special | _ => False end.
Fixpoint typed (d : jdata) : Prop :=
  match d with
  | DArr vs => (fix go vs := match vs with [] => True | v :: r => typed v /\ go r end) vs
  | DObj ms =>
      (match ms with
       | (k, v) :: r => (In k of_string -> is_str v) /\ (In k of_object -> is_obj v) /\
           (k = s_code -> match r with (k1, v1) :: _ => k1 = s_scope -> plain_obj v1 | [] => True end)
       | [] => True
       end) /\
      (fix go ms := match ms with [] => True | (_, v) :: r => typed v /\ go r end) ms
  | _ => True
  end.
Section Reading.
Variable parse_time : bytes -> option Z.
Variable pf : bytes -> Z * bool.
Variable ff : Z -> bytes.
Notation value_of := (value_of (num_value pf ff)).
Notation values_of := (values_of (num_value pf ff)).
Notation elems_of := (elems_of (num_value pf ff)).

(* A string is expected after these keys, and UnmarshalJSON panics if there is none. *)
Theorem C80_panics_refuted k key v w t d : In key of_string -> ~ is_str v -> value_of v = inl w -> json t (DObj [(k, DObj [(key, v)])]) ->
  doc_unmarshal_json parse_time pf ff d t = Panic p_assert.
Proof.
  intros I N V J. unfold doc_unmarshal_json. destruct (C76_reads pf ff t _ J) as (_ & R & _). rewrite R.
  cbn [JsonParse.elems_of]. rewrite value_of_obj. cbn [JsonParse.elems_of]. rewrite V. cbn [bind].
  assert (str_must w = Panic p_assert) as E.
  { destruct v as [| | t'| |vs|ms]; try (exfalso; exact (N Logic.I)).
    - injection V as <-. reflexivity.
    - injection V as <-. reflexivity.
    - cbn [JsonParse.value_of] in V. unfold num_value in V. destruct (parse_int _); [injection V as <-; reflexivity|].
      destruct (pf _) as [x [|]]; [injection V as <-; reflexivity|discriminate].
    - rewrite value_of_arr in V. destruct (values_of vs); [injection V as <-; reflexivity|discriminate].
    - rewrite value_of_obj in V. destruct (elems_of ms); [injection V as <-; reflexivity|discriminate]. }
  cbn [conv_elems]. assert (conv parse_time k (JDoc [JElem key w]) = Panic p_assert) as ->; [|reflexivity].
  destruct I as [<-|[<-|[<-|[<-|[<-|[]]]]]]; 
    match goal with |- conv parse_time k (JDoc [JElem ?s w]) = _ =>
      change (conv parse_time k (JDoc [JElem s w])) with (bind (str_must w) (fun s' => match conv parse_time k (JDoc [JElem s (JString s')]) with r => r end)) end;
    now rewrite E.
Qed.

Lemma num_kind t v : num_value pf ff t = inl v -> (exists n, v = JInt KInt n) \/ exists x, v = JFloat K64 x.
Proof.
  unfold num_value. destruct (parse_int _) as [n|]; [intros E; injection E as <-; eauto|].
  destruct (pf _) as [x [|]]; [intros E; injection E as <-; eauto|discriminate].
Qed.
Definition returns {A} (x : go A) : Prop := exists r, x = Ret r.
Lemma made_returns x : returns x -> returns (made x).
Proof. intros [r ->]. now exists (inl r). Qed.
Definition fine (d : jdata) : Prop := forall v k, value_of d = inl v -> typed d -> zlen k + weight d < 2147483600 ->
  returns (conv parse_time k v).
Lemma typed_obj ms : typed (DObj ms) -> Forall (fun m => typed (snd m)) ms.
Proof. cbn [typed]. intros [_ H]. induction ms as [|[k v] r IH]; [constructor|]. destruct H as [H1 H2]. constructor; auto. Qed.
Lemma fine_elems ms : Forall (fun m => fine (snd m)) ms -> Forall (fun m => typed (snd m)) ms -> mweights ms < 2147483600 ->
  forall es, elems_of ms = inl es -> forall acc, returns (conv_elems parse_time es acc).
Proof.
  induction 1 as [|[k d] ms F _ IH]; intros T L es E acc.
  - injection E as <-. eexists. reflexivity.
  - inversion_clear T as [|? ? T1 T2]. cbn [fst snd mweights JsonParse.elems_of] in *. pose proof (zlen_nonneg k). pose proof (weight_pos d).
    assert (0 <= mweights ms) by (rewrite <- weight_obj; apply weight_pos).
    destruct (value_of d) as [v|] eqn:V; [|discriminate]. destruct (elems_of ms) as [es'|]; [|discriminate]. injection E as <-.
    cbn [conv_elems]. destruct (F v k V T1 ltac:(lia)) as [[w|e] ->]; cbn [bind]; [|eexists; reflexivity]. now apply IH; [|lia|].
Qed.
(* the values of a text hold nothing nil *)
Definition real (v : jval) : Prop := v <> JNil /\ v <> JNilDoc.
Definition real_elem (e : jelem) : Prop := match e with JElem _ v => real v | JNoElem => False end.
Lemma value_real d v : value_of d = inl v -> real v.
Proof.
  intros V. destruct d as [|b|t|s|vs|ms].
  - injection V as <-. split; discriminate.
  - injection V as <-. split; discriminate.
  - apply num_kind in V as [[n ->]|[x ->]]; split; discriminate.
  - injection V as <-. split; discriminate.
  - rewrite value_of_arr in V. destruct (values_of vs); [injection V as <-; split; discriminate|discriminate].
  - rewrite value_of_obj in V. destruct (elems_of ms); [injection V as <-; split; discriminate|discriminate].
Qed.
Lemma value_str d s : value_of d = inl (JString s) -> d = DStr s.
Proof.
  intros V. destruct d as [|b|t|s'|vs|ms]; try discriminate.
  - apply num_kind in V as [[n E]|[x E]]; discriminate.
  - now injection V as <-.
  - rewrite value_of_arr in V. destruct (values_of vs); discriminate.
  - rewrite value_of_obj in V. destruct (elems_of ms); discriminate.
Qed.
Lemma str_ok_real v : real v -> str_ok v = Ret (match v with JString s => Some s | _ => None end).
Proof. intros [N _]. destruct v; try reflexivity. contradiction. Qed.
Lemma elems_real ms : forall es, elems_of ms = inl es -> Forall real_elem es.
Proof.
  induction ms as [|[k d] ms IH]; intros es E; [injection E as <-; constructor|]. cbn [JsonParse.elems_of] in E.
  destruct (value_of d) as [v|] eqn:V; [|discriminate]. destruct (elems_of ms) as [es'|]; [|discriminate]. injection E as <-.
  constructor; [exact (value_real d v V)|now apply IH].
Qed.
Lemma ts_loop_returns es : Forall real_elem es -> forall n t i, returns (ts_loop (firstn n es) t i).
Proof.
  induction 1 as [|[|k v] es R _ IH]; intros [|n] t i; try (eexists; reflexivity); [contradiction|]. cbn [firstn ts_loop].
  assert (exists x, int_ok v = Ret x) as [x ->] by (destruct R as [R _]; destruct v; try (eexists; reflexivity); [contradiction|destruct k0; eexists; reflexivity]).
  cbn [bind]. destruct (bytes_eqb k (bstr "t")); [destruct x; [apply IH|eexists; reflexivity]|].
  destruct (bytes_eqb k (bstr "i")); [destruct x; [apply IH|eexists; reflexivity]|apply IH].
Qed.
Lemma str_loop_returns a b ms : forall es, elems_of ms = inl es -> forall n x y, exists r, str_loop a b (firstn n es) x y = Ret r /\
  match r with inl (x', y') => zlen x' + zlen y' <= zlen x + zlen y + mweights ms | inr _ => True end.
Proof.
  induction ms as [|[k d] ms IH]; intros es E n x y.
  { injection E as <-. exists (inl (x, y)). destruct n; (split; [reflexivity|cbn; lia]). }
  cbn [JsonParse.elems_of mweights] in *. destruct (value_of d) as [v|] eqn:V; [|discriminate].
  destruct (elems_of ms) as [es'|] eqn:Es; [|discriminate]. injection E as <-. specialize (IH es' eq_refl).
  pose proof (zlen_nonneg k). pose proof (weight_pos d). pose proof (zlen_nonneg x). pose proof (zlen_nonneg y).
  assert (0 <= mweights ms) by (rewrite <- weight_obj; apply weight_pos).
  destruct n as [|n]; [exists (inl (x, y)); split; [reflexivity|lia]|]. cbn [firstn str_loop].
  rewrite (str_ok_real v (value_real d v V)). cbn [bind].
  assert (forall x2 y2, zlen x2 + zlen y2 <= zlen x + zlen y + weight d -> exists r, str_loop a b (firstn n es') x2 y2 = Ret r /\
    match r with inl (x', y') => zlen x' + zlen y' <= zlen x + zlen y + (zlen k + weight d + mweights ms) | inr _ => True end) as C.
  { intros x2 y2 L. destruct (IH n x2 y2) as (r & E & B). exists r. split; [exact E|]. destruct r as [[x' y']|]; [lia|auto]. }
  assert (forall s, v = JString s -> weight d = zlen s) as Q by (intros s ->; apply value_str in V as ->; reflexivity).
  destruct (bytes_eqb k a); [destruct v; try (eexists; split; [reflexivity|exact Logic.I]); apply C; rewrite (Q s eq_refl); lia|].
  destruct (bytes_eqb k b); [destruct v; try (eexists; split; [reflexivity|exact Logic.I]); apply C; rewrite (Q s eq_refl); lia|].
  apply C. lia.
Qed.
Lemma ec_code_returns k c es : zlen k + zlen c + 11 < 2147483648 -> returns (ec_code_with_scope k c es).
Proof.
  intros Hl. unfold ec_code_with_scope, buf, hdr. posl. u32s. i32s.
  set (l4 := le32 (1 + zlen k + 1 + 4 + 4 + zlen c + 1)).
  rewrite (built_exact (15 :: enc_cstring k ++ l4 ++ enc_string c) (zeros (1 + zlen k + 1 + (4 + 4 + zlen c + 1)))).
  3:{ unfold l4. rewrite zlen_zeros by lia. zl. }
  2:{ apply (writes_seq [15]); [lia|apply byte_writes; lia|]. intros.
      apply writes_seq; [zl|apply cstring_writes; zl|]. intros. zlens.
      replace (0 + (1 + 0) + (zlen k + 1)) with (1 + zlen k + 1) by lia.
      apply writes_seq; [zl|apply int32_writes; zl|]. intros. unfold l4; zlens.
      apply string_writes; zl. }
  eexists. reflexivity.
Qed.
Ltac size := unfold efits; rewrite zlen_enc_elem; cbn [enc_body enc_string enc_cstring]; unfold enc_string, enc_cstring; zlens; posl; lia.
Lemma fine_all d : fine d.
Proof.
  induction d as [|b|t|s|vs F|ms F] using jdata_tree; intros v k V T L; pose proof (zlen_nonneg k) as Lk.
  - injection V as <-. cbn [weight] in L. apply made_returns. eexists. apply ec_null_lz. size.
  - injection V as <-. cbn [weight] in L. apply made_returns. eexists. apply ec_boolean_lz. size.
  - apply num_kind in V as [[n ->]|[x ->]]; cbn [weight] in L; apply made_returns.
    + unfold ec_int. destruct (n <? 2147483647); eexists; [apply ec_int32_lz|apply ec_int64_lz]; size.
    + eexists. apply ec_double_lz. size.
  - injection V as <-. cbn [weight] in L. apply made_returns. eexists. apply ec_string_lz. size.
  - rewrite value_of_arr in V. destruct (values_of vs) as [js|] eqn:E; [|discriminate]. injection V as <-.
    rewrite weight_arr in L. rewrite conv_arr.
    assert (forall acc, returns (conv_vals parse_time js acc)) as C.
    { cbn [typed] in T. clear Lk. assert (weights vs < 2147483600) as L' by (pose proof (zlen_nonneg k); lia). clear L.
      revert js E. induction F as [|d vs Fd _ IH]; intros js E acc; [injection E as <-; eexists; reflexivity|].
      destruct T as [T1 T2]. cbn [JsonParse.values_of weights] in *. pose proof (weight_pos d).
      assert (0 <= weights vs) by (rewrite <- weight_arr; apply weight_pos).
      destruct (value_of d) as [w|] eqn:V; [|discriminate]. destruct (values_of vs) as [js'|]; [|discriminate]. injection E as <-.
      cbn [conv_vals]. destruct (Fd w [] V T1) as [[x|e] ->]; [change (zlen (@nil Z)) with 0; lia| |]; cbn [bind]; [|eexists; reflexivity].
      apply IH; auto. lia. }
    destruct (C []) as [[d [e|]] ->]; cbn [bind sub_of]; [eexists; reflexivity|].
    unfold ec_array. pose proof (weight_pos (DArr vs)) as Wp. rewrite weight_arr in Wp. rewrite built_hdr by lia. eexists. reflexivity.
  - rewrite value_of_obj in V. destruct (elems_of ms) as [es|] eqn:E; [|discriminate]. injection V as <-.
    rewrite weight_obj in L. pose proof (typed_obj ms T) as T'.
    assert (0 <= mweights ms) as Wp by (rewrite <- weight_obj; apply weight_pos).
    pose proof (fine_elems ms F T' ltac:(lia) es E) as C.
    assert (N : (match es with JElem k0 _ :: _ => ~ In k0 special | _ => True end) -> returns (conv parse_time k (JDoc es))).
    { intros N. rewrite (conv_doc parse_time k es N). destruct (C []) as [[d [e|]] ->]; cbn [bind sub_of]; [eexists; reflexivity|].
      unfold ec_subdocument. rewrite built_hdr by lia. eexists. reflexivity. }
    destruct ms as [|[k0 d0] ms]; [injection E as <-; apply N; exact Logic.I|].
    cbn [JsonParse.elems_of] in E. destruct (value_of d0) as [v0|] eqn:V0; [|discriminate].
    destruct (elems_of ms) as [es'|] eqn:Es; [|discriminate]. injection E as <-.
    destruct (in_dec (list_eq_dec Z.eq_dec) k0 special) as [I|NI]; [|exact (N NI)]. clear N C.
    cbn [mweights] in *. pose proof (zlen_nonneg k0). pose proof (weight_pos d0).
    assert (0 <= mweights ms) by (rewrite <- weight_obj; apply weight_pos).
    destruct T as [(T1 & T2 & T3) _].
    assert (S1 : In k0 of_string -> exists s, v0 = JString s /\ zlen s = weight d0).
    { intros I1. specialize (T1 I1). destruct d0; try contradiction. injection V0 as <-. eauto. }
    assert (S2 : In k0 of_object -> exists ms0 fs, v0 = JDoc fs /\ elems_of ms0 = inl fs /\ mweights ms0 = weight d0).
    { intros I1. specialize (T2 I1). destruct d0 as [| | | | |ms0]; try contradiction. rewrite value_of_obj in V0.
      destruct (elems_of ms0) as [fs|] eqn:E0; [|discriminate]. injection V0 as <-. eauto. }
    destruct I as [<-|[<-|[<-|[<-|[<-|[<-|[<-|[<-|[<-|[<-|[<-|[<-|[]]]]]]]]]]]]].
    + change (returns (made (ec_minkey k))). apply made_returns. eexists. apply ec_minkey_lz. size.
    + change (returns (made (ec_maxkey k))). apply made_returns. eexists. apply ec_maxkey_lz. size.
    + destruct S1 as (s & -> & Ls); [cbn; tauto|].
      change (returns (d <- dec_parse s ;; match d with None => Ret (inr e_dec) | Some (h, l) => made (ec_decimal k h l) end)).
      destruct (C56_parse_total s) as [[[h l]|] ->]; cbn [bind]; [|eexists; reflexivity]. apply made_returns. eexists. apply ec_decimal_lz. size.
    + destruct S2 as (ms0 & fs & -> & E0 & L0); [cbn; tauto|].
      change (returns (x <- ts_loop (firstn 3 fs) 0 0 ;;
        match x with inr e => Ret (inr e) | inl (t, i) => made (ec_timestamp k (u32 t) (u32 i)) end)).
      destruct (ts_loop_returns fs (elems_real ms0 fs E0) 3%nat 0 0) as [[[t i]|e] ->]; cbn [bind]; [|eexists; reflexivity].
      apply made_returns. eexists. apply ec_timestamp_lz. size.
    + destruct S1 as (s & -> & Ls); [cbn; tauto|]. change (returns (made (ec_symbol k s))). apply made_returns. eexists. apply ec_symbol_lz. size.
    + change (returns (s <- str_ok v0 ;;
            match s with
            | None => Ret (inr e_code)
            | Some js =>
                match es' with
                | JElem k1 v1 :: _ =>
                    if bytes_eqb k1 [] then made (ec_javascript k js) else
                    if bytes_eqb k1 s_scope then
                      x <- conv parse_time k1 v1 ;;
                      match x with
                      | inr e => Ret (inr e)
                      | inl w => d <- v_mutable_document O (Some w) ;; made (ec_code_with_scope k js d)
                      end
                    else Ret (inr e_code)
                | _ => made (ec_javascript k js)
                end
            end)).
      rewrite (str_ok_real v0 (value_real d0 v0 V0)). cbn [bind]. destruct v0 as [| |js| | | | | | | |]; try (eexists; reflexivity).
      apply value_str in V0 as ->. cbn [weight] in *.
      assert (returns (made (ec_javascript k js))) as J by (apply made_returns; eexists; apply ec_javascript_lz; size).
      destruct ms as [|[k1 d1] ms]; cbn [JsonParse.elems_of] in Es; [injection Es as <-; exact J|].
      destruct (value_of d1) as [v1|] eqn:V1; [|discriminate]. destruct (elems_of ms) as [es''|]; [|discriminate]. injection Es as <-.
      destruct (bytes_eqb k1 []); [exact J|]. destruct (bytes_eqb k1 s_scope) eqn:Ek; [|eexists; reflexivity].
      apply bytes_eqb_eq in Ek. subst k1. specialize (T3 eq_refl eq_refl). cbn [snd mweights] in *.
      assert (0 <= mweights ms) by (rewrite <- weight_obj; apply weight_pos). pose proof (weight_pos d1) as Wd.
      inversion F as [|? ? _ F1]; subst. inversion F1 as [|? ? F2 _]; subst. inversion T' as [|? ? _ T4]; subst. inversion T4 as [|? ? T5 _]; subst. cbn [snd] in *.
      pose proof (zlen_nonneg js).
      destruct (F2 v1 s_scope V1 T5 ltac:(lia)) as [[w|e] Ew]; rewrite Ew; cbn [bind]; [|eexists; reflexivity].
      assert (exists d, v_mutable_document O (Some w) = Ret d) as [d ->].
      { destruct d1 as [| | | | |ms1]; try contradiction. rewrite value_of_obj in V1. destruct (elems_of ms1) as [es1|] eqn:E1; [|discriminate].
        injection V1 as <-. rewrite conv_doc in Ew.
        2:{ destruct ms1 as [|[k2 d2] ms1]; [injection E1 as <-; exact Logic.I|]. cbn [JsonParse.elems_of] in E1.
            destruct (value_of d2); [|discriminate]. destruct (elems_of ms1); [|discriminate]. injection E1 as <-. exact T3. }
        destruct (conv_elems parse_time es1 []) as [[d [e|]]| |]; cbn [bind sub_of] in Ew; try discriminate.
        unfold ec_subdocument in Ew. rewrite built_hdr in Ew by reflexivity. cbn [bind] in Ew. injection Ew as <-. exists d. reflexivity. }
      cbn [bind]. apply made_returns. apply ec_code_returns. lia.
    + destruct S2 as (ms0 & fs & -> & E0 & L0); [cbn; tauto|].
      change (returns (x <- str_loop (bstr "$ref") (bstr "$id") (firstn 2 fs) [] [] ;;
            match x with
            | inr e => Ret (inr e)
            | inl (ns, oid) =>
                if bytes_eqb ns [] || bytes_eqb oid [] then Ret (inr e_dbref) else
                match oid_from_hex oid with
                | (_, Some e) => Ret (inr e)
                | (o, None) => made (ec_dbpointer k ns o)
                end
            end)).
      destruct (str_loop_returns (bstr "$ref") (bstr "$id") ms0 fs E0 2%nat [] []) as (r & -> & B). cbn [bind].
      destruct r as [[ns oid]|e]; [|eexists; reflexivity]. change (zlen (@nil Z)) with 0 in B. pose proof (zlen_nonneg oid).
      destruct (_ || _); [eexists; reflexivity|]. destruct (oid_from_hex oid) as [o [e|]] eqn:Eo; [eexists; reflexivity|].
      apply C22_from_hex_exact in Eo as [[_ Lo] _]. apply made_returns. eexists. apply ec_dbpointer_lz; [unfold zlen; now rewrite Lo|].
      assert (zlen o = 12) by (unfold zlen; now rewrite Lo). size.
    + destruct S2 as (ms0 & fs & -> & E0 & L0); [cbn; tauto|].
      change (returns (x <- str_loop (bstr "pattern") (bstr "options") (firstn 2 fs) [] [] ;;
            match x with inr e => Ret (inr e) | inl (p, o) => made (ec_regex k p o) end)).
      destruct (str_loop_returns (bstr "pattern") (bstr "options") ms0 fs E0 2%nat [] []) as (r & -> & B). cbn [bind].
      destruct r as [[p o]|e]; [|eexists; reflexivity]. change (zlen (@nil Z)) with 0 in B. apply made_returns. eexists. apply ec_regex_lz. size.
    + destruct S1 as (s & -> & Ls); [cbn; tauto|].
      change (returns (match parse_time s with None => Ret (inr e_time) | Some ns => made (ec_time k ns) end)).
      destruct (parse_time s) as [ns|]; [|eexists; reflexivity]. apply made_returns. eexists. apply ec_datetime_lz. size.
    + destruct S1 as (s & -> & Ls); [cbn; tauto|].
      change (returns (match oid_from_hex s with (_, Some e) => Ret (inr e) | (o, None) => made (ec_objectid k o) end)).
      destruct (oid_from_hex s) as [o [e|]] eqn:Eo; [eexists; reflexivity|].
      apply C22_from_hex_exact in Eo as [[_ Lo] _]. assert (zlen o = 12) by (unfold zlen; now rewrite Lo).
      apply made_returns. eexists. apply ec_objectid_lz; [auto|]. size.
    + change (returns (made (ec_undefined k))). apply made_returns. eexists. apply ec_undefined_lz. size.
    + destruct S1 as (s & -> & Ls); [cbn; tauto|]. change (returns (made (ec_binary k s))). apply made_returns. eexists.
      apply ec_binary_subtype_lz. unfold efits. rewrite zlen_enc_elem. cbn [enc_body Z.eqb]. zlens. posl. lia.
Qed.

Theorem C80_partial t d0 : zlen t < 2147483600 -> (forall d, text loose_number ub t d -> typed d) ->
  (exists r, doc_unmarshal_json parse_time pf ff d0 t = Ret r) /\ (exists r, arr_unmarshal_json parse_time pf ff d0 t = Ret r) /\
  (exists r, val_unmarshal_json parse_time pf ff t = Ret r).
Proof.
  intros L T. unfold doc_unmarshal_json, arr_unmarshal_json, val_unmarshal_json.
  destruct (validate_total t) as [[|] A].
  2:{ unfold val_bytes, doc_bytes, arr_bytes, parse_bytes. rewrite A. cbn [bind]. split; [|split]; eexists; reflexivity. }
  destruct (validate_sound t A) as (v & w1 & u & w2 & W1 & V & W2 & ->).
  destruct (proj1 (text_ub loose_number) u v V) as [v' V'].
  assert (X : text loose_number ub (w1 ++ u ++ w2) v') by (exists w1, u, w2; auto).
  destruct (accepted_read pf ff (w1 ++ u ++ w2) v' X A) as (R1 & R2 & R3). rewrite R1, R2, R3. cbn [bind].
  specialize (T v' X). pose proof (proj1 weight_text u v' V') as Wt. zlens_in L. posl. split; [|split].
  - destruct v' as [| | | | |ms]; try (eexists; reflexivity). destruct (elems_of ms) as [es|] eqn:E; [|eexists; reflexivity].
    rewrite weight_obj in Wt. apply (fine_elems ms); auto; [apply Forall_forall; intros; apply fine_all|now apply typed_obj|lia].
  - destruct v' as [| | | |vs|]; try (eexists; reflexivity). destruct (values_of vs) as [js|] eqn:E; [|eexists; reflexivity].
    rewrite weight_arr in Wt. cbn [typed] in T. clear X R1 R2 R3 V'. assert (weights vs < 2147483600) as L' by lia. clear Wt L.
    revert js E d0. induction vs as [|d vs IH]; intros js E acc; [injection E as <-; eexists; reflexivity|].
    destruct T as [T1 T2]. cbn [JsonParse.values_of weights] in *. pose proof (weight_pos d).
    assert (0 <= weights vs) by (rewrite <- weight_arr; apply weight_pos).
    destruct (value_of d) as [w|] eqn:Vd; [|discriminate]. destruct (values_of vs) as [js'|]; [|discriminate]. injection E as <-.
    cbn [conv_vals]. destruct (fine_all d w [] Vd T1) as [[x|e] ->]; [change (zlen (@nil Z)) with 0; lia| |]; cbn [bind]; [|eexists; reflexivity].
    apply IH; auto. lia.
  - destruct (value_of v') as [w|] eqn:Vd; [|eexists; reflexivity]. apply (fine_all v' w [] Vd T). change (zlen (@nil Z)) with 0. lia.
Qed.
End Reading.

(* ------------------------------------------- C81: plain JSON becomes the same document *)

Section Plain.
Variable parse_time : bytes -> option Z.
Variable pf : bytes -> Z * bool.
Variable ff : Z -> bytes.
Notation value_of := (value_of (num_value pf ff)).
Notation values_of := (values_of (num_value pf ff)).
Notation elems_of := (elems_of (num_value pf ff)).

(* what a number becomes: an integer that integer, as EC.Int makes it; any other number the
   double ParseFloat reads, unless FormatFloat writes that as an integer *)
Definition num_tree (x : bytes) (t : bval) : Prop :=
  (exists (neg : bool) ds, digits1 ds /\ x = (if neg then [45] else []) ++ ds /\
     let n := if neg then - value ds else value ds in
     -2147483648 <= n < 9223372036854775808 /\ t = int_tree n) \/
  (exists c y, In c x /\ ~ digit c /\ c <> 45 /\ fst (pf x) = y /\
     ((In 46 (ff y) /\ pf (ff y) = (y, true) /\ t = BDouble y) \/
      exists n, ff y = itoa_signed n /\ -2147483648 <= n < 9223372036854775808 /\ t = int_tree n)).
Fixpoint plain_tree (d : jdata) (t : bval) : Prop :=
  match d, t with
  | DNull, BNull => True
  | DBool b, BBool c => b = c
  | DStr s, BString s' => s = s'
  | DNum x, t => num_tree x t
  | DArr ds, BArray ts =>
      (fix go ds ts := match ds, ts with [], [] => True | d :: r, t :: r' => plain_tree d t /\ go r r' | _, _ => False end) ds ts
  | DObj ms, BDoc fs => plain_obj d /\
      (fix go ms fs := match ms, fs with
       | [], [] => True | (k, d) :: r, (k', t) :: r' => k = k' /\ plain_tree d t /\ go r r' | _, _ => False end) ms fs
  | _, _ => False
  end.
Definition plain_fields (ms : list (bytes * jdata)) (fs : list (bytes * bval)) : Prop :=
  Forall2 (fun m f => fst m = fst f /\ plain_tree (snd m) (snd f)) ms fs.

Lemma num_text_other x c : In c x -> ~ digit c -> c <> 45 -> num_text pf ff x = ff (fst (pf x)).
Proof.
  intros I D N. unfold num_text. destruct x as [|a r]; [reflexivity|].
  destruct (forallb is_digit (if a =? 45 then r else a :: r)) eqn:E; [|reflexivity]. rewrite forallb_forall in E.
  assert (In c (if a =? 45 then r else a :: r)) as J.
  { destruct (Z.eqb_spec a 45); [|exact I]. destruct I as [I|I]; [lia|exact I]. }
  specialize (E c J). unfold is_digit in E. unfold digit in D. lia.
Qed.
Lemma num_makes x t : num_tree x t -> exists v, num_value pf ff x = inl v /\ makes parse_time v t.
Proof.
  intros [(neg & ds & D & -> & R & ->)|(c & y & I & D & N & <- & H)].
  - exists (JInt KInt (if neg then - value ds else value ds)). split; [|apply makes_int; lia].
    apply C76_integers; [exact D|unfold is_i64; lia].
  - unfold num_value. rewrite (num_text_other x c I D N). destruct H as [(Dt & P & ->)|(n & E & R & ->)].
    + rewrite (parse_int_dot _ Dt), P. eexists. split; [reflexivity|]. apply makes_build. reflexivity.
    + rewrite E. assert (is_i64 n) as Rn by (unfold is_i64; lia). pose proof (num_itoa pf ff n Rn) as V. unfold num_value in V.
      assert (num_text pf ff (itoa_signed n) = itoa_signed n) as T.
      { unfold itoa_signed. destruct (Z.ltb_spec n 0).
        - destruct (itoa_numeral (- n) ltac:(lia)) as (_ & N2 & _). cbn [num_text Z.eqb Pos.eqb]. now rewrite digits_all.
        - destruct (itoa_numeral n ltac:(lia)) as (N1 & N2 & _). destruct (itoa n) as [|a r]; [contradiction|]. unfold num_text.
          inversion N2 as [|? ? A _]; subst. unfold digit in A. replace (a =? 45) with false by lia. now rewrite digits_all. }
      rewrite T in V. rewrite V. eexists. split; [reflexivity|]. apply makes_int. lia.
Qed.
Definition read_makes (d : jdata) : Prop := forall t, plain_tree d t -> exists v, value_of d = inl v /\ makes parse_time v t.
Lemma fields_make ms : Forall (fun m => read_makes (snd m)) ms -> forall fs, plain_fields ms fs ->
  exists es, elems_of ms = inl es /\ Forall2 (makes_field parse_time) es fs /\
    match es, ms with [], [] => True | JElem k _ :: _, (k', _) :: _ => k = k' | _, _ => False end.
Proof.
  induction 1 as [|[k d] ms R _ IH]; intros fs P; inversion P as [|? [k' t] ? fs' [K Q] P']; subst.
  - exists []. split; [reflexivity|]. split; [constructor|exact I].
  - cbn [fst snd] in *. subst k'. destruct (R t Q) as (v & V & M). destruct (IH fs' P') as (es & E & F & _).
    exists (JElem k v :: es). cbn [JsonParse.elems_of]. rewrite V, E. split; [reflexivity|]. split; [|reflexivity].
    constructor; [split; [reflexivity|exact M]|exact F].
Qed.
Lemma plain_obj_fields ms fs : plain_tree (DObj ms) (BDoc fs) -> plain_fields ms fs.
Proof.
  cbn [plain_tree]. intros [_ H]. revert fs H. induction ms as [|[k d] ms IH]; intros [|[k' t] fs] H; try contradiction; [constructor|].
  destruct H as (K & Q & H). constructor; [split; [exact K|exact Q]|now apply IH].
Qed.
Lemma read_makes_all d : read_makes d.
Proof.
  induction d as [|b|x|s|vs F|ms F] using jdata_tree; intros t P.
  - destruct t; try contradiction. exists JNull. split; [reflexivity|]. apply makes_build. reflexivity.
  - destruct t; try contradiction. cbn in P. subst. eexists. split; [reflexivity|]. apply makes_build. reflexivity.
  - now apply num_makes.
  - destruct t; try contradiction. cbn in P. subst. eexists. split; [reflexivity|]. apply makes_build. reflexivity.
  - destruct t as [| | |ts| | | | | | | | | | | | | | | | |]; try contradiction.
    assert (exists js, values_of vs = inl js /\ Forall2 (makes parse_time) js ts) as (js & E & M).
    { cbn [plain_tree] in P. revert ts P. induction F as [|d vs R _ IH]; intros [|t ts] P; try contradiction.
      - exists []. split; [reflexivity|constructor].
      - destruct P as [P1 P2]. destruct (R t P1) as (v & V & M). destruct (IH ts P2) as (js & E & Ms).
        exists (v :: js). cbn [JsonParse.values_of]. rewrite V, E. split; [reflexivity|]. constructor; auto. }
    exists (JArr js). rewrite value_of_arr, E. split; [reflexivity|]. now apply makes_array.
  - destruct t as [| |fs| | | | | | | | | | | | | | | | | |]; try contradiction.
    destruct (fields_make ms F fs (plain_obj_fields ms fs P)) as (es & E & M & K). exists (JDoc es).
    rewrite value_of_obj, E. split; [reflexivity|]. apply makes_doc; [|exact M].
    cbn [plain_tree] in P. destruct P as [P _]. destruct es as [|[|k v] es]; auto. destruct ms as [|[k' d] ms]; [contradiction|].
    subst k'. exact P.
Qed.
Theorem C81_partial t ms fs : json t (DObj ms) -> plain_fields ms fs -> wf_fields fs -> small fs ->
  reads_as parse_time pf ff t fs.
Proof.
  intros J P W S. destruct (fields_make ms ltac:(apply Forall_forall; intros; apply read_makes_all) fs P) as (es & E & M & _).
  apply (elems_reads parse_time pf ff t es fs); auto. destruct (C76_reads pf ff t _ J) as (_ & R & _). rewrite R, E. reflexivity.
Qed.
(* An integer below the int32s becomes the int32 with its low 32 bits. *)
Theorem C81_int_refuted k ds t : digits1 ds -> 2147483648 < value ds <= 9223372036854775808 -> bytes_ok k -> nul_free k ->
  zlen k < 2147483600 -> json t (DObj [(k, DNum (45 :: ds))]) -> reads_as parse_time pf ff t [(k, BInt32 (i32 (- value ds)))].
Proof.
  intros D R Kb Nk L J. apply (elems_reads parse_time pf ff t [JElem k (JInt KInt (- value ds))]).
  - destruct (C76_reads pf ff t _ J) as (_ & Rd & _). rewrite Rd. cbn [JsonParse.elems_of JsonParse.value_of].
    pose proof (C76_integers pf ff true ds D ltac:(unfold is_i64; lia)) as Q. cbn [app] in Q. rewrite Q. reflexivity.
  - constructor; [|constructor]. split; [reflexivity|]. apply makes_build. intros k'. cbn [snd conv].
    unfold ec_int. replace (- value ds <? 2147483647) with true by lia. reflexivity.
  - constructor; [|constructor]. split; [split; [exact Kb|exact Nk]|]. apply i32_range.
  - unfold small, enc_doc. cbn [enc_elems]. zlens. rewrite zlen_enc_elem. cbn [enc_body]. zlens. lia.
Qed.
End Plain.

(* -------------------------------------------------------------------- examples *)

Definition x_fs : list (bytes * bval) :=
  [(bstr "a", BInt32 5); (bstr "b", BDoc [(bstr "x", BString (bstr "hi"))]); (bstr "c", BOid (repeat 7 12));
   (bstr "d", BArray [BNull; BBool true; BInt32 (-42)]); (bstr "t", BDateTime 1000); (bstr "e", BCode (bstr "f()") [(bstr "y", BMinKey)]);
   (bstr "r", BRegex (bstr "^a") (bstr "i")); (bstr "s", BTimestamp 7 8)].
Definition x_fmt (_ : Z) : bytes := bstr "1970-01-01T00:00:01Z".
Definition x_parse (_ : bytes) : option Z := Some 1000000000.
Lemma byte_list s : forallb (fun c => (0 <=? c) && (c <? 256)) s = true -> bytes_ok s.
Proof. intros F. apply Forall_forall. intros c I. rewrite forallb_forall in F. specialize (F c I). unfold is_u8. lia. Qed.
Lemma nul_list s : forallb (fun c => negb (c =? 0)) s = true -> nul_free s.
Proof. intros F. apply Forall_forall. intros c I. rewrite forallb_forall in F. specialize (F c I). lia. Qed.
Ltac bl := first [now apply byte_list|split; [now apply byte_list|now apply nul_list]].
Lemma x_wf : wf_fields x_fs.
Proof.
  unfold x_fs, wf_fields. repeat (apply Forall_cons; [split; [bl|]|]); try apply Forall_nil; cbn [snd].
  - cbn. unfold is_i32. lia.
  - apply wf_doc. constructor; [|constructor]. split; [bl|]. cbn. bl.
  - cbn [wf]. split; [now apply byte_list|reflexivity].
  - apply wf_array. repeat constructor; cbn; unfold is_i32; lia.
  - cbn. unfold is_i64. lia.
  - apply wf_code. split; [bl|]. constructor; [|constructor]. split; [bl|exact I].
  - cbn [wf]. split; bl.
  - cbn. unfold is_u32. lia.
Qed.
Lemma x_survive pf ff : survive_fields x_fmt x_parse pf ff x_fs.
Proof.
  assert (N : forall k, forallb (fun s => negb (bytes_eqb k s)) special = true -> ~ In k special).
  { intros k F I. rewrite forallb_forall in F. specialize (F k I). assert (bytes_eqb k k = true) by (now apply bytes_eqb_eq). rewrite H in F. discriminate. }
  unfold x_fs, survive_fields. repeat (apply Forall_cons; [split; [now apply plain_lit|]|]); try apply Forall_nil; cbn [snd].
  - cbn. lia.
  - apply survives_doc. split; [now apply N|]. constructor; [|constructor]. split; [now apply plain_lit|exact I].
  - exact I.
  - cbn. repeat split; lia.
  - cbn. split; [bl|reflexivity].
  - apply survives_code. split; [now apply N|]. constructor; [|constructor]. split; [now apply plain_lit|exact I].
  - exact I.
  - exact I.
Qed.
Example C78_case : wf_fields x_fs /\ small x_fs /\ write_fields x_fmt x_fs /\ zlen (enc_doc x_fs) = 120 /\
  (es <- build_doc x_fs ;; doc_marshal_json x_fmt 200 es) = Ret (inl (bstr
    ("{""a"":5,""b"":{""x"":""hi""},""c"":{""$oid"":""070707070707070707070707""},""d"":[null,true,-42]," ++
     """t"":{""$date"":""1970-01-01T00:00:01Z""},""e"":{""$code"":""f()"",""$scope"":{""y"":{""$minKey"":1}}}," ++
     """r"":{""$regularExpression"":{""pattern"":""^a"",""options"":""i""}},""s"":{""$timestamp"":{""t"":7,""i"":8}}}")%string)).
Proof.
  split; [exact x_wf|]. split; [unfold small; reflexivity|]. split; [apply (survive_write x_fmt x_parse (fun _ => (0, true)) (fun _ => [])), x_survive|].
  split; [reflexivity|]. vm_compute. reflexivity.
Qed.
Example C79_case pf ff : wf_fields x_fs /\ small x_fs /\ survive_fields x_fmt x_parse pf ff x_fs /\ renum_fields x_fs = x_fs /\
  enough 200 (zlen (enc_doc x_fs)).
Proof. split; [exact x_wf|]. split; [unfold small; reflexivity|]. split; [apply x_survive|]. split; reflexivity. Qed.
Example C79_int_case : is_i64 (-3000000000) /\ i32 (-3000000000) = 1294967296 /\ nul_free (bstr "a") /\ plain_key (bstr "a").
Proof. split; [unfold is_i64; lia|]. split; [reflexivity|]. split; [now apply nul_list|now apply plain_lit]. Qed.
(* 1.5 s after the epoch *)
Example C79_date_case : exists (fmt : Z -> bytes) (parse : bytes -> option Z), is_i64 1500 /\ bytes_ok (fmt (1500 * 1000000)) /\
  parse (fmt (1500 * 1000000)) = Some (1500 * 1000000 / 1000000000 * 1000000000) /\ 1500 / 1000 * 1000 <> 1500.
Proof. exists x_fmt, x_parse. split; [unfold is_i64; lia|]. split; [bl|]. split; [reflexivity|discriminate]. Qed.
Example C79_special_case pf ff : survive_fields x_fmt x_parse pf ff [(s_minkey, BString (bstr "not a MinKey"))].
Proof. constructor; [|constructor]. split; [now apply plain_lit|exact I]. Qed.
Example C79_binary_case : wf (BBinary 0 [1; 2; 3]) /\ forall fmt parse pf ff, exists es t, build_doc [(bstr "a", BBinary 0 [1; 2; 3])] = Ret es /\
  doc_marshal_json fmt 1 es = Ret (inl t) /\ doc_unmarshal_json parse pf ff [] t = Panic p_assert.
Proof.
  assert (W : wf (BBinary 0 [1; 2; 3])) by (split; [unfold subtype_ok; lia|bl]). split; [exact W|]. intros.
  destruct (build_doc [(bstr "a", BBinary 0 [1; 2; 3])]) as [es| |] eqn:E; try (vm_compute in E; discriminate). exists es.
  destruct (C79_binary_refuted fmt parse pf ff 0 (bstr "a") 0 [1; 2; 3] es) as (t & M & P); auto.
  - now apply nul_list.
  - now apply plain_lit.
  - reflexivity.
  - exists t. auto.
Qed.
(* Decimal 1 is written as 0 with an exponent *)
Example C78_decimal_case : dec_parse (bstr "1") = Ret (Some (3476778912330022912, 1)) /\ exists s, dec_string 1 3476778912330022912 = Ret s /\ s <> bstr "1".
Proof. split; [vm_compute; reflexivity|]. destruct (C56_string_total 1 3476778912330022912) as [s E]. exists s. split; [exact E|]. intros ->. vm_compute in E. discriminate. Qed.
Definition t_oid5 : bytes := bstr "{""a"":{""$oid"":5}}".
Lemma x_key k : plain_key k -> body k k.
Proof. induction 1 as [|c k (H1 & H2 & H3) _ IH]; [constructor|]. constructor; auto. Qed.
Example C80_panics_case : json t_oid5 (DObj [(bstr "a", DObj [(s_oid, DNum (bstr "5"))])]) /\
  forall parse pf ff d, doc_unmarshal_json parse pf ff d t_oid5 = Panic p_assert.
Proof.
  assert (J : json t_oid5 (DObj [(bstr "a", DObj [(s_oid, DNum (bstr "5"))])])).
  { destruct (marshal_ok (JDoc [JElem (bstr "a") (JDoc [JElem s_oid (JInt KInt 5)])])) as (t & M & V).
    - cbn [jgood]. assert (plain_key (bstr "a")) by (now apply plain_lit). assert (plain_key s_oid) by (now apply plain_lit).
      assert (is_i64 5) by (unfold is_i64; lia). tauto.
    - vm_compute in M. injection M as <-. apply value_json. exact V. }
  split; [exact J|]. intros. apply (C80_panics_refuted parse pf ff (bstr "a") s_oid (DNum (bstr "5")) (JInt KInt 5)); auto.
  - cbn; tauto.
Qed.
Example C80_case : typed (DObj [(bstr "a", DObj [(s_code, DStr (bstr "f()")); (s_scope, DObj [(bstr "x", DNum (bstr "1"))])]);
  (bstr "b", DArr [DObj [(s_oid, DStr (bstr "zz"))]; DObj [(s_timestamp, DObj [])]])]).
Proof.
  assert (N : forall k l, forallb (fun s => negb (bytes_eqb k s)) l = true -> ~ In k l).
  { intros k l F I. rewrite forallb_forall in F. specialize (F k I). assert (bytes_eqb k k = true) as E by (now apply bytes_eqb_eq). rewrite E in F. discriminate. }
  assert (M : forall k l P, forallb (fun s => negb (bytes_eqb k s)) l = true -> In k l -> P) by (intros k l P F I; destruct (N k l F I)).
  cbn [typed is_str is_obj plain_obj].
  repeat match goal with
  | |- _ /\ _ => split
  | |- True => exact I
  | |- _ -> True => intros _; exact I
  | |- In _ _ -> False => now apply M
  | |- _ = _ -> _ => first [discriminate|intros _]
  | |- ~ In _ _ => now apply N
  end.
Qed.
Definition t_81 : bytes := bstr "{""a"":-7,""b"":{""x"":[true,""y""]}}".
Example C81_case : exists ms fs, json t_81 (DObj ms) /\ (forall pf ff, plain_fields pf ff ms fs) /\ wf_fields fs /\ small fs /\
  fs = [(bstr "a", BInt32 (-7)); (bstr "b", BDoc [(bstr "x", BArray [BBool true; BString (bstr "y")])])].
Proof.
  set (es := [JElem (bstr "a") (JInt KInt (-7)); JElem (bstr "b") (JDoc [JElem (bstr "x") (JArr [JBool true; JString (bstr "y")])])]).
  destruct (marshal_ok (JDoc es)) as (t & M & V).
  - cbn [jgood es]. assert (forall k, In k [bstr "a"; bstr "b"; bstr "x"] -> plain_key k) as K.
    { intros k [<-|[<-|[<-|[]]]]; now apply plain_lit. }
    assert (is_i64 (-7)) by (unfold is_i64; lia). assert (bytes_ok (bstr "y")) by bl.
    pose proof (K (bstr "a") ltac:(cbn; tauto)). pose proof (K (bstr "b") ltac:(cbn; tauto)). pose proof (K (bstr "x") ltac:(cbn; tauto)). tauto.
  - vm_compute in M. injection M as <-. exists (elems_data es).
    exists [(bstr "a", BInt32 (-7)); (bstr "b", BDoc [(bstr "x", BArray [BBool true; BString (bstr "y")])])].
    split; [apply value_json; exact V|]. split; [|split; [|split; [unfold small; reflexivity|reflexivity]]].
    + intros pf ff. constructor; [split; [reflexivity|]|constructor; [|constructor]; split; [reflexivity|]].
      * left. exists true, (bstr "7"). split; [split; [discriminate|]|].
        { constructor; [unfold digit; cbn; lia|constructor]. }
        split; [reflexivity|]. cbn. split; [lia|reflexivity].
      * cbn [snd plain_tree]. split; [|cbn; auto].
        intros [E|[E|[E|[E|[E|[E|[E|[E|[E|[E|[E|[E|[]]]]]]]]]]]]]; discriminate.
    + constructor; [split; [bl|cbn; unfold is_i32; lia]|]. constructor; [|constructor]. split; [bl|]. apply wf_doc.
      constructor; [|constructor]. split; [bl|]. apply wf_array. constructor; [exact I|]. constructor; [bl|constructor].
Qed.
Example C81_int_case : digits1 (bstr "3000000000") /\ value (bstr "3000000000") = 3000000000.
Proof. split; [|reflexivity]. split; [discriminate|]. repeat (apply Forall_cons; [unfold digit; cbn; lia|]). apply Forall_nil. Qed.

Print Assumptions C78_partial. Print Assumptions C78_decimal_refuted. Print Assumptions C78_binary_refuted.
Print Assumptions C79_partial. Print Assumptions C79_same_partial. Print Assumptions C79_int_refuted. Print Assumptions C79_date_refuted.
Print Assumptions C79_special_refuted. Print Assumptions C79_binary_refuted. Print Assumptions C80_panics_refuted.
Print Assumptions C80_partial. Print Assumptions C81_partial. Print Assumptions C81_int_refuted.
