(* Extended JSON: what is written, and what is made of what is read. *)
Require Import ZArith List Bool Lia ZifyBool ZifyNat String Ascii.
From Verif Require Import Base BSpec Elements Value Codec CodecRead Itoa CodecRep Api ApiProofs Tree GetterProofs
  Sort Oid Dec128 Json JsonSpec JsonProofs JsonParse JsonProps ExtJson TypesProps.
Import List ListNotations.
Open Scope Z_scope.

(* -------------------------------------------------------------- specification *)

Definition special : list bytes :=
  [s_minkey; s_maxkey; s_decimal; s_timestamp; s_symbol; s_code; s_dbpointer; s_regex; s_date; s_oid; s_undefined; s_binary].
Definition obj1 (k : bytes) (v : jval) : jval := JDoc [JElem k v].

Section Spec.
Variable fmt_time : Z -> bytes.

(* the extended JSON of a tree; binary values and decimals are left out (see Props) *)
Fixpoint ext (t : bval) : jval :=
  match t with
  | BDouble x => JFloat K64 x
  | BString s => JString s
  | BDoc fs => JDoc ((fix go fs := match fs with [] => [] | (k, v) :: r => JElem k (ext v) :: go r end) fs)
  | BArray vs => JArr (map ext vs)
  | BUndefined => obj1 (bstr "$undefined") (JBool true)
  | BOid o => obj1 (bstr "$oid") (JString (hex o))
  | BBool b => JBool b
  | BDateTime ms => obj1 (bstr "$date") (JString (fmt_time (ms * 1000000)))
  | BNull => JNull
  | BRegex p o => obj1 (bstr "$regularExpression") (JDoc [JElem (bstr "pattern") (JString p); JElem (bstr "options") (JString o)])
  | BDBPointer ns o => obj1 (bstr "$dbPointer") (JDoc [JElem (bstr "$ref") (JString ns); JElem (bstr "$id") (JString (hex o))])
  | BJavaScript s => obj1 (bstr "$code") (JString s)
  | BSymbol s => obj1 (bstr "$symbol") (JString s)
  | BCode c fs => JDoc [JElem (bstr "$code") (JString c); JElem (bstr "$scope")
      (JDoc ((fix go fs := match fs with [] => [] | (k, v) :: r => JElem k (ext v) :: go r end) fs))]
  | BInt32 n => JInt KInt32 n
  | BTimestamp t i => obj1 (bstr "$timestamp") (JDoc [JElem (bstr "t") (JInt KInt64 t); JElem (bstr "i") (JInt KInt64 i)])
  | BInt64 n => JInt KInt64 n
  | BMinKey => obj1 (bstr "$minKey") (JInt KInt 1)
  | BMaxKey => obj1 (bstr "$maxKey") (JInt KInt 1)
  | BBinary _ _ | BDecimal _ _ => JNil
  end.
Fixpoint ext_fields (fs : list (bytes * bval)) : list jelem :=
  match fs with [] => [] | (k, v) :: r => JElem k (ext v) :: ext_fields r end.
End Spec.
(* a tree without binary values and decimals *)
Fixpoint shown (t : bval) : Prop :=
  match t with
  | BBinary _ _ | BDecimal _ _ => False
  | BDoc fs | BCode _ fs => (fix go fs := match fs with [] => True | (_, v) :: r => shown v /\ go r end) fs
  | BArray vs => (fix go vs := match vs with [] => True | v :: r => shown v /\ go r end) vs
  | _ => True
  end.
Definition shown_fields (fs : list (bytes * bval)) : Prop := Forall (fun kv => shown (snd kv)) fs.

(* the integers as EC.Int makes them *)
Definition int_tree (n : Z) : bval := if n <? 2147483647 then BInt32 n else BInt64 n.
Fixpoint renum (t : bval) : bval :=
  match t with
  | BInt32 n | BInt64 n => int_tree n
  | BDoc fs => BDoc ((fix go fs := match fs with [] => [] | (k, v) :: r => (k, renum v) :: go r end) fs)
  | BArray vs => BArray (map renum vs)
  | BCode c fs => BCode c ((fix go fs := match fs with [] => [] | (k, v) :: r => (k, renum v) :: go r end) fs)
  | t => t
  end.
Definition renum_fields (fs : list (bytes * bval)) := map (fun kv => (fst kv, renum (snd kv))) fs.

Definition first_plain (fs : list (bytes * bval)) : Prop := match fs with [] => True | (k, _) :: _ => ~ In k special end.
Section Survive.
Variable fmt_time : Z -> bytes.
Variable parse_time : bytes -> option Z.
Variable pf : bytes -> Z * bool.
Variable ff : Z -> bytes.
(* the trees that survive *)
Fixpoint survives (t : bval) : Prop :=
  match t with
  | BDouble x => f_exp x <> 2047 /\ six_decimals pf ff x
  | BString s | BJavaScript s | BSymbol s => True
  | BDoc fs => first_plain fs /\ (fix go fs := match fs with [] => True | (k, v) :: r => plain_key k /\ survives v /\ go r end) fs
  | BArray vs => (fix go vs := match vs with [] => True | v :: r => survives v /\ go r end) vs
  | BBinary _ _ | BDecimal _ _ => False
  | BDateTime ms => bytes_ok (fmt_time (ms * 1000000)) /\ parse_time (fmt_time (ms * 1000000)) = Some (ms * 1000000)
  | BDBPointer ns _ => ns <> []
  | BCode _ fs => first_plain fs /\ (fix go fs := match fs with [] => True | (k, v) :: r => plain_key k /\ survives v /\ go r end) fs
  | BInt32 n | BInt64 n => -2147483648 <= n
  | _ => True
  end.
Definition survive_fields (fs : list (bytes * bval)) : Prop := Forall (fun kv => plain_key (fst kv) /\ survives (snd kv)) fs.

End Survive.

(* ------------------------------------------------------------------- writing *)

Lemma shown_doc fs : shown (BDoc fs) <-> shown_fields fs.
Proof.
  unfold shown_fields. cbn. induction fs as [|[k v] r IH]; [split; [constructor|auto]|]. rewrite Forall_cons_iff. cbn. tauto.
Qed.
Lemma shown_array vs : shown (BArray vs) <-> Forall shown vs.
Proof. cbn. induction vs as [|v r IH]; [split; [constructor|auto]|]. rewrite Forall_cons_iff. tauto. Qed.
Lemma shown_code c fs : shown (BCode c fs) <-> shown_fields fs.
Proof. rewrite <- shown_doc. reflexivity. Qed.

Section Writing.
Variable fmt_time : Z -> bytes.
Notation ext := (ext fmt_time).
Notation ext_fields := (ext_fields fmt_time).
Lemma ext_doc fs : ext (BDoc fs) = JDoc (ext_fields fs).
Proof. reflexivity. Qed.

Definition jgood_at (t : bval) : Prop := forall k v n, rep k v t -> wf t -> shown t ->
  zlen (enc_body t) < 2147483648 -> zlen (enc_body t) < Z.of_nat n -> val_json fmt_time n v = Ret (ext t).

Lemma val_json_S n v : val_json fmt_time (S n) v =
      let e := Some v in
      t <- v_type v ;;
      if t =? 1 then x <- v_double e ;; Ret (JFloat K64 x) else
      if t =? 2 then x <- v_string e ;; Ret (JString x) else
      if t =? 3 then es <- v_mutable_document (S n) e ;; fs <- mapM (elem_json fmt_time n) es ;; Ret (JDoc fs) else
      if t =? 4 then es <- v_mutable_array (S n) e ;; vs <- mapM (item_json fmt_time n) es ;; Ret (JArr vs) else
      if t =? 5 then '(s, b) <- v_binary e ;;
        Ret (obj1 s_binary (JDoc [JElem (bstr "base64") (JString (encode_rune s)); JElem (bstr "subType") (JString b)])) else
      if t =? 6 then Ret (obj1 s_undefined (JBool true)) else
      if t =? 7 then x <- v_objectid e ;; Ret (obj1 s_oid (JString (hex x))) else
      if t =? 8 then x <- v_boolean e ;; Ret (JBool x) else
      if t =? 9 then x <- v_time e ;; Ret (obj1 s_date (JString (fmt_time x))) else
      if t =? 10 then Ret JNull else
      if t =? 11 then '(p, o) <- v_regex e ;;
        Ret (obj1 s_regex (JDoc [JElem (bstr "pattern") (JString p); JElem (bstr "options") (JString o)])) else
      if t =? 12 then '(ns, o) <- v_dbpointer e ;;
        Ret (obj1 s_dbpointer (JDoc [JElem (bstr "$ref") (JString ns); JElem (bstr "$id") (JString (hex o))])) else
      if t =? 13 then x <- v_javascript e ;; Ret (obj1 s_code (JString x)) else
      if t =? 14 then x <- v_symbol e ;; Ret (obj1 s_symbol (JString x)) else
      if t =? 15 then '(c, es) <- v_mutable_code (S n) e ;; fs <- mapM (elem_json fmt_time n) es ;;
        Ret (JDoc [JElem s_code (JString c); JElem s_scope (JDoc fs)]) else
      if t =? 16 then x <- v_int32 e ;; Ret (JInt KInt32 x) else
      if t =? 17 then '(s, i) <- v_timestamp e ;;
        Ret (obj1 s_timestamp (JDoc [JElem (bstr "t") (JInt KInt64 s); JElem (bstr "i") (JInt KInt64 i)])) else
      if t =? 18 then x <- v_int64 e ;; Ret (JInt KInt64 x) else
      if t =? 19 then '(h, l) <- v_decimal e ;; s <- dec_string h l ;; Ret (obj1 s_decimal (JString s)) else
      if t =? 255 then Ret (obj1 s_minkey (JInt KInt 1)) else
      if t =? 127 then Ret (obj1 s_maxkey (JInt KInt 1)) else Ret JNil.
Proof. reflexivity. Qed.

Lemma doc_json_good n fs : fields_in jgood_at fs -> forall es, rep_doc es fs -> wf_fields fs -> shown_fields fs ->
  zlen (enc_elems fs) < 2147483648 -> zlen (enc_elems fs) < Z.of_nat n ->
  mapM (elem_json fmt_time n) es = Ret (ext_fields fs).
Proof.
  induction 1 as [|[k t] fs Ht Hfs IH]; intros [|[v|] es] R W Sh L F; cbn [rep_doc] in R; try contradiction.
  - reflexivity.
  - destruct R as [R1 R2]. apply Forall_cons_iff in W as [[[_ Wk] Wt] W]. apply Forall_cons_iff in Sh as [Sh1 Sh2]. cbn [fst snd] in *.
    rewrite zlen_enc_elems_cons in *. pose proof (zlen_enc_elem k t). posl.
    cbn [mapM elem_json item_json]. unfold elem_json at 1. rewrite (elem_key_rep k v t) by auto. cbn [bind item_json].
    rewrite (Ht k) by (auto; lia). cbn [bind]. rewrite IH by (auto; lia). reflexivity.
Qed.
Lemma arr_json_good n vs : Forall jgood_at vs -> forall i es, rep_arr es vs -> Forall wf vs -> Forall shown vs ->
  zlen (enc_items i vs) < 2147483648 -> zlen (enc_items i vs) < Z.of_nat n ->
  mapM (item_json fmt_time n) es = Ret (map ext vs).
Proof.
  induction 1 as [|t vs Ht Hfs IH]; intros i [|[v|] es] R W Sh L F; cbn [rep_arr] in R; try contradiction.
  - reflexivity.
  - destruct R as [(k & Lk & R1) R2]. inversion_clear W as [|? ? Wt Wv]. inversion_clear Sh as [|? ? Sh1 Sh2].
    cbn [enc_items] in *. zlens_in L. zlens_in F.
    pose proof (zlen_enc_elem (index_key i) t). posl.
    cbn [mapM item_json]. rewrite (Ht k) by (auto; lia). cbn [bind].
    rewrite (IH (S i)) by (auto; lia). reflexivity.
Qed.
Lemma val_json_rep t : jgood_at t.
Proof.
  induction t using bval_ind'; intros k v m R W Sh S F; (destruct m as [|m]; [posl; lia|]);
    rewrite val_json_S; cbv zeta; rewrite (rep_type _ _ _ R); cbn [bind tag Z.eqb Pos.eqb];
    try (destruct (rep_scalar _ _ _ R) as (pre & post & -> & Hf); [cbn; lia..|]); cbn [wf] in W.
  - rewrite v_double_lz by auto. reflexivity.
  - rewrite v_string_lz by auto. reflexivity.
  - apply wf_doc in W. apply shown_doc in Sh. rewrite enc_body_doc in *.
    destruct (v_mutable_document_rep (Datatypes.S m) k v fs) as (es & E & Re & _); auto.
    rewrite E. cbn [bind]. unfold enc_doc in *. zlens_in S. zlens_in F. posl.
    rewrite (doc_json_good m fs) by (auto; lia). reflexivity.
  - apply wf_array in W. apply shown_array in Sh. rewrite enc_body_array in *.
    destruct (v_mutable_array_rep (Datatypes.S m) k v vs) as (es & E & Re & _); auto.
    rewrite E. cbn [bind]. unfold enc_array in *. zlens_in S. zlens_in F. posl.
    rewrite (arr_json_good m vs H 0) by (auto; lia). reflexivity.
  - contradiction.
  - reflexivity.
  - rewrite v_objectid_lz by tauto. reflexivity.
  - rewrite v_boolean_lz by auto. reflexivity.
  - unfold v_time. rewrite v_datetime_lz by auto. cbn [bind ext]. unfold obj1, s_date. do 5 f_equal.
    pose proof (Z.quot_rem' b 1000). f_equal. lia.
  - reflexivity.
  - unfold cstr_ok in W. rewrite v_regex_lz by tauto. reflexivity.
  - rewrite v_dbpointer_lz by tauto. reflexivity.
  - rewrite v_javascript_lz by auto. reflexivity.
  - rewrite v_symbol_lz by auto. reflexivity.
  - apply wf_code in W as [Wc W]. apply shown_code in Sh. pose proof S as S'. rewrite enc_body_code in S, F. zlens_in S. zlens_in F. posl.
    destruct (v_mutable_code_rep (Datatypes.S m) k v c fs) as (es & E & Re & _); auto; [lia|].
    rewrite E. cbn [bind]. unfold enc_doc in *. zlens_in S. zlens_in F. posl.
    rewrite (doc_json_good m fs) by (auto; lia). reflexivity.
  - rewrite v_int32_lz by auto. reflexivity.
  - rewrite v_timestamp_lz by tauto. reflexivity.
  - rewrite v_int64_lz by auto. reflexivity.
  - contradiction.
  - reflexivity.
  - reflexivity.
Qed.
Lemma doc_json_rep n es fs : rep_doc es fs -> wf_fields fs -> shown_fields fs -> small fs ->
  zlen (enc_doc fs) < Z.of_nat n -> doc_json fmt_time n es = Ret (ext_fields fs).
Proof.
  intros R W Sh S F. unfold small, enc_doc in *. zlens_in S. zlens_in F.
  apply doc_json_good; auto; try lia. apply Forall_forall. intros. apply val_json_rep.
Qed.

End Writing.

(* ------------------------------------------------------------------- reading *)

Section Reading.
Variable parse_time : bytes -> option Z.

(* conv makes of j the value of the tree t *)
Definition makes (j : jval) (t : bval) : Prop := forall k, nul_free k -> wf t -> efits k t ->
  exists v, conv parse_time k j = Ret (inl v) /\ build k t = Ret v.
Definition makes_field (e : jelem) (f : bytes * bval) : Prop :=
  match e with JElem k j => k = fst f /\ makes j (snd f) | JNoElem => False end.

Lemma conv_elems_good es fs : Forall2 makes_field es fs -> wf_fields fs -> zlen (enc_elems fs) < 2147483648 ->
  forall acc, exists d, conv_elems parse_time es acc = Ret (acc ++ d, None) /\ build_doc fs = Ret d.
Proof.
  induction 1 as [|[|k j] [k' t] es fs M _ IH]; intros W L acc.
  - exists []. rewrite app_nil_r. auto.
  - contradiction.
  - destruct M as [-> M]. cbn [fst snd] in *. apply Forall_cons_iff in W as [[[_ Wk] Wt] W]. cbn [fst snd] in *.
    rewrite zlen_enc_elems_cons in L. posl.
    destruct (M k' Wk Wt) as (v & E & B). { unfold efits. lia. }
    destruct (IH W ltac:(lia) (acc ++ [Some v])) as (d & E2 & B2).
    exists (Some v :: d). cbn [conv_elems build_doc]. rewrite E, B. cbn [bind]. rewrite E2, B2. cbn [bind].
    rewrite <- app_assoc. auto.
Qed.
Lemma conv_vals_good js vs : Forall2 makes js vs -> Forall wf vs -> forall i, zlen (enc_items i vs) < 2147483648 ->
  forall acc, exists d, conv_vals parse_time js acc = Ret (acc ++ d, None) /\ build_arr vs = Ret d.
Proof.
  induction 1 as [|j t js vs M _ IH]; intros W i L acc.
  - exists []. rewrite app_nil_r. auto.
  - inversion_clear W as [|? ? Wt Wv]. cbn [enc_items] in L. zlens_in L. pose proof (zlen_enc_elem (index_key i) t) as E1. posl.
    pose proof (zlen_enc_elem [] t) as E2. change (zlen (@nil Z)) with 0 in E2.
    destruct (M [] ltac:(constructor) Wt) as (v & E & B). { unfold efits. lia. }
    destruct (IH Wv (S i) ltac:(lia) (acc ++ [Some v])) as (d & E3 & B2).
    exists (Some v :: d). cbn [conv_vals build_arr]. rewrite E, B. cbn [bind]. rewrite E3, B2. cbn [bind].
    rewrite <- app_assoc. auto.
Qed.
Definition sub_of {A} (key : bytes) (f : bytes -> document -> go value) (x : document * option A) : go (value + A) :=
  match x with (d, None) => v <- f key d ;; Ret (inl v) | (_, Some e) => Ret (inr e) end.
Lemma conv_arr key vs : conv parse_time key (JArr vs) =
  (x <- conv_vals parse_time vs [] ;; sub_of key ec_array x).
Proof.
  assert (P : forall vs acc, (x <- (fix loop (vs : list jval) (acc : document) : go (document + gerr) :=
          match vs with
          | [] => Ret (inl acc)
          | v :: r =>
              x <- conv parse_time [] v ;;
              match x with inr e => Ret (inr e) | inl w => loop r (acc ++ [Some w]) end
          end) vs acc ;;
        match x with inr e => Ret (inr e) | inl d => made (ec_array key d) end) =
     (x <- conv_vals parse_time vs acc ;; sub_of key ec_array x)).
  { clear vs. unfold sub_of, made. induction vs as [|v vs IH]; intros acc; [reflexivity|].
    cbn [conv_vals]. destruct (conv parse_time [] v) as [[w|e]| |]; cbn [bind]; auto. }
  cbn [conv]. apply P.
Qed.
Lemma eqb_not k s : k <> s -> bytes_eqb k s = false.
Proof. intros N. destruct (bytes_eqb k s) eqn:E; [|reflexivity]. now apply bytes_eqb_eq in E. Qed.
Lemma conv_doc key es : (match es with JElem k _ :: _ => ~ In k special | _ => True end) -> conv parse_time key (JDoc es) =
  (x <- conv_elems parse_time es [] ;; sub_of key ec_subdocument x).
Proof.
  intros N.
  assert (P : forall es acc, (x <- (fix loop (es : list jelem) (acc : document) : go (document + gerr) :=
          match es with
          | [] => Ret (inl acc)
          | JNoElem :: _ => Panic PNil
          | JElem k v :: r =>
              x <- conv parse_time k v ;;
              match x with inr e => Ret (inr e) | inl w => loop r (acc ++ [Some w]) end
          end) es acc ;;
        match x with inr e => Ret (inr e) | inl d => made (ec_subdocument key d) end) =
     (x <- conv_elems parse_time es acc ;; sub_of key ec_subdocument x)).
  { clear N es. unfold sub_of, made. induction es as [|[|k v] es IH]; intros acc; [reflexivity|reflexivity|].
    cbn [conv_elems]. destruct (conv parse_time k v) as [[w|e]| |]; cbn [bind]; auto. }
  destruct es as [|[|k v] es]; [exact (P [] [])|exact (P (JNoElem :: es) [])|].
  specialize (P (JElem k v :: es) []).
  assert (forall s, In s special -> bytes_eqb k s = false) as Q.
  { intros s I. apply eqb_not. intros ->. contradiction. }
  cbn [conv]. rewrite !Q by (unfold special; cbn; tauto). exact P.
Qed.
Lemma makes_array js vs : Forall2 makes js vs -> makes (JArr js) (BArray vs).
Proof.
  intros M k Hk W F. apply wf_array in W. unfold efits in F. rewrite zlen_enc_elem, enc_body_array in F.
  unfold enc_array in F. zlens_in F. posl.
  destruct (conv_vals_good js vs M W 0%nat ltac:(lia) []) as (d & E & B). rewrite conv_arr, E, build_BArray, B.
  cbn [bind app sub_of]. unfold ec_array. rewrite built_hdr by lia. cbn [bind]. eauto.
Qed.
Lemma makes_doc es fs : (match es with JElem k _ :: _ => ~ In k special | _ => True end) -> Forall2 makes_field es fs ->
  makes (JDoc es) (BDoc fs).
Proof.
  intros N M k Hk W F. apply wf_doc in W. unfold efits in F. rewrite zlen_enc_elem, enc_body_doc in F.
  unfold enc_doc in F. zlens_in F. posl.
  destruct (conv_elems_good es fs M W ltac:(lia) []) as (d & E & B). rewrite (conv_doc k es N), E, build_BDoc, B.
  cbn [bind app sub_of]. unfold ec_subdocument. rewrite built_hdr by lia. cbn [bind]. eauto.
Qed.
Lemma makes_code c es fs : (match es with JElem k _ :: _ => ~ In k special | _ => True end) -> Forall2 makes_field es fs ->
  makes (JDoc [JElem s_code (JString c); JElem s_scope (JDoc es)]) (BCode c fs).
Proof.
  intros N M k Hk W F. destruct (build_rep (BCode c fs) k Hk W F) as (v & B & _). exists v. split; [|exact B].
  apply wf_code in W as [Wc W]. unfold efits in F. rewrite zlen_enc_elem, enc_body_code in F.
  unfold enc_doc in F. zlens_in F. posl.
  destruct (conv_elems_good es fs M W ltac:(lia) []) as (d & E & B2).
  assert (conv parse_time s_scope (JDoc es) = Ret (inl (MkValue 0 (zlen s_scope + 2) (Some (3 :: enc_cstring s_scope)) (Some d)))) as C.
  { rewrite (conv_doc s_scope es N), E. cbn [bind app sub_of]. unfold ec_subdocument. rewrite built_hdr by reflexivity. reflexivity. }
  rewrite build_BCode, B2 in B. cbn [bind] in B.
  change (conv parse_time k (JDoc [JElem s_code (JString c); JElem s_scope (JDoc es)])) with
    (x <- conv parse_time s_scope (JDoc es) ;;
     match x with
     | inr e => Ret (inr e)
     | inl w => d <- v_mutable_document O (Some w) ;; made (ec_code_with_scope k c d)
     end).
  rewrite C. cbn [bind]. replace (v_mutable_document 0 _) with (Ret d) by reflexivity. cbn [bind]. unfold made. rewrite B. reflexivity.
Qed.
Lemma makes_build j t : (forall k, conv parse_time k j = made (build k t)) -> makes j t.
Proof.
  intros E k Hk W F. destruct (build_rep t k Hk W F) as (v & B & _). exists v. rewrite E, B. auto.
Qed.
Lemma makes_int n : -2147483648 <= n -> makes (JInt KInt n) (int_tree n).
Proof.
  intros H. apply makes_build. intros k. cbn [conv]. unfold ec_int, int_tree. destruct (Z.ltb_spec n 2147483647).
  - rewrite i32_id by (unfold is_i32; lia). reflexivity.
  - reflexivity.
Qed.

End Reading.

(* the values as they come back from the parser *)
Lemma renum_doc fs : renum (BDoc fs) = BDoc (renum_fields fs).
Proof. cbn. f_equal. unfold renum_fields. induction fs as [|[k v] r IH]; cbn; [|rewrite IH]; reflexivity. Qed.
Lemma renum_code c fs : renum (BCode c fs) = BCode c (renum_fields fs).
Proof. cbn. f_equal. unfold renum_fields. induction fs as [|[k v] r IH]; cbn; [|rewrite IH]; reflexivity. Qed.
Lemma i64_i64_plus a b : i64 (i64 a + b) = i64 (a + b).
Proof. unfold i64. lia. Qed.
Section Back.
Variable fmt_time : Z -> bytes.
Variable parse_time : bytes -> option Z.
Variable pf : bytes -> Z * bool.
Variable ff : Z -> bytes.
Notation ext := (ext fmt_time).
Notation ext_fields := (ext_fields fmt_time).
Notation survives := (survives fmt_time parse_time pf ff).
Notation survive_fields := (survive_fields fmt_time parse_time pf ff).
Notation makes := (makes parse_time).
Notation makes_field := (makes_field parse_time).
Lemma as_int_doc fs : as_int (JDoc (ext_fields fs)) = JDoc (elems_int (ext_fields fs)).
Proof. reflexivity. Qed.
Lemma first_plain_elems fs : first_plain fs ->
  match elems_int (ext_fields fs) with JElem k _ :: _ => ~ In k special | _ => True end.
Proof. destruct fs as [|[k v] r]; auto. Qed.
Lemma survives_doc fs : survives (BDoc fs) <-> first_plain fs /\ survive_fields fs.
Proof.
  unfold survive_fields. cbn. assert (forall A B C : Prop, (B <-> C) -> (A /\ B <-> A /\ C)) as H by tauto. apply H.
  induction fs as [|[k v] r IH]; [split; [constructor|auto]|]. rewrite Forall_cons_iff. cbn. tauto.
Qed.
Lemma survives_code c fs : survives (BCode c fs) <-> first_plain fs /\ survive_fields fs.
Proof. rewrite <- survives_doc. reflexivity. Qed.
Lemma survives_array vs : survives (BArray vs) <-> Forall survives vs.
Proof. cbn. induction vs as [|v r IH]; [split; [constructor|auto]|]. rewrite Forall_cons_iff. tauto. Qed.

Definition back (t : bval) : Prop := wf t -> survives t -> makes (as_int (ext t)) (renum t).
Lemma back_fields fs : fields_in back fs -> wf_fields fs -> survive_fields fs ->
  Forall2 makes_field (elems_int (ext_fields fs)) (renum_fields fs).
Proof.
  induction 1 as [|[k t] fs B _ IH]; intros W Sv; [constructor|].
  apply Forall_cons_iff in W as [[_ Wt] W]. apply Forall_cons_iff in Sv as [[_ Sv1] Sv2]. cbn [fst snd] in *.
  constructor; [|now apply IH]. split; [reflexivity|]. now apply B.
Qed.
Lemma back_ok t : back t.
Proof.
  induction t using bval_ind'; intros W Sv.
  - apply makes_build. reflexivity.
  - apply makes_build. reflexivity.
  - apply wf_doc in W. apply survives_doc in Sv as [P Sv]. rewrite ext_doc, as_int_doc, renum_doc.
    apply makes_doc; [now apply first_plain_elems|now apply back_fields].
  - apply wf_array in W. apply survives_array in Sv. cbn [ext as_int renum]. rewrite map_map.
    apply makes_array. induction H as [|t vs B _ IH]; cbn [map]; [constructor|].
    inversion_clear W as [|? ? Wt Wv]. inversion_clear Sv as [|? ? Sv1 Sv2]. constructor; [now apply B|now apply IH].
  - contradiction.
  - apply makes_build. reflexivity.
  - apply makes_build. intros k. cbn [ext obj1 as_int]. cbn [wf] in W.
    change (conv parse_time k (JDoc [JElem (bstr "$oid") (JString (hex o))])) with
      (match oid_from_hex (hex o) with (_, Some e) => Ret (inr e) | (o, None) => made (ec_objectid k o) end).
    rewrite C22_from_hex; [reflexivity|]. split; [tauto|]. destruct W as [_ L]. unfold zlen in L. lia.
  - apply makes_build. reflexivity.
  - apply makes_build. intros k. cbn [ext obj1 as_int]. cbn [wf] in W.
    change (conv parse_time k (JDoc [JElem (bstr "$date") (JString (fmt_time (b * 1000000)))])) with
      (match parse_time (fmt_time (b * 1000000)) with None => Ret (inr e_time) | Some ns => made (ec_time k ns) end).
    destruct Sv as [_ ->]. cbn [renum build]. unfold ec_time. do 2 f_equal.
    unfold is_i64 in W.
    rewrite i64_i64_plus, i64_id; [|unfold is_i64]; lia.
  - apply makes_build. reflexivity.
  - apply makes_build. reflexivity.
  - apply makes_build. intros k. cbn [ext obj1 as_int]. cbn [wf] in W. cbn [survives] in Sv.
    change (conv parse_time k (JDoc [JElem (bstr "$dbPointer") (JDoc [JElem (bstr "$ref") (JString n); JElem (bstr "$id") (JString (hex o))])])) with
      (if bytes_eqb n [] || bytes_eqb (hex o) [] then Ret (inr e_dbref) else
       match oid_from_hex (hex o) with (_, Some e) => Ret (inr e) | (o, None) => made (ec_dbpointer k n o) end).
    destruct W as (_ & W1 & W2). unfold zlen in W2.
    rewrite (eqb_not n []), (eqb_not (hex o) []) by (auto; intros E; pose proof (hex_length o) as L; rewrite E in L; cbn in L; lia).
    cbn [orb]. rewrite C22_from_hex; [reflexivity|]. split; [auto|lia].
  - apply makes_build. reflexivity.
  - apply makes_build. reflexivity.
  - apply wf_code in W as [Wc W]. apply survives_code in Sv as [P Sv]. rewrite renum_code.
    change (as_int (ext (BCode c fs))) with (JDoc [JElem s_code (JString c); JElem s_scope (JDoc (elems_int (ext_fields fs)))]).
    apply makes_code; [now apply first_plain_elems|now apply back_fields].
  - cbn [ext as_int renum]. now apply makes_int.
  - apply makes_build. intros k. cbn [wf] in W.
    change (conv parse_time k (as_int (ext (BTimestamp t i)))) with (made (ec_timestamp k (u32 t) (u32 i))).
    rewrite !u32_id by tauto. reflexivity.
  - cbn [ext as_int renum]. now apply makes_int.
  - contradiction.
  - apply makes_build. reflexivity.
  - apply makes_build. reflexivity.
Qed.

End Back.

(* and they are good JSON *)
Lemma hex_ok o : bytes_ok o -> bytes_ok (hex o).
Proof.
  induction 1 as [|x o X _ IH]; [constructor|]. rewrite hex_cons. unfold is_u8 in X.
  assert (forall d, 0 <= d < 16 -> is_u8 (hex_digit d)) as D.
  { intros d Hd. unfold hex_digit, is_u8. destruct (d <? 10); lia. }
  constructor; [apply D; lia|]. constructor; [apply D; lia|exact IH].
Qed.
Lemma plain_lit s : forallb (fun c => (32 <=? c) && (c <? 256) && negb (c =? 34) && negb (c =? 92)) s = true -> plain_key s.
Proof. intros F. apply Forall_forall. intros c I. rewrite forallb_forall in F. specialize (F c I). lia. Qed.
Section Good.
Variable fmt_time : Z -> bytes.
Notation ext := (ext fmt_time).
Notation ext_fields := (ext_fields fmt_time).
(* the trees that can be written as JSON *)
Fixpoint writable (t : bval) : Prop :=
  match t with
  | BDouble x => f_exp x <> 2047
  | BDoc fs | BCode _ fs => (fix go fs := match fs with [] => True | (k, v) :: r => plain_key k /\ writable v /\ go r end) fs
  | BArray vs => (fix go vs := match vs with [] => True | v :: r => writable v /\ go r end) vs
  | BBinary _ _ | BDecimal _ _ => False
  | BDateTime ms => bytes_ok (fmt_time (ms * 1000000))
  | _ => True
  end.
Definition write_fields (fs : list (bytes * bval)) : Prop := Forall (fun kv => plain_key (fst kv) /\ writable (snd kv)) fs.
Lemma writable_doc fs : writable (BDoc fs) <-> write_fields fs.
Proof.
  unfold write_fields. cbn. induction fs as [|[k v] r IH]; [split; [constructor|auto]|]. rewrite Forall_cons_iff. cbn. tauto.
Qed.
Lemma writable_code c fs : writable (BCode c fs) <-> write_fields fs.
Proof. rewrite <- writable_doc. reflexivity. Qed.
Lemma writable_array vs : writable (BArray vs) <-> Forall writable vs.
Proof. cbn. induction vs as [|v r IH]; [split; [constructor|auto]|]. rewrite Forall_cons_iff. tauto. Qed.

Lemma jgood_fields fs : fields_in (fun t => wf t -> writable t -> jgood (ext t)) fs ->
  wf_fields fs -> write_fields fs -> jgood (JDoc (ext_fields fs)).
Proof.
  induction 1 as [|[k t] fs B _ IH]; intros W Sv; [exact I|].
  apply Forall_cons_iff in W as [[_ Wt] W]. apply Forall_cons_iff in Sv as [[K Sv1] Sv2]. cbn [fst snd] in *.
  exact (conj K (conj (B Wt Sv1) (IH W Sv2))).
Qed.
Lemma jgood_ext t : wf t -> writable t -> jgood (ext t).
Proof.
  assert (K1 : forall k j, plain_key k -> jgood j -> jgood (obj1 k j)) by (intros k j K G; exact (conj K (conj G I))).
  assert (K2 : forall a x b y, plain_key a -> plain_key b -> jgood x -> jgood y -> jgood (JDoc [JElem a x; JElem b y])).
  { intros a x b y A B G G2. exact (conj A (conj G (conj B (conj G2 I)))). }
  induction t using bval_ind'; intros W Sv.
  - cbn in *. unfold is_u64 in W. split; [lia|tauto].
  - cbn in *. auto.
  - apply wf_doc in W. apply writable_doc in Sv. rewrite ext_doc. now apply jgood_fields.
  - apply wf_array in W. apply writable_array in Sv. cbn [ext].
    induction H as [|t vs B _ IH]; [exact I|].
    inversion_clear W as [|? ? Wt Wv]. inversion_clear Sv as [|? ? Sv1 Sv2]. exact (conj (B Wt Sv1) (IH Wv Sv2)).
  - contradiction.
  - apply K1; [now apply plain_lit|exact I].
  - apply K1; [now apply plain_lit|]. cbn in W. apply hex_ok; tauto.
  - exact I.
  - apply K1; [now apply plain_lit|]. exact Sv.
  - exact I.
  - apply K1; [now apply plain_lit|]. cbn in W. unfold cstr_ok in W. apply K2; try (now apply plain_lit); apply W.
  - apply K1; [now apply plain_lit|]. cbn in W. apply K2; try (now apply plain_lit); [apply W|apply hex_ok; tauto].
  - apply K1; [now apply plain_lit|]. apply W.
  - apply K1; [now apply plain_lit|]. apply W.
  - apply wf_code in W as [Wc W]. apply writable_code in Sv.
    change (ext (BCode c fs)) with (JDoc [JElem s_code (JString c); JElem s_scope (JDoc (ext_fields fs))]).
    apply K2; [now apply plain_lit|now apply plain_lit|exact Wc|now apply jgood_fields].
  - cbn in *. unfold is_i32 in W. unfold is_i64. lia.
  - apply K1; [now apply plain_lit|]. cbn in W. unfold is_u32 in W. apply K2; try (now apply plain_lit); cbn; unfold is_i64; lia.
  - cbn in *. auto.
  - contradiction.
  - apply K1; [now apply plain_lit|]. cbn. unfold is_i64. lia.
  - apply K1; [now apply plain_lit|]. cbn. unfold is_i64. lia.
Qed.
Lemma writable_shown t : writable t -> shown t.
Proof.
  induction t using bval_ind'; intros Sv; try exact I; try contradiction.
  - apply writable_doc in Sv. apply shown_doc. induction H as [|[k t] fs B _ IH]; [constructor|].
    apply Forall_cons_iff in Sv as [[_ S1] S2]. constructor; [now apply B|now apply IH].
  - apply writable_array in Sv. apply shown_array. induction H as [|t vs B _ IH]; [constructor|].
    inversion_clear Sv. constructor; auto.
  - apply writable_code in Sv. apply shown_code. induction H as [|[k t] fs B _ IH]; [constructor|].
    apply Forall_cons_iff in Sv as [[_ S1] S2]. constructor; [now apply B|now apply IH].
Qed.
Lemma write_shown fs : write_fields fs -> shown_fields fs.
Proof. apply Forall_impl. intros [k t] [_ Sv]. now apply writable_shown. Qed.
End Good.

Section Float.
Variable fmt_time : Z -> bytes.
Variable parse_time : bytes -> option Z.
Variable pf : bytes -> Z * bool.
Variable ff : Z -> bytes.
Notation ext := (ext fmt_time).
Notation ext_fields := (ext_fields fmt_time).
Notation survives := (survives fmt_time parse_time pf ff).
Notation survive_fields := (survive_fields fmt_time parse_time pf ff).
Notation writable := (writable fmt_time).
Notation write_fields := (write_fields fmt_time).
Lemma float_fields fs : fields_in (fun t => survives t -> float_back pf ff (ext t)) fs ->
  survive_fields fs -> float_back pf ff (JDoc (ext_fields fs)).
Proof.
  induction 1 as [|[k t] fs B _ IH]; intros Sv; [exact I|].
  apply Forall_cons_iff in Sv as [[K Sv1] Sv2]. exact (conj (B Sv1) (IH Sv2)).
Qed.
Lemma float_ext t : survives t -> float_back pf ff (ext t).
Proof.
  induction t using bval_ind'; intros Sv; try (cbn; tauto).
  - cbn in *. tauto.
  - apply survives_doc in Sv as [_ Sv]. now apply float_fields.
  - apply survives_array in Sv. cbn [ext]. induction H as [|t vs B _ IH]; [exact I|].
    inversion_clear Sv as [|? ? Sv1 Sv2]. exact (conj (B Sv1) (IH Sv2)).
  - apply survives_code in Sv as [_ Sv]. split; [exact I|]. split; [|exact I]. now apply (float_fields fs).
Qed.
Lemma survives_writable t : survives t -> writable t.
Proof.
  induction t using bval_ind'; intros Sv; try exact I; try contradiction.
  - exact (proj1 Sv).
  - apply survives_doc in Sv as [_ Sv]. apply writable_doc. induction H as [|[k t] fs B _ IH]; [constructor|].
    apply Forall_cons_iff in Sv as [[K S1] S2]. constructor; [split; [exact K|now apply B]|now apply IH].
  - apply survives_array in Sv. apply writable_array. induction H as [|t vs B _ IH]; [constructor|].
    inversion_clear Sv. constructor; auto.
  - exact (proj1 Sv).
  - apply survives_code in Sv as [_ Sv]. apply writable_code. induction H as [|[k t] fs B _ IH]; [constructor|].
    apply Forall_cons_iff in Sv as [[K S1] S2]. constructor; [split; [exact K|now apply B]|now apply IH].
Qed.
Lemma survive_write fs : survive_fields fs -> write_fields fs.
Proof. apply Forall_impl. intros [k t] [K Sv]. split; [exact K|now apply survives_writable]. Qed.
End Float.
