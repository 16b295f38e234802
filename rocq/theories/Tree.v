(* Client programs over the API: building a document from a tree with the constructors,
   and walking a document with the getters.  Theorems: building gives a representation of
   the tree, walking any representation gives the tree back. *)
Require Import ZArith List Bool Lia ZifyBool ZifyNat.
From Verif Require Import Base BSpec Elements Value Codec CodecRead Itoa CodecRep Api ApiProofs.
Import ListNotations.
Open Scope Z_scope.

Definition mapM {A B} (f : A -> go B) : list A -> go (list B) :=
  fix loop l := match l with
  | [] => Ret []
  | x :: r => y <- f x ;; ys <- loop r ;; Ret (y :: ys)
  end.

(* A client that builds the tree t under key k, calling only the EC functions, and
   NewArray/NewDocument on the results (array values are built with an empty key, as the
   VC functions do: constructor.go:596-723 call EC with "" throughout). *)
Fixpoint build (k : bytes) (t : bval) {struct t} : go value :=
  let fields := fix go fs := match fs with
    | [] => Ret []
    | (k, v) :: r => x <- build k v ;; xs <- go r ;; Ret (Some x :: xs)
    end in
  match t with
  | BDouble b => ec_double k b
  | BString s => ec_string k s
  | BDoc fs => es <- fields fs ;; ec_subdocument k es
  | BArray vs =>
      es <- (fix go vs := match vs with
        | [] => Ret []
        | v :: r => x <- build [] v ;; xs <- go r ;; Ret (Some x :: xs)
        end) vs ;; ec_array k es
  | BBinary s b => ec_binary_subtype k b s
  | BUndefined => ec_undefined k
  | BOid o => ec_objectid k o
  | BBool b => ec_boolean k b
  | BDateTime i => ec_datetime k i
  | BNull => ec_null k
  | BRegex p o => ec_regex k p o
  | BDBPointer n o => ec_dbpointer k n o
  | BJavaScript s => ec_javascript k s
  | BSymbol s => ec_symbol k s
  | BCode c fs => es <- fields fs ;; ec_code_with_scope k c es
  | BInt32 i => ec_int32 k i
  | BTimestamp t i => ec_timestamp k t i
  | BInt64 i => ec_int64 k i
  | BDecimal h l => ec_decimal k h l
  | BMinKey => ec_minkey k
  | BMaxKey => ec_maxkey k
  end.

Fixpoint build_doc (fs : list (bytes * bval)) : go document :=
  match fs with
  | [] => Ret []
  | (k, v) :: r => x <- build k v ;; xs <- build_doc r ;; Ret (Some x :: xs)
  end.
Fixpoint build_arr (vs : list bval) : go document :=
  match vs with
  | [] => Ret []
  | v :: r => x <- build [] v ;; xs <- build_arr r ;; Ret (Some x :: xs)
  end.

(* A client that walks an element with Type() and the typed getters, recursively. *)
Fixpoint obs (n : nat) (v : value) {struct n} : go bval :=
  match n with
  | O => Fuel
  | S m =>
      let field (e : elem) :=
        match e with
        | None => Panic PNil
        | Some w => k <- elem_key e ;; t <- obs m w ;; Ret (k, t)
        end in
      let item (e : elem) := match e with None => Panic PNil | Some w => obs m w end in
      let e := Some v in
      t <- v_type v ;;
      if t =? 1 then x <- v_double e ;; Ret (BDouble x) else
      if t =? 2 then x <- v_string e ;; Ret (BString x) else
      if t =? 3 then es <- v_mutable_document n e ;; fs <- mapM field es ;; Ret (BDoc fs) else
      if t =? 4 then es <- v_mutable_array n e ;; vs <- mapM item es ;; Ret (BArray vs) else
      if t =? 5 then '(s, b) <- v_binary e ;; Ret (BBinary s b) else
      if t =? 6 then Ret BUndefined else
      if t =? 7 then x <- v_objectid e ;; Ret (BOid x) else
      if t =? 8 then x <- v_boolean e ;; Ret (BBool x) else
      if t =? 9 then x <- v_datetime e ;; Ret (BDateTime x) else
      if t =? 10 then Ret BNull else
      if t =? 11 then '(p, o) <- v_regex e ;; Ret (BRegex p o) else
      if t =? 12 then '(p, o) <- v_dbpointer e ;; Ret (BDBPointer p o) else
      if t =? 13 then x <- v_javascript e ;; Ret (BJavaScript x) else
      if t =? 14 then x <- v_symbol e ;; Ret (BSymbol x) else
      if t =? 15 then '(c, es) <- v_mutable_code n e ;; fs <- mapM field es ;; Ret (BCode c fs) else
      if t =? 16 then x <- v_int32 e ;; Ret (BInt32 x) else
      if t =? 17 then '(s, i) <- v_timestamp e ;; Ret (BTimestamp s i) else
      if t =? 18 then x <- v_int64 e ;; Ret (BInt64 x) else
      if t =? 19 then '(h, l) <- v_decimal e ;; Ret (BDecimal h l) else
      if t =? 255 then Ret BMinKey else
      if t =? 127 then Ret BMaxKey else Panic (PErr EInvalidElement)
  end.

Definition obs_field n (e : elem) : go (bytes * bval) :=
  match e with
  | None => Panic PNil
  | Some w => k <- elem_key e ;; t <- obs n w ;; Ret (k, t)
  end.
Definition obs_item n (e : elem) : go bval :=
  match e with None => Panic PNil | Some w => obs n w end.
Definition obs_doc n (es : document) : go (list (bytes * bval)) := mapM (obs_field n) es.
Definition obs_arr n (es : document) : go (list bval) := mapM (obs_item n) es.

(* Decimal128() returns its halves exchanged (finding C02): what the walk sees. *)
Fixpoint swapd (t : bval) : bval :=
  match t with
  | BDecimal h l => BDecimal l h
  | BDoc fs => BDoc ((fix go fs := match fs with [] => [] | (k, v) :: r => (k, swapd v) :: go r end) fs)
  | BArray vs => BArray ((fix go vs := match vs with [] => [] | v :: r => swapd v :: go r end) vs)
  | BCode c fs => BCode c ((fix go fs := match fs with [] => [] | (k, v) :: r => (k, swapd v) :: go r end) fs)
  | t => t
  end.
Definition swapf (fs : list (bytes * bval)) := map (fun kv => (fst kv, swapd (snd kv))) fs.
Lemma swapd_doc fs : swapd (BDoc fs) = BDoc (swapf fs).
Proof. cbn. f_equal. unfold swapf. induction fs as [|[k v] r IH]; cbn; [|rewrite IH]; reflexivity. Qed.
Lemma swapd_array vs : swapd (BArray vs) = BArray (map swapd vs).
Proof. reflexivity. Qed.
Lemma swapd_code c fs : swapd (BCode c fs) = BCode c (swapf fs).
Proof. cbn. f_equal. unfold swapf. induction fs as [|[k v] r IH]; cbn; [|rewrite IH]; reflexivity. Qed.

Lemma swapd_invol t : swapd (swapd t) = t.
Proof.
  induction t using bval_ind'; try reflexivity.
  - rewrite !swapd_doc. f_equal. unfold swapf. rewrite map_map.
    induction H as [|[k v] r Hv Hr IH]; cbn in *; congruence.
  - rewrite !swapd_array. f_equal. rewrite map_map.
    induction H as [|v r Hv Hr IH]; cbn in *; congruence.
  - rewrite !swapd_code. f_equal. unfold swapf. rewrite map_map.
    induction H as [|[k v] r Hv Hr IH]; cbn in *; congruence.
Qed.
Lemma swapf_invol fs : swapf (swapf fs) = fs.
Proof.
  pose proof (swapd_invol (BDoc fs)) as H. rewrite !swapd_doc in H. congruence.
Qed.

(* Trees without a decimal. *)
Fixpoint no_dec (t : bval) : Prop :=
  match t with
  | BDecimal _ _ => False
  | BDoc fs | BCode _ fs => (fix go fs := match fs with [] => True | (_, v) :: r => no_dec v /\ go r end) fs
  | BArray vs => (fix go vs := match vs with [] => True | v :: r => no_dec v /\ go r end) vs
  | _ => True
  end.
Lemma swapd_id t : no_dec t -> swapd t = t.
Proof.
  induction t using bval_ind'; try reflexivity.
  - rewrite swapd_doc. cbn. intros N. f_equal.
    induction H as [|[k v] r Hv Hr IH]; cbn in *; [reflexivity|].
    destruct N as [N1 N2]. rewrite Hv by auto. f_equal. apply IH; auto.
  - rewrite swapd_array. cbn. intros N. f_equal.
    induction H as [|v r Hv Hr IH]; cbn in *; [reflexivity|].
    destruct N as [N1 N2]. rewrite Hv by auto. f_equal. apply IH; auto.
  - rewrite swapd_code. cbn. intros N. f_equal.
    induction H as [|[k v] r Hv Hr IH]; cbn in *; [reflexivity|].
    destruct N as [N1 N2]. rewrite Hv by auto. f_equal. apply IH; auto.
  - contradiction.
Qed.

(* ------------------------------------------------------------------- building *)

Lemma build_BDoc k fs : build k (BDoc fs) = (es <- build_doc fs ;; ec_subdocument k es).
Proof.
  cbn [build]. f_equal. 
Qed.
Lemma build_BArray k vs : build k (BArray vs) = (es <- build_arr vs ;; ec_array k es).
Proof. cbn [build]. f_equal. Qed.
Lemma build_BCode k c fs : build k (BCode c fs) = (es <- build_doc fs ;; ec_code_with_scope k c es).
Proof. cbn [build]. f_equal. Qed.

Definition bgood (t : bval) : Prop := forall k, nul_free k -> wf t -> efits k t ->
  exists v, build k t = Ret v /\ rep k v t.

Lemma build_doc_good fs : fields_in bgood fs -> wf_fields fs -> zlen (enc_elems fs) < 2147483648 ->
  exists es, build_doc fs = Ret es /\ rep_doc es fs.
Proof.
  induction 1 as [|[k t] fs Ht Hfs IH]; intros W L.
  - exists []. split; [reflexivity|exact I].
  - rewrite zlen_enc_elems_cons in L. posl.
    apply Forall_cons_iff in W as [[[_ Wk] Wt] W]. cbn in *.
    destruct (Ht k) as (v & E & R); auto. { unfold efits; lia. }
    destruct IH as (es & Es & Rs); auto; [lia|].
    exists (Some v :: es). rewrite E. cbn [bind]. rewrite Es. split; [reflexivity|]. auto.
Qed.

Lemma build_arr_good vs : forall i, Forall bgood vs -> Forall wf vs ->
  zlen (enc_items i vs) < 2147483648 ->
  exists es, build_arr vs = Ret es /\ rep_arr es vs.
Proof.
  induction vs as [|t vs IH]; intros i B W L.
  - exists []. split; [reflexivity|exact I].
  - inversion_clear B as [|? ? Bt Bv]. inversion_clear W as [|? ? Wt Wv].
    cbn [enc_items] in L. zlens_in L. pose proof (zlen_enc_elem (index_key i) t) as E1. posl.
    pose proof (zlen_enc_elem [] t) as E2. change (zlen (@nil Z)) with 0 in E2.
    assert (efits [] t) as F by (unfold efits; lia).
    destruct (Bt []) as (v & E & R); auto. { constructor. }
    destruct (IH (S i)) as (es & Es & Rs); auto; [lia|].
    exists (Some v :: es). cbn [build_arr]. rewrite E. cbn [bind]. rewrite Es. split; [reflexivity|].
    cbn. split; [|auto]. exists []. split; [exact F|exact R].
Qed.

Lemma build_rep t : bgood t.
Proof.
  assert (L : forall k t v, nul_free k -> efits k t ->
    v = Ret (lz [] k t []) -> exists w, v = Ret w /\ rep k w t).
  { intros k t0 v Hk Hf ->. eexists; split; [reflexivity|]. exact (lz_rep [] k t0 [] Hk (efits_lz _ _ Hf)). }
  induction t using bval_ind'; intros k Hk W F;
    lazymatch goal with
    | |- context [build _ (BDoc _)] => idtac
    | |- context [build _ (BArray _)] => idtac
    | |- context [build _ (BCode _ _)] => idtac
    | _ => apply L; auto; cbn [build]; cbn [wf] in W
    end.
  - apply ec_double_lz; tauto.
  - apply ec_string_lz; tauto.
  - pose proof F as F'. unfold efits in F'. rewrite zlen_enc_elem, enc_body_doc in F'.
    unfold enc_doc in F'. zlens_in F'. posl.
    apply wf_doc in W. destruct (build_doc_good fs) as (es & E & R); auto; [lia|].
    rewrite build_BDoc, E. cbn [bind].
    destruct (ec_subdocument_rep k es fs) as (v & Ev & Rv & _); auto; [lia|eauto].
  - pose proof F as F'. unfold efits in F'. rewrite zlen_enc_elem, enc_body_array in F'.
    unfold enc_array in F'. zlens_in F'. posl.
    apply wf_array in W. destruct (build_arr_good vs 0) as (es & E & R); auto; [lia|].
    rewrite build_BArray, E. cbn [bind].
    destruct (ec_array_rep k es vs) as (v & Ev & Rv & _); auto; [lia|eauto].
  - apply ec_binary_subtype_lz; tauto.
  - apply ec_undefined_lz; tauto.
  - apply ec_objectid_lz; tauto.
  - apply ec_boolean_lz; tauto.
  - apply ec_datetime_lz; tauto.
  - apply ec_null_lz; tauto.
  - apply ec_regex_lz; tauto.
  - apply ec_dbpointer_lz; tauto.
  - apply ec_javascript_lz; tauto.
  - apply ec_symbol_lz; tauto.
  - pose proof F as F'. unfold efits in F'. rewrite zlen_enc_elem, enc_body_code in F'.
    unfold enc_doc in F'. zlens_in F'. posl.
    apply wf_code in W as [Wc W]. destruct (build_doc_good fs) as (es & E & R); auto; [lia|].
    rewrite build_BCode, E. cbn [bind].
    destruct (ec_code_rep k c es fs) as (v & Ev & Rv & _); auto; [lia|eauto].
  - apply ec_int32_lz; tauto.
  - apply ec_timestamp_lz; tauto.
  - apply ec_int64_lz; tauto.
  - apply ec_decimal_lz; tauto.
  - apply ec_minkey_lz; tauto.
  - apply ec_maxkey_lz; tauto.
Qed.

Theorem build_doc_rep fs : wf_fields fs -> small fs ->
  exists es, build_doc fs = Ret es /\ rep_doc es fs.
Proof.
  intros W S. apply build_doc_good; auto.
  - apply Forall_forall. intros. apply build_rep.
  - unfold small, enc_doc in S. zlens_in S. lia.
Qed.
Theorem build_arr_rep vs : Forall wf vs -> zlen (enc_array vs) < 2147483648 ->
  exists es, build_arr vs = Ret es /\ rep_arr es vs.
Proof.
  intros W S. apply (build_arr_good vs 0); auto.
  - apply Forall_forall. intros. apply build_rep.
  - unfold enc_array in S. zlens_in S. lia.
Qed.

(* -------------------------------------------------------- container getters *)

Lemma rep_type k v t : rep k v t -> v_type v = Ret (tag t).
Proof.
  intros R. apply rep_inv in R as (_ & pre & post & C).
  destruct C as [C|[C|[C|C]]].
  - destruct C as [-> H]. apply lz_type.
  - destruct C as (? & ? & -> & -> & H & _). cbn [v_type].
    replace (zlen pre + zlen k + 2 =? 0) with false by zl. now apply goindex_app.
  - destruct C as (? & ? & -> & -> & H & _). cbn [v_type].
    replace (zlen pre + zlen k + 2 =? 0) with false by zl. now apply goindex_app.
  - destruct C as (c & ? & ? & l4 & -> & ? & -> & H & _). cbn [v_type].
    replace (zlen pre + zlen k + 2 =? 0) with false by zl. now apply goindex_app.
Qed.

Lemma getter_rep {A} tg (f : Z -> bytes -> option document -> go A) pre k rest d :
  getter tg f (Some (MkValue (zlen pre) (zlen pre + zlen k + 2)
    (Some (pre ++ tg :: enc_cstring k ++ rest)) d)) =
  f (zlen pre + zlen k + 2) (pre ++ tg :: enc_cstring k ++ rest) d.
Proof.
  cbn [getter]. replace (zlen pre + zlen k + 2 =? 0) with false by zl.
  rewrite (goindex_app pre tg) by reflexivity. cbn [bind].
  rewrite Z.eqb_refl. reflexivity.
Qed.

(* Scalars are always held as bytes. *)
Lemma rep_scalar k v t : rep k v t -> tag t <> 3 -> tag t <> 4 -> tag t <> 15 ->
  exists pre post, v = lz pre k t post /\ lzfits pre k t post.
Proof.
  intros R H3 H4 H15. apply rep_inv in R as (_ & pre & post & C).
  destruct C as [[C1 C2]|[C|[C|C]]].
  - exists pre, post. auto.
  - destruct C as (? & ? & -> & _). cbn in *; lia.
  - destruct C as (? & ? & -> & _). cbn in *; lia.
  - destruct C as (? & ? & ? & ? & -> & _). cbn in *; lia.
Qed.

Theorem v_mutable_document_rep fuel k v fs :
  rep k v (BDoc fs) -> wf_fields fs -> small fs -> zlen (enc_doc fs) < Z.of_nat fuel ->
  exists es, v_mutable_document fuel (Some v) = Ret es /\ rep_doc es fs /\
             rep k (with_doc v es) (BDoc fs).
Proof.
  intros R W S F. pose proof R as R0. apply rep_inv in R as (Hk & pre & post & C).
  destruct C as [[-> H]|[C|[C|C]]].
  - unfold v_mutable_document. fold (lz pre k (BDoc fs) post).
    fold (lzfits pre k (BDoc fs) post) in H. rewrite getter_lz by reflexivity.
    cbn [mutable_container]. pose proof (lzfits_len _ _ _ _ H) as L.
    rewrite enc_body_doc in *. unfold enc_doc at 1. unfold enc_doc in L. zlens_in L.
    rewrite get_reader_raw_at by zl. cbn [bind]. fold (enc_doc fs).
    destruct (read_document_wf fs [] fuel) as (es & E & Re); auto.
    { rewrite app_nil_r. exact S. }
    rewrite app_nil_r in E. rewrite E. cbn [bind]. exists es.
    split; [reflexivity|]. split; [exact Re|].
    cbn [with_doc lz v_start v_offset v_data rep]. split; [exact Hk|]. exists pre, (enc_doc fs ++ post).
    rewrite enc_body_doc. cbn [tag]. split; [reflexivity|]. split; [reflexivity|].
    split; [reflexivity|]. split; [exact H|]. exact Re.
  - destruct C as (fs' & es & E & -> & H & Re). injection E as <-.
    exists es. split; [|split; [exact Re|exact R0]].
    unfold v_mutable_document. rewrite getter_rep. reflexivity.
  - destruct C as (? & ? & E & _). discriminate.
  - destruct C as (? & ? & ? & ? & E & _). discriminate.
Qed.

Theorem v_mutable_array_rep fuel k v vs :
  rep k v (BArray vs) -> Forall wf vs -> zlen (enc_array vs) < 2147483648 ->
  zlen (enc_array vs) < Z.of_nat fuel ->
  exists es, v_mutable_array fuel (Some v) = Ret es /\ rep_arr es vs /\
             rep k (with_doc v es) (BArray vs).
Proof.
  intros R W S F. pose proof R as R0. apply rep_inv in R as (Hk & pre & post & C).
  destruct C as [[-> H]|[C|[C|C]]].
  - unfold v_mutable_array. fold (lz pre k (BArray vs) post).
    fold (lzfits pre k (BArray vs) post) in H. rewrite getter_lz by reflexivity.
    cbn [mutable_container]. pose proof (lzfits_len _ _ _ _ H) as L.
    rewrite enc_body_array in *. unfold enc_array at 1. unfold enc_array in L. zlens_in L.
    rewrite get_reader_raw_at by zl. cbn [bind]. fold (enc_array vs).
    destruct (read_array_wf vs fuel) as (es & E & Re1 & Re); auto.
    rewrite E. cbn [bind]. exists es.
    split; [reflexivity|]. split; [exact Re|].
    cbn [with_doc lz v_start v_offset v_data rep]. split; [exact Hk|]. exists pre, (enc_array vs ++ post).
    rewrite enc_body_array. cbn [tag]. split; [reflexivity|]. split; [reflexivity|].
    split; [reflexivity|]. split; [exact H|]. exact Re.
  - destruct C as (? & ? & E & _). discriminate.
  - destruct C as (fs' & es & E & -> & H & Re). injection E as <-.
    exists es. split; [|split; [exact Re|exact R0]].
    unfold v_mutable_array. rewrite getter_rep. reflexivity.
  - destruct C as (? & ? & ? & ? & E & _). discriminate.
Qed.

Theorem v_mutable_code_rep fuel k v c fs :
  rep k v (BCode c fs) -> wf_fields fs -> zlen (enc_body (BCode c fs)) < 2147483648 ->
  zlen (enc_doc fs) < Z.of_nat fuel ->
  exists es, v_mutable_code fuel (Some v) = Ret (c, es) /\ rep_doc es fs /\
             rep k (with_doc v es) (BCode c fs).
Proof.
  intros R W S F. pose proof R as R0. apply rep_inv in R as (Hk & pre & post & C).
  rewrite enc_body_code in S. zlens_in S.
  destruct C as [[-> H]|[C|[C|C]]].
  - unfold v_mutable_code. fold (lz pre k (BCode c fs) post).
    fold (lzfits pre k (BCode c fs) post) in H. rewrite getter_lz by reflexivity.
    pose proof (lzfits_len _ _ _ _ H) as L. set (p := pre ++ tag (BCode c fs) :: enc_cstring k) in *.
    assert (Ep : p ++ enc_body (BCode c fs) ++ post
      = pre ++ 15 :: enc_cstring k ++ enc_body (BCode c fs) ++ post) by (unfold p; lst).
    assert (Lp : zlen p = zlen pre + zlen k + 2) by (unfold p; zl). clearbody p.
    rewrite enc_body_code in *. 
    set (l4 := le32 (4 + zlen (enc_string c) + zlen (enc_doc fs))) in *.
    assert (L4 : zlen l4 = 4) by reflexivity.
    assert (R4 : readi32 l4 = Ret (9 + zlen c + zlen (enc_doc fs))).
    { unfold l4. zlens. replace (4 + (zlen c + 5) + zlen (enc_doc fs)) with (9 + zlen c + zlen (enc_doc fs)) by lia.
      apply readi32_le. rng. }
    assert (LD : 5 <= zlen (enc_doc fs)) by (unfold enc_doc; zl).
    clearbody l4. zlens_in L. posl. u32s.
    gs p l4 (enc_string c ++ enc_doc fs ++ post). rewrite R4. cbn [bind].
    unfold enc_string in *.
    gs (p ++ l4) (le32 (zlen c + 1)) (c ++ [0] ++ enc_doc fs ++ post).
    rewrite readi32_le by rng. cbn [bind]. u32s.
    gs (p ++ l4 ++ le32 (zlen c + 1)) c ([0] ++ enc_doc fs ++ post).
    gs (p ++ l4 ++ le32 (zlen c + 1) ++ c ++ [0]) (enc_doc fs) post.
    destruct (read_document_wf fs [] fuel) as (es & E & Re); auto.
    { rewrite app_nil_r. lia. }
    rewrite app_nil_r in E. rewrite E. cbn [bind]. exists es.
    split; [reflexivity|]. split; [exact Re|].
    cbn [with_doc lz v_start v_offset v_data rep]. split; [exact Hk|]. exists pre, (enc_doc fs ++ post).
    cbn [tag]. split; [reflexivity|]. split; [reflexivity|].
    exists (le32 (4 + zlen (enc_string c) + zlen (enc_doc fs))).
    split; [reflexivity|]. rewrite enc_body_code. rewrite <- !app_assoc.
    split; [reflexivity|]. split; [|exact Re].
    unfold lzfits in H. cbn [tag] in H. rewrite enc_body_code in H. rewrite <- !app_assoc in H. exact H.
  - destruct C as (? & ? & E & _). discriminate.
  - destruct C as (? & ? & E & _). discriminate.
  - destruct C as (c' & fs' & es & l4 & E & L4 & -> & H & Re). injection E as <- <-.
    exists es. split; [|split; [exact Re|exact R0]].
    unfold v_mutable_code. rewrite getter_rep. unfold fits in H. unfold enc_string in *. zlens_in H. posl.
    u32s. gs (pre ++ 15 :: enc_cstring k) l4 ((le32 (zlen c + 1) ++ c ++ [0]) ++ post).
    destruct (readi32_total l4) as (x & -> & _); [lia|]. cbn [bind].
    gs (pre ++ 15 :: enc_cstring k ++ l4) (le32 (zlen c + 1)) (c ++ [0] ++ post).
    rewrite readi32_le by rng. cbn [bind]. u32s.
    gs (pre ++ 15 :: enc_cstring k ++ l4 ++ le32 (zlen c + 1)) c ([0] ++ post). reflexivity.
Qed.

(* -------------------------------------------------------------------- walking *)

Definition ogood (t : bval) : Prop := forall k v n, rep k v t -> wf t ->
  zlen (enc_body t) < 2147483648 -> zlen (enc_body t) < Z.of_nat n -> obs n v = Ret (swapd t).

Lemma obs_S n v : obs (S n) v =
      let e := Some v in
      t <- v_type v ;;
      if t =? 1 then x <- v_double e ;; Ret (BDouble x) else
      if t =? 2 then x <- v_string e ;; Ret (BString x) else
      if t =? 3 then es <- v_mutable_document (S n) e ;; fs <- mapM (obs_field n) es ;; Ret (BDoc fs) else
      if t =? 4 then es <- v_mutable_array (S n) e ;; vs <- mapM (obs_item n) es ;; Ret (BArray vs) else
      if t =? 5 then '(s, b) <- v_binary e ;; Ret (BBinary s b) else
      if t =? 6 then Ret BUndefined else
      if t =? 7 then x <- v_objectid e ;; Ret (BOid x) else
      if t =? 8 then x <- v_boolean e ;; Ret (BBool x) else
      if t =? 9 then x <- v_datetime e ;; Ret (BDateTime x) else
      if t =? 10 then Ret BNull else
      if t =? 11 then '(p, o) <- v_regex e ;; Ret (BRegex p o) else
      if t =? 12 then '(p, o) <- v_dbpointer e ;; Ret (BDBPointer p o) else
      if t =? 13 then x <- v_javascript e ;; Ret (BJavaScript x) else
      if t =? 14 then x <- v_symbol e ;; Ret (BSymbol x) else
      if t =? 15 then '(c, es) <- v_mutable_code (S n) e ;; fs <- mapM (obs_field n) es ;; Ret (BCode c fs) else
      if t =? 16 then x <- v_int32 e ;; Ret (BInt32 x) else
      if t =? 17 then '(s, i) <- v_timestamp e ;; Ret (BTimestamp s i) else
      if t =? 18 then x <- v_int64 e ;; Ret (BInt64 x) else
      if t =? 19 then '(h, l) <- v_decimal e ;; Ret (BDecimal h l) else
      if t =? 255 then Ret BMinKey else
      if t =? 127 then Ret BMaxKey else Panic (PErr EInvalidElement).
Proof. reflexivity. Qed.

Lemma obs_doc_good n fs : fields_in ogood fs -> forall es, rep_doc es fs -> wf_fields fs ->
  zlen (enc_elems fs) < 2147483648 -> zlen (enc_elems fs) < Z.of_nat n ->
  mapM (obs_field n) es = Ret (swapf fs).
Proof.
  induction 1 as [|[k t] fs Ht Hfs IH]; intros [|[v|] es] R W L F; cbn [rep_doc] in R; try contradiction.
  - reflexivity.
  - destruct R as [R1 R2]. apply Forall_cons_iff in W as [[[_ Wk] Wt] W]. cbn [fst snd] in *.
    rewrite zlen_enc_elems_cons in *. pose proof (zlen_enc_elem k t). posl.
    cbn [mapM obs_field]. rewrite (elem_key_rep k v t) by auto. cbn [bind].
    rewrite (Ht k) by (auto; lia). cbn [bind]. rewrite IH by (auto; lia). reflexivity.
Qed.

Lemma obs_arr_good n vs : Forall ogood vs -> forall i es, rep_arr es vs -> Forall wf vs ->
  zlen (enc_items i vs) < 2147483648 -> zlen (enc_items i vs) < Z.of_nat n ->
  mapM (obs_item n) es = Ret (map swapd vs).
Proof.
  induction 1 as [|t vs Ht Hfs IH]; intros i [|[v|] es] R W L F; cbn [rep_arr] in R; try contradiction.
  - reflexivity.
  - destruct R as [(k & Lk & R1) R2]. inversion_clear W as [|? ? Wt Wv].
    cbn [enc_items] in *. zlens_in L. zlens_in F.
    pose proof (zlen_enc_elem (index_key i) t). posl.
    cbn [mapM obs_item]. rewrite (Ht k) by (auto; lia). cbn [bind].
    rewrite (IH (S i)) by (auto; lia). reflexivity.
Qed.

Lemma obs_rep t : ogood t.
Proof.
  induction t using bval_ind'; intros k v m R W S F; (destruct m as [|m]; [posl; lia|]);
    rewrite obs_S; cbv zeta; rewrite (rep_type _ _ _ R); cbn [bind tag Z.eqb Pos.eqb];
    try (destruct (rep_scalar _ _ _ R) as (pre & post & -> & Hf); [cbn; lia..|]); cbn [wf] in W.
  - rewrite v_double_lz by auto. reflexivity.
  - rewrite v_string_lz by auto. reflexivity.
  - apply wf_doc in W. rewrite enc_body_doc in *. 
    destruct (v_mutable_document_rep (Datatypes.S m) k v fs) as (es & E & Re & _); auto.
    rewrite E. cbn [bind]. unfold enc_doc in *. zlens_in S. zlens_in F. posl.
    rewrite (obs_doc_good m fs) by (auto; lia). cbn [bind]. now rewrite swapd_doc.
  - apply wf_array in W. rewrite enc_body_array in *. 
    destruct (v_mutable_array_rep (Datatypes.S m) k v vs) as (es & E & Re & _); auto.
    rewrite E. cbn [bind]. unfold enc_array in *. zlens_in S. zlens_in F. posl.
    rewrite (obs_arr_good m vs H 0) by (auto; lia). cbn [bind]. now rewrite swapd_array.
  - rewrite v_binary_lz by auto. reflexivity.
  - reflexivity.
  - rewrite v_objectid_lz by tauto. reflexivity.
  - rewrite v_boolean_lz by auto. reflexivity.
  - rewrite v_datetime_lz by auto. reflexivity.
  - reflexivity.
  - unfold cstr_ok in W. rewrite v_regex_lz by tauto. reflexivity.
  - rewrite v_dbpointer_lz by tauto. reflexivity.
  - rewrite v_javascript_lz by auto. reflexivity.
  - rewrite v_symbol_lz by auto. reflexivity.
  - apply wf_code in W as [Wc W]. pose proof S as S'. rewrite enc_body_code in S, F. zlens_in S. zlens_in F. posl.
    destruct (v_mutable_code_rep (Datatypes.S m) k v c fs) as (es & E & Re & _); auto; [lia|].
    rewrite E. cbn [bind]. unfold enc_doc in *. zlens_in S. zlens_in F. posl.
    rewrite (obs_doc_good m fs) by (auto; lia). cbn [bind]. now rewrite swapd_code.
  - rewrite v_int32_lz by auto. reflexivity.
  - rewrite v_timestamp_lz by tauto. reflexivity.
  - rewrite v_int64_lz by auto. reflexivity.
  - rewrite v_decimal_lz by tauto. reflexivity.
  - reflexivity.
  - reflexivity.
Qed.

Theorem obs_doc_rep n es fs : rep_doc es fs -> wf_fields fs -> small fs ->
  zlen (enc_doc fs) < Z.of_nat n -> obs_doc n es = Ret (swapf fs).
Proof.
  intros R W S F. unfold small, enc_doc in *. zlens_in S. zlens_in F.
  apply obs_doc_good; auto; try lia. apply Forall_forall. intros. apply obs_rep.
Qed.

(* -------------------------------------------------- injectivity of the encoding *)

(* Two encodings that start alike are the same document: reading the bytes gives both. *)
Theorem enc_doc_inj fs1 fs2 p1 p2 :
  wf_fields fs1 -> wf_fields fs2 -> small fs1 -> small fs2 ->
  enc_doc fs1 ++ p1 = enc_doc fs2 ++ p2 -> fs1 = fs2 /\ p1 = p2.
Proof.
  intros W1 W2 S1 S2 E.
  assert (L : zlen (enc_doc fs1) = zlen (enc_doc fs2)).
  { unfold small, enc_doc in *. zlens. zlens_in S1. zlens_in S2.
    unfold enc_frame in E. rewrite <- !app_assoc in E.
    apply zlen_inj_app in E as [E _]; [|reflexivity].
    apply le32_inj in E; [lia|rng|rng]. }
  apply zlen_inj_app in E as [E1 E2]; [|exact L]. split; [|exact E2].
  set (n := Z.to_nat (zlen (enc_doc fs1) + 1)).
  destruct (read_document_wf fs1 [] n) as (es1 & R1 & D1); auto.
  { now rewrite app_nil_r. } { unfold n. posl. lia. }
  destruct (read_document_wf fs2 [] n) as (es2 & R2 & D2); auto.
  { now rewrite app_nil_r. } { unfold n. posl. lia. }
  rewrite app_nil_r in R1, R2. rewrite E1, R2 in R1. injection R1 as <-.
  assert (O1 : obs_doc n es2 = Ret (swapf fs1)) by (apply obs_doc_rep; auto; unfold n; posl; lia).
  assert (O2 : obs_doc n es2 = Ret (swapf fs2)) by (apply obs_doc_rep; auto; unfold n; posl; lia).
  rewrite O1 in O2. injection O2 as O2.
  rewrite <- (swapf_invol fs1), <- (swapf_invol fs2). now f_equal.
Qed.

Lemma enc_body_inj t1 t2 : wf t1 -> wf t2 ->
  zlen (enc_body t1) < 2147483648 - 7 -> zlen (enc_body t2) < 2147483648 - 7 ->
  tag t1 = tag t2 -> enc_body t1 = enc_body t2 -> t1 = t2.
Proof.
  intros W1 W2 S1 S2 T E.
  destruct (enc_doc_inj [([], t1)] [([], t2)] [] []) as [F _].
  - constructor; [|constructor]. split; [split; constructor|exact W1].
  - constructor; [|constructor]. split; [split; constructor|exact W2].
  - unfold small, enc_doc. cbn. unfold enc_elem. zl.
  - unfold small, enc_doc. cbn. unfold enc_elem. zl.
  - rewrite !app_nil_r. unfold enc_doc. cbn. unfold enc_elem. now rewrite T, E.
  - congruence.
Qed.
