(* What the conversions of Iface.v build, related to BSON trees. *)
Require Import ZArith List Bool Lia ZifyBool ZifyNat Permutation.
From Verif Require Import Base BSpec Elements Value Codec CodecRead Itoa CodecRep Api ApiProofs Tree GetterProofs
  CodecProps Search Iface.
Import ListNotations.
Open Scope Z_scope.

(* ------------------------------------------------------------------ the specification *)

(* The BSON of a Go integer: 8 to 32 bits signed and 8 or 16 bits unsigned are Int32, an int64 is
   Int64, the others Int32 below 2^31-1 and Int64 from there on, and null above the int64s. *)
Definition int_bson (g : goint) : bval :=
  match g with
  | GInt8 i | GInt16 i | GInt32 i | GUint8 i | GUint16 i => BInt32 i
  | GInt64 i => BInt64 i
  | GInt i | GUint32 i | GUint64 i | GUint i =>
      if i <? 2147483647 then BInt32 i
      else if 9223372036854775807 <? i then BNull else BInt64 i
  end.
Definition int_fits (g : goint) : Prop := goint_ok g /\ (forall i, g = GInt i -> -2147483648 <= i).

(* v is a value that holds t: taken from a document that was built or read.  The slice it lies in is
   not much longer than t. *)
Definition value_holds (v : value) (t : bval) : Prop :=
  exists k N, doc_obtained [(k, t)] [Some v] N /\ wf_fields [(k, t)] /\ small [(k, t)] /\ N <= zlen (enc_body t) + 16.

Definition is_none {A} (o : option A) := match o with None => true | Some _ => false end.
(* Go values EC.Interface cannot convert *)
Definition foreign (a : any) : bool :=
  match a with
  | ANil | AOther | ABytes _ | AOid _ | ARegex _ _ | ADBPointer _ _ | ACode _ _ | ADecimal _ _ => true
  | AElem None | AValue None | ADoc None => true
  | ADocMarshaler (inr _) | AMarshaler (inr _) => true
  | _ => false
  end.

(* The BSON a Go value stands for.  The entries of a map come in the order range visits them. *)
Inductive means : any -> bval -> Prop :=
| M_bool b : means (ABool b) (BBool b)
| M_int g : int_fits g -> means (AInt g) (int_bson g)
| M_float32 b : means (AFloat32 b) (BDouble b)
| M_float64 b : means (AFloat64 b) (BDouble b)
| M_string s : means (AString s) (BString s)
| M_time ns : is_i64 (ns / 1000000) -> means (ATime ns) (BDateTime (ns / 1000000))
| M_timestamp t i : means (ATimestamp t i) (BTimestamp t i)
| M_map l fs : Forall2 (fun x f => fst x = fst f /\ means (snd x) (snd f)) l fs -> means (AMap l) (BDoc fs)
| M_map_any l fs : Forall2 (fun x f => fst x = fst f /\ means (snd x) (snd f)) l fs -> means (AMapAny l) (BDoc fs)
| M_map_string l : means (AMapString l) (BDoc (map (fun x => (fst x, BString (snd x))) l))
| M_slice l vs : Forall2 means l vs -> means (ASlice l) (BArray vs)
| M_strings l : means (AStrings l) (BArray (map BString l))
| M_int64s l : means (AInt64s l) (BArray (map BInt64 l))
| M_int32s l : means (AInt32s l) (BArray (map BInt32 l))
| M_float64s l : means (AFloat64s l) (BArray (map BDouble l))
| M_float32s l : means (AFloat32s l) (BArray (map BDouble l))
| M_ints l : Forall (fun i => int_fits (GInt i)) l -> means (AInts l) (BArray (map (fun i => int_bson (GInt i)) l))
| M_times l : Forall (fun ns => is_i64 (ns / 1000000)) l ->
    means (ATimes l) (BArray (map (fun ns => BDateTime (ns / 1000000)) l))
| M_durations l : means (ADurations l) (BArray (map BInt64 l))
| M_elems fs es N : doc_obtained fs es N -> means (AElems es) (BDoc fs)
| M_value v t : value_holds v t -> means (AValue (Some v)) t
| M_values vs ts : Forall2 value_holds vs ts -> means (AValues (map Some vs)) (BArray ts)
| M_doc fs es N : doc_obtained fs es N -> means (ADoc (Some es)) (BDoc fs)
| M_reader fs : means (AReader (enc_doc fs)) (BDoc fs)
| M_doc_marshaler fs es N : doc_obtained fs es N -> means (ADocMarshaler (inl (Some es))) (BDoc fs)
| M_marshaler fs : means (AMarshaler (inl (enc_doc fs))) (BDoc fs)
| M_foreign a : foreign a = true -> means a BNull.

(* ------------------------------------------------------------------------ proofs *)

Section any_ind.
  Variable P : any -> Prop.
  Hypothesis Hmap : forall l, Forall (fun x => P (snd x)) l -> P (AMap l).
  Hypothesis Hany : forall l, Forall (fun x => P (snd x)) l -> P (AMapAny l).
  Hypothesis Hslice : forall l, Forall P l -> P (ASlice l).
  Hypothesis Hrest : forall a, (match a with AMap _ | AMapAny _ | ASlice _ => False | _ => True end) -> P a.
  Fixpoint any_ind' (a : any) : P a :=
    match a return P a with
    | AMap l => Hmap l ((fix go l := match l return Forall (fun x => P (snd x)) l with
        [] => Forall_nil _ | x :: r => Forall_cons x (any_ind' (snd x)) (go r) end) l)
    | AMapAny l => Hany l ((fix go l := match l return Forall (fun x => P (snd x)) l with
        [] => Forall_nil _ | x :: r => Forall_cons x (any_ind' (snd x)) (go r) end) l)
    | ASlice l => Hslice l ((fix go l := match l return Forall P l with
        [] => Forall_nil _ | x :: r => Forall_cons x (any_ind' x) (go r) end) l)
    | a => Hrest a I
    end.
End any_ind.

Fixpoint ifc_entries fuel (l : list (bytes * any)) : go document :=
  match l with
  | [] => Ret []
  | (k, x) :: r => v <- ec_interface fuel k x ;; es <- ifc_entries fuel r ;; Ret (Some v :: es)
  end.
Fixpoint ifc_items fuel (l : list any) : go document :=
  match l with
  | [] => Ret []
  | x :: r => v <- ec_interface fuel [] x ;; es <- ifc_items fuel r ;; Ret (Some v :: es)
  end.
Lemma ifc_map fuel k l : ec_interface fuel k (AMap l) = (es <- ifc_entries fuel l ;; ec_subdocument k es).
Proof.
  cbn [ec_interface]. f_equal. induction l as [|[] r IH]; cbn [ifc_entries]; [reflexivity|]. now rewrite IH.
Qed.
Lemma ifc_map_any fuel k l : ec_interface fuel k (AMapAny l) = (es <- ifc_entries fuel l ;; ec_subdocument k es).
Proof.
  cbn [ec_interface]. f_equal. induction l as [|[] r IH]; cbn [ifc_entries]; [reflexivity|]. now rewrite IH.
Qed.
Lemma ifc_slice fuel k l : ec_interface fuel k (ASlice l) = (es <- ifc_items fuel l ;; ec_array k es).
Proof.
  cbn [ec_interface]. f_equal. induction l as [|x r IH]; cbn [ifc_items]; [reflexivity|]. now rewrite IH.
Qed.
Lemma ifc_entries_map fuel l : ifc_entries fuel l = dc_map fuel l.
Proof.
  induction l as [|[k x] r IH]; [reflexivity|]. cbn [ifc_entries]. rewrite IH. unfold dc_map. cbn [mapM fst snd].
  destruct (ec_interface fuel k x); reflexivity.
Qed.

Lemma slice_build {A} (f : A -> go value) (g : A -> bval) k l : Forall (fun x => f x = build [] (g x)) l ->
  slice_of f k l = build k (BArray (map g l)).
Proof.
  intros H. rewrite build_BArray. unfold slice_of. f_equal.
  induction H as [|x r E H IH]; [reflexivity|]. cbn [mapM map build_arr]. rewrite E, IH.
  destruct (build [] (g x)); reflexivity.
Qed.
Lemma map_string_build l : dc_map_string l = build_doc (map (fun x => (fst x, BString (snd x))) l).
Proof.
  unfold dc_map_string. induction l as [|[k s] r IH]; [reflexivity|]. cbn [mapM map build_doc fst snd build]. rewrite IH.
  destruct (ec_string k s); reflexivity.
Qed.
Lemma int_build k g : int_fits g -> ec_interface_int k g = build k (int_bson g).
Proof.
  intros [H Hi]. destruct g; cbn [ec_interface_int int_bson goint_ok] in *; try reflexivity.
  - unfold ec_int. specialize (Hi i eq_refl). unfold is_i64 in H. destruct (Z.ltb_spec i 2147483647).
    + rewrite i32_id by (unfold is_i32; lia). reflexivity.
    + replace (9223372036854775807 <? i) with false by lia. reflexivity.
  - unfold is_u32 in H. destruct (Z.ltb_spec i 2147483647).
    + rewrite i32_id by (unfold is_i32; lia). reflexivity.
    + replace (9223372036854775807 <? i) with false by lia. reflexivity.
  - unfold is_u64 in H. destruct (Z.ltb_spec i 2147483647).
    + rewrite i32_id by (unfold is_i32; lia). reflexivity.
    + destruct (Z.ltb_spec 9223372036854775807 i); [reflexivity|]. rewrite i64_id by (unfold is_i64; lia). reflexivity.
  - unfold is_u64 in H. destruct (Z.ltb_spec i 2147483647).
    + rewrite i32_id by (unfold is_i32; lia). reflexivity.
    + destruct (Z.ltb_spec 9223372036854775807 i); [reflexivity|]. rewrite i64_id by (unfold is_i64; lia). reflexivity.
Qed.
Lemma time_build k ns : is_i64 (ns / 1000000) -> ec_time k ns = build k (BDateTime (ns / 1000000)).
Proof.
  intros H. unfold ec_time. cbn [build]. f_equal.
  assert (A : ns / 1000000000 * 1000 + ns mod 1000000000 / 1000000 = ns / 1000000) by lia.
  unfold is_i64, i64 in *. lia.
Qed.
Lemma int_item i : int_fits (GInt i) -> ec_int [] i = build [] (int_bson (GInt i)).
Proof. intros H. exact (int_build [] (GInt i) H). Qed.

Lemma append_all_some (vs : list value) : append_all (map Some vs) = Ret (map Some vs).
Proof. induction vs as [|v r IH]; [reflexivity|]. cbn [map append_all]. rewrite IH. reflexivity. Qed.
Lemma rep_doc_some fs : forall es, rep_doc es fs -> append_all es = Ret es.
Proof.
  induction fs as [|[k t] r IH]; intros [|[v|] es] R; cbn in R; try contradiction; [reflexivity|].
  cbn [append_all]. rewrite IH by tauto. reflexivity.
Qed.

Lemma value_rep v t : value_holds v t -> exists k, wf t /\ zlen (enc_elem k t) < 2147483648 /\ rep k v t /\ within (zlen (enc_body t) + 16) v.
Proof.
  intros (k & N & D & W & Sm & L). exists k.
  assert (F : enough (S (Z.to_nat (zlen (enc_doc [(k, t)])))) (zlen (enc_doc [(k, t)]))) by (unfold enough; posl; lia).
  destruct (doc_obtained_good _ _ _ _ W Sm F D) as (R & A).
  apply Forall_cons_iff in W as [[_ Wt] _]. cbn in Wt. destruct R as [R _].
  repeat split; auto.
  - unfold small, enc_doc in Sm. cbn [enc_elems] in Sm. zlens_in Sm. lia.
  - destruct A as (_ & _ & _ & A). apply all_within_mono with (M := zlen (enc_body t) + 16) in A; [|lia].
    apply Forall_inv in A. exact A.
Qed.

Section convert.
Variable fuel : nat.

(* EC.Interface under any key *)
Definition conv (a : any) : Prop := forall t key, means a t -> nul_free key -> wf t ->
  zlen key + zlen (enc_body t) + 32 < 2147483648 -> zlen (enc_body t) < Z.of_nat fuel ->
  exists v, ec_interface fuel key a = Ret v /\ rep key v t.

Lemma efits_room key t : zlen key + zlen (enc_body t) + 32 < 2147483648 -> efits key t.
Proof. intros. unfold efits. rewrite zlen_enc_elem. lia. Qed.

Lemma entries_ok l : Forall (fun x => conv (snd x)) l -> forall fs,
  Forall2 (fun x f => fst x = fst f /\ means (snd x) (snd f)) l fs -> wf_fields fs ->
  zlen (enc_elems fs) + 32 < 2147483648 -> zlen (enc_elems fs) < Z.of_nat fuel ->
  exists es, ifc_entries fuel l = Ret es /\ rep_doc es fs.
Proof.
  induction 1 as [|[k x] r Hx Hr IH]; intros fs H W L F; inversion H as [|? [k' t] ? fs' [E M] H']; subst.
  - exists []. split; [reflexivity|exact I].
  - cbn [fst snd] in *. subst k'. rewrite zlen_enc_elems_cons in *. rewrite zlen_enc_elem in *. posl.
    apply Forall_cons_iff in W as [[[_ Wk] Wt] W]. cbn [fst snd] in *.
    destruct (Hx t k) as (v & Ev & Rv); auto; try lia.
    destruct (IH fs') as (es & Ee & Re); auto; try lia.
    cbn [ifc_entries]. rewrite Ev, Ee. eexists. split; [reflexivity|]. split; auto.
Qed.
Lemma items_ok l : Forall conv l -> forall vs i, Forall2 means l vs -> Forall wf vs ->
  zlen (enc_items i vs) + 32 < 2147483648 -> zlen (enc_items i vs) < Z.of_nat fuel ->
  exists es, ifc_items fuel l = Ret es /\ rep_arr es vs.
Proof.
  induction 1 as [|x r Hx Hr IH]; intros vs i H W L F; inversion H as [|? t ? vs' M H']; subst.
  - exists []. split; [reflexivity|exact I].
  - cbn [enc_items] in *. zlens_in L. zlens_in F. rewrite zlen_enc_elem in *. posl. inversion_clear W as [|? ? Wt Wv].
    destruct (Hx t []) as (v & Ev & Rv); auto; try (constructor || (change (zlen (@nil Z)) with 0; lia) || lia).
    destruct (IH vs' (S i)) as (es & Ee & Re); auto; try lia.
    cbn [ifc_items]. rewrite Ev, Ee. eexists. split; [reflexivity|]. cbn [rep_arr]. split; auto.
    exists []. split; auto. rewrite zlen_enc_elem. change (zlen (@nil Z)) with 0. lia.
Qed.
Lemma values_ok vs ts : Forall2 value_holds vs ts -> rep_arr (map Some vs) ts.
Proof.
  induction 1 as [|v t vs ts H _ IH]; [exact I|]. cbn [map rep_arr]. split; auto.
  destruct (value_rep _ _ H) as (k & _ & L & R & _). exists k. auto.
Qed.

Lemma built_conv key t g : nul_free key -> wf t -> zlen key + zlen (enc_body t) + 32 < 2147483648 ->
  g = build key t -> exists v, g = Ret v /\ rep key v t.
Proof. intros K W L ->. apply build_rep; auto using efits_room. Qed.

Lemma obtained_rep fs es N : doc_obtained fs es N -> wf_fields fs -> zlen (enc_doc fs) < 2147483648 -> rep_doc es fs.
Proof.
  intros D W L.
  apply (doc_obtained_good (S (Z.to_nat (zlen (enc_doc fs)))) N fs es); auto. unfold enough. posl. lia.
Qed.

Lemma conv_all a : conv a.
Proof.
  induction a as [l IH|l IH|l IH|a Ha] using any_ind'; intros t key M K W L F.
  - inversion M as [| | | | | | |? fs H| | | | | | | | | | | | | | | | | | |? Q]; subst; [|discriminate].
    apply wf_doc in W. rewrite enc_body_doc in *. unfold enc_doc in *. zlens_in L. zlens_in F. posl.
    destruct (entries_ok l IH fs) as (es & E & R); auto; try lia.
    rewrite ifc_map, E. cbn [bind]. destruct (ec_subdocument_rep key es fs) as (v & Ev & Rv & _); eauto. lia.
  - inversion M as [| | | | | | | |? fs H| | | | | | | | | | | | | | | | | |? Q]; subst; [|discriminate].
    apply wf_doc in W. rewrite enc_body_doc in *. unfold enc_doc in *. zlens_in L. zlens_in F. posl.
    destruct (entries_ok l IH fs) as (es & E & R); auto; try lia.
    rewrite ifc_map_any, E. cbn [bind]. destruct (ec_subdocument_rep key es fs) as (v & Ev & Rv & _); eauto. lia.
  - inversion M as [| | | | | | | | | |? vs H| | | | | | | | | | | | | | | |? Q]; subst; [|discriminate].
    apply wf_array in W. rewrite enc_body_array in *. unfold enc_array in *. zlens_in L. zlens_in F. posl.
    destruct (items_ok l IH vs 0) as (es & E & R); auto; try lia.
    rewrite ifc_slice, E. cbn [bind]. destruct (ec_array_rep key es vs) as (v & Ev & Rv & _); eauto. lia.
  - inversion M; subst; try contradiction; cbn [ec_interface].
    all: try (apply built_conv; auto; fail).
    + apply built_conv; auto. now apply int_build.
    + apply built_conv; auto. now apply time_build.
    + apply built_conv; auto. rewrite build_BDoc, map_string_build. reflexivity.
    + apply built_conv; auto. apply slice_build. apply Forall_forall. reflexivity.
    + apply built_conv; auto. apply slice_build. apply Forall_forall. reflexivity.
    + apply built_conv; auto. apply slice_build. apply Forall_forall. reflexivity.
    + apply built_conv; auto. apply slice_build. apply Forall_forall. reflexivity.
    + apply built_conv; auto. apply slice_build. apply Forall_forall. reflexivity.
    + apply built_conv; auto. apply slice_build. revert H. apply Forall_impl. intros. now apply int_item.
    + apply built_conv; auto. apply slice_build. revert H. apply Forall_impl. intros. now apply time_build.
    + apply built_conv; auto. apply slice_build. apply Forall_forall. reflexivity.
    + apply wf_doc in W. rewrite enc_body_doc in *. posl. pose proof (obtained_rep _ _ _ H W ltac:(lia)) as R.
      rewrite (rep_doc_some _ _ R). cbn [bind]. destruct (ec_subdocument_rep key es fs) as (v & Ev & Rv & _); eauto. lia.
    + destruct (value_rep _ _ H) as (k & _ & _ & R & Wi).
      destruct (ec_value_rep _ _ _ key _ R Wi) as (v' & E & R'); auto; [lia|]. rewrite E. cbn [bind]. eauto.
    + rewrite append_all_some. cbn [bind]. posl. destruct (ec_array_rep key (map Some vs) ts) as (v & Ev & Rv & _); eauto.
      * lia.
      * now apply values_ok.
    + apply wf_doc in W. rewrite enc_body_doc in *. posl. pose proof (obtained_rep _ _ _ H W ltac:(lia)) as R.
      destruct (ec_subdocument_rep key es fs) as (v & Ev & Rv & _); eauto. lia.
    + apply wf_doc in W. rewrite enc_body_doc in *. posl.
      destruct (read_document_wf fs [] fuel) as (es & E & R); auto; [rewrite app_nil_r; lia|]. rewrite app_nil_r in E.
      rewrite E. cbn [bind]. destruct (ec_subdocument_rep key es fs) as (v & Ev & Rv & _); eauto. lia.
    + apply wf_doc in W. rewrite enc_body_doc in *. posl. pose proof (obtained_rep _ _ _ H W ltac:(lia)) as R.
      cbn [or_null ece_doc_marshaler ec_subdocument_ptr bind].
      destruct (ec_subdocument_rep key es fs) as (v & Ev & Rv & _); eauto; [lia|]. rewrite Ev. cbn. eauto.
    + cbn [or_null ece_marshaler bind]. rewrite ec_subdocument_reader_lz by now apply efits_room. cbn [bind or_null]. unfold or_null. cbn [bind].
      eexists. split; [reflexivity|]. apply lz_rep; auto. apply efits_lz. now apply efits_room.
    + assert (N : exists v, ec_null key = Ret v /\ rep key v BNull) by (apply built_conv; auto).
      destruct a; try discriminate H; try exact N;
        match goal with
        | H : foreign (?c ?x) = true |- _ => destruct x; try discriminate H
        end; exact N.
Qed.
End convert.

(* ---------------------------------------------------------------------- the way back *)

(* the value of the last field named k *)
Definition last_of (k : bytes) (fs : list (bytes * bval)) : option bval :=
  option_map snd (find (fun f => bytes_eqb (fst f) k) (rev fs)).

(* The Go value that stands for a BSON value.  A document is a map with one entry for each key, from the
   last field of that name.  The halves of a decimal come exchanged (finding C02). *)
Inductive shows : bval -> any -> Prop :=
| S_double b : shows (BDouble b) (AFloat64 b)
| S_string s : shows (BString s) (AString s)
| S_doc fs m : NoDup (map fst m) -> (forall k, In k (map fst fs) <-> In k (map fst m)) ->
    (forall k a, In (k, a) m -> exists t, last_of k fs = Some t /\ shows t a) -> shows (BDoc fs) (AMap m)
| S_array vs l : Forall2 shows vs l -> shows (BArray vs) (ASlice l)
| S_binary st b : shows (BBinary st b) (ABytes b)
| S_undefined : shows BUndefined ANil
| S_oid o : shows (BOid o) (AOid o)
| S_bool b : shows (BBool b) (ABool b)
| S_datetime i : shows (BDateTime i) (ATime (i * 1000000))
| S_null : shows BNull ANil
| S_regex p o : shows (BRegex p o) (ARegex p o)
| S_dbpointer n o : shows (BDBPointer n o) (ADBPointer n o)
| S_javascript s : shows (BJavaScript s) (AString s)
| S_symbol s : shows (BSymbol s) (AString s)
| S_code c fs : shows (BCode c fs) (ACode c (enc_doc fs))
| S_int32 i : shows (BInt32 i) (AInt (GInt32 i))
| S_timestamp t i : shows (BTimestamp t i) (ATimestamp t i)
| S_int64 i : shows (BInt64 i) (AInt (GInt64 i))
| S_decimal h l : shows (BDecimal h l) (ADecimal l h)
| S_minkey : shows BMinKey ANil
| S_maxkey : shows BMaxKey ANil.

Lemma last_of_snoc k fs k' t : last_of k (fs ++ [(k', t)]) = if bytes_eqb k' k then Some t else last_of k fs.
Proof. unfold last_of. rewrite rev_app_distr. cbn [rev app find fst]. now destruct (bytes_eqb k' k). Qed.

Lemma map_set_keys k a m : (In k (map fst m) /\ map fst (map_set k a m) = map fst m) \/
  (~ In k (map fst m) /\ map_set k a m = m ++ [(k, a)]).
Proof.
  induction m as [|[k' a'] r IH]; cbn [map_set]; [right; cbn; auto|].
  destruct (bytes_eqb k k') eqn:E.
  - apply bytes_eqb_eq in E. subst k'. left. cbn. auto.
  - assert (k <> k') by (intros ->; rewrite (proj2 (bytes_eqb_eq k' k') eq_refl) in E; discriminate).
    destruct IH as [[I Q]|[I Q]].
    + left. cbn. rewrite Q. auto.
    + right. rewrite Q. split; [|reflexivity]. cbn. intros [X|X]; congruence || auto.
Qed.
Lemma map_set_in k a m k' a' : NoDup (map fst m) -> In (k', a') (map_set k a m) ->
  (k' = k /\ a' = a) \/ (k' <> k /\ In (k', a') m).
Proof.
  induction m as [|[k0 a0] r IH]; cbn [map_set map fst]; intros N H.
  - destruct H as [H|[]]. injection H as -> ->. auto.
  - inversion_clear N as [|? ? N1 N2]. destruct (bytes_eqb k k0) eqn:E.
    + apply bytes_eqb_eq in E. subst k0. destruct H as [H|H]; [injection H as -> ->; auto|]. right.
      split; [|now right]. intros ->. apply N1. apply (in_map fst _ _ H).
    + destruct H as [H|H].
      * injection H as -> ->. right. split; [|now left]. intros ->. rewrite (proj2 (bytes_eqb_eq k k) eq_refl) in E. discriminate.
      * destruct (IH N2 H) as [?|[? ?]]; [now left|right]. split; auto. now right.
Qed.
Lemma map_set_nodup k a m : NoDup (map fst m) -> NoDup (map fst (map_set k a m)).
Proof.
  intros N. destruct (map_set_keys k a m) as [[_ ->]|[I ->]]; [exact N|]. rewrite map_app. cbn.
  apply (Permutation_NoDup (l := k :: map fst m)); [|now constructor]. apply Permutation_cons_append.
Qed.
Lemma map_set_has k a m k' : In k' (map fst (map_set k a m)) <-> k' = k \/ In k' (map fst m).
Proof.
  destruct (map_set_keys k a m) as [[I ->]|[I ->]].
  - split; [tauto|]. intros [->|]; auto.
  - rewrite map_app, in_app_iff. cbn. split; [intros [?|[?|[]]]; auto|intros [?|?]; auto].
Qed.

Definition igood (t : bval) : Prop := forall k v n, rep k v t -> wf t ->
  zlen (enc_body t) < 2147483648 -> zlen (enc_body t) < Z.of_nat n -> exists a, v_interface n v = Ret a /\ shows t a.

(* the entries so far are those of the fields so far *)
Definition exported (fs : list (bytes * bval)) (m : list (bytes * any)) : Prop :=
  NoDup (map fst m) /\ (forall k, In k (map fst fs) <-> In k (map fst m)) /\
  (forall k a, In (k, a) m -> exists t, last_of k fs = Some t /\ shows t a).
Lemma exported_step fs m k t a : exported fs m -> shows t a -> exported (fs ++ [(k, t)]) (map_set k a m).
Proof.
  intros (N & K & E) S. split; [now apply map_set_nodup|]. split.
  - intros k'. rewrite map_set_has, map_app, in_app_iff, <- K. cbn. intuition.
  - intros k' a' H. apply map_set_in in H; auto. rewrite last_of_snoc. destruct H as [[-> ->]|[Q H]].
    + rewrite (proj2 (bytes_eqb_eq k k) eq_refl). eauto.
    + destruct (bytes_eqb k k') eqn:B; [apply bytes_eqb_eq in B; congruence|]. auto.
Qed.

Lemma export_good n fs : fields_in igood fs -> forall es done m, rep_doc es fs -> wf_fields fs ->
  zlen (enc_elems fs) < 2147483648 -> zlen (enc_elems fs) < Z.of_nat n -> exported done m ->
  exists m', export_map n es m = Ret m' /\ exported (done ++ fs) m'.
Proof.
  induction 1 as [|[k t] fs Ht Hfs IH]; intros [|[v|] es] done m R W L F E; cbn [rep_doc] in R; try contradiction.
  - exists m. rewrite app_nil_r. auto.
  - destruct R as [R1 R2]. apply Forall_cons_iff in W as [[[_ Wk] Wt] W]. cbn [fst snd] in *.
    rewrite zlen_enc_elems_cons in *. rewrite zlen_enc_elem in *. posl.
    destruct (Ht k v n) as (a & Ea & Sa); auto; try lia.
    cbn [export_map]. rewrite (elem_key_rep _ _ _ R1), Ea. cbn [bind].
    destruct (IH es (done ++ [(k, t)]) (map_set k a m)) as (m' & Em & Xm); auto; try lia.
    { now apply exported_step. }
    exists m'. split; [exact Em|]. now rewrite <- app_assoc in Xm.
Qed.
Lemma items_good n vs : Forall igood vs -> forall i es, rep_arr es vs -> Forall wf vs ->
  zlen (enc_items i vs) < 2147483648 -> zlen (enc_items i vs) < Z.of_nat n ->
  exists l, mapM (fun x : elem => match x with None => Ret ANil | Some w => v_interface n w end) es = Ret l /\ Forall2 shows vs l.
Proof.
  induction 1 as [|t vs Ht Hfs IH]; intros i [|[v|] es] R W L F; cbn [rep_arr] in R; try contradiction.
  - exists []. split; [reflexivity|constructor].
  - destruct R as [(k & Lk & R1) R2]. inversion_clear W as [|? ? Wt Wv].
    cbn [enc_items] in *. zlens_in L. zlens_in F. rewrite zlen_enc_elem in *. posl.
    destruct (Ht k v n) as (a & Ea & Sa); auto; try lia.
    destruct (IH (S i) es) as (l & El & Sl); auto; try lia.
    exists (a :: l). split; [|now constructor]. cbn [mapM]. rewrite Ea. cbn [bind]. rewrite El. reflexivity.
Qed.

Lemma v_interface_S m v : v_interface (S m) v =
      let e := Some v in
      t <- v_type v ;;
      if t =? 1 then x <- v_double e ;; Ret (AFloat64 x) else
      if t =? 2 then x <- v_string e ;; Ret (AString x) else
      if t =? 3 then es <- v_mutable_document (S m) e ;; l <- export_map m es [] ;; Ret (AMap l) else
      if t =? 4 then es <- v_mutable_array (S m) e ;;
        l <- mapM (fun x : elem => match x with None => Ret ANil | Some w => v_interface m w end) es ;; Ret (ASlice l) else
      if t =? 5 then '(_, b) <- v_binary e ;; Ret (ABytes b) else
      if t =? 6 then Ret ANil else
      if t =? 7 then x <- v_objectid e ;; Ret (AOid x) else
      if t =? 8 then x <- v_boolean e ;; Ret (ABool x) else
      if t =? 9 then x <- v_time e ;; Ret (ATime x) else
      if t =? 10 then Ret ANil else
      if t =? 11 then '(p, o) <- v_regex e ;; Ret (ARegex p o) else
      if t =? 12 then '(p, o) <- v_dbpointer e ;; Ret (ADBPointer p o) else
      if t =? 13 then x <- v_javascript e ;; Ret (AString x) else
      if t =? 14 then x <- v_symbol e ;; Ret (AString x) else
      if t =? 15 then
        '(c, es) <- v_mutable_code (S m) e ;;
        b <- doc_marshal (S m) es ;;
        Ret (ACode c (match b with inl b => b | inr _ => [] end)) else
      if t =? 16 then x <- v_int32 e ;; Ret (AInt (GInt32 x)) else
      if t =? 17 then '(s, i) <- v_timestamp e ;; Ret (ATimestamp s i) else
      if t =? 18 then x <- v_int64 e ;; Ret (AInt (GInt64 x)) else
      if t =? 19 then '(h, l) <- v_decimal e ;; Ret (ADecimal h l) else
      Ret ANil.
Proof.
  cbn [v_interface]. cbv zeta.
  assert (X : forall es out, (fix loop (es : document) out := match es with
        | [] => Ret out
        | x :: r =>
            match x with
            | None => Panic PNil
            | Some w => k <- elem_key x ;; a <- v_interface m w ;; loop r (map_set k a out)
            end
        end) es out = export_map m es out).
  { induction es as [|[w|] r IH]; intros out; cbn [export_map]; try reflexivity.
    destruct (elem_key (Some w)); cbn [bind]; try reflexivity. destruct (v_interface m w); cbn [bind]; auto. }
  destruct (v_type v); cbn [bind]; try reflexivity.
  destruct (a =? 3) eqn:E3; [|reflexivity]. destruct (a =? 1); [reflexivity|]. destruct (a =? 2); [reflexivity|].
  destruct (v_mutable_document (S m) (Some v)); cbn [bind]; try reflexivity. now rewrite X.
Qed.

Lemma igood_all t : igood t.
Proof.
  induction t using bval_ind'; intros k v m R W L F; (destruct m as [|m]; [posl; lia|]);
    rewrite v_interface_S; cbv zeta; rewrite (rep_type _ _ _ R); cbn [bind tag Z.eqb Pos.eqb];
    try (destruct (rep_scalar _ _ _ R) as (pre & post & -> & Hf); [cbn; lia..|]); cbn [wf] in W;
    try (eexists; split; [reflexivity|constructor]; fail).
  - rewrite v_double_lz by auto. eexists. split; [reflexivity|constructor].
  - rewrite v_string_lz by auto. eexists. split; [reflexivity|constructor].
  - apply wf_doc in W. rewrite enc_body_doc in *.
    destruct (v_mutable_document_rep (S m) k v fs R W L F) as (es & E & Re & _). rewrite E. cbn [bind].
    unfold enc_doc in L, F. zlens_in L. zlens_in F. posl.
    destruct (export_good m fs H es [] []) as (l & Em & X); auto; try lia.
    { split; [constructor|]. split; [reflexivity|]. intros ? ? []. }
    rewrite Em. cbn [bind]. eexists. split; [reflexivity|]. destruct X as (X1 & X2 & X3). now constructor.
  - apply wf_array in W. rewrite enc_body_array in *.
    destruct (v_mutable_array_rep (S m) k v vs R W L F) as (es & E & Re & _). rewrite E. cbn [bind].
    unfold enc_array in L, F. zlens_in L. zlens_in F. posl.
    destruct (items_good m vs H 0 es) as (l & El & X); auto; try lia.
    rewrite El. cbn [bind]. eexists. split; [reflexivity|]. now constructor.
  - rewrite v_binary_lz by auto. eexists. split; [reflexivity|constructor].
  - rewrite v_objectid_lz by tauto. eexists. split; [reflexivity|constructor].
  - rewrite v_boolean_lz by auto. eexists. split; [reflexivity|constructor].
  - unfold v_time. rewrite v_datetime_lz by auto. cbn [bind]. eexists. split; [reflexivity|].
    match goal with |- shows (BDateTime ?i) (ATime ?x) => replace x with (i * 1000000) by (pose proof (Z.quot_rem' i 1000); lia) end.
    constructor.
  - unfold cstr_ok in W. rewrite v_regex_lz by tauto. eexists. split; [reflexivity|constructor].
  - rewrite v_dbpointer_lz by tauto. eexists. split; [reflexivity|constructor].
  - rewrite v_javascript_lz by auto. eexists. split; [reflexivity|constructor].
  - rewrite v_symbol_lz by auto. eexists. split; [reflexivity|constructor].
  - apply wf_code in W as [Wc W]. pose proof L as L'. rewrite enc_body_code in L, F. zlens_in L. zlens_in F. posl.
    destruct (v_mutable_code_rep (S m) k v c fs) as (es & E & Re & _); auto; [lia|].
    rewrite E. cbn [bind]. rewrite (doc_marshal_rep (S m) es fs) by (auto; unfold small; lia). cbn [bind].
    eexists. split; [reflexivity|constructor].
  - rewrite v_int32_lz by auto. eexists. split; [reflexivity|constructor].
  - rewrite v_timestamp_lz by tauto. eexists. split; [reflexivity|constructor].
  - rewrite v_int64_lz by auto. eexists. split; [reflexivity|constructor].
  - rewrite v_decimal_lz by tauto. eexists. split; [reflexivity|constructor].
Qed.

(* ------------------------------------------------------------------ there and back again *)

(* The same BSON up to the order of the fields of each document. *)
Inductive same : bval -> bval -> Prop :=
| same_refl t : same t t
| same_doc fs gs fs' : Permutation fs gs -> Forall2 (fun f g => fst f = fst g /\ same (snd f) (snd g)) gs fs' ->
    same (BDoc fs) (BDoc fs')
| same_array vs ws : Forall2 same vs ws -> same (BArray vs) (BArray ws).

(* The BSON values that ExportMap and MapInterface keep: of these types only, and no key twice
   in one document. *)
Inductive plain : bval -> Prop :=
| P_double b : plain (BDouble b)
| P_string s : plain (BString s)
| P_doc fs : NoDup (map fst fs) -> Forall (fun f => plain (snd f)) fs -> plain (BDoc fs)
| P_array vs : Forall plain vs -> plain (BArray vs)
| P_bool b : plain (BBool b)
| P_datetime i : plain (BDateTime i)
| P_null : plain BNull
| P_int32 i : plain (BInt32 i)
| P_timestamp t i : plain (BTimestamp t i)
| P_int64 i : plain (BInt64 i).

Lemma last_of_in k fs t : last_of k fs = Some t -> In (k, t) fs.
Proof.
  unfold last_of. destruct (find _ (rev fs)) as [[k' t']|] eqn:E; [|discriminate]. cbn. intros [= ->].
  apply find_some in E as [I B]. cbn in B. apply bytes_eqb_eq in B. subst k'. now apply in_rev.
Qed.

(* one field for each entry of the map, in its order *)
Lemma fields_along fs m : (forall k a, In (k, a) m -> exists t, last_of k fs = Some t /\ shows t a) ->
  Forall (fun f => forall a, shows (snd f) a -> exists t', means a t' /\ same (snd f) t') fs ->
  exists gs fs', map fst gs = map fst m /\ incl gs fs /\
    Forall2 (fun f g => fst f = fst g /\ same (snd f) (snd g)) gs fs' /\
    Forall2 (fun x f => fst x = fst f /\ means (snd x) (snd f)) m fs'.
Proof.
  intros H IH. induction m as [|[k a] r IHm].
  - exists [], []. repeat split; try constructor. intros ? [].
  - destruct IHm as (gs & fs' & K & I & S & M); [intros; apply H; now right|].
    destruct (H k a) as (t & L & Sh); [now left|]. apply last_of_in in L.
    rewrite Forall_forall in IH. destruct (IH _ L a Sh) as (t' & Mt & St). cbn [snd] in *.
    exists ((k, t) :: gs), ((k, t') :: fs'). split; [cbn; now rewrite K|]. split; [now apply incl_cons|].
    split; constructor; auto.
Qed.

Lemma nodup_keys_in {A} (l : list (bytes * A)) : NoDup (map fst l) -> NoDup l.
Proof. apply NoDup_map_inv. Qed.
Lemma nodup_field {A} (l : list (bytes * A)) k x y : NoDup (map fst l) -> In (k, x) l -> In (k, y) l -> x = y.
Proof.
  induction l as [|[k' z] r IH]; cbn; intros N; [tauto|]. inversion_clear N as [|? ? N1 N2].
  intros [H1|H1] [H2|H2].
  - congruence.
  - injection H1 as -> ->. destruct N1. apply (in_map fst _ _ H2).
  - injection H2 as -> ->. destruct N1. apply (in_map fst _ _ H1).
  - auto.
Qed.

(* every Go value that stands for a plain BSON value stands for it on the way back *)
Lemma plain_back t : plain t -> wf t -> forall a, shows t a -> exists t', means a t' /\ same t t'.
Proof.
  induction t using bval_ind'; intros P W a S; inversion P as [| |? N Pf|? Pv| | | | | |]; subst.
  - inversion S; subst. exists (BDouble b). split; constructor.
  - inversion S; subst. exists (BString s). split; constructor.
  - inversion S as [| |? m N' K E| | | | | | | | | | | | | | | | | |]; subst. apply wf_doc in W.
    destruct (fields_along fs m E) as (gs & fs' & Kg & I & Sg & Mg).
    { clear - H Pf W. induction H as [|[k t] r Ht Hr IH]; constructor.
      - inversion_clear Pf. apply Forall_cons_iff in W as [[_ Wt] _]. cbn in *. auto.
      - inversion_clear Pf. apply Forall_cons_iff in W as [_ W]. apply IH; auto. }
    exists (BDoc fs'). split; [now constructor|]. apply same_doc with gs; [|exact Sg].
    apply NoDup_Permutation.
    + now apply nodup_keys_in.
    + apply nodup_keys_in. now rewrite Kg.
    + intros [k t]. split; [|apply I]. intros Hin.
      assert (X : In k (map fst gs)) by (rewrite Kg; apply K; apply (in_map fst _ _ Hin)).
      apply in_map_iff in X as ([k' t'] & Q & X). cbn in Q. subst k'.
      now rewrite (nodup_field fs k t t' N Hin (I _ X)).
  - inversion S as [| | |? l F| | | | | | | | | | | | | | | | |]; subst. apply wf_array in W.
    enough (X : exists ws, Forall2 means l ws /\ Forall2 same vs ws).
    { destruct X as (ws & M & Sm). exists (BArray ws). split; now constructor. }
    clear S P. revert l F. induction H as [|t r Ht Hr IH]; intros l F; inversion F as [|? b ? l' Sh F']; subst.
    + exists []. split; constructor.
    + inversion_clear Pv as [|? ? Pt Pr]. inversion_clear W as [|? ? Wt Wr].
      destruct (Ht Pt Wt _ Sh) as (t' & Mt & St). destruct (IH Wr Pr _ F') as (ws & M & Sm).
      exists (t' :: ws). split; now constructor.
  - inversion S; subst. exists (BBool b). split; constructor.
  - inversion S; subst. exists (BDateTime b). split; [|constructor]. cbn in W.
    assert (Q : b * 1000000 / 1000000 = b) by (apply Z.div_mul; lia).
    rewrite <- Q at 2. apply M_time. now rewrite Q.
  - inversion S; subst. exists BNull. split; [now apply M_foreign|constructor].
  - inversion S; subst. exists (BInt32 i). split; [|constructor]. apply (M_int (GInt32 i)).
    split; [exact W|discriminate].
  - inversion S; subst. eexists. split; constructor.
  - inversion S; subst. exists (BInt64 i). split; [|constructor]. apply (M_int (GInt64 i)).
    split; [exact W|discriminate].
Qed.

(* the order of the fields matters neither for well-formedness nor for length *)
Lemma zlen_elems_perm fs gs : Permutation fs gs -> zlen (enc_elems fs) = zlen (enc_elems gs).
Proof.
  induction 1 as [|[k t] l l' _ IH|[k t] [k' t'] l|l l' l'' _ IH1 _ IH2]; [reflexivity| | |congruence].
  - rewrite !zlen_enc_elems_cons. congruence.
  - rewrite !zlen_enc_elems_cons. lia.
Qed.
Definition same_ok (t : bval) : Prop := forall t', same t t' -> wf t ->
  wf t' /\ zlen (enc_body t') = zlen (enc_body t).
Lemma same_fields gs : Forall (fun f => same_ok (snd f)) gs -> forall fs',
  Forall2 (fun f g => fst f = fst g /\ same (snd f) (snd g)) gs fs' -> wf_fields gs ->
  wf_fields fs' /\ zlen (enc_elems fs') = zlen (enc_elems gs).
Proof.
  induction 1 as [|[k t] r Ht Hr IH]; intros fs' F W; inversion F as [|? [k' t'] ? fs2 [Q S] F']; subst.
  - split; [constructor|reflexivity].
  - cbn [fst snd] in *. subst k'. apply Forall_cons_iff in W as [[Wk Wt] W]. cbn [fst snd] in *.
    destruct (Ht _ S Wt) as [Wt' Lt]. destruct (IH _ F' W) as [W' L].
    split; [apply Forall_cons; [now split|exact W']|]. rewrite 2 zlen_enc_elems_cons, 2 zlen_enc_elem. lia.
Qed.
Lemma same_items vs : Forall same_ok vs -> forall i ws, Forall2 same vs ws -> Forall wf vs ->
  Forall wf ws /\ zlen (enc_items i ws) = zlen (enc_items i vs).
Proof.
  induction 1 as [|t r Ht Hr IH]; intros i ws F W; inversion F as [|? t' ? ws' S F']; subst.
  - split; [constructor|reflexivity].
  - inversion_clear W as [|? ? Wt Wr]. destruct (Ht _ S Wt) as [Wt' Lt]. destruct (IH (Datatypes.S i) _ F' Wr) as [W' L].
    split; [now constructor|]. cbn [enc_items]. zlens. rewrite !zlen_enc_elem. lia.
Qed.
Lemma same_ok_all t : same_ok t.
Proof.
  induction t using bval_ind'; intros t' S W; inversion S; subst; auto.
  - apply wf_doc in W. destruct (same_fields gs) with (fs' := fs') as [W' L]; auto.
    + eapply Permutation_Forall; [eassumption|exact H].
    + eapply Permutation_Forall; [eassumption|exact W].
    + split; [now apply wf_doc|]. rewrite !enc_body_doc. unfold enc_doc. zlens.
      rewrite L, (zlen_elems_perm fs gs) by assumption. reflexivity.
  - apply wf_array in W. destruct (same_items vs H 0 ws) as [W' L]; auto.
    split; [now apply wf_array|]. rewrite !enc_body_array. unfold enc_array. zlens. now rewrite L.
Qed.
