(* C90-C93: converting Go values of type any to BSON and back. *)
Require Import ZArith List Bool Lia ZifyBool ZifyNat Permutation.
From Verif Require Import Base BSpec Elements Value Codec CodecRead Itoa CodecRep Api ApiProofs Tree GetterProofs
  CodecProps Search Iface IfaceProofs.
Import ListNotations.
Open Scope Z_scope.

(* There is room for the element (key, t), a little short of 2 GiB, and fuel to walk it. *)
Definition room (fuel : nat) (key : bytes) (t : bval) : Prop :=
  zlen (enc_elem key t) + 30 < 2147483648 /\ enough fuel (zlen (enc_doc [(key, t)])).

(* The element v is (key, t): so says the document that holds it. *)
Definition holds_elem (fuel : nat) (v : value) (key : bytes) (t : bval) : Prop :=
  v_type v = Ret (tag t) /\ elem_key (Some v) = Ret key /\
  doc_marshal fuel [Some v] = Ret (inl (enc_doc [(key, t)])).

Lemma room_ok fuel key t : room fuel key t ->
  zlen key + zlen (enc_body t) + 32 < 2147483648 /\ zlen (enc_body t) < Z.of_nat fuel /\
  zlen (enc_doc [(key, t)]) < Z.of_nat fuel /\ small [(key, t)].
Proof.
  intros [R F]. unfold enough, small, enc_doc in *. cbn [enc_elems] in *. zlens_in F. zlens. rewrite zlen_enc_elem in *.
  posl. lia.
Qed.
Lemma rep_holds fuel v key t : rep key v t -> cstr_ok key -> wf t -> room fuel key t -> holds_elem fuel v key t.
Proof.
  intros R K W H. apply room_ok in H as (_ & _ & F & S). split; [exact (rep_type _ _ _ R)|].
  split; [exact (elem_key_rep _ _ _ R)|]. apply doc_marshal_rep; auto.
  - split; [exact R|exact I].
  - constructor; [split; auto|constructor].
Qed.

(* ------------------------------------------------------------------- C90 EC.Interface *)

(* Whatever the value, however deeply its maps and slices nest, and in whatever order its maps
   are visited: the element has the key given and the BSON the value stands for. *)
Theorem C90_interface : forall fuel key a t, means a t -> cstr_ok key -> wf t -> room fuel key t ->
  exists v, ec_interface fuel key a = Ret v /\ holds_elem fuel v key t.
Proof.
  intros fuel key a t M K W H. pose proof (room_ok _ _ _ H) as (L & F & _ & _).
  destruct (conv_all fuel a t key M) as (v & E & R); auto; [apply K|].
  exists v. split; [exact E|]. now apply rep_holds.
Qed.
Print Assumptions C90_interface.

(* DC.MapInterface, DC.MapInterfaceInterface: the document of a map, a field for each entry *)
Theorem C90_map : forall fuel l fs, means (AMap l) (BDoc fs) -> wf_fields fs -> zlen (enc_doc fs) + 32 < 2147483648 ->
  enough fuel (zlen (enc_doc fs)) ->
  exists es, dc_map fuel l = Ret es /\ doc_marshal fuel es = Ret (inl (enc_doc fs)) /\ obs_doc fuel es = Ret (swapf fs).
Proof.
  intros fuel l fs M W L F. inversion M as [| | | | | | |? ? H| | | | | | | | | | | | | | | | | | |]; subst.
  unfold enough, enc_doc in L, F. zlens_in L. zlens_in F. posl.
  destruct (entries_ok fuel l) with (fs := fs) as (es & E & R); auto; try lia.
  { apply Forall_forall. intros. apply conv_all. }
  rewrite ifc_entries_map in E. exists es. split; [exact E|]. 
  split; [apply doc_marshal_rep|apply obs_doc_rep]; auto; unfold small, enc_doc; zlens; lia.
Qed.
Print Assumptions C90_map.

(* DC.Interface: the document a Go value stands for, and the empty document when there is none. *)
Theorem C90_document : forall fuel a,
  (forall fs, means a (BDoc fs) -> (forall v, a <> AValue v) -> wf_fields fs -> zlen (enc_doc fs) + 32 < 2147483648 ->
     enough fuel (zlen (enc_doc fs)) ->
     exists es, dc_interface fuel a = Ret es /\ doc_marshal fuel es = Ret (inl (enc_doc fs))) /\
  (foreign a = true -> a <> AElem None -> dc_interface fuel a = Ret []).
Proof.
  intros fuel a. split.
  - intros fs M NV W L F. assert (S : small fs) by (unfold small; lia).
    assert (D : forall es N, doc_obtained fs es N -> rep_doc es fs /\ doc_marshal fuel es = Ret (inl (enc_doc fs))).
    { intros es N O. pose proof (obtained_rep _ _ _ O W S) as R. split; [exact R|]. apply doc_marshal_rep; auto. }
    assert (B : exists es, read_document fuel (enc_doc fs) = Ret (inl es) /\ doc_marshal fuel es = Ret (inl (enc_doc fs))).
    { destruct (read_document_wf fs [] fuel) as (es & E & R); auto; [now rewrite app_nil_r|]. rewrite app_nil_r in E.
      exists es. split; [exact E|]. apply doc_marshal_rep; auto. }
    inversion M; subst; cbn [dc_interface].
    + unfold int_bson in *. destruct g; try discriminate; destruct (i <? 2147483647); try discriminate;
        destruct (9223372036854775807 <? i); discriminate.
    + destruct (C90_map fuel l fs) as (es & E & Q & _); eauto.
    + destruct (C90_map fuel l fs) as (es & E & Q & _); eauto. now constructor.
    + rewrite map_string_build. destruct (build_doc_rep _ W S) as (es & E & R). exists es. split; [exact E|].
      apply doc_marshal_rep; auto.
    + destruct (D _ _ H1) as [R Q]. exists es. split; [now apply (rep_doc_some fs)|exact Q].
    + now destruct (NV (Some v)).
    + destruct (D _ _ H1) as [R Q]. eauto.
    + destruct B as (es & E & Q). rewrite E. cbn [bind]. eauto.
    + destruct (D _ _ H1) as [R Q]. eauto.
    + destruct B as (es & E & Q). rewrite E. cbn [bind]. eauto.
  - intros H N. destruct a; try discriminate H; try reflexivity;
      match goal with H : foreign (?c ?x) = true |- _ => destruct x; try discriminate H end; reflexivity || congruence.
Qed.
Print Assumptions C90_document.

(* The value of a nested map, in some order, next to a typed slice and a value no case fits. *)
Example C90_used : exists v,
  ec_interface 200 [107] (AMap [([98], AMapAny [([49], AInt (GUint64 7)); ([50], AInts [3; -4])]); ([97], AOther)]) = Ret v /\
  holds_elem 200 v [107]
    (BDoc [([98], BDoc [([49], BInt32 7); ([50], BArray [BInt32 3; BInt32 (-4)])]); ([97], BNull)]).
Proof.
  apply C90_interface.
  - apply M_map. constructor; [|constructor; [|constructor]]; (split; [reflexivity|]); cbn [snd]; [|now apply M_foreign].
    apply M_map_any. constructor; [|constructor; [|constructor]]; (split; [reflexivity|]); cbn [snd].
    + apply (M_int (GUint64 7)). split; [unfold goint_ok, is_u64; lia|discriminate].
    + apply (M_ints [3; -4]). constructor; [|constructor; [|constructor]]; (split; [unfold goint_ok, is_i64; lia|intros i [= <-]; lia]).
  - vm_compute. repeat constructor; discriminate.
  - vm_compute. repeat constructor; discriminate.
  - split; vm_compute; reflexivity.
Qed.

(* The element does not always get the key asked for: an *Element keeps its own. *)
Theorem C90_element_refuted : forall fuel key k t v N, doc_obtained [(k, t)] [Some v] N -> wf_fields [(k, t)] ->
  room fuel k t -> k <> key ->
  exists w, ec_interface fuel key (AElem (Some v)) = Ret w /\ holds_elem fuel w k t /\ elem_key (Some w) <> Ret key.
Proof.
  intros fuel key k t v N D W H Q. exists v. split; [reflexivity|].
  pose proof (room_ok _ _ _ H) as (_ & _ & _ & S). pose proof (obtained_rep _ _ _ D W S) as [R _].
  apply Forall_cons_iff in W as [[Wk Wt] _]. cbn [fst snd] in *.
  pose proof (rep_holds fuel v k t R Wk Wt H) as X. split; [exact X|]. destruct X as (_ & -> & _). congruence.
Qed.
Print Assumptions C90_element_refuted.
Example C90_element_refuted_used : exists v, doc_obtained [([97], BInt32 1)] [Some v] (zlen (enc_doc [([97], BInt32 1)])) /\
  room 100 [97] (BInt32 1) /\ [97] <> [98].
Proof.
  eexists. split; [|split; [split; vm_compute; reflexivity|discriminate]]. apply do_built. vm_compute. reflexivity.
Qed.

(* An *Array becomes an embedded document, with the indexes as keys. *)
Theorem C90_array_refuted : forall fuel key vs es, build_arr vs = Ret es -> Forall wf vs -> cstr_ok key ->
  room fuel key (BArray vs) ->
  exists v, ec_interface fuel key (AArray es) = Ret v /\ v_type v = Ret 3 /\ holds_elem fuel v key (BDoc (index_fields 0 vs)).
Proof.
  intros fuel key vs es B W K H. pose proof (room_ok _ _ _ H) as (L & F & _ & _). rewrite enc_body_array in *. posl.
  destruct (build_arr_rep vs W ltac:(lia)) as (es' & B' & R). assert (es' = es) by congruence. subst es'.
  cbn [ec_interface]. rewrite (arr_marshal_rep fuel es vs) by (auto; lia). cbn [bind ece_marshaler or_null].
  assert (Le : enc_body (BDoc (index_fields 0 vs)) = enc_body (BArray vs)).
  { rewrite enc_body_doc, enc_body_array. now rewrite enc_array_fields. }
  assert (H' : room fuel key (BDoc (index_fields 0 vs))).
  { destruct H as [Ha Hb]. unfold room, enough in *. unfold enc_doc in *. cbn [enc_elems] in *. zlens. zlens_in Hb.
    rewrite !zlen_enc_elem, ?Le in *. auto. }
  rewrite enc_array_fields. rewrite ec_subdocument_reader_lz.
  2:{ apply efits_room. rewrite Le, enc_body_array. lia. }
  unfold or_null. cbn [bind]. eexists. split; [reflexivity|].
  assert (X : holds_elem fuel (lz [] key (BDoc (index_fields 0 vs)) []) key (BDoc (index_fields 0 vs))).
  { apply rep_holds; auto.
    - apply lz_rep; [apply K|]. apply efits_lz. apply efits_room. rewrite Le, enc_body_array. lia.
    - apply wf_doc. now apply wf_index_fields. }
  split; [apply X|exact X].
Qed.
Print Assumptions C90_array_refuted.
Example C90_array_refuted_used : exists es, build_arr [BInt32 1; BNull] = Ret es /\ Forall wf [BInt32 1; BNull] /\
  room 100 [97] (BArray [BInt32 1; BNull]).
Proof.
  eexists. split; [vm_compute; reflexivity|]. split; [|split; vm_compute; reflexivity].
  constructor; [unfold wf, is_i32; lia|]. constructor; [exact I|constructor].
Qed.

(* The Go values of the BSON types binary, ObjectID, regex, DBPointer, code with scope and
   Decimal128 have no case: each becomes null. *)
Theorem C90_native_refuted : forall fuel key a, cstr_ok key -> room fuel key BNull ->
  (exists b, a = ABytes b) \/ (exists o, a = AOid o) \/ (exists p o, a = ARegex p o) \/
  (exists n o, a = ADBPointer n o) \/ (exists c s, a = ACode c s) \/ (exists h l, a = ADecimal h l) ->
  exists v, ec_interface fuel key a = Ret v /\ holds_elem fuel v key BNull.
Proof.
  intros fuel key a K H A. apply C90_interface; auto; [|exact I]. apply M_foreign.
  destruct A as [(? & ->)|[(? & ->)|[(? & ? & ->)|[(? & ? & ->)|[(? & ? & ->)|(? & ? & ->)]]]]]; reflexivity.
Qed.
Print Assumptions C90_native_refuted.
Example C90_native_refuted_used : cstr_ok [107] /\ room 60 [107] BNull.
Proof. split; [vm_compute; repeat constructor; discriminate|split; vm_compute; reflexivity]. Qed.

(* It does not always return: a nil *Value in a []*Value, or a nil *Element in a []*Element, is a
   panic. *)
Theorem C90_nil_refuted : forall fuel key l, In None l ->
  ec_interface fuel key (AValues l) = Panic (PErr ENilElement) /\
  ec_interface fuel key (AElems l) = Panic (PErr ENilElement).
Proof.
  intros fuel key l H. assert (E : append_all l = Panic (PErr ENilElement)).
  { induction l as [|[v|] r IH]; [destruct H| |reflexivity]. destruct H as [|H]; [discriminate|]. cbn. now rewrite IH. }
  cbn [ec_interface]. now rewrite E.
Qed.
Print Assumptions C90_nil_refuted.
Example C90_nil_refuted_used : In None [Some (MkValue 0 3 (Some (enc_elem [97] BNull)) None); None].
Proof. cbn. auto. Qed.

(* ------------------------------------------------------------------ C91 ECE.Interface *)

Lemma tag_null t : tag t = 10 -> t = BNull.
Proof. destruct t; cbn; try discriminate. reflexivity. Qed.

Lemma ece_ok fuel key a t : means a t -> nul_free key -> wf t -> zlen key + zlen (enc_body t) + 32 < 2147483648 ->
  zlen (enc_body t) < Z.of_nat fuel -> t <> BNull \/ a = ANil ->
  exists v, ece_interface fuel key a = Ret (inl v) /\ rep key v t.
Proof.
  intros M K W L F H. destruct (conv_all fuel a t key M K W L F) as (v & E & R).
  assert (D : t <> BNull -> (v <- ec_interface fuel key a ;; t <- v_type v ;;
      if t =? 10 then Ret (inr (EOther 602)) else Ret (inl v)) = Ret (inl v)).
  { intros N. rewrite E. cbn [bind]. rewrite (rep_type _ _ _ R). cbn [bind].
    destruct (Z.eqb_spec (tag t) 10) as [Q|]; [now apply tag_null in Q|reflexivity]. }
  destruct H as [N| ->].
  2:{ inversion M; subst. exists v. split; [|exact R]. cbn [ece_interface ec_interface] in E |- *. now rewrite E. }
  specialize (D N).
  destruct a as [| | |a_int| | | | | | | | | | | | | | | | | | | | | | | | | | | | | | | |]; try (exists v; split; [exact D|exact R]).
  - inversion M; subst. congruence.
  - (* integers *)
    exists v. split; [|exact R].
    assert (U : forall i, a_int = GUint i \/ a_int = GUint64 i ->
      (if i <? 2147483647 then ec_int32 key (i32 i) else if 9223372036854775807 <? i then ec_null key else ec_int64 key (i64 i)) = Ret v ->
      (if i <? 2147483647 then v <- ec_int32 key (i32 i) ;; Ret (inl v)
       else if 9223372036854775807 <? i then Ret (inr (EOther 601)) else v <- ec_int64 key (i64 i) ;; Ret (inl v)) = Ret (inl v : value + gerr)).
    { intros i Q E'. destruct (i <? 2147483647) eqn:Q1; [now rewrite E'|]. destruct (9223372036854775807 <? i) eqn:Q2; [|now rewrite E'].
      exfalso. apply N. inversion M; subst; [|discriminate]. destruct Q as [-> | ->]; cbn; now rewrite Q1, Q2. }
    destruct a_int; try exact D; cbn [ece_interface]; apply U; auto.
  - inversion M; subst. congruence.
  - inversion M; subst; [|congruence]. exists v. split; [|exact R]. cbn [ece_interface ec_interface ece_doc_marshaler ec_subdocument_ptr] in E |- *. rewrite E. reflexivity.
  - inversion M; subst. discriminate.
  - inversion M; subst; [|congruence]. apply wf_doc in W. rewrite enc_body_doc in *. cbn [ece_interface]. unfold rd_marshal.
    pose proof (reader_validate_wf fs fuel []) as V. rewrite app_nil_r in V. rewrite V by (auto; posl; lia). cbn [bind ece_marshaler].
    rewrite ec_subdocument_reader_lz by (apply efits_room; now rewrite enc_body_doc). cbn [bind].
    eexists. split; [reflexivity|]. apply lz_rep; auto. apply efits_lz, efits_room. now rewrite enc_body_doc.
  - inversion M; subst; [|congruence]. exists v. split; [|exact R]. cbn [ece_interface ec_interface ece_doc_marshaler ec_subdocument_ptr] in E |- *. unfold or_null in E. cbn [bind] in E.
    destruct (ec_subdocument key es); cbn [bind] in *; congruence.
  - inversion M; subst; [|congruence]. exists v. split; [|exact R]. cbn [ec_interface ece_interface] in E |- *. unfold or_null, ece_marshaler in *.
    destruct (ec_subdocument_reader key (enc_doc fs)); cbn [bind] in *; congruence.
Qed.

(* A value that stands for something other than null, and nil itself, is converted as by
   EC.Interface. *)
Theorem C91_converts : forall fuel key a t, means a t -> cstr_ok key -> wf t -> room fuel key t ->
  t <> BNull \/ a = ANil ->
  exists v, ece_interface fuel key a = Ret (inl v) /\ holds_elem fuel v key t.
Proof.
  intros fuel key a t M K W H N. pose proof (room_ok _ _ _ H) as (L & F & _ & _).
  destruct (ece_ok fuel key a t M) as (v & E & R); auto; [apply K|].
  exists v. split; [exact E|]. now apply rep_holds.
Qed.
Print Assumptions C91_converts.

(* What cannot be converted is an error: a value of a foreign type, a nil pointer that is not a
   *Document, a marshaler that fails, an unsigned integer above the int64s. *)
Definition refused (a : any) : Prop :=
  (foreign a = true /\ a <> ANil /\ a <> ADoc None) \/
  (exists i, 9223372036854775807 < i /\ (a = AInt (GUint i) \/ a = AInt (GUint64 i))).
Theorem C91_refuses : forall fuel key a, refused a -> cstr_ok key -> room fuel key BNull ->
  exists e, ece_interface fuel key a = Ret (inr e).
Proof.
  intros fuel key a R K H. pose proof (room_ok _ _ _ H) as (L & _ & _ & _).
  assert (Nl : exists v, ec_null key = Ret v /\ v_type v = Ret 10).
  { eexists. split; [apply ec_null_lz; now apply efits_room|apply lz_type]. }
  destruct Nl as (v & Ev & Tv).
  assert (D : (v <- ec_null key ;; t <- v_type v ;; if t =? 10 then Ret (inr (EOther 602)) else Ret (inl v)) = Ret (inr (EOther 602))).
  { rewrite Ev. cbn [bind]. now rewrite Tv. }
  destruct R as [(Fo & N1 & N2)|(i & Hi & [-> | ->])].
  - destruct a; try discriminate Fo; try congruence; try (eexists; exact D);
      match goal with H : foreign (?c ?x) = true |- _ => destruct x; try discriminate H end;
      try congruence; try (eexists; reflexivity); eexists; exact D.
  - exists (EOther 601). cbn. replace (i <? 2147483647) with false by lia. replace (9223372036854775807 <? i) with true by lia. reflexivity.
  - exists (EOther 601). cbn. replace (i <? 2147483647) with false by lia. replace (9223372036854775807 <? i) with true by lia. reflexivity.
Qed.
Print Assumptions C91_refuses.
Example C91_refuses_used : refused (AInt (GUint64 18446744073709551615)) /\ refused (ABytes [1]) /\ refused (AValue None) /\
  refused (AMarshaler (inr EEOF)) /\ cstr_ok [107] /\ room 60 [107] BNull.
Proof.
  split; [right; eexists; split; [|right; reflexivity]; lia|].
  split; [left; repeat split; discriminate|]. split; [left; repeat split; discriminate|]. split; [left; repeat split; discriminate|].
  exact C90_native_refuted_used.
Qed.

(* DCE.MapInterface: a document if every entry can be converted, an error if one cannot. *)
Theorem C91_map : forall fuel l,
  (forall fs, Forall2 (fun x f => fst x = fst f /\ means (snd x) (snd f) /\ (snd f <> BNull \/ snd x = ANil)) l fs ->
     wf_fields fs -> zlen (enc_doc fs) + 32 < 2147483648 -> enough fuel (zlen (enc_doc fs)) ->
     exists es, dce_map fuel l = Ret (inl es) /\ doc_marshal fuel es = Ret (inl (enc_doc fs))) /\
  (forall fs l1 k a l2, l = l1 ++ (k, a) :: l2 -> refused a -> cstr_ok k -> room fuel k BNull ->
     Forall2 (fun x f => fst x = fst f /\ means (snd x) (snd f) /\ (snd f <> BNull \/ snd x = ANil)) l1 fs ->
     wf_fields fs -> zlen (enc_doc fs) + 32 < 2147483648 -> enough fuel (zlen (enc_doc fs)) ->
     exists e, dce_map fuel l = Ret (inr e)).
Proof.
  intros fuel l. split.
  - intros fs F W L En.
    enough (X : exists es, dce_map fuel l = Ret (inl es) /\ rep_doc es fs).
    { destruct X as (es & E & R). exists es. split; [exact E|]. apply doc_marshal_rep; auto. unfold small. lia. }
    unfold enough, enc_doc in *. zlens_in L. zlens_in En. posl.
    assert (L' : zlen (enc_elems fs) + 32 < 2147483648) by lia. assert (En' : zlen (enc_elems fs) < Z.of_nat fuel) by lia.
    clear - F W L' En'. induction F as [|[k x] [k' t] l fs (Q & M & N) F IH]; [exists []; split; [reflexivity|exact I]|].
    cbn [fst snd] in *. subst k'. rewrite zlen_enc_elems_cons in *. rewrite zlen_enc_elem in *. posl.
    apply Forall_cons_iff in W as [[Wk Wt] W]. cbn [fst snd] in *.
    destruct (ece_ok fuel k x t M) as (v & E & R); auto; try lia; [apply Wk|].
    destruct IH as (es & Ee & Re); auto; try lia. cbn [dce_map]. rewrite E. cbn [bind]. rewrite Ee. cbn [bind].
    eexists. split; [reflexivity|]. split; auto.
  - intros fs l1 k a l2 -> Rf K H F W L En. destruct (C91_refuses fuel k a Rf K H) as (e & E).
    unfold enough, enc_doc in *. zlens_in L. zlens_in En. posl.
    assert (L' : zlen (enc_elems fs) + 32 < 2147483648) by lia. assert (En' : zlen (enc_elems fs) < Z.of_nat fuel) by lia.
    exists e. clear - F W L' En' E. induction F as [|[k1 x] [k' t] l fs (Q & M & N) F IH]; cbn [app dce_map].
    + rewrite E. reflexivity.
    + cbn [fst snd] in *. subst k'. rewrite zlen_enc_elems_cons in *. rewrite zlen_enc_elem in *. posl.
      apply Forall_cons_iff in W as [[Wk Wt] W]. cbn [fst snd] in *.
      destruct (ece_ok fuel k1 x t M) as (v & E1 & R); auto; try lia; [apply Wk|].
      rewrite E1. cbn [bind]. rewrite IH by (auto; lia). reflexivity.
Qed.
Print Assumptions C91_map.

(* ECE.SliceInterface: an array if every item can be converted, an error if one cannot. *)
Definition converted (a : any) (t : bval) : Prop := means a t /\ (t <> BNull \/ a = ANil).
Lemma vce_all_ok fuel l ts : Forall2 converted l ts -> forall i, Forall wf ts ->
  zlen (enc_items i ts) + 32 < 2147483648 -> zlen (enc_items i ts) < Z.of_nat fuel ->
  exists es, vce_all fuel l = Ret (inl es) /\ rep_arr es ts.
Proof.
  induction 1 as [|a t l ts [M N] F IH]; intros i W L En; [exists []; split; [reflexivity|exact I]|].
  apply Forall_cons_iff in W as [Wt W]. cbn [enc_items] in *. zlens_in L. zlens_in En. rewrite zlen_enc_elem in *. posl.
  destruct (ece_ok fuel [] a t M) as (v & E & R); auto; try (change (zlen (@nil Z)) with 0); try lia; [constructor|].
  destruct (IH (S i)) as (es & Ee & Re); auto; try lia. cbn [vce_all]. rewrite E. cbn [bind]. rewrite Ee. cbn [bind].
  eexists. split; [reflexivity|]. cbn [rep_arr]. split; auto.
  exists []. split; auto. rewrite zlen_enc_elem. change (zlen (@nil Z)) with 0. lia.
Qed.
Theorem C91_slice : forall fuel key l,
  (forall ts, Forall2 converted l ts -> cstr_ok key -> wf (BArray ts) -> room fuel key (BArray ts) ->
     exists v, ece_slice fuel key l = Ret (inl v) /\ holds_elem fuel v key (BArray ts)) /\
  (forall ts l1 a l2, l = l1 ++ a :: l2 -> Forall2 converted l1 ts -> refused a -> wf (BArray ts) ->
     room fuel key (BArray ts) -> room fuel [] BNull -> exists e, ece_slice fuel key l = Ret (inr e)).
Proof.
  intros fuel key l. split.
  - intros ts F K W H. pose proof (room_ok _ _ _ H) as (L & En & _ & _). pose proof W as W'.
    apply wf_array in W. rewrite enc_body_array in *. unfold enc_array in *. zlens_in L. zlens_in En. posl.
    destruct (vce_all_ok fuel l ts F 0) as (es & E & R); auto; try lia.
    unfold ece_slice. rewrite E. cbn [bind]. destruct (ec_array_rep key es ts) as (v & Ev & Rv & _); eauto; [apply K|lia|].
    rewrite Ev. cbn [bind]. exists v. split; [reflexivity|]. now apply rep_holds.
  - intros ts l1 a l2 -> F Rf W H H2. pose proof (room_ok _ _ _ H) as (L & En & _ & _).
    apply wf_array in W. rewrite enc_body_array in *. unfold enc_array in *. zlens_in L. zlens_in En. posl.
    destruct (C91_refuses fuel [] a Rf) as (e & E); [split; constructor|exact H2|].
    exists e. unfold ece_slice. assert (X : vce_all fuel (l1 ++ a :: l2) = Ret (inr e)); [|now rewrite X].
    assert (L' : zlen (enc_items 0 ts) + 32 < 2147483648) by lia.
    assert (En' : zlen (enc_items 0 ts) < Z.of_nat fuel) by lia.
    clear - F W L' En' E. revert L' En'. generalize 0%nat. induction F as [|x t l ts [M N] F IH]; intros i L' En'; cbn [app vce_all].
    + rewrite E. reflexivity.
    + apply Forall_cons_iff in W as [Wt W]. cbn [enc_items] in *. zlens_in L'. zlens_in En'. rewrite zlen_enc_elem in *. posl.
      destruct (ece_ok fuel [] x t M) as (v & E1 & R); auto; try (change (zlen (@nil Z)) with 0); try lia; [constructor|].
      rewrite E1. cbn [bind]. rewrite (IH W (S i)) by lia. reflexivity.
Qed.
Print Assumptions C91_slice.
Example C91_slice_used : Forall2 converted [AString [104]; ANil] [BString [104]; BNull] /\
  wf (BArray [BString [104]; BNull]) /\ room 100 [97] (BArray [BString [104]; BNull]) /\ refused (AValue None).
Proof.
  split; [repeat constructor; try discriminate; right; reflexivity|]. split; [vm_compute; repeat constructor; discriminate|].
  split; [split; vm_compute; reflexivity|]. left. repeat split; discriminate.
Qed.

(* DC.Interface and DCE.Interface of an element: the document that holds it. *)
Theorem C90_element : forall fuel k t v N, doc_obtained [(k, t)] [Some v] N -> wf_fields [(k, t)] -> room fuel k t ->
  exists es, dc_interface fuel (AElem (Some v)) = Ret es /\ dce_interface fuel (AElem (Some v)) = Ret (inl (Some es)) /\
    doc_marshal fuel es = Ret (inl (enc_doc [(k, t)])).
Proof.
  intros fuel k t v N O W H. pose proof (room_ok _ _ _ H) as (L & F & F2 & S).
  pose proof (obtained_rep _ _ _ O W S) as R. exists [Some v]. cbn [dc_interface dce_interface].
  split; [reflexivity|]. split; [reflexivity|]. now apply doc_marshal_rep.
Qed.
Print Assumptions C90_element.
Example C90_element_used : let v := MkValue 0 2 (Some (enc_elem [] (BInt32 0))) None in
  doc_obtained [([], BInt32 0)] [Some v] (zlen (enc_doc [([], BInt32 0)])) /\ room 100 [] (BInt32 0).
Proof. split; [apply do_built; vm_compute; reflexivity|split; vm_compute; reflexivity]. Qed.

Lemma foreign_means a t : foreign a = true -> means a t -> t = BNull.
Proof. intros F M. inversion M; subst; try discriminate F; reflexivity. Qed.

(* The error is for the outermost value only.  A value that cannot be converted, inside a map or a
   slice, becomes null without one. *)
Theorem C91_nested_refuted : forall fuel key l fs k a, means (AMap l) (BDoc fs) -> In (k, a) l -> refused a ->
  cstr_ok key -> wf (BDoc fs) -> room fuel key (BDoc fs) ->
  exists v, ece_interface fuel key (AMap l) = Ret (inl v) /\ holds_elem fuel v key (BDoc fs) /\ In (k, BNull) fs.
Proof.
  intros fuel key l fs k a M I R K W H.
  destruct (C91_converts fuel key (AMap l) (BDoc fs)) as (v & E & X); auto; [left; discriminate|].
  exists v. split; [exact E|]. split; [exact X|].
  inversion M as [| | | | | | |? ? F| | | | | | | | | | | | | | | | | | |]; subst. clear - F I R.
  induction F as [|[k' x] [k2 t] l fs [Q Mx] F IH]; [destruct I|]. cbn [fst snd] in *. subst k2. destruct I as [I|I]; [|right; auto].
  injection I as -> ->. left. f_equal. destruct R as [(Fo & _ & _)|(i & Hi & [-> | ->])].
  - now apply (foreign_means a).
  - inversion Mx; subst; [|discriminate]. cbn. replace (i <? 2147483647) with false by lia. replace (9223372036854775807 <? i) with true by lia. reflexivity.
  - inversion Mx; subst; [|discriminate]. cbn. replace (i <? 2147483647) with false by lia. replace (9223372036854775807 <? i) with true by lia. reflexivity.
Qed.
Print Assumptions C91_nested_refuted.
Example C91_nested_refuted_used : means (AMap [([97], ABytes [1; 2])]) (BDoc [([97], BNull)]) /\ refused (ABytes [1; 2]) /\
  wf (BDoc [([97], BNull)]) /\ room 100 [107] (BDoc [([97], BNull)]).
Proof.
  split; [apply M_map; constructor; [split; [reflexivity|now apply M_foreign]|constructor]|].
  split; [left; repeat split; discriminate|]. split; [|split; vm_compute; reflexivity].
  vm_compute. repeat constructor; discriminate.
Qed.

(* A nil *Document is not refused: the element that comes back claims to be a document, and
   opening it panics.  (EC.Interface makes it null.) *)
Theorem C91_nil_document_refuted : forall fuel key, zlen key + 6 < 2147483648 ->
  exists v, ece_interface fuel key (ADoc None) = Ret (inl v) /\ v_type v = Ret 3 /\
    forall n, v_mutable_document n (Some v) = Panic PIndex.
Proof.
  intros fuel key L. cbn [ece_interface ece_doc_marshaler ec_subdocument_ptr]. posl. rewrite built_hdr by lia. cbn [bind].
  eexists. split; [reflexivity|]. split.
  - cbn [v_type]. replace (zlen key + 2 =? 0) with false by lia. reflexivity.
  - intros n. unfold v_mutable_document, getter. replace (zlen key + 2 =? 0) with false by lia.
    change (goindex (3 :: enc_cstring key) 0) with (Ret 3). cbn [bind negb Z.eqb Pos.eqb mutable_container]. unfold get_reader_raw.
    rewrite u32_id by (unfold is_u32; lia). unfold goslice. 
    match goal with |- context [if ?c then _ else _] => replace c with false end; [reflexivity|].
    change (zlen (3 :: enc_cstring key)) with (zlen ([3] ++ enc_cstring key)). unfold enc_cstring. zlens. lia.
Qed.
Print Assumptions C91_nil_document_refuted.

(* ECE.Interface of an *Element: the bytes of the element are taken for those of a document. *)
Lemma ec_subdocument_reader_any key r : zlen key + zlen r + 2 < 2147483648 ->
  exists v, ec_subdocument_reader key r = Ret v /\ v_type v = Ret 3 /\ v_data v = Some (3 :: enc_cstring key ++ r).
Proof.
  intros L. unfold ec_subdocument_reader, buf, hdr. posl. u32s.
  assert (W : writes (([3] ++ enc_cstring key) ++ r) 0 (zeros (1 + zlen key + 1 + zlen r))
    (andthen (header_only 3 key (zeros (1 + zlen key + 1 + zlen r)))
       (fun w _ => (put w (1 + zlen key + 1) r, zlen r, None)))).
  { unfold header_only. apply writes_seq; [lia| |].
    - apply (writes_seq [3]); [lia|apply byte_writes; lia|]. intros. apply cstring_writes. lia.
    - intros w Lw. zlens. rewrite zlen_zeros in Lw by lia.
      replace (0 + (1 + 0 + (zlen key + 1))) with (1 + zlen key + 1) by lia.
      apply put_writes; [lia|]. lia. }
  apply writes_exact in W.
  2:{ rewrite zlen_zeros by lia. zl. }
  destruct (header_only 3 key _) as [[w n] [e|]] eqn:E; cbn [andthen] in *; [discriminate|].
  injection W as W1 W2. cbn [built]. rewrite W1. eexists. split; [reflexivity|]. split; [|reflexivity].
  cbn [v_type]. replace (1 + zlen key + 1 =? 0) with false by lia. reflexivity.
Qed.
Theorem C91_element_refuted : forall fuel key k t v N, doc_obtained [(k, t)] [Some v] N -> wf_fields [(k, t)] ->
  room fuel k t -> zlen key + zlen (enc_elem k t) + 2 < 2147483648 ->
  exists w, ece_interface fuel key (AElem (Some v)) = Ret (inl w) /\ v_type w = Ret 3 /\
    v_data w = Some (3 :: enc_cstring key ++ enc_elem k t).
Proof.
  intros fuel key k t v N D W H Lk. pose proof (room_ok _ _ _ H) as (L & F & _ & S).
  pose proof (obtained_rep _ _ _ D W S) as [R _]. apply Forall_cons_iff in W as [[Wk Wt] _]. cbn [fst snd] in *.
  cbn [ece_interface]. posl. rewrite (elem_marshal_rep fuel k v t R Wt) by (rewrite ?zlen_enc_elem; lia). cbn [bind ece_marshaler].
  destruct (ec_subdocument_reader_any key (enc_elem k t)) as (w & E & T & Q); [lia|]. rewrite E. cbn [bind]. eauto.
Qed.
Print Assumptions C91_element_refuted.
(* the document that holds it cannot be written *)
Example C91_element_refuted_used :
  let v := MkValue 0 2 (Some (enc_elem [] (BInt32 0))) None in
  let w := MkValue 0 3 (Some (3 :: enc_cstring [98] ++ enc_elem [] (BInt32 0))) None in
  doc_obtained [([], BInt32 0)] [Some v] (zlen (enc_doc [([], BInt32 0)])) /\ room 100 [] (BInt32 0) /\
  ece_interface 100 [98] (AElem (Some v)) = Ret (inl w) /\ doc_marshal 100 [Some w] = Ret (inr ETooSmall).
Proof.
  split; [apply do_built; vm_compute; reflexivity|]. split; [split; vm_compute; reflexivity|]. split; vm_compute; reflexivity.
Qed.

(* A null *Value is refused, though it is one. *)
Theorem C91_null_value_refuted : forall fuel key v, value_holds v BNull -> cstr_ok key -> room fuel key BNull ->
  exists e, ece_interface fuel key (AValue (Some v)) = Ret (inr e).
Proof.
  intros fuel key v Hv K H. pose proof (room_ok _ _ _ H) as (L & F & _ & _).
  destruct (conv_all fuel (AValue (Some v)) BNull key) as (w & E & R); auto; [now constructor|apply K|exact I|].
  exists (EOther 602). cbn [ece_interface]. rewrite E. cbn [bind]. rewrite (rep_type _ _ _ R). reflexivity.
Qed.
Print Assumptions C91_null_value_refuted.
Example C91_null_value_refuted_used : value_holds (MkValue 0 3 (Some (enc_elem [97] BNull)) None) BNull.
Proof.
  exists [97], 8. split; [apply (do_built [([97], BNull)]); vm_compute; reflexivity|]. split; [|split; vm_compute; [reflexivity|discriminate]].
  apply (proj1 (wf_doc _)). vm_compute. repeat constructor; discriminate.
Qed.

(* DCE.Interface: the document a Go value stands for, and an error when it stands for none.  For a
   map see C91_map. *)
Theorem C91_document : forall fuel a,
  (forall fs, means a (BDoc fs) -> (forall v, a <> AValue v) -> (forall l, a <> AMap l /\ a <> AMapAny l) ->
     wf_fields fs -> small fs -> enough fuel (zlen (enc_doc fs)) ->
     exists es, dce_interface fuel a = Ret (inl (Some es)) /\ doc_marshal fuel es = Ret (inl (enc_doc fs))) /\
  (forall t, means a t -> (forall fs, t <> BDoc fs) -> a <> ADoc None -> a <> AElem None ->
     exists e, dce_interface fuel a = Ret (inr e)).
Proof.
  intros fuel a. split.
  - intros fs M NV NM W S F.
    assert (D : forall es N, doc_obtained fs es N -> rep_doc es fs /\ doc_marshal fuel es = Ret (inl (enc_doc fs))).
    { intros es N O. pose proof (obtained_rep _ _ _ O W S) as R. split; [exact R|]. apply doc_marshal_rep; auto. }
    assert (B : exists es, read_document fuel (enc_doc fs) = Ret (inl es) /\ doc_marshal fuel es = Ret (inl (enc_doc fs))).
    { destruct (read_document_wf fs [] fuel) as (es & E & R); auto; [now rewrite app_nil_r|]. rewrite app_nil_r in E.
      exists es. split; [exact E|]. apply doc_marshal_rep; auto. }
    inversion M; subst; cbn [dce_interface].
    + unfold int_bson in *. destruct g; try discriminate; destruct (i <? 2147483647); try discriminate;
        destruct (9223372036854775807 <? i); discriminate.
    + now destruct (NM l).
    + now destruct (NM l).
    + rewrite map_string_build. destruct (build_doc_rep _ W S) as (es & E & R). rewrite E. exists es. split; [reflexivity|].
      apply doc_marshal_rep; auto.
    + destruct (D _ _ H1) as [R Q]. exists es. split; [|exact Q]. now rewrite (rep_doc_some fs _ R).
    + now destruct (NV (Some v)).
    + destruct (D _ _ H1) as [R Q]. eauto.
    + destruct B as (es & E & Q). rewrite E. cbn [bind]. eauto.
    + destruct (D _ _ H1) as [R Q]. eauto.
    + destruct B as (es & E & Q). rewrite E. cbn [bind]. eauto.
  - intros t M N N1 N2.
    destruct M as [| | | | | | | | | | | | | | | | | | | | | | | | | |a Fo]; try (eexists; reflexivity);
      try (exfalso; eapply N; reflexivity).
    destruct a; try discriminate Fo; try (eexists; reflexivity);
      match goal with H : foreign (?c ?x) = true |- _ => destruct x; try discriminate H end;
      congruence || (eexists; reflexivity).
Qed.
Print Assumptions C91_document.
Example C91_document_used : means (AReader (enc_doc [([97], BInt32 1)])) (BDoc [([97], BInt32 1)]) /\ enough 100 (zlen (enc_doc [([97], BInt32 1)])) /\
  means (ABytes [1]) BNull.
Proof. split; [constructor|]. split; [vm_compute; reflexivity|now apply M_foreign]. Qed.

(* ------------------------------------------------------------------ C92 ExportMap *)

Lemma igood_fields fs : fields_in igood fs.
Proof. induction fs as [|[k t] fs IH]; constructor; auto. apply igood_all. Qed.

(* However the document came about and whatever it nests, its map has one entry for each key it
   uses, holding the Go value of the last field of that name. *)
Theorem C92_export : forall fuel fs es N, doc_obtained fs es N -> wf_fields fs -> small fs ->
  enough fuel (zlen (enc_doc fs)) ->
  exists m, export_map fuel es [] = Ret m /\ shows (BDoc fs) (AMap m).
Proof.
  intros fuel fs es N D W S F. pose proof (obtained_rep _ _ _ D W S) as R.
  unfold small, enough, enc_doc in S, F. zlens_in S. zlens_in F. posl.
  destruct (export_good fuel fs (igood_fields fs) es [] []) as (m & E & X); auto; try lia.
  { split; [constructor|]. split; [reflexivity|]. intros ? ? []. }
  exists m. split; [exact E|]. destruct X as (X1 & X2 & X3). now constructor.
Qed.
Print Assumptions C92_export.
(* Value.Interface *)
Theorem C92_value : forall fuel v t, value_holds v t -> enough fuel (zlen (enc_body t)) ->
  exists a, v_interface fuel v = Ret a /\ shows t a.
Proof.
  intros fuel v t H F. destruct (value_rep _ _ H) as (k & W & L & R & _). unfold enough in F. rewrite zlen_enc_elem in L. posl.
  apply (igood_all t k); auto; lia.
Qed.
Print Assumptions C92_value.
(* two fields of one name, the last of them a document *)
Example C92_used : exists es, doc_obtained [([97], BInt32 1); ([98], BArray [BNull; BBool true]); ([97], BDoc [([99], BString [104])])] es
    (zlen (enc_doc [([97], BInt32 1); ([98], BArray [BNull; BBool true]); ([97], BDoc [([99], BString [104])])])) /\
  export_map 200 es [] = Ret [([97], AMap [([99], AString [104])]); ([98], ASlice [ANil; ABool true])].
Proof. eexists. split; [apply do_built; vm_compute; reflexivity|]. vm_compute. reflexivity. Qed.

(* ------------------------------------------------------------------ C93 there and back *)

(* A document of the types that have a Go counterpart, no key twice, comes back from ExportMap and
   MapInterface with the same fields, in the order the map is ranged over. *)
Theorem C93_round_trip : forall fuel fs es N m m', doc_obtained fs es N -> plain (BDoc fs) -> wf_fields fs ->
  zlen (enc_doc fs) + 32 < 2147483648 -> enough fuel (zlen (enc_doc fs)) ->
  export_map fuel es [] = Ret m -> Permutation m m' ->
  exists es' fs', dc_map fuel m' = Ret es' /\ doc_marshal fuel es' = Ret (inl (enc_doc fs')) /\ same (BDoc fs) (BDoc fs').
Proof.
  intros fuel fs es N m m' D P W L F E Pm.
  destruct (C92_export fuel fs es N D W) as (m0 & E0 & S); auto; [unfold small; lia|].
  assert (m0 = m) by congruence. subst m0.
  assert (S' : shows (BDoc fs) (AMap m')).
  { inversion S as [| |? ? Nd K Sh| | | | | | | | | | | | | | | | | |]; subst. constructor.
    - eapply Permutation_NoDup; [apply Permutation_map, Pm|exact Nd].
    - intros k. rewrite K. split; apply Permutation_in; apply Permutation_map; [|apply Permutation_sym]; exact Pm.
    - intros k a I. apply Sh. eapply Permutation_in; [apply Permutation_sym, Pm|exact I]. }
  destruct (plain_back _ P (proj2 (wf_doc fs) W) _ S') as (t' & M & Sm).
  assert (exists fs', t' = BDoc fs') as (fs' & ->) by (inversion Sm; subst; eauto).
  destruct (same_ok_all _ _ Sm (proj2 (wf_doc fs) W)) as [W' Le]. apply wf_doc in W'. rewrite !enc_body_doc in Le.
  destruct (C90_map fuel m' fs' M W') as (es' & E' & Q & _); [rewrite Le; exact L|unfold enough in *; rewrite Le; exact F|].
  exists es', fs'. auto.
Qed.
Print Assumptions C93_round_trip.
Example C93_used : plain (BDoc [([97], BInt64 1); ([98], BArray [BNull; BDoc [([97], BString [104])]])]) /\
  wf_fields [([97], BInt64 1); ([98], BArray [BNull; BDoc [([97], BString [104])]])] /\
  enough 200 (zlen (enc_doc [([97], BInt64 1); ([98], BArray [BNull; BDoc [([97], BString [104])]])])).
Proof.
  split; [|split; [|vm_compute; reflexivity]].
  - constructor.
    + constructor; [intros [X|[]]; discriminate X|]. constructor; [intros []|constructor].
    + constructor; [constructor|]. constructor; [|constructor]. constructor. constructor; [constructor|]. constructor; [|constructor].
      constructor; [constructor; [intros []|constructor]|]. constructor; [constructor|constructor].
  - apply (proj1 (wf_doc _)). vm_compute. repeat constructor; discriminate.
Qed.

(* The other types do not come back: what a field of theirs turns into *)
Definition turned (t : bval) : option bval :=
  match t with
  | BBinary _ _ | BUndefined | BOid _ | BRegex _ _ | BDBPointer _ _ | BCode _ _ | BDecimal _ _ | BMinKey | BMaxKey => Some BNull
  | BJavaScript s | BSymbol s => Some (BString s)
  | _ => None
  end.
Theorem C93_types_refuted : forall fuel k t t' es N, turned t = Some t' -> doc_obtained [(k, t)] es N -> wf_fields [(k, t)] ->
  zlen (enc_doc [(k, t)]) + 32 < 2147483648 -> enough fuel (zlen (enc_doc [(k, t)])) ->
  exists m es', export_map fuel es [] = Ret m /\ dc_map fuel m = Ret es' /\
    doc_marshal fuel es' = Ret (inl (enc_doc [(k, t')])) /\ t' <> t.
Proof.
  intros fuel k t t' es N T D W L F.
  destruct (C92_export fuel _ es N D W) as (m & E & S); auto; [unfold small; lia|]. exists m.
  inversion S as [| |? ? Nd K Sh| | | | | | | | | | | | | | | | | |]; subst.
  assert (exists a, m = [(k, a)] /\ shows t a) as (a & -> & Sa).
  { assert (I : In k (map fst m)) by (apply K; cbn; auto). destruct m as [|[k1 a1] [|[k2 a2] r]]; [destruct I| |].
    - cbn in I. destruct I as [-> | []]. destruct (Sh k a1) as (t0 & L0 & S0); [now left|].
      apply last_of_in in L0 as [[= <-]|[]]. eauto.
    - exfalso. assert (k1 = k) by (destruct (proj2 (K k1) ltac:(cbn; auto)) as [|[]]; auto).
      assert (k2 = k) by (destruct (proj2 (K k2) ltac:(cbn; auto)) as [|[]]; auto). subst.
      inversion_clear Nd as [|? ? X _]. apply X. cbn. auto. }
  apply Forall_cons_iff in W as [[Wk Wt] _]. cbn [fst snd] in *.
  assert (M : means a t' /\ wf t' /\ zlen (enc_body t') <= zlen (enc_body t) /\ t' <> t).
  { destruct t; try discriminate T; injection T as <-; inversion Sa; subst.
    all: split; [solve [now apply M_foreign | constructor]|]; split; [first [exact I|exact Wt]|]; split; [|discriminate].
    all: try (match goal with |- zlen (enc_body BNull) <= zlen ?x => pose proof (zlen_nonneg x); change (zlen (enc_body BNull)) with 0 end; assumption).
    all: cbn [enc_body]; apply Z.le_refl. }
  destruct M as (M & W' & Le & Ne).
  assert (Ll : zlen (enc_doc [(k, t')]) <= zlen (enc_doc [(k, t)])).
  { unfold enc_doc. cbn [enc_elems]. zlens. rewrite !zlen_enc_elem. lia. }
  destruct (C90_map fuel [(k, a)] [(k, t')]) as (es' & E' & Q & _).
  - apply M_map. constructor; [split; [reflexivity|exact M]|constructor].
  - constructor; [split; auto|constructor].
  - lia.
  - unfold enough in *. lia.
  - eauto 6.
Qed.
Print Assumptions C93_types_refuted.
Example C93_types_refuted_used : turned (BOid [1;2;3;4;5;6;7;8;9;10;11;12]) = Some BNull /\ turned (BSymbol [97]) = Some (BString [97]) /\
  wf_fields [([97], BOid [1;2;3;4;5;6;7;8;9;10;11;12])] /\ enough 100 (zlen (enc_doc [([97], BOid [1;2;3;4;5;6;7;8;9;10;11;12])])).
Proof.
  split; [reflexivity|]. split; [reflexivity|]. split; [|vm_compute; reflexivity].
  apply (proj1 (wf_doc _)). vm_compute. repeat constructor; discriminate.
Qed.

(* Nor does the first of two fields with one name. *)
Theorem C93_duplicates_refuted : forall fuel fs es N m, doc_obtained fs es N -> wf_fields fs -> small fs ->
  enough fuel (zlen (enc_doc fs)) -> ~ NoDup (map fst fs) -> export_map fuel es [] = Ret m ->
  (length m < length fs)%nat.
Proof.
  intros fuel fs es N m D W S F Nd E. destruct (C92_export fuel fs es N D W S F) as (m0 & E0 & Sh).
  assert (m0 = m) by congruence. subst m0. inversion Sh as [| |? ? Nm K _| | | | | | | | | | | | | | | | | |]; subst.
  rewrite <- (map_length fst m), <- (map_length fst fs).
  assert (I : incl (map fst m) (map fst fs)) by (intros k; apply K).
  pose proof (NoDup_incl_length Nm I) as Le.
  destruct (Nat.eq_dec (length (map fst m)) (length (map fst fs))) as [Q|Q]; [|lia].
  exfalso. apply Nd. apply (NoDup_incl_NoDup Nm); [lia|exact I].
Qed.
Print Assumptions C93_duplicates_refuted.
Example C93_duplicates_refuted_used : ~ NoDup (map fst [([97], BInt32 1); ([97], BInt32 2)]).
Proof. intros X. inversion_clear X as [|? ? Y _]. apply Y. cbn. auto. Qed.
