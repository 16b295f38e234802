(* The OK getters (C13), integer and time constructors (C47, C48) and equality (C14). *)
Require Import ZArith List Bool Lia ZifyBool ZifyNat.
From Verif Require Import Base BSpec Elements Value Codec CodecRead Itoa CodecRep Api ApiProofs Tree.
Import ListNotations.
Open Scope Z_scope.

(* ------------------------------------------------------------ OK getters (C13) *)

(* A value a client can hold: nil, uninitialised (no data, or offset 0), or with its type
   byte t inside its data. *)
Inductive vstate := Absent | Typed (t : Z).
Definition vstate_of (ov : option value) (s : vstate) : Prop :=
  match ov with
  | Some (MkValue st off (Some data) _) =>
      if off =? 0 then s = Absent
      else exists t, s = Typed t /\ 0 <= st < zlen data /\ nth_error data (Z.to_nat st) = Some t
  | _ => s = Absent
  end.

(* get is the panicking getter of the types tgs, ok its OK variant. *)
Definition ok_variant {A} (tgs : Z -> bool) (get : option value -> go A)
    (ok : option value -> go (option A)) : Prop :=
  forall ov s, vstate_of ov s ->
  match s with
  | Absent => ok ov = Ret None /\ exists p, get ov = Panic p
  | Typed t =>
      (tgs t = true ->
        ok ov = match get ov with
                | Ret x => Ret (Some x) | Panic p => Panic p | Fuel => Fuel end) /\
      (tgs t = false -> ok ov = Ret None /\ get ov = Panic (PErr (EElementType t)))
  end.

Lemma goindex_nth {A} (l : list A) i x :
  0 <= i < zlen l -> nth_error l (Z.to_nat i) = Some x -> goindex l i = Ret x.
Proof.
  intros H E. unfold goindex. replace ((0 <=? i) && (i <? zlen l)) with true by lia. now rewrite E.
Qed.

Lemma getter_ok_variant {A} tg (f : Z -> bytes -> option document -> go A) :
  ok_variant (fun t => t =? tg) (getter tg f) (getter_ok tg (getter tg f)).
Proof.
  intros [[st off [data|] d]|] s Hs; cbn in Hs.
  - destruct (off =? 0) eqn:E0.
    + subst s. cbn. rewrite E0. eauto.
    + destruct Hs as (t & -> & Hr & Hn). cbn. rewrite E0.
      rewrite (goindex_nth data st t Hr Hn). cbn [bind].
      destruct (t =? tg); cbn [negb]; split; intros; try discriminate; auto.
  - subst s. cbn. eauto.
  - subst s. cbn. eauto.
Qed.

Lemma time_ok_variant : ok_variant (fun t => t =? 9) v_time v_time_ok.
Proof.
  intros ov s Hs. pose proof (getter_ok_variant 9 (fun off data _ => u <- get_u64 off data ;; Ret (i64 u)) ov s Hs) as G.
  fold v_datetime in G. fold v_datetime_ok in G.
  destruct s as [|t].
  - destruct G as [G1 [p Gp]]. split.
    + unfold v_time_ok, getter_ok, v_datetime_ok in *. cbn in *.
      destruct ov as [[st off [data|] d]|]; auto. cbn in Hs. destruct (off =? 0); auto.
      destruct Hs as (? & ? & _). discriminate.
    + unfold v_time. rewrite Gp. cbn. eauto.
  - destruct G as [G1 G2]. destruct ov as [[st off [data|] d]|]; try discriminate.
    cbn in Hs. destruct (off =? 0) eqn:E0; [discriminate|].
    destruct Hs as (t' & E & Hr & Hn). injection E as <-.
    split; intros Ht.
    + unfold v_time_ok, getter_ok. rewrite E0, (goindex_nth _ _ _ Hr Hn). cbn [bind].
      rewrite Ht. cbn [negb]. destruct (v_time _); reflexivity.
    + destruct (G2 Ht) as [_ G3]. split.
      * unfold v_time_ok, getter_ok. rewrite E0, (goindex_nth _ _ _ Hr Hn). cbn [bind]. now rewrite Ht.
      * unfold v_time. now rewrite G3.
Qed.

Lemma int_ok_variant : ok_variant (fun t => (t =? 16) || (t =? 18)) v_int v_int_ok.
Proof.
  intros [[st off [data|] d]|] s Hs; cbn in Hs.
  2,3: subst s; cbn; eauto.
  destruct (off =? 0) eqn:E0.
  - subst s. unfold v_int_ok, v_int, v_int32_ok, v_int64_ok, getter_ok. rewrite E0. cbn [bind].
    split; [reflexivity|]. destruct (goindex data st) eqn:E; cbn; eauto.
    unfold goindex in E. destruct (_ && _); [destruct (nth_error _ _)|]; discriminate.
  - destruct Hs as (t & -> & Hr & Hn). cbn [v_int_ok]. rewrite E0.
    rewrite (goindex_nth data st t Hr Hn). cbn [bind].
    split; intros Ht.
    + replace (negb (t =? 18) && negb (t =? 16)) with false by lia. destruct (v_int _); reflexivity.
    + replace (negb (t =? 18) && negb (t =? 16)) with true by lia. split; [reflexivity|].
      unfold v_int, v_int32_ok, v_int64_ok, getter_ok. rewrite E0.
      rewrite (goindex_nth data st t Hr Hn). cbn [bind].
      replace (t =? 16) with false by lia. replace (t =? 18) with false by lia. reflexivity.
Qed.

(* --------------------------------------------------------- integers and times *)

Lemma v_int_int32 pre k i post : is_i32 i -> lzfits pre k (BInt32 i) post ->
  v_int (Some (lz pre k (BInt32 i) post)) = Ret i.
Proof.
  intros. unfold v_int, v_int32_ok.
  rewrite (getter_ok_lz 16 v_int32 pre k (BInt32 i) post i) by (auto using v_int32_lz). reflexivity.
Qed.

Lemma getter_ok_lz_no {A} tg (get : option value -> go A) pre k t post :
  tag t <> tg -> getter_ok tg get (Some (lz pre k t post)) = Ret None.
Proof.
  intros H. cbn [getter_ok lz].
  replace (zlen pre + zlen k + 2 =? 0) with false by zl.
  rewrite (goindex_app pre (tag t)) by reflexivity. cbn [bind].
  replace (tag t =? tg) with false by lia. reflexivity.
Qed.

Lemma v_int_int64 pre k i post : is_i64 i -> lzfits pre k (BInt64 i) post ->
  v_int (Some (lz pre k (BInt64 i) post)) = Ret i.
Proof.
  intros. unfold v_int, v_int32_ok, v_int64_ok.
  rewrite getter_ok_lz_no by (cbn; lia). cbn [bind].
  rewrite (getter_ok_lz 18 v_int64 pre k (BInt64 i) post i) by (auto using v_int64_lz). reflexivity.
Qed.

Lemma v_int_ok_lz pre k t post i : tag t = 16 \/ tag t = 18 ->
  v_int (Some (lz pre k t post)) = Ret i -> v_int_ok (Some (lz pre k t post)) = Ret (Some i).
Proof.
  intros Ht E. unfold v_int_ok. change (Some (lz pre k t post)) with (Some (lz pre k t post)) in E.
  cbn [lz]. replace (zlen pre + zlen k + 2 =? 0) with false by zl.
  rewrite (goindex_app pre (tag t)) by reflexivity. cbn [bind].
  replace (negb (tag t =? 18) && negb (tag t =? 16)) with false by lia.
  fold (lz pre k t post). now rewrite E.
Qed.

Lemma efits_int k t : tag t = 16 \/ tag t = 18 -> zlen k + 10 < 2147483648 -> efits k t.
Proof.
  intros H L. unfold efits. rewrite zlen_enc_elem. destruct t; cbn in H; try lia; cbn [enc_body]; zl.
Qed.

(* The element a successful integer constructor gives. *)
Definition holds_int (r : go value) (i : Z) : Prop :=
  exists v, r = Ret v /\ v_int (Some v) = Ret i /\ v_int_ok (Some v) = Ret (Some i).

Lemma ec_int32_holds k i : zlen k + 10 < 2147483648 -> is_i32 i -> holds_int (ec_int32 k i) i.
Proof.
  intros L H. assert (F : efits k (BInt32 i)) by (apply efits_int; auto).
  exists (lz [] k (BInt32 i) []). split; [now apply ec_int32_lz|].
  assert (E : v_int (Some (lz [] k (BInt32 i) [])) = Ret i) by (apply v_int_int32; auto using efits_lz).
  split; [exact E|]. apply v_int_ok_lz; auto.
Qed.
Lemma ec_int64_holds k i : zlen k + 10 < 2147483648 -> is_i64 i -> holds_int (ec_int64 k i) i.
Proof.
  intros L H. assert (F : efits k (BInt64 i)) by (apply efits_int; auto).
  exists (lz [] k (BInt64 i) []). split; [now apply ec_int64_lz|].
  assert (E : v_int (Some (lz [] k (BInt64 i) [])) = Ret i) by (apply v_int_int64; auto using efits_lz).
  split; [exact E|]. apply v_int_ok_lz; auto.
Qed.

(* ranges of Go's integer types *)
Definition goint_val (g : goint) : Z :=
  match g with
  | GInt8 i | GInt16 i | GInt32 i | GInt64 i | GInt i
  | GUint8 i | GUint16 i | GUint32 i | GUint64 i | GUint i => i
  end.
Definition goint_ok (g : goint) : Prop :=
  match g with
  | GInt8 i => -128 <= i < 128
  | GInt16 i => -32768 <= i < 32768
  | GInt32 i => is_i32 i
  | GInt64 i | GInt i => is_i64 i
  | GUint8 i => is_u8 i
  | GUint16 i => 0 <= i < 65536
  | GUint32 i => is_u32 i
  | GUint64 i | GUint i => is_u64 i
  end.

Lemma ec_int_holds k i : zlen k + 10 < 2147483648 -> is_i64 i -> -2147483648 <= i ->
  holds_int (ec_int k i) i.
Proof.
  intros L H Hi. unfold ec_int. destruct (i <? 2147483647) eqn:E.
  - rewrite i32_id by rng. apply ec_int32_holds; auto. rng.
  - apply ec_int64_holds; auto.
Qed.

Lemma ec_interface_int_holds k g : zlen k + 10 < 2147483648 -> goint_ok g ->
  (forall i, g = GInt i -> -2147483648 <= i) ->
  (goint_val g <= 9223372036854775807 -> holds_int (ec_interface_int k g) (goint_val g)) /\
  (9223372036854775807 < goint_val g -> exists v, ec_interface_int k g = Ret v /\ v_type v = Ret 10).
Proof.
  intros L H Hi.
  assert (N : exists v, ec_null k = Ret v /\ v_type v = Ret 10).
  { eexists; split; [apply ec_null_lz; unfold efits; rewrite zlen_enc_elem; cbn [enc_body]; zl|apply lz_type]. }
  destruct g; cbn [goint_val goint_ok ec_interface_int] in *; split; intros Hc;
    try (exfalso; unfold is_i32, is_i64, is_u8, is_u32 in *; lia);
    try (apply ec_int32_holds; auto; unfold is_i32, is_u8 in *; lia).
  - now apply ec_int64_holds.
  - apply ec_int_holds; auto.
  - destruct (i <? 2147483647) eqn:E.
    + rewrite i32_id by rng. apply ec_int32_holds; auto. rng.
    + apply ec_int64_holds; auto. rng.
  - destruct (i <? 2147483647) eqn:E.
    + rewrite i32_id by rng. apply ec_int32_holds; auto. rng.
    + replace (9223372036854775807 <? i) with false by lia. rewrite i64_id by rng.
      apply ec_int64_holds; auto. rng.
  - replace (i <? 2147483647) with false by lia. replace (9223372036854775807 <? i) with true by lia. exact N.
  - destruct (i <? 2147483647) eqn:E.
    + rewrite i32_id by rng. apply ec_int32_holds; auto. rng.
    + replace (9223372036854775807 <? i) with false by lia. rewrite i64_id by rng.
      apply ec_int64_holds; auto. rng.
  - replace (i <? 2147483647) with false by lia. replace (9223372036854775807 <? i) with true by lia. exact N.
Qed.

(* An instant is in nanoseconds since 1970; truncation is towards the past. *)
Lemma time_round_trip k ns : zlen k + 10 < 2147483648 -> is_i64 (ns / 1000000) ->
  exists v, ec_time k ns = Ret v /\ v_time (Some v) = Ret (ns / 1000000 * 1000000) /\
            v_time_ok (Some v) = Ret (Some (ns / 1000000 * 1000000)).
Proof.
  intros L H. unfold ec_time.
  assert (E : i64 (i64 (ns / 1000000000 * 1000) + ns mod 1000000000 / 1000000) = ns / 1000000).
  { assert (A : ns / 1000000000 * 1000 + ns mod 1000000000 / 1000000 = ns / 1000000) by lia.
    unfold is_i64, i64 in *. lia. }
  rewrite E. set (ms := ns / 1000000) in *. clearbody ms.
  assert (F : efits k (BDateTime ms)) by (unfold efits; rewrite zlen_enc_elem; cbn [enc_body]; zl).
  exists (lz [] k (BDateTime ms) []). split; [now apply ec_datetime_lz|].
  assert (T : v_time (Some (lz [] k (BDateTime ms) [])) = Ret (ms * 1000000)).
  { unfold v_time. rewrite v_datetime_lz by auto using efits_lz. cbn [bind]. f_equal.
    pose proof (Z.quot_rem' ms 1000). lia. }
  split; [exact T|]. now apply (getter_ok_lz 9).
Qed.

(* ---------------------------------------------------------------- equality (C14) *)

Lemma bytes_eqb_eq a b : bytes_eqb a b = true <-> a = b.
Proof.
  revert b. induction a as [|x a IH]; intros [|y b]; cbn; split; intros H; try discriminate; auto.
  - apply andb_true_iff in H as [H1 H2]. apply Z.eqb_eq in H1. apply IH in H2. congruence.
  - injection H as -> ->. rewrite Z.eqb_refl. now apply IH.
Qed.

Lemma read_length_le l rest : is_i32 l -> read_length (le32 l ++ rest) = Ret (Some l).
Proof.
  intros H. unfold read_length. replace (zlen (le32 l ++ rest) <? 4) with false by zl.
  gs (@nil Z) (le32 l) rest. rewrite readi32_le by auto. reflexivity.
Qed.

Lemma read_value_enc t rest : wf t -> zlen (enc_body t ++ rest) < 2147483648 ->
  read_value (enc_body t ++ rest) (tag t) = Ret (Some (enc_body t)).
Proof.
  intros W L. zlens_in L.
  assert (Cut : forall l, l = zlen (enc_body t) ->
    (if zlen (enc_body t ++ rest) <? l then Ret None
     else s <- goslice (enc_body t ++ rest) 0 l ;; Ret (Some s)) = Ret (Some (enc_body t))).
  { intros l ->. replace (zlen (enc_body t ++ rest) <? zlen (enc_body t)) with false by zl.
    gs (@nil Z) (enc_body t) rest. reflexivity. }
  assert (Pre : forall l tl n, enc_body t = le32 l ++ tl -> is_i32 l -> l + n = zlen (enc_body t) ->
    (ol <- read_length (enc_body t ++ rest) ;;
     match ol with
     | None => Ret None
     | Some l => if zlen (enc_body t ++ rest) <? i32 (l + n) then Ret None
                 else s <- goslice (enc_body t ++ rest) 0 (i32 (l + n)) ;; Ret (Some s)
     end) = Ret (Some (enc_body t))).
  { intros l tl n E Hl Hn. rewrite E at 1. rewrite <- app_assoc, read_length_le by auto. cbn [bind].
    assert (HL := zlen_nonneg (enc_body t)). assert (HR := zlen_nonneg rest).
    rewrite i32_id by (rewrite Hn; unfold is_i32; lia). now apply Cut. }
  assert (F : forall c, enc_body t = enc_frame c -> enc_body t = le32 (zlen c + 5) ++ c ++ [0])
    by (intros c ->; reflexivity).
  assert (SF : forall s, enc_body t = enc_string s -> enc_body t = le32 (zlen s + 1) ++ s ++ [0])
    by (intros c ->; reflexivity).
  unfold read_value. destruct t; cbn [tag Z.eqb Pos.eqb orb]; cbn [wf] in W.
  - apply Cut. cbn [enc_body]. zl.
  - eapply Pre; [apply SF; reflexivity| |]; cbn [enc_body] in *; zlens; zlens_in L; rng.
  - eapply Pre; [apply F; apply enc_body_doc| |]; rewrite enc_body_doc in *; unfold enc_doc in *; zlens; zlens_in L; rng.
  - eapply Pre; [apply F; apply enc_body_array| |]; rewrite enc_body_array in *; unfold enc_array in *; zlens; zlens_in L; rng.
  - destruct (sub =? 2) eqn:E2.
    + eapply (Pre (zlen b + 4)); cbn [enc_body] in *; rewrite E2 in *; [reflexivity| |]; zlens; zlens_in L; rng.
    + eapply (Pre (zlen b)); cbn [enc_body] in *; rewrite E2 in *; [reflexivity| |]; zlens; zlens_in L; rng.
  - apply Cut. reflexivity.
  - apply Cut. cbn [enc_body]. lia.
  - apply Cut. cbn [enc_body]. zl.
  - apply Cut. cbn [enc_body]. zl.
  - apply Cut. reflexivity.
  - destruct W as [[_ Wp] [_ Wo]]. cbn [enc_body] in *. unfold enc_cstring in *.
    replace (((p ++ [0]) ++ o ++ [0]) ++ rest) with (p ++ 0 :: (o ++ 0 :: rest)) at 1 by lst.
    rewrite find_nul_cstr by auto.
    replace (skipn (Z.to_nat (zlen p + 1)) (((p ++ [0]) ++ o ++ [0]) ++ rest)) with (o ++ 0 :: rest).
    2:{ rewrite <- app_assoc. rewrite skipn_zlen by zl. lst. }
    rewrite find_nul_cstr by auto. zlens_in L. posl. rewrite i32_id by rng. apply Cut. zl.
  - eapply (Pre (zlen ns + 1)); [cbn [enc_body]; unfold enc_string; rewrite <- app_assoc; reflexivity| |];
      cbn [enc_body] in *; zlens; zlens_in L; rng.
  - eapply Pre; [apply SF; reflexivity| |]; cbn [enc_body] in *; zlens; zlens_in L; rng.
  - eapply Pre; [apply SF; reflexivity| |]; cbn [enc_body] in *; zlens; zlens_in L; rng.
  - eapply Pre; [apply enc_body_code| |]; rewrite enc_body_code in *; zlens; zlens_in L; rng.
  - apply Cut. cbn [enc_body]. zl.
  - apply Cut. cbn [enc_body]. zl.
  - apply Cut. cbn [enc_body]. zl.
  - apply Cut. cbn [enc_body]. zl.
  - apply Cut. reflexivity.
  - apply Cut. reflexivity.
Qed.

(* docToBytes gives the encoded value, possibly followed by the rest of the slice. *)
Lemma doc_to_bytes_rep fuel k v t : rep k v t -> wf t -> zlen (enc_body t) < 2147483648 ->
  zlen (enc_body t) < Z.of_nat fuel ->
  exists st off data d rest, v = MkValue st off (Some data) d /\
    goindex data st = Ret (tag t) /\ zlen (enc_body t ++ rest) < 2147483648 /\
    doc_to_bytes fuel (tag t) off data d = Ret (Some (enc_body t ++ rest)).
Proof.
  intros R W S F. apply rep_inv in R as (Hk & pre & post & C).
  destruct C as [[-> H]|[C|[C|C]]].
  - do 4 eexists. exists post. split; [reflexivity|]. split; [now apply goindex_app|].
    unfold fits in H. zlens_in H. split; [zl|].
    unfold doc_to_bytes. 
    gs (pre ++ tag t :: enc_cstring k) (enc_body t ++ post) (@nil Z); [reflexivity|].
    now rewrite !app_nil_r, <- !app_assoc.
  - destruct C as (fs & es & -> & -> & H & Re). apply wf_doc in W. rewrite enc_body_doc in *.
    do 4 eexists. exists []. split; [reflexivity|]. split; [now apply goindex_app|].
    rewrite app_nil_r. split; [exact S|]. cbn [doc_to_bytes tag Z.eqb Pos.eqb].
    rewrite (doc_marshal_rep fuel es fs) by auto. reflexivity.
  - destruct C as (vs & es & -> & -> & H & Re). apply wf_array in W. rewrite enc_body_array in *.
    do 4 eexists. exists []. split; [reflexivity|]. split; [now apply goindex_app|].
    rewrite app_nil_r. split; [exact S|]. cbn [doc_to_bytes tag Z.eqb Pos.eqb].
    rewrite (arr_marshal_rep fuel es vs) by auto. reflexivity.
  - destruct C as (c & fs & es & l4 & -> & L4 & -> & H & Re). apply wf_code in W as [Wc W].
    rewrite enc_body_code in *. zlens_in S. zlens_in F.
    do 4 eexists. exists []. split; [reflexivity|]. split; [now apply goindex_app|].
    rewrite app_nil_r. split; [zl|]. cbn [doc_to_bytes tag Z.eqb Pos.eqb]. posl.
    rewrite (doc_marshal_rep fuel es fs) by (auto; unfold small; lia). cbn [bind].
    unfold fits in H. zlens_in H. u32s.
    gs (pre ++ 15 :: enc_cstring k ++ l4) (enc_string c ++ post) (@nil Z).
    2:{ now rewrite !app_nil_r, <- !app_assoc, <- app_comm_cons, <- !app_assoc. }
    unfold read_string, enc_string. rewrite <- app_assoc. rewrite read_length_le by rng. cbn [bind].
    replace (zlen (le32 (zlen c + 1) ++ (c ++ [0]) ++ post) - 4 <? zlen c + 1) with false by zl.
    change (skipn 4 (le32 (zlen c + 1) ++ ?x)) with x. rewrite i32_id by rng.
    gs (@nil Z) c ([0] ++ post). unfold append_code.
    rewrite !le32_i32. do 2 f_equal. unfold enc_string. do 2 f_equal.
    rewrite !zlen_app. change (zlen [0]) with 1. rewrite zlen_le32. lia.
Qed.

Lemma v_equal_rep fuel k1 v1 t1 k2 v2 t2 :
  rep k1 v1 t1 -> rep k2 v2 t2 -> wf t1 -> wf t2 ->
  zlen (enc_body t1) < 2147483648 - 7 -> zlen (enc_body t2) < 2147483648 - 7 ->
  zlen (enc_body t1) < Z.of_nat fuel -> zlen (enc_body t2) < Z.of_nat fuel ->
  exists b, v_equal fuel (Some v1) (Some v2) = Ret b /\ (b = true <-> t1 = t2).
Proof.
  intros R1 R2 W1 W2 S1 S2 F1 F2.
  destruct (doc_to_bytes_rep fuel k1 v1 t1) as (s1 & o1 & x1 & d1 & r1 & -> & I1 & L1 & D1); auto; [lia|].
  destruct (doc_to_bytes_rep fuel k2 v2 t2) as (s2 & o2 & x2 & d2 & r2 & -> & I2 & L2 & D2); auto; [lia|].
  cbn [v_equal]. rewrite I1, I2. cbn [bind]. destruct (tag t1 =? tag t2) eqn:Et; cbn [negb].
  - rewrite D1. cbn [bind]. rewrite D2. cbn [bind]. unfold check_equal.
    rewrite read_value_enc by auto. cbn [bind].
    assert (tag t1 = tag t2) as Et' by lia. rewrite Et'. rewrite read_value_enc by auto. cbn [bind].
    eexists; split; [reflexivity|]. rewrite bytes_eqb_eq. split; [|congruence].
    intros E. apply enc_body_inj; auto.
  - eexists; split; [reflexivity|]. split; [discriminate|]. intros ->. lia.
Qed.

Lemma e_equal_rep fuel k1 v1 t1 k2 v2 t2 :
  rep k1 v1 t1 -> rep k2 v2 t2 -> wf t1 -> wf t2 ->
  zlen (enc_body t1) < 2147483648 - 7 -> zlen (enc_body t2) < 2147483648 - 7 ->
  zlen (enc_body t1) < Z.of_nat fuel -> zlen (enc_body t2) < Z.of_nat fuel ->
  exists b, e_equal fuel (Some v1) (Some v2) = Ret b /\ (b = true <-> k1 = k2 /\ t1 = t2).
Proof.
  intros R1 R2 W1 W2 S1 S2 F1 F2. unfold e_equal.
  rewrite (elem_key_rep k1 v1 t1), (elem_key_rep k2 v2 t2) by auto. cbn [bind].
  pose proof (bytes_eqb_eq k1 k2) as B. destruct (bytes_eqb k1 k2).
  - destruct (v_equal_rep fuel k1 v1 t1 k2 v2 t2) as (b & E & H); auto.
    exists b. split; [exact E|]. tauto.
  - exists false. split; [reflexivity|]. split; [discriminate|]. intros [E _]. apply B in E. discriminate.
Qed.
