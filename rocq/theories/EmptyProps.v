(* Which values IsEmpty calls empty and which elements AppendOmitEmpty leaves out. *)
Require Import ZArith List Bool Lia ZifyBool ZifyNat.
From Verif Require Import Base BSpec Elements Value Codec CodecRead Itoa CodecRep Api ApiProofs Tree
  GetterProofs ReaderOps ReadSafe CodecProps DocOps DocSpec DocProofs DocProps.
Import ListNotations.
Open Scope Z_scope.

Definition nilb {A} (l : list A) : bool := match l with [] => true | _ => false end.

(* The zero value of each type, as the comment of value.go:130-132 describes it: "a value
   held by a bson type is equivalent to it's empty or zero type.  Nil-ish types are all not
   empty."  Undefined is the exception the code makes; -0.0 is 0.0. *)
Definition zero_value (t : bval) : bool :=
  match t with
  | BDouble b => (b =? 0) || (b =? 2 ^ 63)
  | BString s | BJavaScript s | BSymbol s => nilb s
  | BDoc fs => nilb fs
  | BArray vs => nilb vs
  | BBinary _ b => nilb b
  | BUndefined => true
  | BOid o => forallb (Z.eqb 0) o
  | BBool b => negb b
  | BDateTime i | BInt32 i | BInt64 i => i =? 0
  | BNull | BMinKey | BMaxKey => false
  | BRegex p _ => nilb p
  | BDBPointer ns _ => nilb ns
  | BCode c _ => nilb c
  | BTimestamp t i => (t =? 0) && (i =? 0)
  | BDecimal h l => (h =? 0) && (l =? 0)
  end.
Definition is_oid (t : bval) : bool := match t with BOid _ => true | _ => false end.

Lemma is_empty_rep fuel k v t : rep k v t -> wf t -> zlen (enc_elem k t) < 2147483648 -> enough fuel (zlen (enc_body t)) ->
  v_is_empty fuel (Some v) = Ret (is_oid t || zero_value t).
Proof.
  intros R W L F. unfold v_is_empty. rewrite (rep_type _ _ _ R). cbn [bind].
  pose proof (zlen_enc_elem k t) as Z1. posl.
  assert (S : tag t <> 3 -> tag t <> 4 -> tag t <> 15 -> exists p q, v = lz p k t q /\ lzfits p k t q).
  { intros H3 H4 H15. destruct (rep_scalar _ _ _ R H3 H4 H15) as (p & q & A & B). eauto. }
  unfold enough in F.
  destruct t; cbn [tag Z.eqb Pos.eqb zero_value is_oid orb]; try reflexivity; cbn [wf] in W.
  3: { apply wf_doc in W. rewrite enc_body_doc in *.
       destruct (v_mutable_document_rep fuel k v fs R W) as (es & -> & Re & _); [unfold small; lia|lia|].
       cbn [bind]. destruct es as [|[x|] es], fs as [|[k' t'] fs]; cbn in Re; try contradiction; reflexivity. }
  3: { apply wf_array in W. rewrite enc_body_array in *.
       destruct (v_mutable_array_rep fuel k v vs R W) as (es & -> & Re & _); [lia|lia|].
       cbn [bind]. destruct es as [|[x|] es], vs as [|t' vs]; cbn in Re; try contradiction; reflexivity. }
  10: { apply wf_code in W. rewrite enc_body_code in *.
       destruct (v_mutable_code_rep fuel k v code scope R) as (es & -> & Re & _).
       - apply W.
       - rewrite enc_body_code. lia.
       - zlens_in F. posl. lia.
       - reflexivity. }
  all: destruct S as (pp & qq & -> & Lf); try (cbn; discriminate).
  - rewrite v_double_lz by auto. reflexivity.
  - rewrite v_string_lz by auto. reflexivity.
  - rewrite v_binary_lz by auto. reflexivity.
  - rewrite v_boolean_lz by auto. reflexivity.
  - rewrite v_datetime_lz by auto. reflexivity.
  - rewrite v_regex_lz by (unfold cstr_ok in *; tauto). reflexivity.
  - rewrite v_dbpointer_lz by tauto. reflexivity.
  - rewrite v_javascript_lz by auto. reflexivity.
  - rewrite v_symbol_lz by auto. reflexivity.
  - rewrite v_int32_lz by auto. reflexivity.
  - rewrite v_timestamp_lz by tauto. reflexivity.
  - rewrite v_int64_lz by auto. reflexivity.
  - rewrite v_decimal_lz by tauto. cbn [bind]. now rewrite andb_comm.
Qed.

(* C60.  IsEmpty of any value a client can hold is whether it is the zero value of its type,
   except that every ObjectID counts as empty. *)
Theorem C60_is_empty_partial fuel k t v : nul_free k -> wf t -> zlen (enc_elem k t) < 2147483648 ->
  enough fuel (zlen (enc_body t)) -> obtained k t v ->
  v_is_empty fuel (Some v) = Ret (is_oid t || zero_value t).
Proof. intros N W L F O. apply (is_empty_rep fuel k); auto. now apply obtained_rep. Qed.
(* So the claim is false: an ObjectID that is not zero is dropped. *)
Theorem C60_is_empty_refuted : exists k o v, obtained k (BOid o) v /\ zero_value (BOid o) = false /\
  v_is_empty 100 (Some v) = Ret true.
Proof.
  exists [97], (repeat 7 12). eexists. split; [apply ob_built; vm_compute; reflexivity|].
  split; vm_compute; reflexivity.
Qed.

(* C60.  AppendOmitEmpty adds the elements that are not empty, in order, and no others: es
   are elements a client holds for the fields fs. *)
Theorem C60_append_omit_empty grow fuel w i l es fs : reachable grow fuel w -> shows_list w i l ->
  Forall2 (fun e f => exists v, e = Some v /\ obtained (fst f) (snd f) v /\ nul_free (fst f) /\ wf (snd f) /\
    zlen (enc_elem (fst f) (snd f)) < 2147483648 /\ enough fuel (zlen (enc_body (snd f)))) es fs ->
  let '(w', r) := exec grow fuel w (OAppendOmitEmpty i (map Some es)) in
  r = Ret RUnit /\
  shows_list w' i (l ++ map fst (filter (fun p => negb (is_oid (snd (snd p)) || zero_value (snd (snd p)))) (combine es fs))).
Proof.
  intros Re Sh H.
  assert (K : Forall keyed es).
  { clear -H. induction H as [|e [k t] es fs (v & -> & O & N & W & L & F) _ IH]; constructor; auto.
    exists k. apply (elem_key_rep k v t). apply obtained_rep; assumption. }
  assert (E : non_empty fuel (map Some es) =
    (map fst (filter (fun p => negb (is_oid (snd (snd p)) || zero_value (snd (snd p)))) (combine es fs)), Ret tt)).
  { clear -H. induction H as [|e [k t] es fs (v & -> & O & N & W & L & F) _ IH]; [reflexivity|].
    cbn [map non_empty combine filter fst snd] in *. rewrite (C60_is_empty_partial fuel k t v) by auto. rewrite IH.
    destruct (is_oid t || zero_value t); reflexivity. }
  destruct (reachable_inv _ _ _ Re) as (s & I). destruct (shows_inv _ _ _ _ I Sh) as (x & Hx & El).
  assert (O : op_ok (OAppendOmitEmpty i (map Some es))).
  { apply Forall_map. eapply Forall_impl; [|exact K]. auto. }
  pose proof (exec_refines grow fuel w s _ I O) as R. cbn [s_exec] in R. unfold s_at in R. rewrite Hx, E, El in R.
  destruct (exec grow fuel w (OAppendOmitEmpty i (map Some es))) as [w' r]. destruct R as [I' A]. split.
  - unfold agrees in A. destruct r as [q| |]; try contradiction. destruct q; (reflexivity || now f_equal).
  - apply (inv_shows _ _ i (MkS _ None) I'). apply nth_error_replace_eq. eapply some_lt; eauto.
Qed.
Example C60_nonvacuous :
  let zero := e_int k_a 0 in let one := e_int k_b 1 in
  (exists v, zero = Some v /\ obtained k_a (BInt32 0) v) /\ (exists v, one = Some v /\ obtained k_b (BInt32 1) v) /\
  shown (fst (run (fun n => n) 100 w0 [ONew 0; OAppendOmitEmpty 0 [Some zero; Some one]])) = [[Some one]].
Proof.
  cbn zeta. split; [|split].
  - eexists. split; [reflexivity|]. apply ob_built. reflexivity.
  - eexists. split; [reflexivity|]. apply ob_built. reflexivity.
  - vm_compute. reflexivity.
Qed.
Print Assumptions C60_is_empty_partial.
Print Assumptions C60_is_empty_refuted.
Print Assumptions C60_append_omit_empty.
