(* C117: looking up a key in a document, in four ways, and in its bytes. *)
Require Import ZArith List Bool Lia ZifyBool ZifyNat.
From Verif Require Import Base BSpec Elements Value Codec CodecRead CodecRep Api ApiProofs Tree GetterProofs ReaderOps CodecProps Search Lookup.
Import ListNotations.
Open Scope Z_scope.

(* ------------------------------------------------------------------ specification *)

(* field i of fs is the first with the key k, and holds t *)
Definition first_at (fs : list (bytes * bval)) (k : bytes) (i : nat) (t : bval) : Prop :=
  nth_error fs i = Some (k, t) /\ forall j u, (j < i)%nat -> nth_error fs j <> Some (k, u).

(* ------------------------------------------------------------------------ lemmas *)

Lemma first_at_cons k0 t0 fs k i t : first_at ((k0, t0) :: fs) k i t ->
  (i = 0%nat /\ k0 = k /\ t0 = t) \/ exists j, i = S j /\ k0 <> k /\ first_at fs k j t.
Proof.
  intros [N B]. destruct i as [|i]; [left; cbn in N; now injection N as -> ->|]. right. exists i. split; [reflexivity|]. split.
  - intros ->. apply (B 0%nat t0); [lia|reflexivity].
  - split; [exact N|]. intros j u L. apply (B (S j)). lia.
Qed.
Lemma first_key_at fs : forall k i t, first_at fs k i t -> first_key k fs = Some t.
Proof.
  induction fs as [|[k0 t0] fs IH]; intros k i t F; [destruct F as [N _]; now destruct i|].
  cbn [first_key]. apply first_at_cons in F as [(-> & -> & ->)|(j & -> & N & F)].
  - now rewrite (proj2 (bytes_eqb_eq k k) eq_refl).
  - destruct (bytes_eqb k k0) eqn:E; [apply bytes_eqb_eq in E; congruence|]. eauto.
Qed.
Lemma first_key_none fs k : ~ In k (map fst fs) -> first_key k fs = None.
Proof.
  induction fs as [|[k0 t0] fs IH]; intros N; [reflexivity|]. cbn [first_key map fst In] in *.
  destruct (bytes_eqb k k0) eqn:E; [apply bytes_eqb_eq in E; subst; exfalso; auto|auto].
Qed.
Lemma lookup_rep fs : forall es k i t, rep_doc es fs -> first_at fs k i t ->
  exists v, nth_error es i = Some (Some v) /\ rep k v t /\ lookup_element k es = Ret (Some (Some v)) /\ find_elem k es = Ret (Some (Some v)).
Proof.
  induction fs as [|[k0 t0] fs IH]; intros es k i t R F; [destruct F as [N _]; now destruct i|].
  destruct es as [|[v|] es]; cbn in R; try contradiction. destruct R as [Rv R].
  cbn [lookup_element find_elem]. rewrite (elem_key_rep _ _ _ Rv). cbn [bind].
  apply first_at_cons in F as [(-> & -> & ->)|(j & -> & N & F)].
  - rewrite (proj2 (bytes_eqb_eq k k) eq_refl). exists v. auto.
  - destruct (bytes_eqb k0 k) eqn:E; [apply bytes_eqb_eq in E; congruence|]. exact (IH es k j t R F).
Qed.
Lemma lookup_absent fs : forall es k, rep_doc es fs -> ~ In k (map fst fs) ->
  lookup_element k es = Ret None /\ find_elem k es = Ret None.
Proof.
  induction fs as [|[k0 t0] fs IH]; intros es k R N.
  - destruct es as [|[x|] es]; cbn in R; try contradiction. auto.
  - destruct es as [|[v|] es]; cbn in R; try contradiction. destruct R as [Rv R]. cbn in N.
    cbn [lookup_element find_elem]. rewrite (elem_key_rep _ _ _ Rv). cbn [bind].
    destruct (bytes_eqb k0 k) eqn:E; [apply bytes_eqb_eq in E; exfalso; auto|]. apply (IH es k R). auto.
Qed.
Lemma doc_obtained_rep fs es N : wf_fields fs -> small fs -> doc_obtained fs es N -> rep_doc es fs.
Proof.
  intros W S [B|f post F' L E].
  - destruct (build_doc_rep fs W S) as (es' & B' & R). congruence.
  - destruct (read_document_wf fs post f W L F') as (es' & E' & R). congruence.
Qed.

(* ---------------------------------------------------------------------- theorems *)

(* A key that is there: all four, and Search of the one key, give the first element with the key, the one the document
   holds and not a copy, with the key, type and bytes of the field; Lookup on the bytes finds a value of the same key, type
   and bytes. *)
Theorem C117_present : forall fuel fs es N k i t, wf_fields fs -> small fs -> doc_obtained fs es N -> first_at fs k i t ->
  enough fuel (zlen (enc_doc fs)) ->
  exists v w, nth_error es i = Some (Some v) /\
    lookup_element k es = Ret (Some (Some v)) /\ lookup k es = Ret (Some v) /\
    lookup_element_err k es = Ret (Some (Some v), None) /\ lookup_err k es = Ret (Some v, None) /\
    search fuel [k] es = Ret (Some (Some v)) /\ rd_lookup fuel [k] (enc_doc fs) = Ret (Some w, None) /\
    forall x, In x [v; w] -> elem_key (Some x) = Ret k /\ v_type x = Ret (tag t) /\
      doc_marshal fuel [Some x] = Ret (inl (enc_doc [(k, t)])).
Proof.
  intros fuel fs es N k i t W S O F En. pose proof (doc_obtained_rep _ _ _ W S O) as R.
  destruct (lookup_rep fs es k i t R F) as (v & Nv & Rv & Lv & Fv).
  pose proof (rd_lookup_wf [k] fs fuel [] W) as Q. rewrite app_nil_r in Q. cbn [find_path] in Q. rewrite (first_key_at _ _ _ _ F) in Q.
  destruct Q as (w & Lw & Rw); [exact S|exact En|].
  exists v, w. unfold lookup, lookup_element_err, lookup_err. rewrite Lv. cbn [bind elem_value search]. rewrite Fv. cbn [bind].
  repeat (split; [auto; fail|]). intros x I.
  assert (rep k x t) as Rx by (destruct I as [<-|[<-|[]]]; auto).
  destruct F as [Ni _]. apply nth_error_In in Ni. pose proof Ni as Ni'. apply (in_fields_wf _ _ _ Ni) in W as Wt. destruct Wt as [Wt Lt].
  unfold wf_fields in W. rewrite Forall_forall in W. specialize (W _ Ni').
  assert (zlen (enc_doc [(k, t)]) <= zlen (enc_doc fs)) as Le.
  { unfold enc_doc. cbn [enc_elems]. rewrite app_nil_r. zlens. lia. }
  split; [now apply (elem_key_rep k x t)|]. split; [now apply (rep_type k)|].
  apply doc_marshal_rep.
  - cbn [rep_doc]. auto.
  - constructor; [exact W|constructor].
  - unfold small in *. lia.
  - unfold enough in En. lia.
Qed.
Print Assumptions C117_present.

(* A key that is not there, however deep it occurs further down: nil or ElementNotFound in all of them. *)
Theorem C117_absent : forall fuel fs es N k, wf_fields fs -> small fs -> doc_obtained fs es N -> ~ In k (map fst fs) ->
  enough fuel (zlen (enc_doc fs)) ->
  lookup_element k es = Ret None /\ lookup k es = Ret None /\ lookup_element_err k es = Ret (None, Some ENotFound) /\
  lookup_err k es = Ret (None, Some ENotFound) /\ search fuel [k] es = Ret None /\
  rd_lookup fuel [k] (enc_doc fs) = Ret (None, Some ENotFound).
Proof.
  intros fuel fs es N k W S O A En. pose proof (doc_obtained_rep _ _ _ W S O) as R.
  destruct (lookup_absent fs es k R A) as [L F].
  pose proof (rd_lookup_wf [k] fs fuel [] W) as Q. rewrite app_nil_r in Q. cbn [find_path] in Q. rewrite (first_key_none _ _ A) in Q.
  unfold lookup, lookup_element_err, lookup_err. rewrite L. cbn [bind search]. rewrite F. cbn [bind]. auto 10.
Qed.
Print Assumptions C117_absent.

(* So Lookup tells a null that is there from a key that is not. *)
Theorem C117_null : forall fs es N k, wf_fields fs -> small fs -> doc_obtained fs es N ->
  (lookup k es = Ret None <-> ~ In k (map fst fs)).
Proof.
  intros fs es N k W S O. set (fuel := Z.to_nat (zlen (enc_doc fs) + 1)).
  assert (En : enough fuel (zlen (enc_doc fs))) by (unfold enough, fuel; posl; lia). split.
  - intros L I. assert (exists i t, first_at fs k i t) as (i & t & F).
    { clear -I. induction fs as [|[k0 t0] fs IH]; [easy|]. destruct (list_eq_dec Z.eq_dec k0 k) as [->|Nk].
      - exists 0%nat, t0. split; [reflexivity|]. intros. lia.
      - destruct I as [E|I]; [easy|]. destruct (IH I) as (i & t & F1 & F2). exists (S i), t. split; [exact F1|].
        intros [|j] u Lt; cbn; [congruence|]. apply F2. lia. }
    destruct (C117_present fuel fs es N k i t W S O F En) as (v & w & _ & _ & L' & _). congruence.
  - intros A. apply (C117_absent fuel fs es N k W S O A En).
Qed.
Print Assumptions C117_null.

(* ------------------------------------------------------------------ non-vacuity *)

Definition ex_fs : list (bytes * bval) := [([97], BNull); ([98], BDoc [([99], BInt32 1)]); ([97], BInt32 2)].
Example C117_ex : exists es v, doc_obtained ex_fs es (zlen (enc_doc ex_fs)) /\ first_at ex_fs [97] 0 BNull /\ ~ In [99] (map fst ex_fs) /\
  lookup [97] es = Ret (Some v) /\ v_type v = Ret 10 /\ lookup [99] es = Ret None.
Proof.
  assert (exists es, build_doc ex_fs = Ret es) as [es B] by (vm_compute; eauto).
  assert (es = match build_doc ex_fs with Ret x => x | _ => [] end) as -> by now rewrite B.
  eexists. eexists. split; [apply do_built; vm_compute; reflexivity|]. split.
  { split; [reflexivity|]. intros. lia. }
  split; [cbn; intuition discriminate|]. split; [vm_compute; reflexivity|]. split; vm_compute; reflexivity.
Qed.
