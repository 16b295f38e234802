(* C95: what Document.Unmarshal writes into a map. *)
Require Import ZArith List Bool Lia ZifyBool ZifyNat Permutation.
From Verif Require Import Base BSpec Elements Value Codec CodecRead Itoa CodecRep Api ApiProofs Tree GetterProofs
  CodecProps Search Iface IfaceProofs IfaceProps RegistryProps Into.
Import ListNotations.
Open Scope Z_scope.

(* m[k], for a map with string keys and for a map[any]any *)
Definition lookup {A} (k : bytes) (m : list (bytes * A)) : option A :=
  option_map snd (find (fun e => bytes_eqb (fst e) k) m).
Definition string_key (a : any) : option bytes := match a with AString s => Some s | _ => None end.
Definition lookup_any (k : bytes) (m : list (any * any)) : option any :=
  option_map snd (find (fun e => match string_key (fst e) with Some s => bytes_eqb s k | None => false end) m).
(* the string fields of a document *)
Definition strings_of (fs : list (bytes * bval)) : list (bytes * bval) :=
  filter (fun f => match snd f with BString _ => true | _ => false end) fs.

Lemma eqb_refl k : bytes_eqb k k = true.
Proof. now apply bytes_eqb_eq. Qed.
Lemma eqb_sym a b : bytes_eqb a b = bytes_eqb b a.
Proof.
  destruct (bytes_eqb a b) eqn:E, (bytes_eqb b a) eqn:F; auto; [apply bytes_eqb_eq in E|apply bytes_eqb_eq in F]; subst;
    rewrite eqb_refl in *; congruence.
Qed.
Lemma lookup_put {A} k (v : A) m k' : lookup k' (put_entry k v m) = if bytes_eqb k k' then Some v else lookup k' m.
Proof.
  unfold lookup. induction m as [|[k0 v0] r IH]; cbn [put_entry find fst].
  - now destruct (bytes_eqb k k').
  - destruct (bytes_eqb k k0) eqn:E; cbn [find fst].
    + apply bytes_eqb_eq in E. subst k0. now destruct (bytes_eqb k k').
    + destruct (bytes_eqb k0 k') eqn:E0; [|exact IH]. apply bytes_eqb_eq in E0. subst k0. now rewrite E.
Qed.
Lemma lookup_put_any k v m k' : lookup_any k' (put_any k v m) = if bytes_eqb k k' then Some v else lookup_any k' m.
Proof.
  unfold lookup_any. induction m as [|[a0 v0] r IH]; cbn [put_any find fst string_key].
  - now destruct (bytes_eqb k k').
  - destruct a0; cbn [find fst string_key]; try exact IH.
    destruct (bytes_eqb k s) eqn:E; cbn [find fst string_key].
    + apply bytes_eqb_eq in E. subst s. now destruct (bytes_eqb k k').
    + destruct (bytes_eqb s k') eqn:E0; [|exact IH]. apply bytes_eqb_eq in E0. subst s. now rewrite E.
Qed.
Lemma put_nodup {A} k (v : A) m : NoDup (map fst m) -> NoDup (map fst (put_entry k v m)).
Proof.
  assert (I : forall m x, In x (map fst (put_entry k v m)) -> x = k \/ In x (map fst m)).
  { clear m. induction m as [|[k0 v0] r IH]; cbn; intros x; [intros [<-|[]]; auto|].
    destruct (bytes_eqb k k0) eqn:E; cbn.
    - apply bytes_eqb_eq in E. subst. tauto.
    - intros [<-|H]; auto. destruct (IH x H); auto. }
  induction m as [|[k0 v0] r IH]; cbn; intros N; [repeat constructor; intros []|].
  inversion_clear N as [|? ? N1 N2]. destruct (bytes_eqb k k0) eqn:E; cbn.
  - apply bytes_eqb_eq in E. subst. now constructor.
  - constructor; auto. intros X. apply I in X as [->|X]; auto. now rewrite eqb_refl in E.
Qed.
Lemma others_put_any k v m : filter (fun e => match string_key (fst e) with Some _ => false | None => true end) (put_any k v m) =
  filter (fun e => match string_key (fst e) with Some _ => false | None => true end) m.
Proof.
  induction m as [|[a0 v0] r IH]; cbn [put_any]; [reflexivity|].
  destruct a0; cbn [filter fst string_key]; try (now rewrite IH). destruct (bytes_eqb k s); cbn [filter fst string_key]; auto.
Qed.
Lemma last_of_cons k fs k' t : last_of k ((k', t) :: fs) =
  match last_of k fs with Some x => Some x | None => if bytes_eqb k' k then Some t else None end.
Proof.
  unfold last_of. cbn [rev]. assert (X : forall l, find (fun f : bytes * bval => bytes_eqb (fst f) k) (l ++ [(k', t)]) =
    match find (fun f => bytes_eqb (fst f) k) l with Some x => Some x | None => if bytes_eqb k' k then Some (k', t) else None end).
  { induction l as [|x l IH]; cbn; [reflexivity|]. destruct (bytes_eqb (fst x) k); auto. }
  rewrite X. destruct (find _ _); cbn; [reflexivity|]. now destruct (bytes_eqb k' k).
Qed.

Lemma into_map_rep fuel fs : forall es m, rep_doc es fs -> wf_fields fs -> zlen (enc_elems fs) < 2147483648 ->
  zlen (enc_elems fs) < Z.of_nat fuel -> NoDup (map fst m) ->
  exists m', into_map fuel es (Some m) = Ret (Some m') /\ NoDup (map fst m') /\
    forall k, match last_of k fs with Some t => exists a, lookup k m' = Some a /\ shows t a | None => lookup k m' = lookup k m end.
Proof.
  induction fs as [|[k t] fs IH]; intros [|[v|] es] m R W L F N; cbn [rep_doc] in R; try contradiction.
  - exists m. split; [reflexivity|]. split; [auto|reflexivity].
  - destruct R as [R1 R2]. apply Forall_cons_iff in W as [[Wk Wt] W]. cbn [fst snd] in *.
    rewrite zlen_enc_elems_cons in *. rewrite zlen_enc_elem in *. posl.
    destruct (igood_all t k v fuel) as (a & Ea & Sa); auto; try lia.
    cbn [into_map]. rewrite (elem_key_rep _ _ _ R1). cbn [bind]. rewrite Ea. cbn [bind map_write].
    destruct (IH es (put_entry k a m)) as (m' & E & N' & X); auto; try lia; [now apply put_nodup|].
    exists m'. split; [exact E|]. split; [exact N'|]. intros k'. specialize (X k'). rewrite last_of_cons.
    destruct (last_of k' fs); [exact X|]. rewrite lookup_put in X. destruct (bytes_eqb k k'); eauto.
Qed.
Lemma into_map_any_rep fuel fs : forall es m, rep_doc es fs -> wf_fields fs -> zlen (enc_elems fs) < 2147483648 ->
  zlen (enc_elems fs) < Z.of_nat fuel ->
  exists m', into_map_any fuel es (Some m) = Ret (Some m') /\
    filter (fun e => match string_key (fst e) with Some _ => false | None => true end) m' =
    filter (fun e => match string_key (fst e) with Some _ => false | None => true end) m /\
    forall k, match last_of k fs with Some t => exists a, lookup_any k m' = Some a /\ shows t a | None => lookup_any k m' = lookup_any k m end.
Proof.
  induction fs as [|[k t] fs IH]; intros [|[v|] es] m R W L F; cbn [rep_doc] in R; try contradiction.
  - exists m. split; [reflexivity|]. split; [auto|reflexivity].
  - destruct R as [R1 R2]. apply Forall_cons_iff in W as [[Wk Wt] W]. cbn [fst snd] in *.
    rewrite zlen_enc_elems_cons in *. rewrite zlen_enc_elem in *. posl.
    destruct (igood_all t k v fuel) as (a & Ea & Sa); auto; try lia.
    cbn [into_map_any]. rewrite (elem_key_rep _ _ _ R1). cbn [bind]. rewrite Ea. cbn [bind any_write].
    destruct (IH es (put_any k a m)) as (m' & E & N' & X); auto; try lia.
    exists m'. split; [exact E|]. split; [rewrite N'; apply others_put_any|]. intros k'. specialize (X k'). rewrite last_of_cons.
    destruct (last_of k' fs); [exact X|]. rewrite lookup_put_any in X. destruct (bytes_eqb k k'); eauto.
Qed.
Lemma into_strings_rep fs : forall es m, rep_doc es fs -> NoDup (map fst m) ->
  exists m', into_strings es (Some m) = Ret (Some m') /\ NoDup (map fst m') /\
    forall k, match last_of k (strings_of fs) with
      | Some t => exists s, lookup k m' = Some s /\ t = BString s
      | None => lookup k m' = lookup k m
      end.
Proof.
  induction fs as [|[k t] fs IH]; intros [|[v|] es] m R N; cbn [rep_doc] in R; try contradiction.
  - exists m. split; [reflexivity|]. split; [auto|reflexivity].
  - destruct R as [R1 R2]. cbn [into_strings]. rewrite (v_string_ok_rep _ _ _ R1). cbn [bind].
    unfold strings_of. cbn [filter snd]. fold (strings_of fs).
    assert (S : (exists s, t = BString s) \/ (match t with BString s => Some s | _ => None end = None /\
      match t with BString _ => true | _ => false end = false)) by (destruct t; eauto).
    destruct S as [(s & ->)|[-> ->]]; [|now apply IH].
    rewrite (elem_key_rep _ _ _ R1). cbn [bind map_write].
    destruct (IH es (put_entry k s m)) as (m' & E & N' & X); auto; [now apply put_nodup|].
    exists m'. split; [exact E|]. split; [exact N'|]. intros k'. specialize (X k'). rewrite last_of_cons.
    destruct (last_of k' (strings_of fs)); [exact X|]. rewrite lookup_put in X. destruct (bytes_eqb k k'); eauto.
Qed.

(* However the document came about: each key it names gets the Go value of its last field, every
   other key keeps what it had. *)
Theorem C95_map : forall fuel fs es N m, doc_obtained fs es N -> wf_fields fs -> small fs -> enough fuel (zlen (enc_doc fs)) ->
  NoDup (map fst m) ->
  exists m', doc_unmarshal_into fuel es (IntoMap (Some m)) = Ret (IntoMap (Some m'), None) /\ NoDup (map fst m') /\
    forall k, match last_of k fs with Some t => exists a, lookup k m' = Some a /\ shows t a | None => lookup k m' = lookup k m end.
Proof.
  intros fuel fs es N m D W S F Nd. pose proof (obtained_rep _ _ _ D W S) as R.
  unfold small, enough, enc_doc in S, F. zlens_in S. zlens_in F. posl.
  destruct (into_map_rep fuel fs es m) as (m' & E & X); auto; try lia.
  exists m'. cbn [doc_unmarshal_into]. rewrite E. split; [reflexivity|exact X].
Qed.
Print Assumptions C95_map.
(* The same for a map[any]any, whose keys of other types are not touched. *)
Theorem C95_map_any : forall fuel fs es N m, doc_obtained fs es N -> wf_fields fs -> small fs -> enough fuel (zlen (enc_doc fs)) ->
  exists m', doc_unmarshal_into fuel es (IntoMapAny (Some m)) = Ret (IntoMapAny (Some m'), None) /\
    (forall e, string_key (fst e) = None -> In e m' <-> In e m) /\
    forall k, match last_of k fs with Some t => exists a, lookup_any k m' = Some a /\ shows t a | None => lookup_any k m' = lookup_any k m end.
Proof.
  intros fuel fs es N m D W S F. pose proof (obtained_rep _ _ _ D W S) as R.
  unfold small, enough, enc_doc in S, F. zlens_in S. zlens_in F. posl.
  destruct (into_map_any_rep fuel fs es m) as (m' & E & O & X); auto; try lia.
  exists m'. cbn [doc_unmarshal_into]. rewrite E. split; [reflexivity|]. split; [|exact X].
  intros e K. set (g := fun e : any * any => match string_key (fst e) with Some _ => false | None => true end) in *.
  assert (G : g e = true) by (unfold g; now rewrite K).
  assert (Q : forall l, In e l <-> In e (filter g l)) by (intros l; rewrite filter_In; tauto).
  now rewrite (Q m'), (Q m), O.
Qed.
Print Assumptions C95_map_any.
(* A map[string]string gets the last string of each name; fields of other types are passed over. *)
Theorem C95_strings : forall fuel fs es N m, doc_obtained fs es N -> wf_fields fs -> small fs -> NoDup (map fst m) ->
  exists m', doc_unmarshal_into fuel es (IntoStrings (Some m)) = Ret (IntoStrings (Some m'), None) /\ NoDup (map fst m') /\
    forall k, match last_of k (strings_of fs) with
      | Some t => exists s, lookup k m' = Some s /\ t = BString s
      | None => lookup k m' = lookup k m
      end.
Proof.
  intros fuel fs es N m D W S Nd. pose proof (obtained_rep _ _ _ D W S) as R.
  destruct (into_strings_rep fs es m) as (m' & E & X); auto. exists m'. cbn [doc_unmarshal_into]. rewrite E. split; [reflexivity|exact X].
Qed.
Print Assumptions C95_strings.
(* An Unmarshaler sees the document's encoding and its answer is the answer; a type of no kind
   listed is an error. *)
Theorem C95_delegates : forall fuel fs es N f, doc_obtained fs es N -> wf_fields fs -> small fs -> enough fuel (zlen (enc_doc fs)) ->
  doc_unmarshal_into fuel es (IntoBytes f) = Ret (IntoBytes f, f (enc_doc fs)) /\
  exists e, doc_unmarshal_into fuel es IntoOther = Ret (IntoOther, Some e).
Proof.
  intros fuel fs es N f D W S F. pose proof (obtained_rep _ _ _ D W S) as R. split; [|eexists; reflexivity].
  cbn [doc_unmarshal_into]. rewrite (doc_marshal_rep fuel es fs) by auto. reflexivity.
Qed.
Print Assumptions C95_delegates.
(* A nil map cannot be filled: Unmarshal panics as soon as there is something to write. *)
Theorem C95_nil_refuted : forall fuel k t fs es N, doc_obtained ((k, t) :: fs) es N -> wf_fields ((k, t) :: fs) -> small ((k, t) :: fs) ->
  enough fuel (zlen (enc_doc ((k, t) :: fs))) ->
  doc_unmarshal_into fuel es (IntoMap None) = Panic PNil /\ doc_unmarshal_into fuel es (IntoMapAny None) = Panic PNil.
Proof.
  intros fuel k t fs es N D W S F. pose proof (obtained_rep _ _ _ D W S) as R. destruct es as [|[v|] es]; try contradiction.
  destruct R as [R1 R2]. apply Forall_cons_iff in W as [[Wk Wt] W]. cbn [fst snd] in *.
  unfold small, enough, enc_doc in S, F. zlens_in S. zlens_in F. rewrite zlen_enc_elems_cons in *. rewrite zlen_enc_elem in *. posl.
  destruct (igood_all t k v fuel) as (a & Ea & Sa); auto; try lia.
  cbn [doc_unmarshal_into into_map into_map_any]. rewrite (elem_key_rep _ _ _ R1). cbn [bind]. rewrite Ea. cbn [bind map_write any_write]. auto.
Qed.
Print Assumptions C95_nil_refuted.

Definition some_fields : list (bytes * bval) := [([97], BInt32 1); ([98], BString [104]); ([97], BString [105]); ([98], BNull)].
Example C95_used : exists es, doc_obtained some_fields es (zlen (enc_doc some_fields)) /\ wf_fields some_fields /\ small some_fields /\
  enough 200 (zlen (enc_doc some_fields)) /\
  doc_unmarshal_into 200 es (IntoMap (Some [([99], ABool true); ([97], ANil)])) =
    Ret (IntoMap (Some [([99], ABool true); ([97], AString [105]); ([98], ANil)]), None) /\
  doc_unmarshal_into 200 es (IntoMapAny (Some [(AInt (GInt 7), ABool true); (AString [97], ANil)])) =
    Ret (IntoMapAny (Some [(AInt (GInt 7), ABool true); (AString [97], AString [105]); (AString [98], ANil)]), None) /\
  doc_unmarshal_into 200 es (IntoStrings (Some [([99], [120])])) =
    Ret (IntoStrings (Some [([99], [120]); ([98], [104]); ([97], [105])]), None).
Proof.
  eexists. split; [apply do_built; vm_compute; reflexivity|]. split; [apply (proj1 (wf_doc _)); vm_compute; repeat constructor; discriminate|].
  repeat split; vm_compute; reflexivity.
Qed.
