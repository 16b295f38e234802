(* C94: custom points are marshaled in the order of their names and come back as what they stand for. *)
Require Import ZArith List Bool Lia ZifyBool ZifyNat Permutation Sorted.
From Verif Require Import Base BSpec Elements Value Codec CodecRead Itoa CodecRep Api ApiProofs Tree GetterProofs
  CodecProps Search Sort Iface IfaceProofs IfaceProps Custom.
Import ListNotations.
Open Scope Z_scope.

(* ------------------------------------------------------------------------- specification *)

(* what Add is documented to take *)
Inductive number : pointv -> Prop :=
| N_int64 i : number (PV (AInt (GInt64 i))) | N_int32 i : number (PV (AInt (GInt32 i)))
| N_int i : number (PV (AInt (GInt i))) | N_uint32 i : number (PV (AInt (GUint32 i)))
| N_uint64 i : number (PV (AInt (GUint64 i))) | N_bool b : number (PV (ABool b))
| N_time t : number (PV (ATime t)) | N_float64 f : number (PV (AFloat64 f)) | N_float32 f : number (PV (AFloat32 f))
| N_int64s l : number (PV (AInt64s l)) | N_int32s l : number (PV (AInt32s l)) | N_ints l : number (PV (AInts l))
| N_bools l : number (PBools l) | N_times l : number (PV (ATimes l)) | N_float64s l : number (PV (AFloat64s l))
| N_float32s l : number (PV (AFloat32s l)) | N_uint32s l : number (PUint32s l) | N_uint64s l : number (PUint64s l).

Definition key_lt {A} (x y : bytes * A) : bool := bytes_ltb (fst x) (fst y).
(* the field a point stands for *)
Definition stands (p : point) (f : bytes * bval) : Prop := fst p = fst f /\ converted (pv_any (snd p)) (snd f).

(* ------------------------------------------------------------------------- stable sorting *)

Section uniq.
  Variable A : Type. Variable lt : A -> A -> bool.
  Lemma stable_unique l o1 o2 : (forall x, lt x x = false) -> stable_sort_of lt l o1 -> stable_sort_of lt l o2 -> o1 = o2.
  Proof.
    intros Irr. revert l o2. induction o1 as [|x o1 IH]; intros l o2 (P1 & S1 & F1) (P2 & S2 & F2).
    - apply Permutation_sym, Permutation_nil in P1. subst l. now apply Permutation_nil in P2.
    - destruct o2 as [|y o2]; [apply Permutation_sym, Permutation_nil in P2; subst l; now apply Permutation_nil in P1|].
      assert (Ix : In x l) by (apply Permutation_sym in P1; eapply Permutation_in; [exact P1|now left]).
      assert (Iy : In y l) by (apply Permutation_sym in P2; eapply Permutation_in; [exact P2|now left]).
      inversion_clear S1 as [|? ? S1' A1]. inversion_clear S2 as [|? ? S2' A2].
      rewrite Forall_forall in A1, A2.
      assert (Q : Sort.same lt x y = true).
      { unfold Sort.same. apply andb_true_iff. split; apply negb_true_iff.
        - assert (I : In x (y :: o2)) by (eapply Permutation_in; [exact P2|exact Ix]). destruct I as [->|I]; auto.
        - assert (I : In y (x :: o1)) by (eapply Permutation_in; [exact P1|exact Iy]). destruct I as [->|I]; auto. }
      assert (x = y) as <-.
      { pose proof (F1 x Ix) as G1. pose proof (F2 x Ix) as G2. cbn [filter] in G1, G2.
        rewrite Q in G2. unfold Sort.same at 1 in G1. rewrite Irr in G1. cbn in G1. congruence. }
      f_equal. apply (IH o1).
      + split; [reflexivity|]. split; auto.
      + assert (P : Permutation o1 o2).
        { apply (Permutation_cons_inv (a := x)). now rewrite <- P1, <- P2. }
        split; [exact P|]. split; [exact S2'|]. intros z Iz.
        assert (Iz' : In z l) by (apply Permutation_sym in P1; eapply Permutation_in; [exact P1|now right]).
        pose proof (F1 z Iz') as G1. pose proof (F2 z Iz') as G2. rewrite <- G1 in G2. cbn [filter] in G2.
        destruct (Sort.same lt z x); congruence.
  Qed.
End uniq.

Lemma stable_map {A B} (g : A -> B) (la : A -> A -> bool) (lb : B -> B -> bool) l o :
  (forall x y, In x l -> In y l -> lb (g x) (g y) = la x y) -> stable_sort_of la l o -> stable_sort_of lb (map g l) (map g o).
Proof.
  intros H (P & S & F). split; [now apply Permutation_map|]. 
  assert (Ho : forall x, In x o -> In x l) by (intros x I; eapply Permutation_in; [apply Permutation_sym, P|exact I]).
  split.
  - clear F P. induction S as [|x o S IH Fx]; cbn; constructor.
    + apply IH. intros; apply Ho; now right.
    + apply Forall_map. rewrite Forall_forall in Fx |- *. intros y I. rewrite H; [apply Fx, I|apply Ho; now right|apply Ho; now left].
  - intros y I. apply in_map_iff in I as (x & <- & Ix).
    assert (M : forall m, (forall z, In z m -> In z l) -> filter (Sort.same lb (g x)) (map g m) = map g (filter (Sort.same la x) m)).
    { induction m as [|z m IH]; intros Hm; [reflexivity|]. cbn.
      replace (Sort.same lb (g x) (g z)) with (Sort.same la x z) by (unfold Sort.same; rewrite !H; auto; apply Hm; now left).
      rewrite IH by (intros; apply Hm; now right). destruct (Sort.same la x z); reflexivity. }
    rewrite !M by auto. f_equal. auto.
Qed.

(* a stable sort of the fields by key exists *)
Fixpoint put {A} (x : bytes * A) (l : list (bytes * A)) : list (bytes * A) :=
  match l with
  | [] => [x]
  | y :: r => if key_lt y x then y :: put x r else x :: l
  end.
Fixpoint by_key {A} (l : list (bytes * A)) : list (bytes * A) :=
  match l with [] => [] | x :: r => put x (by_key r) end.

Lemma put_perm {A} (x : bytes * A) l : Permutation (x :: l) (put x l).
Proof.
  induction l as [|y l IH]; cbn; [reflexivity|]. destruct (key_lt y x); [|reflexivity].
  etransitivity; [apply perm_swap|]. now constructor.
Qed.
Lemma by_key_perm {A} (l : list (bytes * A)) : Permutation l (by_key l).
Proof. induction l as [|x l IH]; cbn; [reflexivity|]. etransitivity; [|apply put_perm]. now constructor. Qed.
Lemma key_lt_asym {A} (x y : bytes * A) : key_lt x y = true -> key_lt y x = false.
Proof.
  unfold key_lt. intros H. destruct (bytes_ltb (fst y) (fst x)) eqn:E; [|reflexivity].
  pose proof (ltb_trans _ _ _ H E) as X. now rewrite ltb_irrefl in X.
Qed.
Lemma put_sorted {A} (x : bytes * A) l : StronglySorted (fun x y => key_lt y x = false) l ->
  StronglySorted (fun x y => key_lt y x = false) (put x l).
Proof.
  induction 1 as [|y l S IH F]; cbn; [repeat constructor|].
  destruct (key_lt y x) eqn:E; constructor; auto.
  - rewrite Forall_forall in *. intros z I. apply (Permutation_in _ (Permutation_sym (put_perm x l))) in I as [<-|I]; auto.
    now apply key_lt_asym.
  - now constructor.
  - rewrite Forall_forall in *. intros z [<-|I]; [exact E|]. unfold key_lt in *. eapply ltb_neg_trans; [apply F, I|exact E].
Qed.
Lemma put_filter {A} (x z : bytes * A) l : StronglySorted (fun x y => key_lt y x = false) l ->
  filter (Sort.same key_lt z) (put x l) = filter (Sort.same key_lt z) (x :: l).
Proof.
  induction 1 as [|y l S IH F]; [reflexivity|]. cbn [put]. destruct (key_lt y x) eqn:E; [|reflexivity].
  cbn [filter] in *. rewrite IH. destruct (Sort.same key_lt z y) eqn:Y; [|reflexivity].
  destruct (Sort.same key_lt z x) eqn:X; [|reflexivity]. exfalso.
  unfold Sort.same, key_lt in *. rewrite !andb_true_iff, !negb_true_iff in *. destruct Y as [Y1 Y2], X as [X1 X2].
  pose proof (ltb_total _ _ Y1 Y2) as Ey. pose proof (ltb_total _ _ X1 X2) as Ex. rewrite <- Ey, <- Ex, ltb_irrefl in E. discriminate.
Qed.
Lemma by_key_stable {A} (l : list (bytes * A)) : stable_sort_of key_lt l (by_key l).
Proof.
  assert (S : StronglySorted (fun x y => key_lt y x = false) (by_key l)).
  { induction l; cbn; [constructor|]. now apply put_sorted. }
  split; [apply by_key_perm|]. split; [exact S|]. intros z _. clear S.
  induction l as [|x l IH]; [reflexivity|]. cbn [by_key]. rewrite put_filter.
  - cbn [filter]. now rewrite IH.
  - clear. induction l; cbn; [constructor|]. now apply put_sorted.
Qed.
Lemma key_lt_irr {A} (x : bytes * A) : key_lt x x = false.
Proof. apply ltb_irrefl. Qed.
Lemma key_lt_swo {A} (l : list (bytes * A)) : swo_on l key_lt.
Proof.
  split; [intros; apply key_lt_irr|]. split; intros x y z _ _ _; unfold key_lt; [apply ltb_trans|apply ltb_neg_trans].
Qed.

(* ------------------------------------------------------------------------- C94 Add *)

Lemma add_number ps k v : number v -> custom_add ps k v = (ps ++ [(k, v)], None).
Proof. destruct 1; reflexivity. Qed.
Lemma add_other ps k v : ~ number v -> exists e, custom_add ps k v = (ps, Some e).
Proof.
  intros N. destruct v as [a| | |]; try (destruct N; constructor).
  destruct a as [| | |i| | | | | | | | | | | | | | | | | | | | | | | | | | | | | | | |];
    try (destruct N; constructor; fail); try (eexists; reflexivity).
  destruct i; try (destruct N; constructor; fail); eexists; reflexivity.
Qed.
(* Whatever the calls, Add takes the numbers and times and slices of them and nothing else, and the
   points are those taken, in the order of the calls. *)
Theorem C94_add : forall ps calls, exists taken errs,
  custom_adds ps calls = (ps ++ taken, errs) /\
  Forall2 (fun c e => e = None <-> number (snd c)) calls errs /\
  taken = map fst (filter (fun x => match snd x with None => true | Some _ => false end) (combine calls errs)).
Proof.
  intros ps calls. revert ps. induction calls as [|[k v] calls IH]; intros ps; cbn [custom_adds].
  - exists [], []. rewrite app_nil_r. repeat split; constructor.
  - assert (D : number v \/ ~ number v).
    { destruct (custom_add [] k v) as [l [e|]] eqn:E; [right; intros N; rewrite add_number in E by exact N; discriminate|].
      destruct v as [a| | |]; try (left; constructor; fail).
      destruct a as [| | |i| | | | | | | | | | | | | | | | | | | | | | | | | | | | | | | |]; try discriminate E; try (left; constructor; fail).
      destruct i; try discriminate E; left; constructor. }
    destruct D as [N|N].
    + rewrite add_number by exact N. destruct (IH (ps ++ [(k, v)])) as (t & es & E & F & T). rewrite E.
      exists ((k, v) :: t), (None :: es). rewrite <- app_assoc. split; [reflexivity|]. split; [constructor; [split; auto|exact F]|].
      cbn. now rewrite T.
    + destruct (add_other ps k v N) as (e & Ea). rewrite Ea. destruct (IH ps) as (t & es & E & F & T). rewrite E.
      exists t, (Some e :: es). split; [reflexivity|]. split; [constructor; [split; [discriminate|tauto]|exact F]|]. cbn. exact T.
Qed.
Print Assumptions C94_add.
Example C94_add_used : custom_adds [] [([98], PV (AInt (GInt 3))); ([97], PV (AString [120])); ([97], PBools [true])] =
  ([([98], PV (AInt (GInt 3))); ([97], PBools [true])], [None; Some (EOther 620); None]).
Proof. reflexivity. Qed.

(* ------------------------------------------------------------------------- C94 MarshalBSON *)

Lemma append_dce fuel ps : forall doc, custom_append fuel ps doc =
  (x <- dce_map fuel (map (fun p => (fst p, pv_any (snd p))) ps) ;;
   match x with inr e => Ret (inr e) | inl es => Ret (inl (doc ++ es)) end).
Proof.
  induction ps as [|[k v] ps IH]; intros doc; cbn [custom_append dce_map map fst snd bind].
  - now rewrite app_nil_r.
  - destruct (ece_interface fuel k (pv_any v)) as [[d|e]| |]; cbn [bind]; try reflexivity. rewrite IH.
    destruct (dce_map fuel _) as [[es|e]| |]; cbn [bind]; try reflexivity. now rewrite <- app_assoc.
Qed.
Lemma forall2_pairs {A B} (R : A -> B -> Prop) l m : Forall2 R l m ->
  exists z, l = map fst z /\ m = map snd z /\ Forall (fun x => R (fst x) (snd x)) z.
Proof.
  induction 1 as [|a b l m H F (z & -> & -> & Fz)]; [exists []; repeat constructor|]. exists ((a, b) :: z). repeat split. now constructor.
Qed.
Lemma enc_doc_perm fs fs' : Permutation fs fs' -> zlen (enc_doc fs) = zlen (enc_doc fs').
Proof. intros P. unfold enc_doc. zlens. now rewrite (zlen_elems_perm _ _ P). Qed.

(* what sort.Stable makes of points, seen on their fields *)
Lemma sorted_points sort ps fs fs' : sorts_stably sort -> Forall2 stands ps fs -> stable_sort_of key_lt fs fs' ->
  Forall2 stands (sort custom_less ps) fs' /\ stable_sort_of key_lt ps (sort custom_less ps).
Proof.
  intros Hs F St. destruct (forall2_pairs _ _ _ F) as (z & -> & -> & Fz).
  set (zk := map (fun x : point * (bytes * bval) => (fst (fst x), x)) z).
  pose proof (by_key_stable zk) as Z.
  assert (Kz : forall x, In x zk -> fst x = fst (fst (snd x)) /\ fst x = fst (snd (snd x)) /\ stands (fst (snd x)) (snd (snd x))).
  { intros x I. apply in_map_iff in I as (y & <- & I). rewrite Forall_forall in Fz. pose proof (Fz _ I) as S. split; [reflexivity|].
    split; [apply S|exact S]. }
  assert (E1 : sort custom_less (map fst z) = map (fun x => fst (snd x)) (by_key zk)).
  { apply (stable_unique _ key_lt (map fst z)).
    - apply key_lt_irr.
    - apply (Hs key_lt). apply key_lt_swo.
    - replace (map fst z) with (map (fun x => fst (snd x)) zk) by (unfold zk; rewrite map_map; reflexivity).
      eapply stable_map; [|exact Z]. intros x y Ix Iy. unfold key_lt. destruct (Kz x Ix) as (-> & _), (Kz y Iy) as (-> & _). reflexivity. }
  assert (E2 : fs' = map (fun x => snd (snd x)) (by_key zk)).
  { apply (stable_unique _ key_lt (map snd z)).
    - apply key_lt_irr.
    - exact St.
    - replace (map snd z) with (map (fun x => snd (snd x)) zk) by (unfold zk; rewrite map_map; reflexivity).
      eapply stable_map; [|exact Z]. intros x y Ix Iy. unfold key_lt. destruct (Kz x Ix) as (_ & -> & _), (Kz y Iy) as (_ & -> & _). reflexivity. }
  split; [|apply (Hs key_lt); apply key_lt_swo]. rewrite E1, E2.
  assert (Ib : forall x, In x (by_key zk) -> In x zk).
  { intros x. apply Permutation_in, Permutation_sym, by_key_perm. }
  clear - Kz Ib. induction (by_key zk) as [|x l IH]; cbn; constructor.
  - apply Kz, Ib. now left.
  - apply IH. intros; apply Ib; now right.
Qed.

(* Whatever the points, the bytes are those of their fields, sorted stably by name.  The caller's
   slice is left in that order. *)
Theorem C94_marshal : forall sort fuel ps fs fs', sorts_stably sort -> Forall2 stands ps fs ->
  stable_sort_of key_lt fs fs' -> wf_fields fs -> zlen (enc_doc fs) + 32 < 2147483648 -> enough fuel (zlen (enc_doc fs)) ->
  exists ps', custom_marshal sort fuel ps = (ps', Ret (inl (enc_doc fs'))) /\ stable_sort_of key_lt ps ps' /\
    Forall2 stands ps' fs'.
Proof.
  intros sort fuel ps fs fs' Hs F St W L En. destruct (sorted_points sort ps fs fs' Hs F St) as [F' Sp].
  destruct St as (P & _). rewrite (enc_doc_perm _ _ P) in *.
  assert (W' : wf_fields fs') by (unfold wf_fields in *; rewrite Forall_forall in *; intros x I; apply W; eapply Permutation_in; [apply Permutation_sym, P|exact I]).
  exists (sort custom_less ps). split; [|split; auto]. unfold custom_marshal, custom_marshal_doc. f_equal. rewrite append_dce.
  destruct (proj1 (C91_map fuel (map (fun p => (fst p, pv_any (snd p))) (sort custom_less ps))) fs') as (es & E & M); auto.
  { clear - F'. induction F' as [|p f l m [K C] F IH]; cbn; constructor; auto. }
  rewrite E. cbn [bind]. exact M.
Qed.
Print Assumptions C94_marshal.

Lemma own_class {A} (x : bytes * A) l : NoDup (map fst l) -> In x l -> filter (Sort.same key_lt x) l = [x].
Proof.
  assert (Q : forall y : bytes * A, Sort.same key_lt x y = true -> fst x = fst y).
  { intros y H. unfold Sort.same in H. rewrite andb_true_iff, !negb_true_iff in H. destruct H. now apply ltb_total. }
  assert (Nn : forall l, ~ In (fst x) (map fst l) -> filter (Sort.same key_lt x) l = []).
  { clear l. induction l as [|y l IH]; intros N; [reflexivity|]. cbn in N |- *. destruct (Sort.same key_lt x y) eqn:E.
    - apply Q in E. destruct N. now left.
    - apply IH. tauto. }
  induction l as [|y l IH]; intros N I; [destruct I|]. cbn in N. inversion_clear N as [|? ? N1 N2]. cbn.
  destruct I as [->|I].
  - unfold Sort.same at 1. rewrite key_lt_irr. cbn. f_equal. now apply Nn.
  - destruct (Sort.same key_lt x y) eqn:E; [|auto]. apply Q in E. destruct N1. rewrite <- E. now apply in_map.
Qed.
(* As long as no name is used twice, the order in which the points were added does not show. *)
Theorem C94_order : forall sort fuel ps qs, sorts_stably sort -> NoDup (map fst ps) -> Permutation ps qs ->
  custom_marshal sort fuel ps = custom_marshal sort fuel qs.
Proof.
  intros sort fuel ps qs Hs N P. unfold custom_marshal, custom_marshal_doc.
  replace (sort custom_less qs) with (sort custom_less ps); [reflexivity|].
  pose proof (Hs key_lt ps (key_lt_swo ps)) as S1. pose proof (Hs key_lt qs (key_lt_swo qs)) as S2.
  apply (stable_unique _ key_lt qs); [apply key_lt_irr| |exact S2].
  destruct S1 as (P1 & S1 & F1). split; [etransitivity; [apply Permutation_sym, P|exact P1]|]. split; [exact S1|].
  intros x I. assert (Ip : In x ps) by (eapply Permutation_in; [apply Permutation_sym, P|exact I]).
  rewrite (own_class x qs); auto; [|eapply Permutation_NoDup; [apply Permutation_map, P|exact N]].
  apply own_class.
  - eapply Permutation_NoDup; [apply Permutation_map, P1|exact N].
  - eapply Permutation_in; [exact P1|exact Ip].
Qed.
Print Assumptions C94_order.

(* Not everything Add takes can be marshaled: of these there is no BSON. *)
Inductive lost : pointv -> Prop :=
| L_bools l : lost (PBools l) | L_uint32s l : lost (PUint32s l) | L_uint64s l : lost (PUint64s l)
| L_uint64 i : 9223372036854775807 < i -> lost (PV (AInt (GUint64 i))).
(* One such point, anywhere, and the Custom cannot be marshaled at all. *)
Theorem C94_refuted : forall sort fuel ps p, sorts_stably sort -> In p ps -> lost (snd p) ->
  (forall q, In q ps -> cstr_ok (fst q) /\ (lost (snd q) \/ exists t, stands q (fst q, t) /\ wf t /\ room fuel (fst q) t)) ->
  (forall q, In q ps -> lost (snd q) -> room fuel (fst q) BNull) ->
  number (snd p) /\ exists ps' e, custom_marshal sort fuel ps = (ps', Ret (inr e)).
Proof.
  intros sort fuel ps p Hs I Lp H R. split; [destruct Lp; constructor|].
  pose proof (Hs key_lt ps (key_lt_swo ps)) as (P & _). change (sort key_lt ps) with (sort custom_less ps) in P.
  unfold custom_marshal, custom_marshal_doc. set (ps' := sort custom_less ps) in *. exists ps'.
  assert (I' : In p ps') by (eapply Permutation_in; eauto).
  assert (H' : forall q, In q ps' -> cstr_ok (fst q) /\ ((lost (snd q) /\ room fuel (fst q) BNull) \/ exists t, stands q (fst q, t) /\ wf t /\ room fuel (fst q) t)).
  { intros q Iq. assert (Iq' : In q ps) by (eapply Permutation_in; [apply Permutation_sym, P|exact Iq]).
    destruct (H q Iq') as [K [Lq|X]]; auto. }
  enough (X : forall doc, exists e, custom_append fuel ps' doc = Ret (inr e)).
  { destruct (X []) as (e & ->). exists e. reflexivity. }
  clear - I' H' Lp. induction ps' as [|q l IH]; [destruct I'|]. intros doc. cbn [custom_append].
  destruct (H' q (or_introl eq_refl)) as [K [[Lq Rq]|(t & [_ [M C]] & W & Rm)]].
  - destruct (C91_refuses fuel (fst q) (pv_any (snd q))) as (e & E); auto.
    + destruct Lq; cbn; [left; repeat split; discriminate..|]. right. eauto.
    + rewrite E. cbn [bind]. eauto.
  - destruct (C91_converts fuel (fst q) _ t M K W Rm C) as (v & E & _). rewrite E. cbn [bind].
    apply IH; [|intros; apply H'; now right]. destruct I' as [->|]; auto. exfalso. cbn [snd] in *.
    destruct Lp; cbn in M.
    1-3: inversion M; subst; destruct C; [congruence|discriminate].
    inversion M; subst; [|discriminate]. unfold int_bson in C. replace (i <? 2147483647) with false in C by lia.
    replace (9223372036854775807 <? i) with true in C by lia. destruct C; [congruence|discriminate].
Qed.
Print Assumptions C94_refuted.

(* ------------------------------------------------------------------------- C94 UnmarshalBSON *)

Lemma take_rep fuel fs : forall es ps, rep_doc es fs -> wf_fields fs -> zlen (enc_elems fs) < 2147483648 ->
  zlen (enc_elems fs) < Z.of_nat fuel ->
  exists out, custom_take fuel ps es = Ret (ps ++ out) /\
    Forall2 (fun f p => fst p = fst f /\ exists a, snd p = PV a /\ shows (snd f) a) fs out.
Proof.
  induction fs as [|[k t] fs IH]; intros [|[v|] es] ps R W L F; cbn [rep_doc] in R; try contradiction.
  - exists []. rewrite app_nil_r. split; [reflexivity|constructor].
  - destruct R as [R1 R2]. apply Forall_cons_iff in W as [[Wk Wt] W]. cbn [fst snd] in *.
    rewrite zlen_enc_elems_cons in *. rewrite zlen_enc_elem in *. posl.
    destruct (igood_all t k v fuel) as (a & Ea & Sa); auto; try lia.
    cbn [custom_take]. rewrite (elem_key_rep _ _ _ R1). cbn [bind]. rewrite Ea. cbn [bind].
    destruct (IH es (ps ++ [(k, PV a)])) as (out & E & X); auto; try lia.
    exists ((k, PV a) :: out). rewrite E, <- app_assoc. split; [reflexivity|]. constructor; [split; [reflexivity|]; cbn; eauto|exact X].
Qed.
(* Any document adds a point for each of its fields, in its order, after the points already there. *)
Theorem C94_unmarshal : forall fuel qs fs, wf_fields fs -> small fs -> enough fuel (zlen (enc_doc fs)) ->
  exists out, custom_unmarshal fuel qs (enc_doc fs) = Ret (qs ++ out, None) /\
    Forall2 (fun f p => fst p = fst f /\ exists a, snd p = PV a /\ shows (snd f) a) fs out.
Proof.
  intros fuel qs fs W S F. destruct (read_document_wf fs [] fuel) as (es & E & R); auto; [now rewrite app_nil_r|].
  rewrite app_nil_r in E. unfold custom_unmarshal. rewrite E. cbn [bind].
  unfold enough, small, enc_doc in *. zlens_in S. zlens_in F. posl.
  destruct (take_rep fuel fs es qs) as (out & T & X); auto; try lia. rewrite T. cbn [bind]. eauto.
Qed.
Print Assumptions C94_unmarshal.

(* What a number comes back as: an int32, int64 or float64, a time without its microseconds, a
   slice of these as []any. *)
Definition back_int (i : Z) : any := if i <? 2147483647 then AInt (GInt32 i) else AInt (GInt64 i).
Definition back (v : pointv) : any :=
  match v with
  | PV (AInt (GInt i)) | PV (AInt (GUint32 i)) | PV (AInt (GUint64 i)) => back_int i
  | PV (ATime ns) => ATime (ns / 1000000 * 1000000)
  | PV (AFloat32 b) => AFloat64 b
  | PV (AInt64s l) => ASlice (map (fun i => AInt (GInt64 i)) l)
  | PV (AInt32s l) => ASlice (map (fun i => AInt (GInt32 i)) l)
  | PV (AInts l) => ASlice (map back_int l)
  | PV (ATimes l) => ASlice (map (fun ns => ATime (ns / 1000000 * 1000000)) l)
  | PV (AFloat64s l) | PV (AFloat32s l) => ASlice (map AFloat64 l)
  | PV a => a
  | _ => ANil
  end.
Lemma shows_list {A} (f : A -> bval) (g : A -> any) l m :
  (forall x a, In x l -> shows (f x) a -> a = g x) -> Forall2 shows (map f l) m -> m = map g l.
Proof.
  revert m. induction l as [|x l IH]; intros m H F; inversion F; subst; [reflexivity|]. cbn. f_equal.
  - apply H; [now left|assumption].
  - apply IH; [|assumption]. intros; apply H; [now right|assumption].
Qed.
Lemma means_list {A} (f : A -> bval) (g : A -> any) l :
  (forall x, In x l -> means (g x) (f x)) -> Forall2 means (map g l) (map f l).
Proof. induction l as [|x l IH]; intros H; cbn; constructor; [apply H; now left|apply IH; intros; apply H; now right]. Qed.
Lemma back_int_shows i a : goint_ok (GInt i) -> shows (int_bson (GInt i)) a -> a = back_int i.
Proof.
  unfold int_bson, back_int, goint_ok, is_i64. intros H. destruct (i <? 2147483647); [now inversion 1|].
  replace (9223372036854775807 <? i) with false by lia. now inversion 1.
Qed.
Lemma back_int_means i : int_fits (GInt i) -> means (back_int i) (int_bson (GInt i)).
Proof.
  intros [H1 H2]. specialize (H2 i eq_refl). unfold goint_ok, is_i64 in H1. unfold int_bson, back_int. destruct (i <? 2147483647) eqn:E.
  - apply (M_int (GInt32 i)). split; [unfold goint_ok, is_i32; lia|discriminate].
  - replace (9223372036854775807 <? i) with false by lia. apply (M_int (GInt64 i)). split; [unfold goint_ok, is_i64; lia|discriminate].
Qed.
Lemma conv_uint i t : (means (AInt (GUint32 i)) t \/ means (AInt (GUint64 i)) t) -> t <> BNull -> int_fits (GInt i) /\ t = int_bson (GInt i).
Proof.
  intros H C. assert (X : (is_u32 i \/ is_u64 i) /\ t = int_bson (GInt i)).
  { destruct H as [M|M]; inversion M as [|? G| | | | | | | | | | | | | | | | | | | | | | | | |]; subst; try discriminate;
      destruct G as [G _]; cbn in G; auto. }
  destruct X as [G ->]. split; [|reflexivity]. unfold int_bson in C. unfold is_u32, is_u64, int_fits, goint_ok, is_i64 in *.
  destruct (i <? 2147483647) eqn:Q1, (9223372036854775807 <? i) eqn:Q2; try congruence; (split; [lia|intros j [= <-]; lia]).
Qed.
Lemma conv_null t : means AOther t -> t = BNull.
Proof. now inversion 1. Qed.
Lemma back_shows v t a : number v -> converted (pv_any v) t -> shows t a -> a = back v.
Proof.
  intros N [M C] S. destruct N; cbn [pv_any] in *; cbn [back].
  - inversion M; subst; [now inversion S|discriminate].
  - inversion M; subst; [now inversion S|discriminate].
  - inversion M; subst; [|discriminate]. apply back_int_shows; [|exact S]. now destruct H0.
  - destruct C as [C|]; [|discriminate]. destruct (conv_uint i t) as [[G _] ->]; auto. now apply back_int_shows.
  - destruct C as [C|]; [|discriminate]. destruct (conv_uint i t) as [[G _] ->]; auto. now apply back_int_shows.
  - inversion M; subst; [now inversion S|discriminate].
  - inversion M; subst; [now inversion S|discriminate].
  - inversion M; subst; [now inversion S|discriminate].
  - inversion M; subst; [now inversion S|discriminate].
  - inversion M; subst; [|discriminate]. inversion S; subst. f_equal. eapply shows_list; [|eassumption]. intros x b _ X. now inversion X.
  - inversion M; subst; [|discriminate]. inversion S; subst. f_equal. eapply shows_list; [|eassumption]. intros x b _ X. now inversion X.
  - inversion M as [| | | | | | | | | | | | | | | |? G| | | | | | | | | |]; subst; [|discriminate]. inversion S; subst. f_equal. eapply shows_list; [|eassumption].
    intros x b I X. rewrite Forall_forall in G. apply back_int_shows; [|exact X]. now destruct (G x I).
  - apply conv_null in M. subst. destruct C; [congruence|discriminate].
  - inversion M; subst; [|discriminate]. inversion S; subst. f_equal. eapply shows_list; [|eassumption]. intros x b _ X. now inversion X.
  - inversion M; subst; [|discriminate]. inversion S; subst. f_equal. eapply shows_list; [|eassumption]. intros x b _ X. now inversion X.
  - inversion M; subst; [|discriminate]. inversion S; subst. f_equal. eapply shows_list; [|eassumption]. intros x b _ X. now inversion X.
  - apply conv_null in M. subst. destruct C; [congruence|discriminate].
  - apply conv_null in M. subst. destruct C; [congruence|discriminate].
Qed.
Lemma back_converted v t : number v -> converted (pv_any v) t -> wf t -> converted (back v) t.
Proof.
  intros N [M C] W. split.
  2:{ left. destruct C as [C|C]; [exact C|]. destruct N; discriminate C. }
  destruct N; cbn [pv_any] in *; cbn [back].
  - exact M.
  - exact M.
  - inversion M; subst; [|discriminate]. now apply back_int_means.
  - destruct C as [C|]; [|discriminate]. destruct (conv_uint i t) as [G ->]; auto. now apply back_int_means.
  - destruct C as [C|]; [|discriminate]. destruct (conv_uint i t) as [G ->]; auto. now apply back_int_means.
  - exact M.
  - inversion M as [| | | | |? G| | | | | | | | | | | | | | | | | | | | |]; subst; [|discriminate].
    pose proof (Z.div_mul (t0 / 1000000) 1000000 ltac:(lia)) as Q. pose proof (M_time (t0 / 1000000 * 1000000)) as X. rewrite Q in X. auto.
  - exact M.
  - inversion M; subst; [|discriminate]. constructor.
  - inversion M; subst; [|discriminate]. constructor. apply means_list. intros x I. apply (M_int (GInt64 x)).
    apply wf_array in W. rewrite Forall_forall in W. specialize (W (BInt64 x) (in_map BInt64 _ _ I)). split; [exact W|discriminate].
  - inversion M; subst; [|discriminate]. constructor. apply means_list. intros x I. apply (M_int (GInt32 x)).
    apply wf_array in W. rewrite Forall_forall in W. specialize (W (BInt32 x) (in_map BInt32 _ _ I)). split; [exact W|discriminate].
  - inversion M as [| | | | | | | | | | | | | | | |? G| | | | | | | | | |]; subst; [|discriminate]. constructor. apply means_list.
    intros x I. rewrite Forall_forall in G. apply back_int_means. auto.
  - apply conv_null in M. subst. destruct C; [congruence|discriminate].
  - inversion M as [| | | | | | | | | | | | | | | | |? G| | | | | | | | |]; subst; [|discriminate]. constructor. apply means_list.
    intros x I. rewrite Forall_forall in G. specialize (G x I).
    pose proof (Z.div_mul (x / 1000000) 1000000 ltac:(lia)) as Q. pose proof (M_time (x / 1000000 * 1000000)) as X. rewrite Q in X. auto.
  - inversion M; subst; [|discriminate]. constructor. apply means_list. intros; constructor.
  - inversion M; subst; [|discriminate]. constructor. apply means_list. intros; constructor.
  - apply conv_null in M. subst. destruct C; [congruence|discriminate].
  - apply conv_null in M. subst. destruct C; [congruence|discriminate].
Qed.

(* Points that were added and can be marshaled come back, sorted, each as the number it stands for;
   and marshaling what came back gives the same bytes again. *)
Theorem C94_round_trip : forall sort fuel ps fs, sorts_stably sort -> Forall (fun p => number (snd p)) ps ->
  Forall2 stands ps fs -> wf_fields fs -> zlen (enc_doc fs) + 32 < 2147483648 -> enough fuel (zlen (enc_doc fs)) ->
  exists ps' b, custom_marshal sort fuel ps = (ps', Ret (inl b)) /\ stable_sort_of key_lt ps ps' /\
    let qs := map (fun p => (fst p, PV (back (snd p)))) ps' in
    custom_unmarshal fuel [] b = Ret (qs, None) /\ custom_marshal sort fuel qs = (qs, Ret (inl b)).
Proof.
  intros sort fuel ps fs Hs N F W L En. set (fs' := by_key fs).
  pose proof (by_key_stable fs) as St. fold fs' in St.
  destruct (C94_marshal sort fuel ps fs fs' Hs F St W L En) as (ps' & E & Sp & F'). exists ps', (enc_doc fs').
  split; [exact E|]. split; [exact Sp|]. cbv zeta. set (qs := map (fun p => (fst p, PV (back (snd p)))) ps').
  destruct St as (P & Ss & _). rewrite (enc_doc_perm _ _ P) in L, En.
  assert (W' : wf_fields fs') by (unfold wf_fields in *; rewrite Forall_forall in *; intros x I; apply W; eapply Permutation_in; [apply Permutation_sym, P|exact I]).
  assert (N' : Forall (fun p : point => number (snd p)) ps').
  { rewrite Forall_forall in *. intros x I. apply N. destruct Sp as (Pp & _). eapply Permutation_in; [apply Permutation_sym, Pp|exact I]. }
  assert (Fq : Forall2 stands qs fs').
  { unfold qs. clear - F' N' W'. induction F' as [|p f l m [K C] F IH]; cbn; constructor.
    - split; [exact K|]. cbn [snd pv_any]. apply Forall_cons_iff in W' as [[_ Wf] _]. apply Forall_cons_iff in N' as [Np _].
      now apply back_converted.
    - apply Forall_cons_iff in W' as [_ W']. apply Forall_cons_iff in N' as [_ N']. apply IH; auto. }
  split.
  - destruct (C94_unmarshal fuel [] fs' W') as (out & U & X); [unfold small; lia|exact En|]. rewrite U. cbn [app]. do 2 f_equal.
    unfold qs. clear - X F' N'. revert out X. induction F' as [|p f l m [K C] F IH]; intros out X; inversion X as [|? q ? ? [Kq (a & Q & S)] X']; subst; [reflexivity|].
    apply Forall_cons_iff in N' as [Np N']. cbn [map]. f_equal; [|now apply IH]. destruct q as [k w]. cbn [fst snd] in *. subst.
    rewrite (back_shows _ _ _ Np C S). congruence.
  - assert (Sq : stable_sort_of key_lt fs' fs') by (split; [reflexivity|]; split; [exact Ss|auto]).
    destruct (C94_marshal sort fuel qs fs' fs' Hs Fq Sq W' L En) as (qs' & E' & Sq' & _). rewrite E'. f_equal.
    apply (stable_unique _ key_lt qs); [apply key_lt_irr|exact Sq'|]. split; [reflexivity|]. split; [|auto].
    destruct Sp as (_ & Sp & _). unfold qs. clear - Sp. induction Sp as [|x l S IH H]; cbn; constructor; auto.
    apply Forall_map. exact H.
Qed.
Print Assumptions C94_round_trip.

(* a name used twice, an array, and a time that loses half a millisecond *)
Definition some_points : list point := [([98], PV (AInt (GUint64 3))); ([97], PV (AInts [1; 2])); ([98], PV (ATime 1500000))].
Definition their_fields : list (bytes * bval) := [([98], BInt32 3); ([97], BArray [BInt32 1; BInt32 2]); ([98], BDateTime 1)].
Example C94_round_trip_used : sorts_stably (@isort point) /\ Forall2 stands some_points their_fields /\
  Forall (fun p : point => number (snd p)) some_points /\
  wf_fields their_fields /\ zlen (enc_doc their_fields) + 32 < 2147483648 /\ enough 200 (zlen (enc_doc their_fields)) /\
  snd (custom_marshal (@isort point) 200 some_points) =
    Ret (inl (enc_doc [([97], BArray [BInt32 1; BInt32 2]); ([98], BInt32 3); ([98], BDateTime 1)])).
Proof.
  split; [apply insertion_sort_is_stable|]. split; [|split; [|split; [|split; [|split]]]].
  - unfold some_points, their_fields. constructor; [|constructor; [|constructor; [|constructor]]];
      (split; [reflexivity|]; split; [cbn [snd pv_any]|left; discriminate]).
    + apply (M_int (GUint64 3)). split; [unfold goint_ok, is_u64; lia|discriminate].
    + apply (M_ints [1; 2]). constructor; [|constructor; [|constructor]]; (split; [unfold goint_ok, is_i64; lia|intros i [= <-]; lia]).
    + apply (M_time 1500000). vm_compute. split; [discriminate|reflexivity].
  - unfold some_points. repeat constructor.
  - apply (proj1 (wf_doc _)). vm_compute. repeat constructor; discriminate.
  - vm_compute. reflexivity.
  - vm_compute. reflexivity.
  - vm_compute. reflexivity.
Qed.
Example C94_refuted_used : let ps := [([97], PV (AInt (GInt32 3))); ([98], PBools [true])] in
  In ([98], PBools [true]) ps /\ lost (PBools [true]) /\
  (forall q, In q ps -> cstr_ok (fst q) /\ (lost (snd q) \/ exists t, stands q (fst q, t) /\ wf t /\ room 100 (fst q) t)) /\
  (forall q, In q ps -> lost (snd q) -> room 100 (fst q) BNull) /\
  custom_adds [] ps = (ps, [None; None]).
Proof.
  cbv zeta. split; [right; now left|]. split; [constructor|]. split; [|split; [|reflexivity]].
  - intros q [<-|[<-|[]]]; cbn [fst snd]; (split; [vm_compute; repeat constructor; discriminate|]).
    + right. exists (BInt32 3). split; [split; [reflexivity|]; split; [|left; discriminate]|].
      * apply (M_int (GInt32 3)). split; [unfold goint_ok, is_i32; lia|discriminate].
      * split; [vm_compute; split; discriminate || reflexivity|split; vm_compute; reflexivity].
    + left. constructor.
  - intros q [<-|[<-|[]]] _; split; vm_compute; reflexivity.
Qed.
Example C94_order_used : NoDup (map fst [([98], PV (AInt (GInt32 3))); ([97], PV (ABool true))]) /\
  snd (custom_marshal (@isort point) 100 [([98], PV (AInt (GInt32 3))); ([97], PV (ABool true))]) =
    Ret (inl (enc_doc [([97], BBool true); ([98], BInt32 3)])).
Proof. split; [constructor; [intros [X|[]]; discriminate X|constructor; [intros []|constructor]]|vm_compute; reflexivity]. Qed.
