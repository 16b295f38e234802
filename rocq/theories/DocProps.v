(* Properties of documents and arrays as mutable objects: C15-C21, C50, C51.  Histories are
   lists of operations on the documents of a world (DocOps.v), with any growth policy of
   append and starting from no documents; the specification is in DocSpec.v. *)
Require Import ZArith List Bool Lia ZifyBool ZifyNat Permutation Sorted.
From Verif Require Import Base BSpec Elements Value Codec CodecRead Itoa CodecRep Api ApiProofs Tree
  GetterProofs ReaderOps ReadSafe CodecProps DocOps DocSpec DocProofs Search Stream Sort DocMap.
Import ListNotations.
Open Scope Z_scope.

(* The worlds a client can reach: any history of operations whose elements have keys. *)
Definition reachable (grow : nat -> nat) (fuel : nat) (w : world) : Prop :=
  exists os, Forall op_ok os /\ w = fst (run grow fuel w0 os).
(* document i of w shows the elements l *)
Definition shows_list (w : world) (i : nat) (l : list elem) : Prop :=
  nth_error (shown w) i = Some (map Some l).

Lemma reachable_inv grow fuel w : reachable grow fuel w -> exists s, inv w s.
Proof.
  intros (os & O & ->). pose proof (run_refines grow fuel os w0 [] inv_w0 O) as H.
  destruct (run grow fuel w0 os) as [w rs]. destruct (s_run fuel [] os) as [s ss]. exists s. apply H.
Qed.
Lemma map_some_inj {A} (l l' : list A) : map Some l = map Some l' -> l = l'.
Proof.
  revert l'. induction l as [|x l IH]; intros [|y l'] H; cbn in H; try discriminate; auto.
  injection H as -> H. f_equal. auto.
Qed.
Lemma shows_inv w s i l : inv w s -> shows_list w i l -> exists x, nth_error s i = Some x /\ s_elems x = l.
Proof.
  intros I H. unfold shows_list in H. rewrite (inv_shown w s I), nth_error_map in H.
  destruct (nth_error s i) as [x|]; [|discriminate]. cbn in H. injection H as H. exists x.
  split; [reflexivity|]. now apply map_some_inj.
Qed.
Lemma inv_shows w s i x : inv w s -> nth_error s i = Some x -> shows_list w i (s_elems x).
Proof. intros I H. unfold shows_list. rewrite (inv_shown w s I), nth_error_map, H. reflexivity. Qed.

(* --------------------------------------------------------------------- C15 *)

(* Whatever the history and the growth of the slices, every result and everything the
   documents show is that of independent lists. *)
Theorem C15_operations_refine_lists : forall grow fuel os, Forall op_ok os ->
  let '(w, rs) := run grow fuel w0 os in
  let '(s, ss) := s_run fuel [] os in
  Forall2 agrees rs ss /\ shown w = map (fun d => map Some (s_elems d)) s.
Proof.
  intros grow fuel os O. pose proof (run_refines grow fuel os w0 [] inv_w0 O) as H.
  destruct (run grow fuel w0 os) as [w rs]. destruct (s_run fuel [] os) as [s ss]. destruct H as [I A].
  split; [exact A|]. now apply inv_shown.
Qed.
Print Assumptions C15_operations_refine_lists.

(* The same, one operation at a time and without naming the histories. *)
Theorem C15_each_operation : forall grow fuel w i l, reachable grow fuel w -> shows_list w i l ->
  let after o := fst (exec grow fuel w o) in
  let result o := snd (exec grow fuel w o) in
  (forall es, Forall keyed es -> shows_list (after (OAppend i (map Some es))) i (l ++ es)) /\
  (forall e, keyed e -> shows_list (after (OSet i (Some e))) i (s_set e l)) /\
  (forall k, shows_list (after (ODelete i k)) i (s_delete k l) /\ result (ODelete i k) = Ret (RPtr (s_find k l))) /\
  (forall j l2, shows_list w j l2 -> shows_list (after (OExtend i j)) i (l ++ l2)) /\
  shows_list (after (OReset i)) i [] /\
  result (OLen i) = Ret (RLen (length l)) /\
  result (OIterator i) = Ret (RList (map Some l)) /\
  (forall n, 0 <= n -> result (OElementAt i n) =
     match nth_error l (Z.to_nat n) with Some e => Ret (RPtr (Some e)) | None => Panic PIndex end) /\
  (forall k, result (OLookupElement i k) = Ret (RPtr (s_find k l))).
Proof.
  intros grow fuel w i l Re Sh after result. destruct (reachable_inv _ _ _ Re) as (s & I).
  destruct (shows_inv _ _ _ _ I Sh) as (x & Hx & El).
  assert (Li : (i < length s)%nat) by (eapply some_lt; eauto).
  assert (St : forall o, op_ok o -> inv (after o) (fst (s_exec fuel s o)) /\ agrees (result o) (snd (s_exec fuel s o))).
  { intros o O. pose proof (exec_refines grow fuel w s o I O) as H. unfold after, result.
    destruct (exec grow fuel w o), (s_exec fuel s o). exact H. }
  assert (Sh' : forall o m, op_ok o -> (exists mm, fst (s_exec fuel s o) = s_put s i m mm) -> shows_list (after o) i m).
  { intros o m O (mm & E). destruct (St o O) as [I' _]. rewrite E in I'. apply (inv_shows _ _ i (MkS m mm) I').
    unfold s_put. now apply nth_error_replace_eq. }
  assert (Rs : forall o r, op_ok o -> snd (s_exec fuel s o) = Ret (SRes r) -> result o = Ret r).
  { intros o r O E. destruct (St o O) as [_ A]. rewrite E in A. unfold agrees in A.
    destruct (result o) as [q| |]; try contradiction. now destruct q; try contradiction; rewrite A. }
  assert (Kp : forall es, Forall keyed es -> Forall (fun p : ptr => match p with None => True | Some e => keyed e end) (map Some es)).
  { intros es K. apply Forall_map. eapply Forall_impl; [|exact K]. auto. }
  assert (At : forall f, s_at s i f = f x) by (intros; unfold s_at; now rewrite Hx).
  assert (Pn : forall m mm, nth_error (s_put s i m mm) i = Some (MkS m mm)) by (intros; now apply nth_error_replace_eq).
  repeat match goal with |- _ /\ _ => split end.
  - intros es K. apply Sh'; [now apply Kp|]. cbn [s_exec]. rewrite At. unfold s_append.
    destruct (before_nil_some es) as [-> ->]. cbn [fst]. rewrite El. eauto.
  - intros e K. apply Sh'; [now repeat constructor|]. cbn [s_exec]. rewrite At. cbn [fst]. rewrite El. eauto.
  - intros k. split.
    + apply Sh'; [exact Logic.I|]. cbn [s_exec]. rewrite At. cbn [fst]. rewrite El. eauto.
    + apply Rs; [exact Logic.I|]. cbn [s_exec]. rewrite At. cbn [snd]. now rewrite El.
  - intros j l2 Sj. destruct (shows_inv _ _ _ _ I Sj) as (y & Hy & Ey).
    apply Sh'; [exact Logic.I|]. cbn [s_exec]. rewrite At. unfold s_at. rewrite Hy. cbn [fst]. rewrite El, Ey. eauto.
  - apply Sh'; [exact Logic.I|]. cbn [s_exec]. rewrite At. cbn [fst]. eauto.
  - apply Rs; [exact Logic.I|]. cbn [s_exec]. rewrite At. now rewrite El.
  - apply Rs; [exact Logic.I|]. cbn [s_exec]. rewrite At. now rewrite El.
  - intros n Hn. destruct (St (OElementAt i n) Hn) as [_ A]. cbn [s_exec] in A. rewrite At, El in A. cbn [snd] in A.
    destruct (nth_error l (Z.to_nat n)) as [e|] eqn:E.
    + assert (Z.to_nat n < length l)%nat by (eapply some_lt; eauto).
      replace (n <? Z.of_nat (length l)) with true in A by lia. unfold agrees in A.
      destruct (result (OElementAt i n)) as [q| |]; try contradiction. now destruct q; try contradiction; rewrite A.
    + apply nth_error_None in E. replace (n <? Z.of_nat (length l)) with false in A by lia.
      destruct (result (OElementAt i n)) as [q| |]; cbn in A; try contradiction. { now destruct q. } now rewrite A.
  - intros k. apply Rs; [exact Logic.I|]. cbn [s_exec]. rewrite At. now rewrite El.
Qed.
Print Assumptions C15_each_operation.

Definition e_int (k : bytes) (i : Z) : elem := match ec_int32 k i with Ret v => Some v | _ => None end.
Definition k_a : bytes := [97].
Definition k_b : bytes := [98].
Example C15_nonvacuous : let os := [ONew 0; OAppend 0 [Some (e_int k_a 1); Some (e_int k_b 2); Some (e_int k_a 3)];
    OSet 0 (Some (e_int k_a 9)); ODelete 0 k_b] in
  Forall op_ok os /\
  shown (fst (run (fun n => n) 100 w0 os)) = [[Some (e_int k_a 9); Some (e_int k_a 3)]].
Proof.
  cbn zeta. split; [|vm_compute; reflexivity].
  assert (K : forall k i, k = k_a \/ k = k_b -> i = 1 \/ i = 2 \/ i = 3 \/ i = 9 -> keyed (e_int k i)).
  { intros k i [->| ->] H; [exists k_a|exists k_b]; destruct H as [->|[->|[->| ->]]]; vm_compute; reflexivity. }
  repeat (constructor; cbn; auto).
Qed.

(* --------------------------------------------------------------------- C16 *)

(* Map returns a stale answer: a document whose key a was replaced after a Map. *)
Definition stale_history : list op :=
  [ONew 0; OAppend 0 [Some (e_int k_a 1)]; OMap 0; OSet 0 (Some (e_int k_a 2)); OMap 0].
Theorem C16_map_refuted : exists os m e, Forall op_ok os /\
  last (snd (run (fun n => n) 100 w0 os)) Fuel = Ret (RMap m) /\
  shown (fst (run (fun n => n) 100 w0 os)) = [[Some e]] /\ key e = k_a /\
  map_get m k_a <> Some e.
Proof.
  exists stale_history, [(k_a, e_int k_a 1)], (e_int k_a 2).
  assert (K : forall i, i = 1 \/ i = 2 -> keyed (e_int k_a i)).
  { intros i [->| ->]; exists k_a; vm_compute; reflexivity. }
  split; [repeat (constructor; cbn; auto)|].
  split; [vm_compute; reflexivity|]. split; [vm_compute; reflexivity|]. split; [vm_compute; reflexivity|].
  vm_compute. discriminate.
Qed.
Print Assumptions C16_map_refuted.

Lemma s_exec_memo fuel s o i : o <> OMap i ->
  (forall x, nth_error s i = Some x -> s_memo x = None) ->
  forall x, nth_error (fst (s_exec fuel s o)) i = Some x -> s_memo x = None.
Proof.
  intros No H.
  assert (P : forall j l m d, nth_error s j = Some d -> (j = i -> m = None) ->
    forall x, nth_error (s_put s j l m) i = Some x -> s_memo x = None).
  { intros j l m d Hd Hm x Hx. unfold s_put in Hx. assert (j < length s)%nat by (eapply some_lt; eauto).
    destruct (Nat.eq_dec j i) as [E|E].
    - subst j. rewrite nth_error_replace_eq in Hx by auto. injection Hx as <-. cbn. auto.
    - rewrite nth_error_replace_neq in Hx by auto. eauto. }
  assert (N : forall l x, nth_error (s ++ [MkS l None]) i = Some x -> s_memo x = None).
  { intros l x Hx. destruct (Nat.ltb_spec i (length s)).
    - rewrite nth_error_app1 in Hx by auto. eauto.
    - rewrite nth_error_app2 in Hx by auto. destruct (i - length s)%nat as [|[|n]]; cbn in Hx; try discriminate.
      injection Hx as <-. reflexivity. }
  assert (M : forall j d, nth_error s j = Some d -> j = i -> s_memo d = None) by (intros j d Hd ->; eauto).
  assert (A : forall j f, (forall d, nth_error s j = Some d -> forall x, nth_error (fst (f d)) i = Some x -> s_memo x = None) ->
     forall x, nth_error (fst (s_at s j f)) i = Some x -> s_memo x = None).
  { intros j f Hf x Hx. unfold s_at in Hx. destruct (nth_error s j) eqn:E; eauto. }
  destruct o; cbn [s_exec]; try (apply N); try (apply A; intros dd Hd; cbn [fst]; now eauto).
  - apply A. intros dd Hd. unfold s_append. destruct (any_nil ps); cbn [fst]; eapply P; eauto.
  - apply A. intros dd Hd. destruct (non_empty fuel ps) as [l [u| |]]; cbn [fst]; eapply P; eauto;
      intros E; destruct (is_nil l); eauto.
  - destruct p; apply A; intros dd Hd; cbn [fst]; [|eauto]. eapply P; eauto. intros E. destruct (has _ _); eauto.
  - apply A. intros dd Hd. cbn [fst]. eapply P; eauto. intros E. destruct (has _ _); eauto.
  - apply A. intros dd Hd. apply A. intros dd2 Hd2. cbn [fst]. eapply P; eauto.
  - apply A. intros dd Hd. destruct (um_elems fuel b) as [es o]. cbn [fst]. eapply P; eauto.
  - apply A. intros dd2 Hd2. destruct (is_nil _); [cbn [fst]; eauto|]. apply A. intros dd Hd. cbn [fst]. eapply P; eauto.
  - apply A. intros dd Hd. cbn [fst]. eapply P; eauto. intros ->. congruence.
  - apply A. intros dd Hd. unfold s_append. destruct (any_nil _); cbn [fst]; eapply P; eauto.
  - apply A. intros dd Hd. destruct (_ <? _); cbn [fst]; [eapply P; eauto|eauto].
  - apply A. intros dd Hd. destruct (_ <? _); [|cbn [fst]; eauto].
    destruct (nth_error (s_elems dd) _); cbn [fst]; [eapply P; eauto|eauto].
Qed.
Lemma s_run_memo fuel i os : forall s, ~ In (OMap i) os ->
  (forall x, nth_error s i = Some x -> s_memo x = None) ->
  forall x, nth_error (fst (s_run fuel s os)) i = Some x -> s_memo x = None.
Proof.
  induction os as [|o os IH]; intros s Ni H; cbn [s_run]; [exact H|].
  pose proof (s_exec_memo fuel s o i) as E. destruct (s_exec fuel s o) as [s1 r].
  specialize (IH s1). destruct (s_run fuel s1 os) as [s2 rs]. cbn [fst] in *.
  apply IH; [intros ?; apply Ni; now right|]. apply E; [|exact H]. intros ->. apply Ni. now left.
Qed.

(* Map is right when it is the first Map of the document, or comes right after an Append
   (of any number of elements, even none), whatever the history.  Missing: a Map after an
   earlier Map and a Set, Delete, UnmarshalBSON or array operation. *)
Theorem C16_map_partial : forall grow fuel os i l m,
  Forall op_ok os ->
  let w := fst (run grow fuel w0 os) in
  shows_list w i l ->
  (~ In (OMap i) os -> snd (exec grow fuel w (OMap i)) = Ret (RMap m) -> indexes m l) /\
  (forall es, Forall keyed es ->
     snd (exec grow fuel (fst (exec grow fuel w (OAppend i (map Some es)))) (OMap i)) = Ret (RMap m) ->
     indexes m (l ++ es)).
Proof.
  intros grow fuel os i l m O w Sh. unfold w in *. clear w.
  pose proof (run_refines grow fuel os w0 [] inv_w0 O) as H.
  pose proof (s_run_memo fuel i os []) as Me.
  destruct (run grow fuel w0 os) as [w rs]. destruct (s_run fuel [] os) as [s ss]. destruct H as [I _]. cbn [fst] in *.
  destruct (shows_inv _ _ _ _ I Sh) as (x & Hx & El). assert (Li : (i < length s)%nat) by (eapply some_lt; eauto).
  split.
  - intros Ni E. pose proof (exec_refines grow fuel w s (OMap i) I Logic.I) as H. cbn [s_exec] in H.
    unfold s_at in H. rewrite Hx in H. destruct (exec grow fuel w (OMap i)) as [w' r]. cbn [snd] in E. subst r.
    destruct H as [_ A]. cbn in A. rewrite (Me Ni ltac:(intros y Hy; now destruct i) x Hx) in A. now rewrite El in A.
  - intros es K E. pose proof (exec_refines grow fuel w s (OAppend i (map Some es)) I) as H.
    specialize (H ltac:(cbn; apply Forall_map; eapply Forall_impl; [|exact K]; auto)). cbn [s_exec] in H.
    unfold s_at, s_append in H. rewrite Hx in H. destruct (before_nil_some es) as [Eb Ea]. unfold ptr in *. rewrite Ea, Eb in H.
    destruct (exec grow fuel w (OAppend i (map Some es))) as [w' r]. destruct H as [I' _]. cbn [fst] in E.
    pose proof (exec_refines grow fuel w' _ (OMap i) I' Logic.I) as H. cbn [s_exec] in H. unfold s_at in H.
    unfold s_put in H. rewrite nth_error_replace_eq in H by auto. destruct (exec grow fuel w' (OMap i)) as [w2 r2]. cbn [snd] in E. subst r2.
    destruct H as [_ A]. cbn in A. now rewrite El in A.
Qed.
Print Assumptions C16_map_partial.
(* Map does return a map, whatever the history *)
Theorem C16_map_returns : forall grow fuel w i l, reachable grow fuel w -> shows_list w i l ->
  exists m, snd (exec grow fuel w (OMap i)) = Ret (RMap m).
Proof.
  intros grow fuel w i l Re Sh. destruct (reachable_inv _ _ _ Re) as (s & I).
  destruct (shows_inv _ _ _ _ I Sh) as (x & Hx & El).
  pose proof (exec_refines grow fuel w s (OMap i) I Logic.I) as H. cbn [s_exec] in H. unfold s_at in H. rewrite Hx in H.
  destruct (exec grow fuel w (OMap i)) as [w' r]. destruct H as [_ A]. cbn [snd].
  destruct r as [r| |]; cbn in A; try contradiction. destruct r; try contradiction. eauto.
Qed.
Print Assumptions C16_map_returns.
Example C16_nonvacuous : exists m,
  snd (exec (fun n => n) 100 (fst (run (fun n => n) 100 w0 [ONew 0; OAppend 0 [Some (e_int k_a 1); Some (e_int k_a 2)]])) (OMap 0))
  = Ret (RMap m) /\ map_get m k_a = Some (e_int k_a 1).
Proof. eexists. split; vm_compute; reflexivity. Qed.

(* --------------------------------------------------------------------- C17 *)

(* Search follows the path, and fails exactly when there is none.  N bounds the slices the
   elements live in: a path key is copied next to an array item, so both have to fit. *)
Theorem C17_search_follows_the_path : forall fs es N fuel ks,
  doc_obtained fs es N -> wf_fields fs -> small fs -> enough fuel (zlen (enc_doc fs)) ->
  Forall (fun k => zlen k + N + 2 < 2147483648) ks ->
  match search fuel ks es with
  | Ret (Some (Some v)) => exists k t, reaches (BDoc fs) ks (k, t) /\
      elem_key (Some v) = Ret k /\ v_type v = Ret (tag t) /\
      (zlen (enc_elem k t) < 2147483648 -> shows fuel v k t)
  | Ret None => forall r, ~ reaches (BDoc fs) ks r
  | _ => False
  end.
Proof.
  intros fs es N fuel ks D W S F KF.
  pose proof (doc_obtained_good fuel N fs es W S F D) as G.
  destruct (search_ok fuel N ks KF) as [H _]. specialize (H fs es G). unfold sfound in H.
  destruct (search fuel ks es) as [[[v|]|]| |]; auto.
  - destruct H as (k & t & v' & E & Re & R & Wt & Ft & Lt). injection E as <-. exists k, t.
    split; [exact Re|]. split; [now apply (elem_key_rep k v t)|]. split; [now apply (rep_type k)|].
    intros L. apply rep_shows; auto.
  - destruct H as (k & t & v' & E & _). discriminate.
Qed.
Print Assumptions C17_search_follows_the_path.
(* the path determines the element *)
Theorem C17_path_is_functional : forall fs ks r1 r2, wf_fields fs -> small fs ->
  reaches (BDoc fs) ks r1 -> reaches (BDoc fs) ks r2 -> r1 = r2.
Proof.
  intros fs ks r1 r2 W S H1 H2. apply (reaches_fun (BDoc fs) ks r1 H1); auto. now apply wf_doc.
Qed.
Print Assumptions C17_path_is_functional.
Example C17_nonvacuous : exists es v, build_doc [([97], BArray [BDoc [([98], BInt32 5)]])] = Ret es /\
  search 100 [[97]; [48]; [98]] es = Ret (Some (Some v)) /\ v_int32 (Some v) = Ret 5 /\
  search 100 [[97]; [49]; [98]] es = Ret None.
Proof. eexists _, _. split; [vm_compute; reflexivity|]. split; [vm_compute; reflexivity|]. split; vm_compute; reflexivity. Qed.

(* --------------------------------------------------------------------- C18 *)

(* Sorted gives a new document showing the stable sort of the fields by key, type and value,
   whatever sort.Stable does within its contract, and leaves every other document alone.
   Missing: documents with a NaN, on which Less is not an order (next theorem). *)
Theorem C18_sorted_partial : forall grow fuel sort w i fs es,
  reachable grow fuel w -> sorts_stably sort -> shows_list w i es -> doc_obtained fs es (zlen (enc_doc fs)) ->
  wf_fields fs -> small fs -> Forall not_nan fs -> enough fuel (zlen (enc_doc fs)) ->
  exists w' es' fs',
    doc_sorted grow fuel sort w i = (w', Ret (RDoc (length (shown w)))) /\
    shown w' = shown w ++ [map Some es'] /\
    stable_sort_of field_lt fs fs' /\
    Permutation es es' /\
    doc_marshal fuel es' = Ret (inl (enc_doc fs')).
Proof.
  intros grow fuel sort w i fs es Re C Sh D W S N F.
  destruct (reachable_inv _ _ _ Re) as (s & I). destruct (shows_inv _ _ _ _ I Sh) as (x & Hx & El).
  destruct (doc_obtained_good fuel _ fs es W S F D) as (R & _).
  assert (Rp : Forall2 pfield (map Some es) fs).
  { unfold small in S. unfold enc_doc, enc_frame in S. zlens_in S. posl.
    assert (B : forall es fs, rep_doc es fs -> wf_fields fs -> zlen (enc_elems fs) < 2147483648 - 5 -> Forall2 pfield (map Some es) fs).
    { clear. intros es fs. revert es. induction fs as [|[k t] fs IH]; intros [|[v|] es] R W L; cbn in R; try contradiction; [constructor|].
      destruct R as [R1 R]. inversion W as [|? ? W1 W2]; subst. rewrite zlen_enc_elems_cons in L. posl.
      cbn [map]. constructor; [|apply IH; auto; lia]. exists v. cbn [fst snd]. repeat split; auto; [apply W1|apply W1|apply W1|lia]. }
    apply B; auto. lia. }
  destruct (sort_transfer sort (map Some es) fs C Rp (field_lt_swo fs W N)) as (fs' & R' & St).
  pose proof (C p_less (map Some es)) as Cp.
  assert (exists es', sort p_less (map Some es) = map Some es' /\ Forall keyed es' /\ rep_doc es' fs') as (es' & Es & K & Rd).
  { clear - R'. induction R' as [|p y ps fs' (v & -> & Rv & _) _ IH].
    - exists []. repeat split; auto.
    - destruct IH as (es' & -> & K & Rd). exists (Some v :: es'). destruct y as [k t]. cbn [fst snd] in *. repeat split; auto.
      constructor; [|auto]. exists k. now apply (elem_key_rep k v t). }
  destruct (doc_sorted_refines grow fuel sort w s i x es' I Hx) as (w' & E & I'); auto. { now rewrite El. }
  assert (P : Permutation es es').
  { destruct (Cp) as [P _].
    { assert (Wp : swo_on (map Some es) p_less).
      { destruct (field_lt_swo fs W N) as (W1 & W2 & W3).
        assert (G : forall p, In p (map Some es) -> exists y, In y fs /\ pfield p y) by (intros; eapply Forall2_in_l; eauto).
        split; [|split].
        - intros p Hp. destruct (G p Hp) as (y & Hy & Ry). rewrite (p_less_pfield p p y y) by auto. auto.
        - intros p q r Hp Hq Hr. destruct (G p Hp) as (a & Ha & Ra), (G q Hq) as (b & Hb & Rb), (G r Hr) as (c & Hc & Rc).
          rewrite (p_less_pfield p q a b), (p_less_pfield q r b c), (p_less_pfield p r a c) by auto. eauto.
        - intros p q r Hp Hq Hr. destruct (G p Hp) as (a & Ha & Ra), (G q Hq) as (b & Hb & Rb), (G r Hr) as (c & Hc & Rc).
          rewrite (p_less_pfield p q a b), (p_less_pfield q r b c), (p_less_pfield p r a c) by auto. eauto. }
      exact Wp. }
    rewrite Es in P. apply (Permutation_map (fun p => match p with Some e => e | None => None end)) in P.
    rewrite !map_map in P. now rewrite !map_id in P. }
  exists w', es', fs'. rewrite (inv_shown w s I). rewrite map_length. split; [exact E|]. split.
  { rewrite (inv_shown w' _ I'), map_app. reflexivity. }
  split; [exact St|]. split; [exact P|].
  destruct St as (Pf & _).
  assert (Le : zlen (enc_doc fs') = zlen (enc_doc fs)).
  { unfold enc_doc, enc_frame. zlens. f_equal. f_equal.
    clear - Pf. induction Pf as [|[k t] l l' _ IH|[k t] [k' t'] l|l l' l'' _ IH1 _ IH2]; rewrite ?zlen_enc_elems_cons; lia. }
  apply doc_marshal_rep; auto.
  - unfold wf_fields in *. eapply Permutation_Forall; eauto.
  - unfold small in *. lia.
  - unfold enough in F. lia.
Qed.
Print Assumptions C18_sorted_partial.
(* the stable sort is one list *)
Theorem C18_sorted_is_unique : forall fs o1 o2, wf_fields fs -> Forall not_nan fs ->
  stable_sort_of field_lt fs o1 -> stable_sort_of field_lt fs o2 -> o1 = o2.
Proof. intros fs o1 o2 W N. apply stable_unique. now apply field_lt_swo. Qed.
Print Assumptions C18_sorted_is_unique.
(* in particular the keys come in order *)
Theorem C18_keys_in_order : forall fs fs', stable_sort_of field_lt fs fs' -> wf_fields fs ->
  StronglySorted (fun a b => bytes_ltb b a = false) (map fst fs').
Proof.
  intros fs fs' (P & S & _) W. clear P W. induction S as [|[k t] l S IH M]; cbn; [constructor|]. constructor; [exact IH|].
  apply Forall_map. eapply Forall_impl; [|exact M]. intros [k' t'] H. unfold field_lt in H. cbn [fst snd] in *.
  destruct (bytes_eqb k' k) eqn:E; [|exact H]. apply bytes_eqb_eq in E. subst. apply ltb_irrefl.
Qed.
Print Assumptions C18_keys_in_order.
(* with NaNs, comparing equal is not transitive: 1.0, NaN, 2.0 under one key *)
Theorem C18_less_refuted : exists x y z, wf_field x /\ wf_field y /\ wf_field z /\
  field_lt x y = false /\ field_lt y x = false /\ field_lt y z = false /\ field_lt z y = false /\ field_lt x z = true.
Proof.
  exists (k_a, BDouble 4607182418800017408), (k_a, BDouble 9221120237041090561), (k_a, BDouble 4611686018427387904).
  assert (K : cstr_ok k_a) by (split; repeat constructor; unfold is_u8; lia).
  repeat split; cbn; try apply K; unfold is_u64; try lia; vm_compute; reflexivity.
Qed.
Print Assumptions C18_less_refuted.
Definition unsorted : list (bytes * bval) := [(k_b, BInt32 2); (k_a, BNull); (k_b, BInt32 1); (k_a, BNull)].
Lemma unsorted_ok : wf_fields unsorted /\ small unsorted /\ Forall not_nan unsorted /\ enough 100 (zlen (enc_doc unsorted)).
Proof.
  assert (cstr_ok k_a /\ cstr_ok k_b) as [KA KB] by (split; split; repeat constructor; unfold is_u8; lia).
  split; [|split; [|split]].
  - repeat constructor; cbn; auto; try apply KA; try apply KB; lia.
  - vm_compute. reflexivity.
  - repeat constructor.
  - vm_compute. reflexivity.
Qed.
Example C18_nonvacuous : exists es w,
  w = fst (run (fun n => n) 100 w0 [ONew 0; OAppend 0 (map Some es)]) /\
  sorts_stably (@isort ptr) /\ shows_list w 0 es /\ doc_obtained unsorted es (zlen (enc_doc unsorted)) /\
  nth_error (shown (fst (doc_sorted (fun n => n) 100 (@isort ptr) w 0))) 1 =
    Some (map (fun i => nth i (map Some es) None) [1; 3; 2; 0]%nat).
Proof.
  eexists _, _. split; [reflexivity|]. split; [apply insertion_sort_is_stable|].
  split; [|split; [apply do_built; vm_compute; reflexivity|]]; vm_compute; reflexivity.
Qed.

(* --------------------------------------------------------------------- C19 *)

(* the document an operation changes, if any *)
Definition changes (o : op) : option nat :=
  match o with
  | OAppend i _ | OAppendOmitEmpty i _ | OSet i _ | ODelete i _ | OExtend i _ | OReset i
  | OUnmarshalBSON i _ | OUnmarshalDocument i _ | OMap i | OArrAppend i _ | OArrSet i _ _ | OArrDelete i _ => Some i
  | _ => None
  end.
Lemma s_exec_other fuel s o i : changes o <> Some i -> (i < length s)%nat ->
  nth_error (fst (s_exec fuel s o)) i = nth_error s i /\ (i < length (fst (s_exec fuel s o)))%nat.
Proof.
  intros Ni L.
  assert (P : forall j l m d, nth_error s j = Some d -> j <> i ->
    nth_error (s_put s j l m) i = nth_error s i /\ (i < length (s_put s j l m))%nat).
  { intros j l m d Hd Ne. assert (j < length s)%nat by (eapply some_lt; eauto). unfold s_put.
    rewrite nth_error_replace_neq, replace_length by auto. auto. }
  assert (N : forall d, nth_error (s ++ [d]) i = nth_error s i /\ (i < length (s ++ [d]))%nat).
  { intros d. rewrite nth_error_app1 by auto. rewrite app_length. cbn. split; [auto|lia]. }
  assert (A : forall j f, (forall d, nth_error s j = Some d -> nth_error (fst (f d)) i = nth_error s i /\ (i < length (fst (f d) : sworld))%nat) ->
    nth_error (fst (s_at s j f)) i = nth_error s i /\ (i < length (fst (s_at s j f)))%nat).
  { intros j f Hf. unfold s_at. destruct (nth_error s j) eqn:E; [auto|]. cbn. auto. }
  destruct o; cbn [s_exec changes] in *;
    try (assert (d <> i) by congruence); try (apply A; intros dd Hd; cbn [fst]; now eauto); try (apply N).
  - apply A. intros dd Hd. unfold s_append. destruct (any_nil ps); cbn [fst]; eapply P; eauto.
  - apply A. intros dd Hd. destruct (non_empty fuel ps) as [l [u| |]]; cbn [fst]; eapply P; eauto.
  - destruct p; apply A; intros dd Hd; cbn [fst]; [eapply P; eauto|auto].
  - apply A. intros dd Hd. destruct (um_elems fuel b) as [es o]. cbn [fst]. eapply P; eauto.
  - apply A. intros dd2 Hd2. destruct (is_nil _); [cbn [fst]; auto|]. apply A. intros dd Hd. cbn [fst]. eapply P; eauto.
  - apply A. intros dd Hd. unfold s_append. destruct (any_nil _); cbn [fst]; eapply P; eauto.
  - apply A. intros dd Hd. destruct (_ <? _); cbn [fst]; [eapply P; eauto|auto].
  - apply A. intros dd Hd. destruct (_ <? _); [|cbn [fst]; auto].
    destruct (nth_error (s_elems dd) _); cbn [fst]; [eapply P; eauto|auto].
Qed.
Lemma s_run_other fuel os i : forall s, Forall (fun o => changes o <> Some i) os -> (i < length s)%nat ->
  nth_error (fst (s_run fuel s os)) i = nth_error s i.
Proof.
  induction os as [|o os IH]; intros s C L; cbn [s_run]; [reflexivity|]. inversion C; subst.
  destruct (s_exec_other fuel s o i H1 L) as [E L']. destruct (s_exec fuel s o) as [s1 r]. cbn [fst] in *.
  specialize (IH s1 H2 L'). destruct (s_run fuel s1 os) as [s2 rs]. cbn [fst] in *. congruence.
Qed.

Theorem C19_copies_are_independent : forall grow fuel w i l os, reachable grow fuel w -> shows_list w i l ->
  let w1 := fst (exec grow fuel w (OCopy i)) in
  let j := length (w_docs w) in
  Forall op_ok os ->
  let w2 := fst (run grow fuel w1 os) in
  shows_list w1 j l /\ shows_list w1 i l /\
  (Forall (fun o => changes o <> Some i) os -> shows_list w2 i l) /\
  (Forall (fun o => changes o <> Some j) os -> shows_list w2 j l).
Proof.
  intros grow fuel w i l os Re Sh w1 j O w2. destruct (reachable_inv _ _ _ Re) as (s & I).
  destruct (shows_inv _ _ _ _ I Sh) as (x & Hx & El). assert (Li : (i < length s)%nat) by (eapply some_lt; eauto).
  assert (Lj : j = length s) by (unfold j; apply I).
  pose proof (exec_refines grow fuel w s (OCopy i) I Logic.I) as H. cbn [s_exec] in H. unfold s_at in H. rewrite Hx in H.
  unfold w2, w1. clear w2 w1. destruct (exec grow fuel w (OCopy i)) as [w1 r]. destruct H as [I1 _]. cbn [fst].
  set (s1 := s ++ [MkS (s_elems x) None]) in *.
  assert (H1 : nth_error s1 i = Some x) by (unfold s1; now rewrite nth_error_app1).
  assert (H2 : nth_error s1 j = Some (MkS (s_elems x) None)) by (unfold s1; rewrite nth_error_app2, Lj, Nat.sub_diag by lia; reflexivity).
  assert (L1 : (i < length s1)%nat) by (eapply some_lt; eauto).
  assert (L2 : (j < length s1)%nat) by (eapply some_lt; eauto).
  pose proof (run_refines grow fuel os w1 s1 I1 O) as H.
  pose proof (s_run_other fuel os i s1) as N1. pose proof (s_run_other fuel os j s1) as N2.
  destruct (run grow fuel w1 os) as [w2 rs]. destruct (s_run fuel s1 os) as [s2 ss]. destruct H as [I2 _]. cbn [fst] in *.
  subst l. split; [exact (inv_shows _ _ _ _ I1 H2)|]. split; [exact (inv_shows _ _ _ _ I1 H1)|]. split.
  - intros C. apply (inv_shows _ _ _ x I2). rewrite N1; auto.
  - intros C. apply (inv_shows _ _ _ (MkS (s_elems x) None) I2). rewrite N2; auto.
Qed.
Print Assumptions C19_copies_are_independent.
(* appending to, setting in and deleting from the original leaves the copy, which has spare
   capacity, alone *)
Example C19_nonvacuous :
  shown (fst (run (fun _ => 0%nat) 100 w0 [ONew 3; OAppend 0 [Some (e_int k_a 1); Some (e_int k_b 2)]; OCopy 0;
    OAppend 1 [Some (e_int k_a 7)]; OAppend 0 [Some (e_int k_a 8)]; OSet 0 (Some (e_int k_b 3)); ODelete 0 k_a]))
  = [[Some (e_int k_b 3); Some (e_int k_a 8)]; [Some (e_int k_a 1); Some (e_int k_b 2); Some (e_int k_a 7)]].
Proof. vm_compute. reflexivity. Qed.

(* --------------------------------------------------------------------- C20 *)

Theorem C20_array_operations_are_list_operations : forall grow fuel w i l, reachable grow fuel w -> shows_list w i l ->
  let after o := fst (exec grow fuel w o) in
  let result o := snd (exec grow fuel w o) in
  (forall vs, Forall (fun v => v <> None) vs -> Forall keyed vs -> shows_list (after (OArrAppend i vs)) i (l ++ vs)) /\
  (forall n v, 0 <= n -> keyed v ->
     if n <? Z.of_nat (length l) then shows_list (after (OArrSet i n v)) i (replace_at (Z.to_nat n) v l)
     else result (OArrSet i n v) = Panic (PErr EOutOfBounds) /\ shows_list (after (OArrSet i n v)) i l) /\
  (forall n, 0 <= n ->
     match nth_error l (Z.to_nat n) with
     | Some v => result (OArrDelete i n) = Ret (RVal v) /\ shows_list (after (OArrDelete i n)) i (delete_at (Z.to_nat n) l)
     | None => result (OArrDelete i n) = Ret (RVal None) /\ shows_list (after (OArrDelete i n)) i l
     end) /\
  (forall j l2, shows_list w j l2 -> shows_list (after (OExtend i j)) i (l ++ l2)) /\
  shows_list (after (OReset i)) i [] /\
  result (OLen i) = Ret (RLen (length l)) /\
  (forall n, 0 <= n -> result (OArrLookup i n) =
     Ret (RValErr (match nth_error l (Z.to_nat n) with Some v => inl v | None => inr EOutOfBounds end))) /\
  result (OArrIterator i) = Ret (RList (map Some l)).
Proof.
  intros grow fuel w i l Re Sh after result.
  destruct (C15_each_operation grow fuel w i l Re Sh) as (_ & _ & _ & Ext & Rst & Ln & _).
  destruct (reachable_inv _ _ _ Re) as (s & I).
  destruct (shows_inv _ _ _ _ I Sh) as (x & Hx & El).
  assert (Li : (i < length s)%nat) by (eapply some_lt; eauto).
  assert (St : forall o, op_ok o -> inv (after o) (fst (s_exec fuel s o)) /\ agrees (result o) (snd (s_exec fuel s o))).
  { intros o O. pose proof (exec_refines grow fuel w s o I O) as H. unfold after, result.
    destruct (exec grow fuel w o), (s_exec fuel s o). exact H. }
  assert (Sh' : forall o d, op_ok o -> nth_error (fst (s_exec fuel s o)) i = Some d -> shows_list (after o) i (s_elems d)).
  { intros o d O E. destruct (St o O) as [I' _]. exact (inv_shows _ _ i _ I' E). }
  assert (Rs : forall o r, op_ok o -> snd (s_exec fuel s o) = Ret (SRes r) -> result o = Ret r).
  { intros o r O E. destruct (St o O) as [_ A]. rewrite E in A. unfold agrees in A.
    destruct (result o) as [q| |]; try contradiction. now destruct q; try contradiction; rewrite A. }
  assert (At : forall f, s_at s i f = f x) by (intros; unfold s_at; now rewrite Hx).
  assert (Pn : forall m mm, nth_error (s_put s i m mm) i = Some (MkS m mm)) by (intros; now apply nth_error_replace_eq).
  repeat match goal with |- _ /\ _ => split end; auto.
  - intros vs Nn K. apply (Sh' (OArrAppend i vs) (MkS (l ++ vs) None) K). cbn [s_exec]. rewrite At. unfold s_append.
    assert (E : map (fun v : elem => match v with None => None | Some x => Some (Some x) end) vs = map Some vs).
    { clear - Nn. induction Nn as [|[v|] vs Nv Nn IH]; cbn; [auto| |congruence]. now rewrite IH. }
    rewrite E. destruct (before_nil_some vs) as [-> ->]. cbn [fst]. now rewrite Pn, El.
  - intros n v Hn K. destruct (n <? Z.of_nat (length l)) eqn:C.
    + apply (Sh' (OArrSet i n v) (MkS (replace_at (Z.to_nat n) v l) (s_memo x)) (conj Hn K)).
      cbn [s_exec]. rewrite At, El, C. cbn [fst]. apply Pn.
    + split.
      * destruct (St (OArrSet i n v) (conj Hn K)) as [_ A]. cbn [s_exec] in A. rewrite At, El, C in A. cbn [snd] in A.
        destruct (result (OArrSet i n v)) as [q| |]; cbn in A; try contradiction. { now destruct q. } now rewrite A.
      * rewrite <- El. apply (Sh' (OArrSet i n v) x (conj Hn K)). cbn [s_exec]. rewrite At, El, C. exact Hx.
  - intros n Hn. destruct (nth_error l (Z.to_nat n)) as [v|] eqn:E.
    + assert (Z.to_nat n < length l)%nat by (eapply some_lt; eauto). split.
      * apply Rs; [exact Hn|]. cbn [s_exec]. rewrite At, El, E. now replace (n <? Z.of_nat (length l)) with true by lia.
      * apply (Sh' (OArrDelete i n) (MkS (delete_at (Z.to_nat n) l) (s_memo x)) Hn).
        cbn [s_exec]. rewrite At, El, E. replace (n <? Z.of_nat (length l)) with true by lia. apply Pn.
    + apply nth_error_None in E. split.
      * apply Rs; [exact Hn|]. cbn [s_exec]. rewrite At, El. now replace (n <? Z.of_nat (length l)) with false by lia.
      * rewrite <- El. apply (Sh' (OArrDelete i n) x Hn). cbn [s_exec]. rewrite At, El.
        replace (n <? Z.of_nat (length l)) with false by lia. exact Hx.
  - intros n Hn. apply Rs; [exact Hn|]. cbn [s_exec]. rewrite At, El. cbn [snd].
    destruct (nth_error l (Z.to_nat n)) as [v|] eqn:E.
    + assert (Z.to_nat n < length l)%nat by (eapply some_lt; eauto).
      now replace (n <? Z.of_nat (length l)) with true by lia.
    + apply nth_error_None in E. now replace (n <? Z.of_nat (length l)) with false by lia.
  - apply Rs; [exact Logic.I|]. cbn [s_exec]. rewrite At. now rewrite El.
Qed.
Print Assumptions C20_array_operations_are_list_operations.
Example C20_nonvacuous :
  let r := run (fun n => n) 100 w0 [ONewArray [e_int [] 1; e_int [] 2; e_int [] 3]; OArrSet 0 1 (e_int [] 9);
     OArrDelete 0 0; OArrDelete 0 7; OArrSet 0 2 (e_int [] 4)] in
  shown (fst r) = [[Some (e_int [] 9); Some (e_int [] 3)]] /\
  last (snd r) Fuel = Panic (PErr EOutOfBounds).
Proof. vm_compute. auto. Qed.

(* --------------------------------------------------------------------- C21 *)

(* However the reader cuts its answers, and whether it reports the end with the last bytes
   or after them. *)
Theorem C21_one_document : forall s fs rest fuel,
  wf_fields fs -> small fs -> enough fuel (zlen (enc_doc fs)) -> st_data s = enc_doc fs ++ rest ->
  (exists s' es, doc_read_from fuel s = (s', Ret (zlen (enc_doc fs), Some es, None)) /\
     st_data s' = rest /\ doc_obtained fs es (zlen (enc_doc fs)) /\
     doc_marshal fuel es = Ret (inl (enc_doc fs))) /\
  (exists s', new_from_io_reader s = (s', Ret (inl (enc_doc fs))) /\ st_data s' = rest).
Proof.
  intros s fs rest fuel W S F E. split.
  - destruct (doc_read_from_wf fuel s fs rest W S F E) as (s' & es & H & R & D & _). exists s', es.
    split; [exact H|]. split; [exact D|].
    assert (O : doc_obtained fs es (zlen (enc_doc fs ++ []))).
    { apply (do_read fs es fuel []); rewrite ?app_nil_r; auto. }
    rewrite app_nil_r in O. split; [exact O|].
    destruct (doc_obtained_good fuel _ fs es W S F O) as (Rp & _). now apply doc_marshal_rep.
  - destruct (new_from_io_reader_wf s fs rest S E) as (s' & H & D & _). eauto.
Qed.
Print Assumptions C21_one_document.

Theorem C21_document_sequence : forall docs s fuel,
  Forall (fun fs => wf_fields fs /\ small fs /\ enough fuel (zlen (enc_doc fs))) docs ->
  st_data s = concat (map enc_doc docs) -> st_err s = EEOF ->
  (exists s' ess, read_docs (S (length docs)) fuel s = (ess, s', Ret (Some EEOF)) /\
     Forall2 (fun fs es => doc_marshal fuel es = Ret (inl (enc_doc fs))) docs ess) /\
  (exists s', read_readers (S (length docs)) s = (map enc_doc docs, s', Ret (Some EEOF))).
Proof.
  induction docs as [|fs docs IH]; intros s fuel A D E.
  - cbn in D. split.
    + destruct (doc_read_from_end fuel s D) as (s' & H & _). exists s', []. cbn [length read_docs].
      unfold dce_read_from. rewrite H, E. split; [reflexivity|constructor].
    + destruct (new_from_io_reader_end s D) as (s' & H & _). exists s'. cbn [length read_readers]. now rewrite H, E.
  - inversion A as [|? ? (W & S & F) A']; subst. cbn [map concat] in D. split.
    + destruct (doc_read_from_wf fuel s fs _ W S F D) as (s1 & es & H & R & D1 & E1). rewrite E in E1.
      destruct (IH s1 fuel A' D1 E1) as [(s2 & ess & H2 & Fa) _].
      exists s2, (es :: ess). change (length (fs :: docs)) with (Datatypes.S (length docs)).
      change (read_docs (Datatypes.S (Datatypes.S (length docs))) fuel s) with
        (match dce_read_from fuel s with
         | (s', Ret (inl es)) => let '(l, s'', e) := read_docs (Datatypes.S (length docs)) fuel s' in (es :: l, s'', e)
         | (s', Ret (inr e)) => ([], s', Ret (Some e))
         | (s', Panic p) => ([], s', Panic p)
         | (s', Fuel) => ([], s', Fuel)
         end).
      unfold dce_read_from. rewrite H, H2. split; [reflexivity|]. constructor; [|exact Fa].
      destruct (C21_one_document s fs _ fuel W S F D) as [(s1' & es' & H' & _ & _ & M) _]. congruence.
    + destruct (new_from_io_reader_wf s fs _ S D) as (s1 & H & D1 & E1). rewrite E in E1.
      destruct (IH s1 fuel A' D1 E1) as [_ (s2 & H2)]. exists s2.
      change (length (fs :: docs)) with (Datatypes.S (length docs)).
      change (read_readers (Datatypes.S (Datatypes.S (length docs))) s) with
        (match new_from_io_reader s with
         | (s', Ret (inl b)) => let '(l, s'', e) := read_readers (Datatypes.S (length docs)) s' in (b :: l, s'', e)
         | (s', Ret (inr e)) => ([], s', Ret (Some e))
         | (s', Panic p) => ([], s', Panic p)
         | (s', Fuel) => ([], s', Fuel)
         end).
      now rewrite H, H2.
Qed.
Print Assumptions C21_document_sequence.

(* The count returned is what was consumed, for any bytes and any reader. *)
Theorem C21_count_is_bytes_consumed : forall fuel s s' n es e,
  doc_read_from fuel s = (s', Ret (n, es, e)) ->
  exists used, st_data s = used ++ st_data s' /\ zlen used = n.
Proof. exact doc_read_from_count. Qed.
Print Assumptions C21_count_is_bytes_consumed.
(* A stream cut inside a document gives an error and no document; io.ErrUnexpectedEOF,
   except when exactly the four length bytes arrived: then it is io.EOF, as at a clean end. *)
Theorem C21_cut_stream : forall fuel s fs rest, small fs -> st_data s <> [] -> rest <> [] ->
  enc_doc fs = st_data s ++ rest -> st_err s = EEOF ->
  exists s', doc_read_from fuel s =
    (s', Ret (zlen (st_data s), None, Some (if zlen (st_data s) =? 4 then EEOF else EUnexpectedEOF))).
Proof.
  intros fuel s fs rest S N1 N2 E G. destruct (doc_read_from_cut fuel s fs rest S N1 N2 E) as (s' & H & _).
  rewrite G in H. eauto.
Qed.
Print Assumptions C21_cut_stream.
Example C21_nonvacuous : exists s' ess,
  read_docs 3 100 (MkStream (enc_doc small_sub ++ enc_doc unsorted) [1; 0; 2; 1; 30]%nat EEOF true) = (ess, s', Ret (Some EEOF)) /\
  length ess = 2%nat.
Proof. eexists _, _. vm_compute. auto. Qed.

(* ---------------------------------------------------------------- C50, C51 *)

(* MarshalDocument of a map whose elements validate: the new document shows exactly the
   map's elements, each once, in the order the range visits them. *)
Theorem C50_marshal_document : forall grow fuel w it1 it2, reachable grow fuel w ->
  Permutation it1 it2 ->
  Forall (fun kv => exists e n, snd kv = Some e /\ keyed e /\ elem_validate fuel e = Ret (n, None)) it1 ->
  exists w' es, dm_marshal_document grow fuel w it1 it2 = (w', Ret (inl (length (shown w)))) /\
    shown w' = shown w ++ [map Some es] /\ map Some es = map snd it2.
Proof.
  intros grow fuel w it1 it2 Re P V. destruct (reachable_inv _ _ _ Re) as (s & I).
  assert (V2 : Forall (fun kv => exists e n, snd kv = Some e /\ keyed e /\ elem_validate fuel e = Ret (n, None)) it2)
    by (eapply Permutation_Forall; eauto).
  assert (exists es, Forall2 (fun (kv : bytes * ptr) e => snd kv = Some e) it2 es /\ Forall keyed es /\ map Some es = map snd it2)
    as (es & F & K & M).
  { clear - V2. induction V2 as [|kv it (e & n & E & K & _) _ (es & F & Ks & M)]; [exists []; auto|].
    exists (e :: es). cbn. rewrite E, M. auto. }
  destruct (dm_marshal_refines grow fuel w s it1 it2 es I (dm_validate_all _ _ V) F K) as (w' & E & I').
  exists w', es. rewrite (inv_shown w s I), map_length. split; [exact E|]. split; [|exact M].
  rewrite (inv_shown w' _ I'), map_app. reflexivity.
Qed.
Print Assumptions C50_marshal_document.
(* A map with an element that does not validate gives an error and changes nothing. *)
Theorem C50_marshal_invalid : forall grow fuel w it1 it2 x, dm_validate fuel it1 = Ret x ->
  ~ Forall (fun kv => exists n, p_validate fuel (snd kv) = Ret (n, None)) it1 ->
  exists e, dm_marshal_document grow fuel w it1 it2 = (w, Ret (inr e)).
Proof.
  intros grow fuel w it1 it2 x V N. unfold dm_marshal_document. rewrite V. destruct x as [e|]; [eauto|].
  exfalso. apply N. now apply (dm_validate_bad fuel it1 None V).
Qed.
Print Assumptions C50_marshal_invalid.
(* Unmarshalling keeps the last element of each key, up to the first that does not
   validate, and the other keys of the map. *)
Theorem C50_unmarshal_document : forall fuel m es, NoDup (map fst m) -> Forall keyed es ->
  Forall (fun e => exists n x, elem_validate fuel e = Ret (n, x)) es ->
  exists m', dm_unmarshal_document fuel m es = (m', Ret (snd (valid_prefix fuel es))) /\
    NoDup (map fst m') /\ forall k, map_get m' k = last_wins m (fst (valid_prefix fuel es)) k.
Proof. intros fuel m es N K V. now apply dm_unmarshal_spec. Qed.
Print Assumptions C50_unmarshal_document.
Theorem C50_unmarshal_bson : forall fuel m b, NoDup (map fst m) ->
  exists m', fst (dm_unmarshal_bson fuel m b) = Ret m' /\
    NoDup (map fst m') /\ forall k, map_get m' k = last_wins m (fst (um_elems fuel b)) k.
Proof.
  intros fuel m b N. unfold dm_unmarshal_bson. pose proof (um_elems_keyed (fun n => n) fuel b) as K.
  destruct (um_elems fuel b) as [es o]. cbn [fst] in *. now apply dm_put_all_spec.
Qed.
Print Assumptions C50_unmarshal_bson.
Theorem C50_unmarshal_well_formed : forall fs post m fuel, wf_fields fs ->
  zlen (enc_doc fs ++ post) < 2147483648 -> enough fuel (zlen (enc_doc fs)) -> NoDup (map fst m) ->
  exists m' es, dm_unmarshal_bson fuel m (enc_doc fs ++ post) = (Ret m', Ret None) /\
    read_document fuel (enc_doc fs ++ post) = Ret (inl es) /\ forall k, map_get m' k = last_wins m es k.
Proof.
  intros fs post m fuel W L F N. destruct (read_document_wf fs post fuel W L F) as (es & R & _).
  destruct (C50_unmarshal_bson fuel m (enc_doc fs ++ post) N) as (m' & E & _ & G).
  exists m', es. unfold dm_unmarshal_bson in *. rewrite (um_elems_read _ _ _ R) in *. cbn [fst] in *.
  rewrite E. auto.
Qed.
Print Assumptions C50_unmarshal_well_formed.
Example C50_nonvacuous : exists es m', read_document 100 (enc_doc unsorted) = Ret (inl es) /\
  dm_unmarshal_document 100 [] es = (m', Ret None) /\ map_get m' k_b = nth_error es 2 /\
  exists w', dm_marshal_document (fun n => n) 100 w0 (map (fun kv => (fst kv, Some (snd kv))) m') (map (fun kv => (fst kv, Some (snd kv))) (rev m')) = (w', Ret (inl 0%nat)) /\
    length (shown w') = 1%nat.
Proof. eexists _, _. split; [vm_compute; reflexivity|]. split; [vm_compute; reflexivity|]. split; [vm_compute; reflexivity|]. eexists. vm_compute. auto. Qed.

(* Validate is documented to check that every key is the key of its element; it does not. *)
Theorem C51_validate_keys_refuted : exists it, dm_validate 100 it = Ret None /\
  exists k e, In (k, Some e) it /\ elem_key e <> Ret k.
Proof.
  exists [(k_b, Some (e_int k_a 1))]. split; [vm_compute; reflexivity|]. exists k_b, (e_int k_a 1).
  split; [now left|]. vm_compute. discriminate.
Qed.
Print Assumptions C51_validate_keys_refuted.
Theorem C51_validate_partial : forall fuel it x, dm_validate fuel it = Ret x ->
  x = None <-> Forall (fun kv => exists n, p_validate fuel (snd kv) = Ret (n, None)) it.
Proof. exact dm_validate_bad. Qed.
Print Assumptions C51_validate_partial.
Example C51_nonvacuous : exists n, p_validate 100 (Some (e_int k_a 1)) = Ret (n, None) /\
  dm_validate 100 [(k_a, Some (e_int k_a 1)); (k_b, None)] = Ret (Some ENilElement).
Proof. eexists. vm_compute. auto. Qed.

(* --------------------------------------------------------------------- C52 *)

(* A stream declaring fewer than four bytes makes both functions panic. *)
Theorem C52_hostile_stream_refuted : forall sched e last rest,
  let s := MkStream ([2; 0; 0; 0] ++ rest) sched e last in
  (exists s', new_from_io_reader s = (s', Panic PIndex)) /\
  (forall fuel, exists s', doc_read_from fuel s = (s', Panic PIndex)).
Proof.
  intros sched e last rest s.
  destruct (read_full_enough s 4 [2; 0; 0; 0] rest ltac:(lia) eq_refl eq_refl) as (s' & R & _).
  split; [|intros fuel]; exists s'; [unfold new_from_io_reader|unfold doc_read_from]; rewrite R; vm_compute; reflexivity.
Qed.
Print Assumptions C52_hostile_stream_refuted.
(* Otherwise NewFromIOReader returns, for any bytes and any reader: an error, or the bytes
   consumed, which are as many as they declare. *)
Theorem C52_new_from_io_reader_partial : forall s,
  (forall h rest l, st_data s = h ++ rest -> zlen h = 4 -> readi32 h = Ret l -> l < 0 \/ 4 <= l) ->
  exists s' r, new_from_io_reader s = (s', Ret r) /\
    (exists used, st_data s = used ++ st_data s') /\
    forall b, r = inl b -> st_data s = b ++ st_data s' /\ readi32 (firstn 4 b) = Ret (zlen b).
Proof.
  intros s H.
  assert (exists s' r, new_from_io_reader s = (s', Ret r) /\ exists used, st_data s = used ++ st_data s') as (s' & r & E & U).
  { unfold new_from_io_reader. destruct (read_full_total s 4 ltac:(lia)) as (s1 & h & e1 & R1 & D1 & Z1). rewrite R1.
    destruct e1 as [e1|]; [eauto 6|]. specialize (Z1 eq_refl). rewrite Z1. cbn [Z.ltb Z.compare Pos.compare Pos.compare_cont].
    destruct h as [|a [|b [|c [|d h]]]]; unfold zlen in Z1; cbn in Z1; try lia.
    destruct (readi32 (a :: b :: c :: d :: h)) as [l| |] eqn:Rh.
    2, 3: unfold readi32, rdu32 in Rh; discriminate.
    specialize (H _ _ l D1 Z1 Rh). destruct (l <? 0) eqn:L0; [eauto 6|]. replace (l <? 4) with false by lia.
    destruct (read_full_total s1 (l - 4) ltac:(lia)) as (s2 & c2 & e2 & R2 & D2 & Z2). rewrite R2.
    assert (U : exists used, st_data s = used ++ st_data s2) by (rewrite D1, D2, app_assoc; eauto).
    destruct e2 as [e2|]; [eauto 6|]. destruct (negb _); eauto 6. }
  exists s', r. split; [exact E|]. split; [exact U|]. intros b ->.
  destruct (new_from_io_reader_inv s s' b E) as (D & h & <- & R). auto.
Qed.
Print Assumptions C52_new_from_io_reader_partial.
Example C52_nonvacuous : exists s', new_from_io_reader (MkStream [9; 0; 0; 0; 1; 2] [1; 1]%nat EEOF false) = (s', Ret (inr EUnexpectedEOF)).
Proof. eexists. vm_compute. reflexivity. Qed.

(* Document.ReadFrom returns too, unless the document declares fewer than four bytes or has a
   negative length field (C10); it consumes as many bytes as it says, and what it accepts is
   what those bytes hold. *)
Theorem C52_read_from_partial : forall fuel s,
  (forall h rest l, st_data s = h ++ rest -> zlen h = 4 -> readi32 h = Ret l -> 4 <= l <= 2147483632) ->
  (forall b rest, st_data s = b ++ rest -> declared_length b = Ret (zlen b) -> ~ negative_length b /\ enough fuel (zlen b)) ->
  exists s' n es e used, doc_read_from fuel s = (s', Ret (n, es, e)) /\
    st_data s = used ++ st_data s' /\ zlen used = n /\
    (e = None -> declared_length used = Ret n /\ exists d, es = Some d /\ read_document fuel used = Ret (inl d)).
Proof.
  intros fuel s H N.
  assert (exists s' n es e, doc_read_from fuel s = (s', Ret (n, es, e)) /\
     (e = None -> exists used d, st_data s = used ++ st_data s' /\ declared_length used = Ret n /\ zlen used = n /\
        es = Some d /\ read_document fuel used = Ret (inl d))) as (s' & n & es & e & E & X).
  2:{ destruct (doc_read_from_count fuel s s' n es e E) as (used & D & Z). exists s', n, es, e, used. repeat (split; [assumption|]).
      intros En. destruct (X En) as (u & d & Du & L & Zu & Es & R).
      assert (u = used) as -> by (rewrite D in Du; apply app_inv_tail in Du; auto). eauto. }
  unfold doc_read_from. destruct (read_full_total s 4 ltac:(lia)) as (s1 & h & e1 & R1 & D1 & Z1). rewrite R1.
  destruct e1 as [e1|]; [do 4 eexists; split; [reflexivity|discriminate]|]. specialize (Z1 eq_refl).
  destruct h as [|a [|b [|c [|d [|]]]]]; try (unfold zlen in Z1; cbn [length] in Z1; lia). set (h := [a; b; c; d]) in *.
  destruct (readi32 h) as [l| |] eqn:Rh.
  2, 3: unfold readi32, rdu32, h in Rh; discriminate.
  specialize (H _ _ l D1 Z1 Rh). replace (l <? 4) with false by lia.
  destruct (read_full_total s1 (l - 4) ltac:(lia)) as (s2 & t & e2 & R2 & D2 & Z2). rewrite R2.
  destruct e2 as [e2|]; [do 4 eexists; split; [reflexivity|discriminate]|]. specialize (Z2 eq_refl).
  assert (Zl : zlen (h ++ t) = l) by (rewrite zlen_app; lia).
  assert (Dl : declared_length (h ++ t) = Ret l) by exact Rh.
  assert (Ds : st_data s = (h ++ t) ++ st_data s2) by now rewrite D1, D2, app_assoc.
  destruct (N (h ++ t) (st_data s2) Ds) as [NL En]; [now rewrite Zl|].
  destruct (read_document_total fuel (h ++ t) l) as [(r & E)|(_ & [F|F])]; auto; try lia.
  - pose proof (um_elems_unmarshal fuel (h ++ t)) as U. unfold read_document in E |- *.
    destruct (doc_unmarshal fuel (h ++ t)) as [[es [e|]]| |] eqn:Eu; cbn [bind] in E; try discriminate; rewrite U; cbn [bind].
    + do 4 eexists. split; [reflexivity|discriminate].
    + do 4 eexists. split; [reflexivity|]. intros _. exists (h ++ t), es. rewrite Eu, Dl. rewrite <- zlen_app, Zl. auto.
  - unfold enough in En. lia.
  - contradiction.
Qed.
Print Assumptions C52_read_from_partial.
Example C52_read_from_nonvacuous : let s := MkStream [9; 0; 0; 0; 77; 65; 0; 3; 4; 7] [1; 1]%nat EEOF false in
  (forall h rest l, st_data s = h ++ rest -> zlen h = 4 -> readi32 h = Ret l -> 4 <= l <= 2147483632) /\
  (forall b rest, st_data s = b ++ rest -> declared_length b = Ret (zlen b) -> ~ negative_length b /\ enough 20 (zlen b)) /\
  exists s', doc_read_from 20 s = (s', Ret (9, Some [], Some EInvalidElement)).
Proof.
  cbn zeta. split; [|split].
  - intros h rest l D L R. destruct h as [|a [|b [|c [|d [|]]]]]; try (unfold zlen in L; cbn [length] in L; lia).
    cbn [st_data app] in D. injection D as <- <- <- <- _. vm_compute in R. injection R as <-. lia.
  - intros b rest D _. split.
    + intros (x & t & k & l4 & l & y & E & Ht & _). assert (In t [9; 0; 0; 0; 77; 65; 0; 3; 4; 7]).
      { cbn [st_data] in D. rewrite D, E. apply in_or_app. left. apply in_or_app. right. now left. }
      cbn [In] in *. lia.
    + unfold enough. apply (f_equal (@zlen Z)) in D. rewrite zlen_app in D. pose proof (zlen_nonneg rest).
      change (zlen (st_data _)) with 10 in D. lia.
  - eexists. vm_compute. reflexivity.
Qed.
