(* C108: loops over documents and arrays that are edited by the body. *)
Require Import ZArith List Bool Lia Arith.
From Verif Require Import Base BSpec Elements Value Api GetterProofs DocOps DocSpec DocProofs DocProps LoopDoc.
Import ListNotations.
Open Scope nat_scope.

(* ---- specification ---- *)
Definition bodies := list (world * ptr) -> list op * bool.
Definition yields (grow : nat -> nat) (fuel : nat) (body : bodies) (w : world) (i : nat) : list ptr :=
  map snd (snd (range_over grow fuel body w i)).
(* every operation of the body is ok, and satisfies P *)
Definition does (body : bodies) (P : op -> Prop) : Prop := forall seen, Forall (fun o => op_ok o /\ P o) (fst (body seen)).
Definition never_leaves (body : bodies) : Prop := forall seen, snd (body seen) = true.
(* operations that leave the elements of document i where they are *)
Definition only_adds (i : nat) (o : op) : Prop :=
  match o with
  | OSet j _ | ODelete j _ | OReset j | OArrSet j _ _ | OArrDelete j _ => j <> i
  | _ => True
  end.
(* operations that at most replace elements of document i under the keys of l *)
Definition only_sets (i : nat) (l : list elem) (o : op) : Prop :=
  match o with
  | OSet j (Some e) => j = i -> has (key e) l = true
  | OMap _ => True
  | _ => changes o <> Some i
  end.

Lemma seen_prefix : forall grow fuel body n w a j seen,
  exists more, snd (loop grow fuel body w a j n seen) = seen ++ more /\ length more <= n /\
    (never_leaves body -> length more = n).
Proof.
  induction n as [|n IH]; intros w a j seen; cbn [loop].
  - exists []. rewrite app_nil_r. auto.
  - set (seen' := seen ++ _). destruct (body seen') as [os more] eqn:B. destruct more.
    + destruct (IH (fst (run grow fuel w os)) a (S j) seen') as (m & -> & L & N). unfold seen'. rewrite <- app_assoc.
      eexists. split; [reflexivity|]. rewrite app_length. cbn. split; [lia|]. intros V. rewrite N; auto.
    + eexists. split; [reflexivity|]. cbn. split; [lia|]. intros V. specialize (V seen'). rewrite B in V. discriminate.
Qed.
(* However the body edits the document, the loop ends: it yields as many elements as there were
   when it began, unless it is left. *)
Theorem C108_count : forall grow fuel body w i l,
  reachable grow fuel w -> shows_list w i l ->
  length (yields grow fuel body w i) <= length l /\
  (never_leaves body -> length (yields grow fuel body w i) = length l).
Proof.
  intros grow fuel body w i l R S. destruct (reachable_inv _ _ _ R) as [s I].
  destruct (shows_inv _ _ _ _ I S) as (x & E & El). destruct (inv_at _ _ _ _ I E) as (d & D & G1 & G2 & G3 & _).
  unfold yields, range_over. rewrite D, map_length.
  destruct (seen_prefix grow fuel body (d_len d) w (d_arr d) 0 []) as (m & Q & L & N). rewrite Q. cbn [app].
  rewrite (elems_length _ _ _ G2 G3), El in *. auto.
Qed.
Print Assumptions C108_count.

(* The documents change by what the bodies do, in order, and by nothing else; the loop goes on
   while the body says so. *)
Definition done (body : bodies) (ys : list (world * ptr)) (k : nat) : list op :=
  flat_map (fun q => fst (body (firstn (S q) ys))) (seq 0 k).
Lemma run_app : forall grow fuel o1 o2 w, fst (run grow fuel w (o1 ++ o2)) = fst (run grow fuel (fst (run grow fuel w o1)) o2).
Proof.
  induction o1 as [|o o1 IH]; intros o2 w; [reflexivity|]. cbn [app run]. destruct (exec grow fuel w o) as [w1 r].
  specialize (IH o2 w1). destruct (run grow fuel w1 (o1 ++ o2)). destruct (run grow fuel w1 o1) as [w2 rs]. cbn [fst] in *. exact IH.
Qed.
Theorem C108_effects : forall grow fuel body w i l,
  reachable grow fuel w -> shows_list w i l ->
  let '(w', ys) := range_over grow fuel body w i in
  w' = fst (run grow fuel w (done body ys (length ys))) /\
  (forall k wk p, nth_error ys k = Some (wk, p) -> wk = fst (run grow fuel w (done body ys k))) /\
  (forall k, S k < length ys -> snd (body (firstn (S k) ys)) = true) /\
  (length ys < length l -> snd (body ys) = false).
Proof.
  intros grow fuel body w i l R Sl. destruct (reachable_inv _ _ _ R) as [s I].
  destruct (shows_inv _ _ _ _ I Sl) as (x & E & El). destruct (inv_at _ _ _ _ I E) as (d & D & G1 & G2 & G3 & _).
  pose proof (elems_length _ _ _ G2 G3) as Ln. rewrite El in *. unfold range_over. rewrite D.
  set (ok := fun (w' : world) (ys : list (world * ptr)) =>
    w' = fst (run grow fuel w (done body ys (length ys))) /\
    (forall k wk p, nth_error ys k = Some (wk, p) -> wk = fst (run grow fuel w (done body ys k))) /\
    (forall k, S k < length ys -> snd (body (firstn (S k) ys)) = true)).
  assert (Q : forall n w1 a seen, ok w1 seen -> (seen <> [] -> snd (body seen) = true) ->
    let '(w', ys) := loop grow fuel body w1 a (length seen) n seen in
    ok w' ys /\ (length ys < length seen + n -> snd (body ys) = false)).
  { clear. induction n as [|n IH]; intros w1 a seen O Lv; cbn [loop]; [split; [exact O|lia]|].
    set (y := (w1, nth (length seen) (h_arr (w_heap w1) a) None)). destruct (body (seen ++ [y])) as [os more] eqn:B.
    assert (Dn : forall k, k <= length seen -> done body (seen ++ [y]) k = done body seen k).
    { intros k Lk. unfold done. rewrite !flat_map_concat_map. f_equal. apply map_ext_in. intros q Hq. apply in_seq in Hq. rewrite firstn_app.
      replace (S q - length seen) with 0 by lia. cbn [firstn]. now rewrite app_nil_r. }
    assert (O' : ok (fst (run grow fuel w1 os)) (seen ++ [y])).
    { destruct O as (O1 & O2 & O3). split; [|split].
      - rewrite app_length. cbn [length]. rewrite Nat.add_1_r. unfold done. rewrite seq_S, flat_map_app. cbn [flat_map Nat.add].
        fold (done body (seen ++ [y]) (length seen)). rewrite Dn by lia.
        replace (firstn (S (length seen)) (seen ++ [y])) with (seen ++ [y]).
        2:{ symmetry. apply firstn_all2. rewrite app_length. cbn. lia. }
        rewrite B. cbn [fst]. rewrite app_nil_r, run_app, <- O1. reflexivity.
      - intros k wk p Ek. destruct (Nat.lt_ge_cases k (length seen)) as [Lk|Lk].
        + rewrite nth_error_app1 in Ek by auto. rewrite Dn by lia. now apply (O2 k wk p).
        + assert (k = length seen) as ->.
          { pose proof (some_lt _ _ _ Ek) as Z. rewrite app_length in Z. cbn in Z. lia. }
          rewrite nth_error_app2, Nat.sub_diag in Ek by lia. cbn in Ek. injection Ek as <- _. rewrite Dn by lia. exact O1.
      - intros k Lk. rewrite app_length in Lk. cbn in Lk. rewrite firstn_app. destruct (Nat.eq_dec (S k) (length seen)) as [Z|Z].
        + rewrite Z, Nat.sub_diag, firstn_O, app_nil_r, firstn_all. apply Lv. intros ->. discriminate Z.
        + replace (S k - length seen) with 0 by lia. cbn [firstn]. rewrite app_nil_r. apply O3. lia. }
    destruct more.
    - specialize (IH (fst (run grow fuel w1 os)) a (seen ++ [y]) O').
      rewrite app_length in IH. cbn [length] in IH. rewrite Nat.add_1_r in IH. rewrite B in IH. cbn [snd] in IH. specialize (IH (fun _ => eq_refl)).
      destruct (loop grow fuel body (fst (run grow fuel w1 os)) a (S (length seen)) n (seen ++ [y])) as [w' ys].
      destruct IH as [H1 H2]. split; [exact H1|]. intros Z. apply H2. lia.
    - split; [exact O'|]. intros _. now rewrite B. }
  specialize (Q (d_len d) w (d_arr d) []). cbn [length] in Q.
  destruct (loop grow fuel body w (d_arr d) 0 (d_len d) []) as [w' ys].
  destruct Q as [(H1 & H2 & H3) H4].
  - split; [reflexivity|]. split; [intros k wk p Z; destruct k; discriminate Z|cbn; intros; lia].
  - intros Z. now destruct Z.
  - split; [exact H1|]. split; [exact H2|]. split; [exact H3|]. intros Z. apply H4. rewrite Ln. lia.
Qed.
Print Assumptions C108_effects.

(* ---- what is added during the loop is not yielded ---- *)
Definition keep (a i n : nat) (w : world) : Prop :=
  a < length (w_heap w) /\
  forall j d, nth_error (w_docs w) j = Some d -> d_arr d = a -> j = i /\ n <= d_len d.
Definition kept (a i n : nat) (w w' : world) : Prop :=
  keep a i n w -> firstn n (h_arr (w_heap w') a) = firstn n (h_arr (w_heap w) a) /\ keep a i n w'.
Lemma kept_refl : forall a i n w, kept a i n w w.
Proof. intros a i n w K. auto. Qed.
Lemma kept_trans : forall a i n w1 w2 w3, kept a i n w1 w2 -> kept a i n w2 w3 -> kept a i n w1 w3.
Proof. intros a i n w1 w2 w3 A B K. destruct (A K) as [E1 K1]. destruct (B K1) as [E2 K2]. split; auto. congruence. Qed.
Section Keep.
Variable grow : nat -> nat.
Variable fuel : nat.
Lemma docs_upd : forall (ds : list doc) j x k d, nth_error (upd j x ds) k = Some d ->
  (k = j /\ d = x) \/ (k <> j /\ nth_error ds k = Some d).
Proof.
  intros ds j x k d E. destruct (Nat.eq_dec k j) as [->|N].
  - left. pose proof (some_lt _ _ _ E) as L. rewrite upd_length in L. rewrite upd_eq in E by auto. split; congruence.
  - right. rewrite upd_neq in E by auto. auto.
Qed.
Lemma push_kept : forall a i n w j p, kept a i n w (push grow w j p).
Proof.
  intros a i n w j p [La K]. unfold push. destruct (nth_error (w_docs w) j) as [d|] eqn:D; [|split; [reflexivity|split; auto]].
  unfold append1. destruct (Nat.ltb_spec (d_len d) (length (h_arr (w_heap w) (d_arr d)))) as [C|C].
  - split.
    + cbn [w_heap]. destruct (Nat.eq_dec (d_arr d) a) as [E|N].
      * rewrite E. rewrite h_arr_upd_eq by auto. apply upd_firstn. now apply (K j d D).
      * now rewrite h_arr_upd_neq by auto.
    + split; cbn [w_heap w_docs]; [now rewrite upd_length|]. intros k d' E Ea.
      apply docs_upd in E. destruct E as [[-> ->]|[Nk E]]; [|eauto]. cbn in Ea |- *.
      destruct (K j d D Ea). split; auto.
  - split.
    + cbn [w_heap]. now rewrite h_arr_app.
    + split; cbn [w_heap w_docs]; [rewrite app_length; lia|]. intros k d' E Ea.
      apply docs_upd in E. destruct E as [[-> ->]|[Nk E]]; [|eauto]. cbn in Ea. lia.
Qed.
Lemma cache_kept : forall a i n w j d c v, nth_error (w_docs w) j = Some d ->
  kept a i n w (w_set w j (MkDoc (d_arr d) (d_len d) c v)).
Proof.
  intros a i n w j d c v D [La K]. split; [reflexivity|]. split; [exact La|]. intros k d' E Ea. cbn [w_set w_docs] in E.
  apply docs_upd in E. destruct E as [[-> ->]|[Nk E]]; [|eauto]. exact (K j d D Ea).
Qed.
Lemma invalidate_kept : forall a i n w j, kept a i n w (invalidate w j).
Proof. intros. unfold invalidate. destruct (nth_error (w_docs w) j) eqn:D; [now apply cache_kept|apply kept_refl]. Qed.
Lemma append_loop_kept : forall a i n ps w j, kept a i n w (fst (append_loop grow w j ps)).
Proof.
  induction ps as [|[e|] r IH]; intros w j; cbn [append_loop]; try apply kept_refl.
  eapply kept_trans; [apply push_kept|apply IH].
Qed.
Lemma append_doc_kept : forall a i n ps w j, kept a i n w (fst (append_doc grow w j ps)).
Proof.
  intros. unfold append_doc. pose proof (append_loop_kept a i n ps w j) as A.
  destruct (append_loop grow w j ps) as [w' [u| |]]; cbn [fst] in *; auto.
  eapply kept_trans; [exact A|apply invalidate_kept].
Qed.
Lemma extend_loop_kept : forall a i n m w j a2 k, kept a i n w (fst (extend_loop grow w j a2 k m)).
Proof.
  induction m as [|m IH]; intros w j a2 k; cbn [extend_loop]; [apply kept_refl|].
  destruct (nth k (h_arr (w_heap w) a2) None); [|apply kept_refl]. eapply kept_trans; [apply push_kept|apply IH].
Qed.
Lemma each_append_kept : forall a i n m w j a2 k, kept a i n w (fst (each_append grow w j a2 k m)).
Proof.
  induction m as [|m IH]; intros w j a2 k; cbn [each_append]; [apply kept_refl|].
  pose proof (append_doc_kept a i n [nth k (h_arr (w_heap w) a2) None] w j) as A.
  destruct (append_doc grow w j _) as [w' [u| |]]; cbn [fst] in *; auto. eapply kept_trans; [exact A|apply IH].
Qed.
Lemma omit_loop_kept : forall a i n ps w j, kept a i n w (fst (omit_loop grow fuel w j ps)).
Proof.
  induction ps as [|[e|] r IH]; intros w j; cbn [omit_loop]; try apply kept_refl; auto.
  destruct (v_is_empty fuel e) as [[|]| |]; try apply kept_refl; auto.
  pose proof (append_doc_kept a i n [Some e] w j) as A.
  destruct (append_doc grow w j _) as [w' [u| |]]; cbn [fst] in *; auto. eapply kept_trans; [exact A|apply IH].
Qed.
Lemma arr_new_kept : forall a i n vs w j, kept a i n w (arr_new_loop grow w j vs).
Proof.
  induction vs as [|v r IH]; intros w j; cbn [arr_new_loop]; [apply kept_refl|].
  eapply kept_trans; [apply push_kept|]. eapply kept_trans; [apply invalidate_kept|apply IH].
Qed.
Lemma alloc_kept : forall a i n w cap m, kept a i n w (fst (alloc w cap m)).
Proof.
  intros a i n w cap m [La K]. cbn [alloc fst]. split; [cbn [w_heap]; now rewrite h_arr_app|].
  split; cbn [w_heap w_docs]; [rewrite app_length; lia|]. intros k d E Ea.
  destruct (Nat.lt_ge_cases k (length (w_docs w))) as [L|L].
  - rewrite nth_error_app1 in E by auto. eauto.
  - rewrite nth_error_app2 in E by auto. destruct (k - length (w_docs w)) as [|q]; cbn in E; [|now destruct q].
    injection E as <-. cbn in Ea. lia.
Qed.
(* writing into the array of another document, whose length may change *)
Lemma write_kept : forall a i n w j d arr m, nth_error (w_docs w) j = Some d -> j <> i ->
  kept a i n w (MkW (upd (d_arr d) arr (w_heap w)) (upd j (MkDoc (d_arr d) m (d_cache d) (d_valid d)) (w_docs w))).
Proof.
  intros a i n w j d arr m D N [La K].
  assert (Na : d_arr d <> a) by (intros E; destruct (K j d D E); contradiction).
  split; [cbn [w_heap]; now rewrite h_arr_upd_neq|]. split; cbn [w_heap w_docs]; [now rewrite upd_length|].
  intros k d' E Ea. apply docs_upd in E. destruct E as [[-> ->]|[Nk E]]; [|eauto]. cbn in Ea. contradiction.
Qed.
Lemma store_kept : forall a i n w j d k p, nth_error (w_docs w) j = Some d -> j <> i -> kept a i n w (store w d k p).
Proof.
  intros a i n w j d k p D N [La K].
  assert (Na : d_arr d <> a) by (intros E; destruct (K j d D E); contradiction).
  unfold store. split; [cbn [w_heap]; now rewrite h_arr_upd_neq|]. split; cbn [w_heap w_docs]; [now rewrite upd_length|auto].
Qed.
Lemma lift_fst : forall x r, fst (lift x r) = fst x.
Proof. intros [w [u| |]] r; reflexivity. Qed.
Lemma ret_fst : forall A w (x : go A) f, fst (ret_of w x f) = w.
Proof. intros A w [u| |] f; reflexivity. Qed.
Lemma exec_kept : forall a i n w o, only_adds i o -> kept a i n w (fst (exec grow fuel w o)).
Proof.
  intros a i n w o Ho.
  assert (W : forall A j (f : doc -> world * go A), (forall d, nth_error (w_docs w) j = Some d -> kept a i n w (fst (f d))) ->
    kept a i n w (fst (with_doc_at w j f))).
  { intros A j f Hf. unfold with_doc_at. destruct (nth_error (w_docs w) j); [auto|apply kept_refl]. }
  destruct o; cbn [exec only_adds] in *; try (apply W; intros d' D'; cbn [fst]; try apply kept_refl).
  - pose proof (alloc_kept a i n w (repeat None cap) 0) as A. destruct (alloc w _ 0). exact A.
  - match goal with |- context [alloc w ?c ?m] => pose proof (alloc_kept a i n w c m) as A; destruct (alloc w c m) end. exact A.
  - rewrite lift_fst. apply append_doc_kept.
  - pose proof (omit_loop_kept a i n ps w d) as A. destruct (omit_loop grow fuel w d ps) as [w' [u| |]]; cbn [fst lift] in *; auto.
    eapply kept_trans; [exact A|apply invalidate_kept].
  - destruct p as [e|]; [|apply kept_refl]. destruct (k <- elem_key e ;; find_key k (elems w d') 0) as [[m|]| |]; cbn [fst]; try apply kept_refl.
    + now apply (store_kept a i n w d).
    + eapply kept_trans; [apply push_kept|apply invalidate_kept].
  - destruct (find_key k (elems w d') 0) as [[m|]| |]; cbn [fst]; try apply kept_refl; [now apply write_kept|apply invalidate_kept].
  - apply W. intros d2' D2. pose proof (extend_loop_kept a i n (d_len d2') w d (d_arr d2') 0) as A.
    destruct (extend_loop grow w d (d_arr d2') 0 (d_len d2')) as [w' [u| |]]; cbn [fst lift] in *; auto.
    eapply kept_trans; [exact A|apply invalidate_kept].
  - intros K0. pose proof (write_kept a i n w d d' (repeat None (d_len d') ++ skipn (d_len d') (h_arr (w_heap w) (d_arr d'))) 0 D' Ho K0) as [A [B C]].
    split; [exact A|]. split; [exact B|]. intros k0 d0 E Ea. cbn [w_docs] in *.
    apply docs_upd in E. destruct E as [[-> ->]|[Nk E]]; [|exact (proj2 K0 k0 d0 E Ea)]. cbn in Ea.
    destruct K0 as [_ K0]. destruct (K0 d d' D' Ea). contradiction.
  - destruct (um_elems fuel b) as [es o']. rewrite ret_fst. eapply kept_trans; [|apply append_loop_kept].
    intros [La K]. split; [cbn [w_heap]; now rewrite h_arr_app|]. split; cbn [w_heap w_docs]; [rewrite app_length; lia|].
    intros k0 d0 E Ea. apply docs_upd in E. destruct E as [[-> ->]|[Nk E]]; [|eauto]. cbn in Ea. lia.
  - destruct (d_len d'); [apply kept_refl|]. apply W. intros d1 D1. rewrite lift_fst. apply each_append_kept.
  - destruct (d_valid d'); [apply kept_refl|]. destruct (cache_loop (elems w d') []); cbn [fst]; try apply kept_refl. now apply cache_kept.
  - destruct (in_len i0 d'); apply kept_refl.
  - destruct (in_len i0 d'); apply kept_refl.
  - rewrite ret_fst. apply kept_refl.
  - pose proof (alloc_kept a i n w (repeat None (length vs)) 0) as A. destruct (alloc w _ 0) as [w1 i1]. cbn [fst] in *.
    eapply kept_trans; [exact A|apply arr_new_kept].
  - rewrite lift_fst. apply append_doc_kept.
  - destruct (in_len i0 d'); [|apply kept_refl]. now apply (store_kept a i n w d).
  - destruct (in_len i0 d'); [|apply kept_refl]. destruct (at_idx w d' i0); now apply write_kept.
  - destruct (in_len i0 d'); [rewrite ret_fst|]; apply kept_refl.
Qed.
Lemma run_kept : forall a i n os w, Forall (only_adds i) os -> kept a i n w (fst (run grow fuel w os)).
Proof.
  induction os as [|o os IH]; intros w F; cbn [run]; [apply kept_refl|]. inversion F as [|? ? H1 H2]; subst.
  pose proof (exec_kept a i n w o H1) as A. destruct (exec grow fuel w o) as [w1 x].
  specialize (IH w1 H2). destruct (run grow fuel w1 os) as [w2 xs]. cbn [fst] in *. eapply kept_trans; eauto.
Qed.
End Keep.

Lemma nth_of_firstn : forall A n j (l : list A) d, j < n -> nth j (firstn n l) d = nth j l d.
Proof. induction n; intros [|j] [|x l] d L; cbn; auto; try lia. apply IHn. lia. Qed.
(* A body that adds to the document, or edits others: the loop yields the elements the document
   had when it began, in order, each once. *)
Theorem C108_adds : forall grow fuel body w i l,
  reachable grow fuel w -> shows_list w i l -> (forall seen, Forall (only_adds i) (fst (body seen))) ->
  exists m, yields grow fuel body w i = map Some (firstn m l) /\ (never_leaves body -> m = length l).
Proof.
  intros grow fuel body w i l R S B. destruct (reachable_inv _ _ _ R) as [s I].
  destruct (shows_inv _ _ _ _ I S) as (x & E & El). destruct (inv_at _ _ _ _ I E) as (d & D & G1 & G2 & G3 & _).
  unfold yields, range_over. rewrite D. set (a := d_arr d) in *. pose proof (elems_length _ _ _ G2 G3) as Ln. rewrite El in *.
  assert (K : keep a i (d_len d) w).
  { split; [exact G1|]. intros j dj Dj Ea. destruct (Nat.eq_dec j i) as [->|N]; [assert (dj = d) by congruence; now subst|].
    exfalso. destruct I as (_ & Dis & _). exact (Dis _ _ _ _ Dj D N Ea). }
  assert (Q : forall n w j seen, j + n = length l -> keep a i (length l) w -> firstn (length l) (h_arr (w_heap w) a) = some l ->
    exists m, snd (loop grow fuel body w a j n seen) = seen ++ m /\
      exists q, map snd m = map Some (firstn q (skipn j l)) /\ (never_leaves body -> q = n)).
  { clear - B. induction n as [|n IH]; intros w j seen L K F; cbn [loop].
    - exists []. rewrite app_nil_r. split; auto. exists 0. auto.
    - set (seen' := seen ++ _). destruct (body seen') as [os more] eqn:Bo.
      assert (Nj : exists e, nth_error l j = Some e) by (destruct (nth_error l j) eqn:Z; [eauto|apply nth_error_None in Z; lia]).
      destruct Nj as [e Ne].
      assert (P : nth j (h_arr (w_heap w) a) None = Some e).
      { rewrite <- (nth_of_firstn _ (length l)) by lia. rewrite F. rewrite (nth_some grow); [exact Ne|exact (some_lt _ _ _ Ne)]. }
      specialize (B seen'). rewrite Bo in B. cbn [fst] in B.
      destruct more.
      + destruct (run_kept grow fuel a i (length l) os w B K) as [F' K'].
        destruct (IH (fst (run grow fuel w os)) (S j) seen') as (m & -> & q & M & V); [lia|auto|congruence|].
        exists ((w, nth j (h_arr (w_heap w) a) None) :: m). unfold seen'. rewrite <- app_assoc. split; [reflexivity|].
        exists (S q). rewrite (skipn_nth_error _ _ _ Ne). cbn [map snd firstn]. rewrite M, P. split; [reflexivity|].
        intros N. now rewrite V.
      + exists [(w, nth j (h_arr (w_heap w) a) None)]. split; [reflexivity|]. exists 1.
        rewrite (skipn_nth_error _ _ _ Ne). cbn. rewrite P. split; [reflexivity|].
        intros N. specialize (N seen'). rewrite Bo in N. discriminate. }
  destruct (Q (d_len d) w 0 []) as (m & -> & q & M & V); [lia|rewrite <- Ln; exact K|rewrite <- Ln; exact G3|].
  cbn [app skipn] in *. exists q. split; [exact M|]. intros N. rewrite (V N). exact Ln.
Qed.
Print Assumptions C108_adds.

(* ---- elements replaced during the loop ---- *)
Definition stays (a i n : nat) (w : world) : Prop :=
  exists d, nth_error (w_docs w) i = Some d /\ d_arr d = a /\ d_len d = n.
Section Stay.
Variable grow : nat -> nat.
Variable fuel : nat.
Variables a i n : nat.
Notation st w w' := (stays a i n w -> stays a i n w').
Lemma upd_stays : forall h w j x, j <> i -> st w (MkW h (upd j x (w_docs w))).
Proof. intros h w j x N (d & D & R). exists d. cbn [w_docs]. rewrite upd_neq by auto. auto. Qed.
Lemma push_stays : forall w j p, j <> i -> st w (push grow w j p).
Proof.
  intros w j p N S. unfold push. destruct (nth_error (w_docs w) j) as [d|]; auto.
  destruct (append1 grow w d p). now apply upd_stays.
Qed.
Lemma cache_stays : forall w j d c v, nth_error (w_docs w) j = Some d -> st w (w_set w j (MkDoc (d_arr d) (d_len d) c v)).
Proof.
  intros w j d c v D (d' & D' & R). destruct (Nat.eq_dec j i) as [->|N].
  - eexists. split; [cbn [w_set w_docs]; rewrite upd_eq; [reflexivity|exact (some_lt _ _ _ D)]|]. cbn. rewrite D in D'. now injection D' as <-.
  - exists d'. cbn [w_set w_docs]. rewrite upd_neq by auto. auto.
Qed.
Lemma invalidate_stays : forall w j, st w (invalidate w j).
Proof. intros w j S. unfold invalidate. destruct (nth_error (w_docs w) j) eqn:D; [now apply cache_stays|auto]. Qed.
Lemma append_loop_stays : forall ps w j, j <> i -> st w (fst (append_loop grow w j ps)).
Proof. induction ps as [|[e|] r IH]; intros w j N S; cbn [append_loop]; auto. apply IH; auto. now apply push_stays. Qed.
Lemma append_doc_stays : forall ps w j, j <> i -> st w (fst (append_doc grow w j ps)).
Proof.
  intros ps w j N S. unfold append_doc. pose proof (append_loop_stays ps w j N S) as A.
  destruct (append_loop grow w j ps) as [w' [u| |]]; cbn [fst] in *; auto. now apply invalidate_stays.
Qed.
Lemma extend_loop_stays : forall m w j a2 k, j <> i -> st w (fst (extend_loop grow w j a2 k m)).
Proof.
  induction m as [|m IH]; intros w j a2 k N S; cbn [extend_loop]; auto.
  destruct (nth k (h_arr (w_heap w) a2) None); auto. apply IH; auto. now apply push_stays.
Qed.
Lemma each_append_stays : forall m w j a2 k, j <> i -> st w (fst (each_append grow w j a2 k m)).
Proof.
  induction m as [|m IH]; intros w j a2 k N S; cbn [each_append]; auto.
  pose proof (append_doc_stays [nth k (h_arr (w_heap w) a2) None] w j N S) as A.
  destruct (append_doc grow w j _) as [w' [u| |]]; cbn [fst] in *; auto.
Qed.
Lemma omit_loop_stays : forall ps w j, j <> i -> st w (fst (omit_loop grow fuel w j ps)).
Proof.
  induction ps as [|[e|] r IH]; intros w j N S; cbn [omit_loop]; auto.
  destruct (v_is_empty fuel e) as [[|]| |]; auto.
  pose proof (append_doc_stays [Some e] w j N S) as A.
  destruct (append_doc grow w j _) as [w' [u| |]]; cbn [fst] in *; auto.
Qed.
Lemma arr_new_stays : forall vs w j, j <> i -> st w (arr_new_loop grow w j vs).
Proof.
  induction vs as [|v r IH]; intros w j N S; cbn [arr_new_loop]; auto. apply IH; auto. apply invalidate_stays. now apply push_stays.
Qed.
Lemma alloc_stays : forall w cap m, st w (fst (alloc w cap m)).
Proof.
  intros w cap m (d & D & R). exists d. cbn [alloc fst w_docs]. split; [|exact R].
  rewrite nth_error_app1; [exact D|exact (some_lt _ _ _ D)].
Qed.
Lemma exec_stays : forall w o, changes o <> Some i -> st w (fst (exec grow fuel w o)).
Proof.
  intros w o Ho St.
  assert (W : forall A j (f : doc -> world * go A), (forall d, nth_error (w_docs w) j = Some d -> stays a i n (fst (f d))) ->
    stays a i n (fst (with_doc_at w j f))).
  { intros A j f Hf. unfold with_doc_at. destruct (nth_error (w_docs w) j); auto. }
  destruct o; cbn [exec changes] in *; try (assert (Nd : d <> i) by (intros ->; now apply Ho));
    try (apply W; intros d' D'; cbn [fst]; auto; try exact St).
  - pose proof (alloc_stays w (repeat None cap) 0) as A. destruct (alloc w _ 0). now apply A.
  - match goal with |- context [alloc w ?c ?m] => pose proof (alloc_stays w c m) as A; destruct (alloc w c m) end. now apply A.
  - rewrite lift_fst. now apply append_doc_stays.
  - pose proof (omit_loop_stays ps w d Nd St) as A. destruct (omit_loop grow fuel w d ps) as [w' [u| |]]; cbn [fst lift] in *; auto.
    now apply invalidate_stays.
  - destruct p as [e|]; [|exact St]. destruct (k <- elem_key e ;; find_key k (elems w d') 0) as [[m|]| |]; cbn [fst]; auto.
    apply invalidate_stays. now apply push_stays.
  - destruct (find_key k (elems w d') 0) as [[m|]| |]; cbn [fst]; auto; [now apply upd_stays|now apply invalidate_stays].
  - apply W. intros d2' D2. pose proof (extend_loop_stays (d_len d2') w d (d_arr d2') 0 Nd St) as A.
    destruct (extend_loop grow w d (d_arr d2') 0 (d_len d2')) as [w' [u| |]]; cbn [fst lift] in *; auto. now apply invalidate_stays.
  - now apply upd_stays.
  - destruct (um_elems fuel b) as [es o']. rewrite ret_fst. apply append_loop_stays; auto. now apply upd_stays.
  - destruct (d_len d'); [exact St|]. apply W. intros d1 D1. rewrite lift_fst. now apply each_append_stays.
  - destruct (d_valid d'); [exact St|]. destruct (cache_loop (elems w d') []); cbn [fst]; auto. now apply cache_stays.
  - destruct (in_len i0 d'); exact St.
  - destruct (in_len i0 d'); exact St.
  - rewrite ret_fst. exact St.
  - pose proof (alloc_stays w (repeat None (length vs)) 0 St) as A. cbn [alloc fst] in *. apply arr_new_stays; auto.
    intros E. destruct St as (d & D & _). pose proof (some_lt _ _ _ D). lia.
  - rewrite lift_fst. now apply append_doc_stays.
  - destruct (in_len i0 d'); exact St.
  - destruct (in_len i0 d'); [|exact St]. destruct (at_idx w d' i0); now apply upd_stays.
  - destruct (in_len i0 d'); [rewrite ret_fst|]; exact St.
Qed.
End Stay.
Lemma find_keys : forall k l l', map key l = map key l' -> has k l = has k l'.
Proof.
  unfold has. induction l as [|x l IH]; intros [|y l'] E; try discriminate; [reflexivity|]. cbn in E |- *. injection E as E1 E2.
  rewrite E1. destruct (bytes_eqb (key y) k); auto.
Qed.
Lemma set_keys : forall e l, has (key e) l = true -> map key (s_set e l) = map key l.
Proof.
  unfold has. induction l as [|x l IH]; intros H; cbn in *; [discriminate|]. destruct (bytes_eqb (key x) (key e)) eqn:E; cbn.
  - apply bytes_eqb_eq in E. now rewrite E.
  - now rewrite IH.
Qed.
Section Sets.
Variable grow : nat -> nat.
Variable fuel : nat.
Definition fixed (a i : nat) (l : list elem) (w : world) : Prop :=
  exists s x, inv w s /\ nth_error s i = Some x /\ map key (s_elems x) = map key l /\ stays a i (length l) w.
Lemma exec_sets : forall a i l w o, only_sets i l o -> op_ok o -> fixed a i l w -> fixed a i l (fst (exec grow fuel w o)).
Proof.
  intros a i l w o P O (s & x & I & E & K & S).
  pose proof (exec_refines grow fuel w s o I O) as R.
  assert (Old : changes o <> Some i -> fixed a i l (fst (exec grow fuel w o))).
  { intros C. destruct (s_exec_other fuel s o i C (some_lt _ _ _ E)) as [E' _].
    pose proof (exec_stays grow fuel a i (length l) w o C S) as S'.
    destruct (exec grow fuel w o) as [w' r]. destruct (s_exec fuel s o) as [s' r']. destruct R as [I' _].
    cbn [fst] in *. exists s', x. rewrite E'. auto. }
  assert (Put : forall m, s_elems m = s_elems x \/ map key (s_elems m) = map key (s_elems x) ->
    fst (s_exec fuel s o) = s_put s i (s_elems m) (s_memo m) -> stays a i (length l) (fst (exec grow fuel w o)) ->
    fixed a i l (fst (exec grow fuel w o))).
  { intros m Km Q S'. destruct (exec grow fuel w o) as [w' r]. destruct (s_exec fuel s o) as [s' r']. destruct R as [I' _].
    cbn [fst] in *. exists s', m. rewrite Q. unfold s_put. rewrite Q in I'. split; [exact I'|]. split.
    - rewrite nth_error_replace_eq by exact (some_lt _ _ _ E). now destruct m.
    - split; [|exact S']. destruct Km as [->| ->]; exact K. }
  destruct o; cbn [only_sets] in P; try (apply Old; exact P).
  - destruct p as [e|]; [|apply Old; exact P]. destruct (Nat.eq_dec d i) as [->|N]; [|apply Old; cbn; congruence].
    specialize (P eq_refl). rewrite (find_keys _ _ _ (eq_sym K)) in P.
    apply (Put (MkS (s_set e (s_elems x)) (if has (key e) (s_elems x) then s_memo x else None))).
    + right. now apply set_keys.
    + cbn [s_exec]. unfold s_at. rewrite E. reflexivity.
    + destruct (inv_at _ _ _ _ I E) as (d & D & G1 & G2 & G3 & G4). cbn [exec]. unfold with_doc_at. rewrite D.
      cbn [op_ok] in O. inversion O as [|? ? Ke _]; subst. rewrite (keyed_key _ Ke). cbn [bind].
      rewrite G3, (find_key_spec grow) by apply G4.
      destruct (s_idx (key e) (s_elems x)) as [m|] eqn:Ix; cbn [fst]; [exact S|].
      exfalso. destruct (s_idx_none _ _ Ix) as [Z _]. unfold has in P. rewrite Z in P. discriminate.
  - destruct (Nat.eq_dec d i) as [->|N]; [|apply Old; cbn; congruence].
    apply (Put (MkS (s_elems x) (Some (match s_memo x with Some l0 => l0 | None => s_elems x end)))).
    + now left.
    + cbn [s_exec]. unfold s_at. rewrite E. reflexivity.
    + cbn [exec]. unfold with_doc_at. destruct (nth_error (w_docs w) i) as [d|] eqn:D; [|exact S].
      destruct (d_valid d); [exact S|]. destruct (cache_loop (elems w d) []); cbn [fst]; try exact S. now apply cache_stays.
Qed.
Lemma run_sets : forall a i l os w, Forall (fun o => op_ok o /\ only_sets i l o) os -> fixed a i l w -> fixed a i l (fst (run grow fuel w os)).
Proof.
  induction os as [|o os IH]; intros w F X; cbn [run]; [exact X|]. inversion F as [|? ? [O P] F']; subst.
  pose proof (exec_sets a i l w o P O X) as X'. destruct (exec grow fuel w o) as [w1 r]. cbn [fst] in X'.
  specialize (IH w1 F' X'). destruct (run grow fuel w1 os). exact IH.
Qed.
End Sets.

(* A body that replaces elements of the document, under keys it has, or edits others: each
   element is yielded as the document has it at that moment. *)
Theorem C108_sets : forall grow fuel body w i l,
  reachable grow fuel w -> shows_list w i l -> does body (only_sets i l) ->
  forall k wk p, nth_error (snd (range_over grow fuel body w i)) k = Some (wk, p) ->
  exists lk e, shows_list wk i lk /\ map key lk = map key l /\ nth_error lk k = Some e /\ p = Some e.
Proof.
  intros grow fuel body w i l R S B. destruct (reachable_inv _ _ _ R) as [s I].
  destruct (shows_inv _ _ _ _ I S) as (x & E & El). destruct (inv_at _ _ _ _ I E) as (d & D & G1 & G2 & G3 & _).
  pose proof (elems_length _ _ _ G2 G3) as Ln. rewrite El in Ln.
  unfold range_over. rewrite D.
  assert (X : fixed (d_arr d) i l w) by (exists s, x; split; [exact I|]; split; [exact E|]; split; [now rewrite El|exists d; auto]).
  set (good := fun k (y : world * ptr) => exists lk e, shows_list (fst y) i lk /\ map key lk = map key l /\ nth_error lk k = Some e /\ snd y = Some e).
  assert (Q : forall n w a j seen, j + n = length l -> length seen = j -> fixed a i l w ->
    (forall k y, nth_error seen k = Some y -> good k y) ->
    forall k y, nth_error (snd (loop grow fuel body w a j n seen)) k = Some y -> good k y).
  { clear - B. induction n as [|n IH]; intros w a j seen L Ls X G; cbn [loop]; [exact G|].
    set (seen' := seen ++ _). destruct (body seen') as [os more] eqn:Bo.
    assert (G' : forall k y, nth_error seen' k = Some y -> good k y).
    { intros k y Ey. unfold seen' in Ey. destruct (Nat.lt_ge_cases k (length seen)) as [Lk|Lk].
      - rewrite nth_error_app1 in Ey by auto. auto.
      - rewrite nth_error_app2 in Ey by auto. destruct (k - length seen) as [|q] eqn:Kq; [|destruct q; discriminate Ey].
        cbn in Ey. injection Ey as <-. assert (k = j) by lia. subst k.
        destruct X as (s & x & I & E & K & (d & D & Da & Dl)).
        destruct (inv_at _ _ _ _ I E) as (d' & D' & G1 & G2 & G3 & _). rewrite D in D'. injection D' as <-. rewrite Da in *.
        assert (Le : length (s_elems x) = length l) by (rewrite <- (map_length key), K; apply map_length).
        destruct (nth_error (s_elems x) j) as [e|] eqn:Ne; [|apply nth_error_None in Ne; rewrite Le in Ne; lia].
        exists (s_elems x), e. cbn [fst snd]. split; [exact (inv_shows _ _ _ _ I E)|]. split; [exact K|]. split; [exact Ne|].
        rewrite <- (nth_of_firstn _ (d_len d)) by lia. unfold elems in G3. rewrite Da in G3. rewrite G3.
        rewrite (nth_some grow); [exact Ne|exact (some_lt _ _ _ Ne)]. }
    destruct more; [|exact G']. apply IH; [lia|unfold seen'; rewrite app_length; cbn; lia| |exact G'].
    apply run_sets; auto. specialize (B seen'). now rewrite Bo in B. }
  intros k wk p Ey. refine (Q (d_len d) w (d_arr d) 0 [] _ eq_refl X _ k (wk, p) Ey); [exact Ln|].
  intros k0 y Z. destruct k0; discriminate Z.
Qed.
Print Assumptions C108_sets.

(* ---- the usual edits while looping, and what goes wrong ---- *)
Definition the_key (p : ptr) : bytes := match p with Some e => key e | None => [] end.
(* delete each element the loop yields from document i *)
Definition delete_each (i : nat) : bodies := fun seen => ([ODelete i (the_key (snd (last seen (w0, None))))], true).

Lemma last_app1 : forall A (l : list A) x d, last (l ++ [x]) d = x.
Proof. intros. apply last_last. Qed.
Section Del.
Variable grow : nat -> nat.
Variable fuel : nat.
(* the part of the array the loop reads *)
Definition shifted (a i n : nat) (e2 : elem) (w : world) : Prop :=
  a < length (w_heap w) /\ keyed e2 /\
  exists d rest tail, nth_error (w_docs w) i = Some d /\ d_arr d = a /\ 1 <= d_len d <= n /\
    h_arr (w_heap w) a = some (e2 :: rest) ++ tail /\ S (length rest) = n /\
    Forall (fun e => keyed e /\ key e <> key e2) rest.
Lemma firstn_some : forall m l, firstn m (some l) = some (firstn m l).
Proof. intros. unfold some. apply firstn_map. Qed.
Lemma skipn_some : forall m l, skipn m (some l) = some (skipn m l).
Proof. intros. unfold some. apply skipn_map. Qed.
Lemma Forall_firstn' : forall A (P : A -> Prop) m l, Forall P l -> Forall P (firstn m l).
Proof. intros A P m l F. rewrite <- (firstn_skipn m l) in F. now apply Forall_app in F. Qed.
Lemma Forall_skipn' : forall A (P : A -> Prop) m l, Forall P l -> Forall P (skipn m l).
Proof. intros A P m l F. rewrite <- (firstn_skipn m l) in F. now apply Forall_app in F. Qed.
Lemma delete_shifted : forall a i n e2 k w, k <> key e2 -> shifted a i n e2 w -> shifted a i n e2 (fst (exec grow fuel w (ODelete i k))).
Proof.
  intros a i n e2 k w Nk (La & K2 & d & rest & tail & D & Da & Dl & Ar & Ln & F).
  cbn [exec]. unfold with_doc_at. rewrite D.
  assert (El : elems w d = some (firstn (d_len d) (e2 :: rest))).
  { unfold elems. rewrite Da, Ar. rewrite firstn_app.
    replace (d_len d - length (some (e2 :: rest))) with 0 by (unfold some; rewrite map_length; cbn; lia).
    cbn [firstn]. now rewrite app_nil_r, firstn_some. }
  assert (Kd : Forall keyed (firstn (d_len d) (e2 :: rest))).
  { apply Forall_firstn'. constructor; auto. eapply Forall_impl; [|exact F]. now intros e [X _]. }
  rewrite El, (find_key_spec grow) by exact Kd.
  destruct (s_idx k (firstn (d_len d) (e2 :: rest))) as [m|] eqn:Ix; cbn [fst].
  - pose proof (proj1 (s_idx_some grow fuel _ _ _ Ix)) as Lm.
    assert (Pm : 1 <= m).
    { destruct m; [|lia]. destruct (d_len d) as [|q]; [lia|]. cbn [firstn s_idx] in Ix.
      destruct (bytes_eqb (key e2) k) eqn:Z; [apply bytes_eqb_eq in Z; congruence|]. destruct (s_idx k (firstn q rest)); discriminate. }
    rewrite firstn_length in Lm. cbn [length] in Lm. cbn [Nat.add].
    unfold remove. split; [cbn [w_heap]; now rewrite upd_length|]. split; [exact K2|].
    set (d2 := MkDoc _ _ _ _). exists d2.
    exists (firstn (m - 1) rest ++ firstn (d_len d - S m) (skipn m rest) ++ skipn (d_len d - 2) rest), tail.
    split; [cbn [w_docs]; rewrite upd_eq; [reflexivity|exact (some_lt _ _ _ D)]|]. split; [exact Da|]. split; [cbn; lia|].
    split.
    + cbn [w_heap]. rewrite Da, h_arr_upd_eq by auto. rewrite Ar.
      assert (E1 : firstn m (some (e2 :: rest) ++ tail) = some (e2 :: firstn (m - 1) rest)).
      { rewrite firstn_app. replace (m - length (some (e2 :: rest))) with 0 by (unfold some; rewrite map_length; cbn; lia).
        cbn [firstn]. rewrite app_nil_r, firstn_some. f_equal. destruct m; [lia|]. cbn. now rewrite Nat.sub_0_r. }
      assert (E2 : firstn (d_len d - S m) (skipn (S m) (some (e2 :: rest) ++ tail)) = some (firstn (d_len d - S m) (skipn m rest))).
      { rewrite skipn_app, skipn_some. replace (S m - length (some (e2 :: rest))) with 0 by (unfold some; rewrite map_length; cbn; lia).
        change (skipn (S m) (e2 :: rest)) with (skipn m rest). cbn [skipn]. rewrite firstn_app.
        replace (d_len d - S m - length (some (skipn m rest))) with 0 by (unfold some; rewrite map_length, skipn_length; lia).
        cbn [firstn]. now rewrite app_nil_r, firstn_some. }
      assert (E3 : skipn (d_len d - 1) (some (e2 :: rest) ++ tail) = some (skipn (d_len d - 2) rest) ++ tail).
      { rewrite skipn_app, skipn_some. replace (d_len d - 1 - length (some (e2 :: rest))) with 0 by (unfold some; rewrite map_length; cbn; lia).
        destruct (d_len d) as [|[|q]]; [lia|lia|]. cbn. now rewrite Nat.sub_0_r. }
      rewrite E1, E2, E3. unfold some. cbn [map]. rewrite !map_app. cbn [app]. now rewrite !app_assoc.
    + split; [|repeat (apply Forall_app; split); auto using Forall_firstn', Forall_skipn'].
      rewrite !app_length, !firstn_length, !skipn_length. lia.
  - unfold invalidate. rewrite D. split; [exact La|]. split; [exact K2|].
    set (d2 := MkDoc _ _ _ _). exists d2, rest, tail. split; [cbn [w_set w_docs]; rewrite upd_eq; [reflexivity|exact (some_lt _ _ _ D)]|]. auto.
Qed.
End Del.

Lemma skipn_last : forall r (z d : elem) (tl : list ptr),
  skipn (length r) (Some z :: map Some r ++ tl) = map Some [last (z :: r) d] ++ tl.
Proof.
  induction r as [|y r IH]; intros z d tl; [reflexivity|].
  change (skipn (length (y :: r)) (Some z :: map Some (y :: r) ++ tl)) with (skipn (length r) (Some y :: map Some r ++ tl)).
  rewrite (IH y d). reflexivity.
Qed.
(* Deleting each element as it is yielded, from a document of three elements or more with
   different keys: the second element is never yielded, and is still there at the end. *)
Theorem C108_delete_refuted : forall grow fuel w i e1 e2 e3 r,
  let l := e1 :: e2 :: e3 :: r in
  reachable grow fuel w -> shows_list w i l -> NoDup (map key l) ->
  let '(w', ys) := range_over grow fuel (delete_each i) w i in
  ~ In (Some e2) (map snd ys) /\ exists l', shows_list w' i (e2 :: l').
Proof.
  intros grow fuel w i e1 e2 e3 r l R Sl ND. destruct (reachable_inv _ _ _ R) as [s I].
  destruct (shows_inv _ _ _ _ I Sl) as (x & E & El). destruct (inv_at _ _ _ _ I E) as (d & D & G1 & G2 & G3 & G4 & _).
  pose proof (elems_length _ _ _ G2 G3) as Ln. rewrite El in *.
  unfold range_over. rewrite D. rewrite Ln. change (length l) with (S (S (S (length r)))).
  set (n := S (S (length r))). cbn [loop app].
  assert (P0 : nth 0 (h_arr (w_heap w) (d_arr d)) None = Some e1).
  { rewrite <- (nth_of_firstn _ (d_len d)) by (rewrite Ln; unfold l; cbn; lia). unfold elems in G3. rewrite G3. reflexivity. }
  rewrite P0. unfold delete_each at 1. cbn [last snd the_key fst].
  inversion ND as [|? ? N1 ND1]; subst. inversion ND1 as [|? ? N2 ND2]; subst.
  inversion G4 as [|? ? K1 K']; subst. inversion K' as [|? ? K2 K'']; subst.
  set (w1 := fst (run grow fuel w [ODelete i (key e1)])).
  assert (Ne : forall e, In e (e3 :: r) -> key e <> key e2).
  { intros e He Z. apply N2. rewrite <- Z. exact (in_map key _ _ He). }
  assert (R1 : exists os, Forall op_ok os /\ w1 = fst (run grow fuel w os)) by (exists [ODelete i (key e1)]; split; [repeat constructor|reflexivity]).
  assert (S1 : shifted (d_arr d) i (S n) e2 w1).
  { unfold w1. cbn [run exec]. unfold with_doc_at. rewrite D, G3.
    rewrite (find_key_spec grow) by exact G4.
    assert (Ix : s_idx (key e1) l = Some 0) by (unfold l; cbn [s_idx]; now rewrite (proj2 (bytes_eqb_eq (key e1) (key e1)) eq_refl)).
    rewrite Ix. cbn [fst Nat.add].
    unfold remove. split; [cbn [w_heap]; now rewrite upd_length|]. split; [exact K2|].
    set (d2 := MkDoc _ _ _ _). exists d2, ((e3 :: r) ++ [last (e3 :: r) e3]), (skipn (d_len d) (h_arr (w_heap w) (d_arr d))).
    split; [cbn [w_docs]; rewrite upd_eq; [reflexivity|exact (some_lt _ _ _ D)]|]. split; [reflexivity|].
    split; [cbn; rewrite Ln; unfold l; cbn; lia|]. split.
    - cbn [w_heap]. rewrite h_arr_upd_eq by auto. set (ar := h_arr (w_heap w) (d_arr d)) in *.
      assert (Ar : ar = some l ++ skipn (d_len d) ar) by (rewrite <- (firstn_skipn (d_len d) ar) at 1; f_equal; exact G3).
      remember (skipn (d_len d) ar) as tl eqn:Et. clear Et. rewrite Ar. cbn [firstn app]. unfold l. cbn [some map app skipn].
      rewrite Ln. unfold l. cbn [length Nat.sub].
      rewrite map_app, <- app_assoc. rewrite <- (skipn_last r e3 e3 tl).
      change (Some e2 :: Some e3 :: map Some r ++ skipn (length r) (Some e3 :: map Some r ++ tl))
        with (some (e2 :: e3 :: r) ++ skipn (length r) (Some e3 :: map Some r ++ tl)).
      apply (f_equal (fun x => x ++ skipn (length r) (Some e3 :: map Some r ++ tl))).
      change (Some e2 :: Some e3 :: map Some r ++ tl) with (some (e2 :: e3 :: r) ++ tl).
      rewrite firstn_app, firstn_all2 by (unfold some; rewrite map_length; cbn; lia).
      replace (S (S (length r)) - length (some (e2 :: e3 :: r))) with 0 by (unfold some; rewrite map_length; cbn; lia).
      apply app_nil_r.
    - split; [rewrite app_length; cbn; unfold n; lia|]. apply Forall_app. split.
      + apply Forall_forall. intros e He. split; [|now apply Ne]. rewrite Forall_forall in K''. now apply K''.
      + repeat constructor.
        * rewrite Forall_forall in K''. apply K''. destruct (exists_last (l := e3 :: r)) as (q & z & Z); [discriminate|].
          rewrite Z, last_last. apply in_or_app. right. now left.
        * apply Ne. destruct (exists_last (l := e3 :: r)) as (q & z & Z); [discriminate|].
          rewrite Z, last_last. apply in_or_app. right. now left. }
  assert (Q : forall m w j seen, 1 <= j -> j + m = S n -> shifted (d_arr d) i (S n) e2 w ->
    let '(w', ys) := loop grow fuel (delete_each i) w (d_arr d) j m seen in
    (~ In (Some e2) (map snd seen) -> ~ In (Some e2) (map snd ys)) /\ shifted (d_arr d) i (S n) e2 w' /\
    exists os, Forall op_ok os /\ w' = fst (run grow fuel w os)).
  { clear. induction m as [|m IH]; intros w j seen Lj Lm Sh; cbn [loop].
    - split; [auto|]. split; [exact Sh|]. exists []. auto.
    - unfold delete_each at 1. rewrite last_app1. cbn [snd].
      pose proof Sh as (La & K2 & d' & rest & tail & D & Da & Dl & Ar & Lr & F).
      assert (P : exists e, nth j (h_arr (w_heap w) (d_arr d)) None = Some e /\ key e <> key e2).
      { rewrite Ar. rewrite app_nth1 by (unfold some; rewrite map_length; cbn; lia). destruct j as [|j]; [lia|].
        unfold some. cbn [map nth]. destruct (nth_error rest j) as [e|] eqn:Nj; [|apply nth_error_None in Nj; lia].
        exists e. split; [|apply nth_error_In in Nj; rewrite Forall_forall in F; now apply F].
        apply nth_error_nth. rewrite nth_error_map, Nj. reflexivity. }
      destruct P as (e & -> & Nk). cbn [the_key].
      pose proof (delete_shifted grow fuel (d_arr d) i (S n) e2 (key e) w Nk Sh) as Sh'.
      assert (Rn : fst (run grow fuel w [ODelete i (key e)]) = fst (exec grow fuel w (ODelete i (key e)))).
      { cbn [run]. now destruct (exec grow fuel w (ODelete i (key e))). }
      rewrite Rn. specialize (IH (fst (exec grow fuel w (ODelete i (key e)))) (Datatypes.S j) (seen ++ [(w, Some e)]) ltac:(lia) ltac:(lia) Sh').
      destruct (loop _ _ _ _ _ _ _ _) as [w' ys]. destruct IH as (H1 & H2 & os & O & H3). split; [|split; [exact H2|]].
      + intros Ni. apply H1. rewrite map_app, in_app_iff. intros [Z|Z]; [now apply Ni|]. cbn in Z.
        destruct Z as [Z|[]]. injection Z as ->. now apply Nk.
      + exists (ODelete i (key e) :: os). split; [constructor; [exact Logic.I|exact O]|]. rewrite H3. cbn [run].
        destruct (exec grow fuel w (ODelete i (key e))) as [wx rx]. cbn [fst]. now destruct (run grow fuel wx os). }
  specialize (Q n w1 1 [(w, Some e1)] ltac:(lia) ltac:(lia) S1).
  destruct (loop _ _ _ _ _ _ _ _) as [w' ys]. destruct Q as (H1 & H2 & os & O & H3). split.
  - apply H1. cbn. intros [Z|[]]. injection Z as ->. apply N1. now left.
  - destruct H2 as (La & _ & d' & rest & tail & D' & Da & Dl & Ar & Lr & F).
    assert (I' : exists s', inv w' s').
    { pose proof (run_refines grow fuel (ODelete i (key e1) :: os) w s I ltac:(constructor; [exact Logic.I|exact O])) as Q.
      assert (W' : fst (run grow fuel w (ODelete i (key e1) :: os)) = w').
      { rewrite H3. unfold w1. cbn [run]. destruct (exec grow fuel w (ODelete i (key e1))) as [wx rx]. cbn [fst]. now destruct (run grow fuel wx os). }
      destruct (run grow fuel w (ODelete i (key e1) :: os)) as [wz rz]. destruct (s_run fuel s (ODelete i (key e1) :: os)) as [sz tz]. cbn [fst] in W'. rewrite W' in Q. exists sz. apply Q. }
    destruct I' as [s' I']. pose proof I' as (Ls & _ & H). destruct (H _ _ D') as (y & Ey & (_ & _ & Gy & _)).
    pose proof (inv_shows _ _ _ _ I' Ey) as Sy. unfold elems in Gy. rewrite Da, Ar in Gy.
    destruct (d_len d') as [|q]; [lia|]. cbn in Gy. destruct (s_elems y) as [|z zs] eqn:Ez; [discriminate|].
    cbn in Gy. injection Gy as <- _. eauto.
Qed.
Print Assumptions C108_delete_refuted.

(* What to do instead: loop over a copy.  Everything is deleted, also when keys repeat. *)
Theorem C108_delete_from_copy : forall grow fuel w i l,
  reachable grow fuel w -> shows_list w i l ->
  let w1 := fst (exec grow fuel w (OCopy i)) in
  let j := length (w_docs w) in
  shows_list w1 j l /\
  let '(w', ys) := range_over grow fuel (delete_each i) w1 j in
  map snd ys = map Some l /\ shows_list w' i [] /\ shows_list w' j l.
Proof.
  intros grow fuel w i l R Sl w1 j. destruct (reachable_inv _ _ _ R) as [s I].
  destruct (shows_inv _ _ _ _ I Sl) as (x & E & El).
  pose proof (exec_refines grow fuel w s (OCopy i) I Logic.I) as Rf. cbn [s_exec] in Rf. unfold s_at in Rf. rewrite E in Rf.
  unfold w1. destruct (exec grow fuel w (OCopy i)) as [wc rc] eqn:Ec. cbn [fst]. clear w1. destruct Rf as [Ic _]. rewrite El in Ic.
  assert (Lj : j = length s) by (destruct I as [L _]; unfold j; lia).
  assert (Ej : nth_error (s ++ [MkS l None]) j = Some (MkS l None)) by (rewrite Lj, nth_error_app2, Nat.sub_diag by lia; reflexivity).
  assert (Ei : nth_error (s ++ [MkS l None]) i = Some x) by (rewrite nth_error_app1 by exact (some_lt _ _ _ E); exact E).
  assert (Nij : i <> j) by (pose proof (some_lt _ _ _ E); lia).
  split; [exact (inv_shows _ _ _ _ Ic Ej)|].
  destruct (inv_at _ _ _ _ Ic Ej) as (d & D & G1 & G2 & G3 & G4 & _). cbn [s_elems] in *.
  pose proof (elems_length _ _ _ G2 G3) as Ln.
  assert (K : keep (d_arr d) j (length l) wc).
  { split; [exact G1|]. intros k dk Dk Ea. destruct (Nat.eq_dec k j) as [->|N]; [rewrite D in Dk; injection Dk as <-; split; [reflexivity|lia]|].
    exfalso. destruct Ic as (_ & Dis & _). exact (Dis _ _ _ _ Dk D N Ea). }
  unfold range_over. rewrite D, Ln.
  assert (Q : forall n w s k seen, k + n = length l -> keep (d_arr d) j (length l) w ->
    firstn (length l) (h_arr (w_heap w) (d_arr d)) = some l -> inv w s ->
    (exists m, nth_error s i = Some (MkS (skipn k l) m)) -> nth_error s j = Some (MkS l None) ->
    let '(w', ys) := loop grow fuel (delete_each i) w (d_arr d) k n seen in
    map snd ys = map snd seen ++ map Some (skipn k l) /\ shows_list w' i [] /\ shows_list w' j l).
  { clear - Nij. clearbody j. clear w. induction n as [|n IH]; intros w s k seen L K F I (m & Ei) Ej; cbn [loop].
    - replace k with (length l) in * by lia. rewrite skipn_all in *. cbn [map]. rewrite app_nil_r. split; [reflexivity|].
      split; [exact (inv_shows _ _ _ _ I Ei)|exact (inv_shows _ _ _ _ I Ej)].
    - unfold delete_each at 1. rewrite last_app1. cbn [snd].
      destruct (nth_error l k) as [e|] eqn:Ne; [|apply nth_error_None in Ne; lia].
      assert (P : nth k (h_arr (w_heap w) (d_arr d)) None = Some e).
      { rewrite <- (nth_of_firstn _ (length l)) by lia. rewrite F. rewrite (nth_some grow); [exact Ne|exact (some_lt _ _ _ Ne)]. }
      rewrite P. cbn [the_key].
      pose proof (exec_refines grow fuel w s (ODelete i (key e)) I Logic.I) as Rf.
      destruct (exec_kept grow fuel (d_arr d) j (length l) w (ODelete i (key e)) Nij K) as [F' K'].
      assert (Rn : fst (run grow fuel w [ODelete i (key e)]) = fst (exec grow fuel w (ODelete i (key e)))).
      { cbn [run]. now destruct (exec grow fuel w (ODelete i (key e))). }
      rewrite Rn. destruct (exec grow fuel w (ODelete i (key e))) as [w' r']. cbn [fst] in *.
      cbn [s_exec] in Rf. unfold s_at in Rf. rewrite Ei in Rf. destruct Rf as [I' _]. cbn [s_elems s_memo] in I'.
      rewrite (skipn_nth_error _ _ _ Ne) in *. cbn [s_delete] in I'. rewrite (proj2 (bytes_eqb_eq (key e) (key e)) eq_refl) in I'.
      match type of I' with inv w' ?s' => specialize (IH w' s' (S k) (seen ++ [(w, Some e)])) end.
      destruct (loop _ _ _ _ _ _ _ _) as [w2 ys].
      rewrite map_app in IH. cbn [map snd] in IH. rewrite <- app_assoc in IH. apply IH; auto; [lia|congruence| |].
      + unfold s_put. rewrite nth_error_replace_eq by exact (some_lt _ _ _ Ei). eauto.
      + unfold s_put. rewrite nth_error_replace_neq; [exact Ej|exact (some_lt _ _ _ Ei)|auto]. }
  specialize (Q (length l) wc _ 0 [] eq_refl K ltac:(rewrite <- Ln; exact G3) Ic).
  destruct (loop _ _ _ _ _ _ _ _) as [w' ys]. apply Q; [|exact Ej]. exists (s_memo x). rewrite Ei. cbn [skipn]. rewrite <- El. now destruct x.
Qed.
Print Assumptions C108_delete_from_copy.

(* Reset while looping: the elements still to come are all yielded as nil pointers. *)
Definition reset_first (i : nat) : bodies := fun seen => (if length seen =? 1 then [OReset i] else [], true).
Theorem C108_reset_refuted : forall grow fuel w i e l,
  reachable grow fuel w -> shows_list w i (e :: l) ->
  yields grow fuel (reset_first i) w i = Some e :: repeat None (length l).
Proof.
  intros grow fuel w i e l R Sl. destruct (reachable_inv _ _ _ R) as [s I].
  destruct (shows_inv _ _ _ _ I Sl) as (x & E & El). destruct (inv_at _ _ _ _ I E) as (d & D & G1 & G2 & G3 & _).
  pose proof (elems_length _ _ _ G2 G3) as Ln. rewrite El in *. unfold yields, range_over. rewrite D, Ln.
  assert (P0 : nth 0 (h_arr (w_heap w) (d_arr d)) None = Some e).
  { rewrite <- (nth_of_firstn _ (d_len d)) by (rewrite Ln; cbn; lia). unfold elems in G3. rewrite G3. reflexivity. }
  cbn [length loop app]. rewrite P0. unfold reset_first at 1. cbn [length Nat.eqb].
  cbn [run exec]. unfold with_doc_at. rewrite D. cbn [fst]. set (w1 := MkW _ _).
  assert (A : forall k, k < d_len d -> nth k (h_arr (w_heap w1) (d_arr d)) None = None).
  { intros k Lk. unfold w1. cbn [w_heap]. rewrite h_arr_upd_eq by auto. rewrite app_nth1 by (rewrite repeat_length; lia). apply nth_repeat. }
  assert (Q : forall n k seen, 1 <= length seen -> k + n <= d_len d ->
    map snd (snd (loop grow fuel (reset_first i) w1 (d_arr d) k n seen)) = map snd seen ++ repeat None n).
  { clear - A. induction n as [|n IH]; intros k seen Ls Lk; cbn [loop]; [cbn; now rewrite app_nil_r|].
    unfold reset_first at 1. rewrite app_length. cbn [length]. destruct (Nat.eqb_spec (length seen + 1) 1) as [Z|Z]; [lia|].
    cbn [run fst]. rewrite IH by (try rewrite app_length; cbn; lia). rewrite (A k) by lia. rewrite map_app, <- app_assoc. reflexivity. }
  rewrite Q; [reflexivity|cbn; lia|rewrite Ln; cbn; lia].
Qed.
Print Assumptions C108_reset_refuted.

(* Whether a replaced element is yielded after something was added depends on the capacity the
   document was made with, which nothing shows. *)
Definition add_then_set : bodies := fun seen =>
  (if length seen =? 1 then [OAppend 0 [Some (e_int [99%Z] 3)]; OSet 0 (Some (e_int k_b 9))] else [], true).
Theorem C108_capacity_refuted : exists w w', reachable (fun n => n) 100 w /\ reachable (fun n => n) 100 w' /\
  shown w = shown w' /\
  shown (fst (range_over (fun n => n) 100 add_then_set w 0)) = shown (fst (range_over (fun n => n) 100 add_then_set w' 0)) /\
  yields (fun n => n) 100 add_then_set w 0 = [Some (e_int k_a 1); Some (e_int k_b 2)] /\
  yields (fun n => n) 100 add_then_set w' 0 = [Some (e_int k_a 1); Some (e_int k_b 9)].
Proof.
  assert (K : keyed (e_int k_a 1) /\ keyed (e_int k_b 2)) by (split; [exists k_a|exists k_b]; vm_compute; reflexivity).
  exists (fst (run (fun n => n) 100 w0 [ONew 2; OAppend 0 [Some (e_int k_a 1); Some (e_int k_b 2)]])).
  exists (fst (run (fun n => n) 100 w0 [ONew 3; OAppend 0 [Some (e_int k_a 1); Some (e_int k_b 2)]])).
  destruct K as [K1 K2].
  split; [eexists; split; [|reflexivity]; repeat (constructor; cbn; auto)|].
  split; [eexists; split; [|reflexivity]; repeat (constructor; cbn; auto)|].
  split; [vm_compute; reflexivity|]. split; [vm_compute; reflexivity|]. split; vm_compute; reflexivity.
Qed.
Print Assumptions C108_capacity_refuted.

(* Concrete cases: a document of three elements, looped over while it is added to, while it is
   replaced in, and while it is deleted from. *)
Definition abc : list elem := [e_int k_a 1; e_int k_b 2; e_int [99%Z] 3].
Definition w_abc : world := fst (run (fun n => n) 100 w0 [ONew 4; OAppend 0 (map Some abc)]).
Lemma abc_reachable : reachable (fun n => n) 100 w_abc.
Proof.
  eexists; split; [|reflexivity]. assert (K : Forall keyed abc) by (repeat constructor; [exists k_a|exists k_b|exists [99%Z]]; vm_compute; reflexivity).
  constructor; [exact Logic.I|]. constructor; [|constructor]. cbn [op_ok]. apply Forall_map. eapply Forall_impl; [|exact K]. auto.
Qed.
Definition add_each : bodies := fun seen => ([OAppend 0 [snd (last seen (w0, None))]], true).
Definition set_next : bodies := fun seen => (if length seen =? 1 then [OSet 0 (Some (e_int k_b 9))] else [], true).
Example C108_nonvacuous :
  reachable (fun n => n) 100 w_abc /\ shows_list w_abc 0 abc /\ NoDup (map key abc) /\
  (forall seen, Forall (only_adds 0) (fst (add_each seen))) /\ never_leaves add_each /\
  does set_next (only_sets 0 abc) /\
  yields (fun n => n) 100 add_each w_abc 0 = map Some abc /\
  yields (fun n => n) 100 set_next w_abc 0 = [Some (e_int k_a 1); Some (e_int k_b 9); Some (e_int [99%Z] 3)] /\
  yields (fun n => n) 100 (delete_each 0) w_abc 0 = [Some (e_int k_a 1); Some (e_int [99%Z] 3); Some (e_int [99%Z] 3)] /\
  length (shown (fst (range_over (fun n => n) 100 add_each w_abc 0))) = 1.
Proof.
  split; [exact abc_reachable|]. split; [vm_compute; reflexivity|].
  split; [vm_compute; repeat constructor; cbn; intuition discriminate|].
  split; [intros seen; repeat constructor|]. split; [now intros seen|].
  split.
  { intros seen. unfold set_next. destruct (length seen =? 1); cbn [fst]; [|constructor]. repeat constructor.
    - exists k_b. vm_compute. reflexivity. }
  split; [vm_compute; reflexivity|]. split; [vm_compute; reflexivity|]. split; vm_compute; reflexivity.
Qed.
