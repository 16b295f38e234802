(* The document operations on backing arrays refine the operations on independent lists. *)
Require Import ZArith List Bool Lia ZifyBool ZifyNat.
From Verif Require Import Base BSpec Elements Value Api GetterProofs DocOps DocSpec.
Import ListNotations.
Open Scope Z_scope.

(* ------------------------------------------------------------------ lists *)

Lemma upd_length {A} n (x : A) l : length (upd n x l) = length l.
Proof. revert n; induction l; destruct n; cbn; auto. Qed.
Lemma upd_eq {A} n (x : A) l : (n < length l)%nat -> nth_error (upd n x l) n = Some x.
Proof. revert n; induction l; destruct n; cbn; intros; try lia; auto. apply IHl. lia. Qed.
Lemma upd_neq {A} n m (x : A) l : n <> m -> nth_error (upd n x l) m = nth_error l m.
Proof. revert n m; induction l; destruct n, m; cbn; intros; auto; try congruence. Qed.
Lemma upd_nth_neq {A} n m (x d : A) l : n <> m -> nth m (upd n x l) d = nth m l d.
Proof. revert n m; induction l; destruct n, m; cbn; intros; auto; try congruence. Qed.
Lemma upd_nth_eq {A} n (x d : A) l : (n < length l)%nat -> nth n (upd n x l) d = x.
Proof. revert n; induction l; destruct n; cbn; intros; try lia; auto. apply IHl. lia. Qed.
Lemma upd_split {A} n (x : A) l : (n < length l)%nat -> upd n x l = firstn n l ++ x :: skipn (S n) l.
Proof. revert n; induction l; destruct n; cbn; intros; try lia; auto. now rewrite IHl by lia. Qed.
Lemma upd_firstn {A} n m (x : A) l : (m <= n)%nat -> firstn m (upd n x l) = firstn m l.
Proof.
  revert n m; induction l; destruct n, m; cbn; intros; auto; try lia. now rewrite IHl by lia.
Qed.
Lemma upd_firstn_S {A} n (x : A) l : (n < length l)%nat -> firstn (S n) (upd n x l) = firstn n l ++ [x].
Proof.
  revert n; induction l; destruct n; intros H; cbn in *; try lia; auto.
  specialize (IHl n ltac:(lia)). cbn in IHl. now rewrite IHl.
Qed.
Lemma upd_firstn_lt {A} n m (x : A) l : (n < m)%nat -> firstn m (upd n x l) = upd n x (firstn m l).
Proof.
  revert n m; induction l; destruct n, m; cbn; intros; auto; try lia. now rewrite IHl by lia.
Qed.
Lemma upd_map {A B} (f : A -> B) n x l : upd n (f x) (map f l) = map f (upd n x l).
Proof. revert n; induction l; destruct n; cbn; auto. now rewrite IHl. Qed.
Lemma upd_replace {A} n (x : A) l : (n < length l)%nat -> upd n x l = replace_at n x l.
Proof. apply upd_split. Qed.
Lemma upd_app_l {A} n (x : A) l r : (n < length l)%nat -> upd n x (l ++ r) = upd n x l ++ r.
Proof. revert n; induction l; destruct n; cbn; intros; try lia; auto. now rewrite IHl by lia. Qed.

Lemma beq_refl a : bytes_eqb a a = true.
Proof. now apply bytes_eqb_eq. Qed.
Lemma beq_sym a b : bytes_eqb a b = bytes_eqb b a.
Proof. apply eq_true_iff_eq. rewrite !bytes_eqb_eq. firstorder. Qed.

(* ------------------------------------------------------------- invariant *)

Definition some (l : list elem) : list ptr := map (@Some elem) l.

Definition memo_ok (d : doc) (m : option (list elem)) : Prop :=
  match m with
  | Some l => d_valid d = true /\ cache_loop (some l) [] = Ret (d_cache d) /\ Forall keyed l
  | None => d_valid d = false
  end.
Definition good (w : world) (d : doc) (l : list elem) (m : option (list elem)) : Prop :=
  (d_arr d < length (w_heap w))%nat /\ (d_len d <= length (h_arr (w_heap w) (d_arr d)))%nat /\
  elems w d = some l /\ Forall keyed l /\ memo_ok d m.

Definition distinct (w : world) : Prop := forall i j di dj,
  nth_error (w_docs w) i = Some di -> nth_error (w_docs w) j = Some dj -> i <> j ->
  d_arr di <> d_arr dj.

Definition inv (w : world) (s : sworld) : Prop :=
  length (w_docs w) = length s /\ distinct w /\
  forall i d, nth_error (w_docs w) i = Some d ->
    exists x, nth_error s i = Some x /\ good w d (s_elems x) (s_memo x).

(* document i of w shows l, with memo m *)
Definition at_ (w : world) (i : nat) (l : list elem) (m : option (list elem)) : Prop :=
  exists d, nth_error (w_docs w) i = Some d /\ good w d l m.

(* w' differs from w only in what document i owns *)
Definition frame (i : nat) (w w' : world) : Prop :=
  length (w_docs w') = length (w_docs w) /\
  (length (w_heap w) <= length (w_heap w'))%nat /\
  (forall j, j <> i -> nth_error (w_docs w') j = nth_error (w_docs w) j) /\
  (forall d, nth_error (w_docs w) i = Some d ->
     (forall a, (a < length (w_heap w))%nat -> a <> d_arr d -> h_arr (w_heap w') a = h_arr (w_heap w) a) /\
     (forall d', nth_error (w_docs w') i = Some d' ->
        d_arr d' = d_arr d \/ (length (w_heap w) <= d_arr d')%nat)).

Lemma frame_refl i w : frame i w w.
Proof. repeat split; auto. intros d' H'. rewrite H in H'. injection H' as <-. auto. Qed.

Lemma frame_trans i w1 w2 w3 d1 : nth_error (w_docs w1) i = Some d1 ->
  frame i w1 w2 -> frame i w2 w3 -> frame i w1 w3.
Proof.
  intros D1 (A1 & B1 & C1 & E1) (A2 & B2 & C2 & E2).
  destruct (nth_error (w_docs w2) i) as [d2|] eqn:D2.
  2:{ apply nth_error_None in D2. assert (nth_error (w_docs w1) i <> None) by congruence.
      apply nth_error_Some in H. lia. }
  destruct (E1 _ D1) as [F1 G1]. destruct (E2 _ eq_refl) as [F2 G2].
  repeat split; try lia.
  - intros j N. rewrite C2, C1; auto.
  - intros a La Na. rewrite D1 in H. injection H as <-. specialize (G1 _ eq_refl).
    rewrite F2 by lia. auto.
  - intros d3 D3. rewrite D1 in H. injection H as <-. specialize (G1 _ eq_refl). specialize (G2 _ D3). lia.
Qed.

Lemma elems_length w d l : (d_len d <= length (h_arr (w_heap w) (d_arr d)))%nat ->
  elems w d = some l -> d_len d = length l.
Proof.
  intros L E. unfold elems in E. apply (f_equal (@length _)) in E. unfold some in E.
  rewrite map_length, firstn_length in E. lia.
Qed.

Lemma inv_at w s i x : inv w s -> nth_error s i = Some x -> at_ w i (s_elems x) (s_memo x).
Proof.
  intros (L & _ & H) E. destruct (nth_error (w_docs w) i) as [d|] eqn:D.
  - destruct (H _ _ D) as (y & Ey & G). rewrite E in Ey. injection Ey as <-. exists d. auto.
  - apply nth_error_None in D. assert (nth_error s i <> None) by congruence.
    apply nth_error_Some in H0. lia.
Qed.

Lemma good_frame i w w' j d0 d l m :
  frame i w w' -> nth_error (w_docs w) i = Some d0 -> j <> i ->
  nth_error (w_docs w) j = Some d -> d_arr d <> d_arr d0 -> good w d l m -> good w' d l m.
Proof.
  intros (A & B & C & E) D0 N Dj Na (G1 & G2 & G3 & G4 & G5).
  destruct (E _ D0) as [F _]. pose proof (F _ G1 Na) as Q.
  unfold good, elems in *. rewrite Q. repeat split; auto. lia.
Qed.

Lemma nth_error_replace_eq {A} i (x : A) s : (i < length s)%nat -> nth_error (replace_at i x s) i = Some x.
Proof. intros. rewrite <- upd_replace by auto. now apply upd_eq. Qed.
Lemma nth_error_replace_neq {A} i j (x : A) s : (i < length s)%nat -> i <> j ->
  nth_error (replace_at i x s) j = nth_error s j.
Proof. intros. rewrite <- upd_replace by auto. now apply upd_neq. Qed.
Lemma replace_length {A} i (x : A) s : (i < length s)%nat -> length (replace_at i x s) = length s.
Proof. intros. rewrite <- upd_replace by auto. apply upd_length. Qed.

Lemma some_lt {A} (l : list A) i x : nth_error l i = Some x -> (i < length l)%nat.
Proof. intros. apply nth_error_Some. congruence. Qed.

Lemma inv_update w w' s i x l m : inv w s -> nth_error s i = Some x ->
  frame i w w' -> at_ w' i l m -> inv w' (s_put s i l m).
Proof.
  intros (L & D & H) E F (d' & D' & G). pose proof (some_lt _ _ _ E) as Li.
  destruct (nth_error (w_docs w) i) as [d0|] eqn:D0.
  2:{ apply nth_error_None in D0. lia. }
  pose proof F as (FA & FB & FC & FE). destruct (FE _ D0) as [FE1 FE2].
  unfold s_put. repeat split.
  - rewrite replace_length by auto. congruence.
  - intros j k dj dk Hj Hk N.
    destruct (Nat.eq_dec j i) as [->|Nj]; destruct (Nat.eq_dec k i) as [->|Nk]; try congruence.
    + rewrite D' in Hj. injection Hj as <-. rewrite FC in Hk by auto.
      destruct (H _ _ Hk) as (y & _ & (G1 & _)). pose proof (D _ _ _ _ D0 Hk N).
      destruct (FE2 _ D'); lia.
    + rewrite D' in Hk. injection Hk as <-. rewrite FC in Hj by auto.
      destruct (H _ _ Hj) as (y & _ & (G1 & _)). pose proof (D _ _ _ _ D0 Hj ltac:(auto)).
      destruct (FE2 _ D'); lia.
    + rewrite FC in Hj, Hk by auto. eapply D; eauto.
  - intros j dj Hj. destruct (Nat.eq_dec j i) as [->|Nj].
    + rewrite D' in Hj. injection Hj as <-. eexists. split; [now apply nth_error_replace_eq|exact G].
    + rewrite FC in Hj by auto. destruct (H _ _ Hj) as (y & Ey & Gy).
      exists y. rewrite nth_error_replace_neq by auto. split; auto.
      eapply good_frame; eauto.
Qed.

(* ------------------------------------------------------------ primitives *)

Lemma h_arr_app h x a : (a < length h)%nat -> h_arr (h ++ [x]) a = h_arr h a.
Proof. intros. unfold h_arr. now apply app_nth1. Qed.
Lemma h_arr_new h x : h_arr (h ++ [x]) (length h) = x.
Proof. unfold h_arr. rewrite app_nth2, Nat.sub_diag by lia. reflexivity. Qed.
Lemma h_arr_upd_eq h a x : (a < length h)%nat -> h_arr (upd a x h) a = x.
Proof. intros. now apply upd_nth_eq. Qed.
Lemma h_arr_upd_neq h a b x : a <> b -> h_arr (upd a x h) b = h_arr h b.
Proof. intros. now apply upd_nth_neq. Qed.

Lemma memo_keep d d' m : d_cache d' = d_cache d -> d_valid d' = d_valid d -> memo_ok d m -> memo_ok d' m.
Proof. unfold memo_ok. intros -> ->. auto. Qed.

Lemma Forall_firstn {A} (P : A -> Prop) n l : Forall P l -> Forall P (firstn n l).
Proof. intros H. revert n. induction H; intros [|n]; cbn; auto. Qed.
Lemma Forall_skipn {A} (P : A -> Prop) n l : Forall P l -> Forall P (skipn n l).
Proof. intros H. revert n. induction H; intros [|n]; cbn; auto. Qed.
Lemma Forall_replace {A} (P : A -> Prop) n x l : P x -> Forall P l -> Forall P (replace_at n x l).
Proof.
  intros. apply Forall_app. split; [now apply Forall_firstn|]. constructor; auto. now apply Forall_skipn.
Qed.
Lemma Forall_delete_at {A} (P : A -> Prop) n l : Forall P l -> Forall P (delete_at n l).
Proof. intros. apply Forall_app. split; [now apply Forall_firstn|now apply Forall_skipn]. Qed.

Section Run.
Variable grow : nat -> nat.
Variable fuel : nat.
Notation push := (push grow).
Notation append_loop := (append_loop grow).
Notation append_doc := (append_doc grow).

Lemma push_at w i l m e : at_ w i l m -> keyed e ->
  at_ (push w i (Some e)) i (l ++ [e]) m /\ frame i w (push w i (Some e)).
Proof.
  intros (d & D & G1 & G2 & G3 & G4 & G5) K. unfold push. rewrite D. unfold append1.
  pose proof (some_lt _ _ _ D) as Li. pose proof (elems_length _ _ _ G2 G3) as Ll.
  destruct (d_len d <? length (h_arr (w_heap w) (d_arr d)))%nat eqn:C.
  - apply Nat.ltb_lt in C. split.
    + eexists. split; [apply upd_eq; exact Li|]. unfold good, elems; cbn [w_heap w_docs d_arr d_len].
      rewrite upd_length, h_arr_upd_eq, upd_length by auto.
      repeat split; auto; try lia.
      * rewrite upd_firstn_S by auto. unfold elems in G3. rewrite G3. unfold some. now rewrite map_app.
      * apply Forall_app; auto.
    + repeat split; cbn [w_heap w_docs]; rewrite ?upd_length; auto.
      * intros. apply upd_neq; auto.
      * intros a La Na. rewrite D in H. injection H as <-. apply h_arr_upd_neq; auto.
      * intros d' D'. rewrite D in H. injection H as <-. rewrite upd_eq in D' by auto.
        injection D' as <-. now left.
  - apply Nat.ltb_ge in C. split.
    + eexists. split; [apply upd_eq; exact Li|]. unfold good, elems; cbn [w_heap w_docs d_arr d_len].
      rewrite app_length, h_arr_new. cbn [length]. unfold elems in G3. rewrite G3.
      rewrite app_length. cbn [length]. unfold some at 1 2. rewrite map_length.
      repeat split; auto; try lia.
      * replace (S (d_len d)) with (length (some l) + 1)%nat by (unfold some; rewrite map_length; lia).
        rewrite firstn_app_2. cbn. unfold some. now rewrite map_app.
      * apply Forall_app; auto.
    + repeat split; cbn [w_heap w_docs]; rewrite ?upd_length, ?app_length; try lia.
      * intros. apply upd_neq; auto.
      * intros a La Na. apply h_arr_app; auto.
      * intros d' D'. rewrite upd_eq in D' by auto. injection D' as <-. cbn. lia.
Qed.

(* the array a2 keeps its first n entries while document i grows *)
Definition safe (w : world) (i a2 n : nat) : Prop :=
  (a2 < length (w_heap w))%nat /\
  forall d, nth_error (w_docs w) i = Some d -> d_arr d = a2 -> (n <= d_len d)%nat.

Lemma push_safe w i l m e a2 n : at_ w i l m -> keyed e -> safe w i a2 n ->
  firstn n (h_arr (w_heap (push w i (Some e))) a2) = firstn n (h_arr (w_heap w) a2) /\
  safe (push w i (Some e)) i a2 n.
Proof.
  intros (d & D & G1 & G2 & G3 & G4 & G5) K (S1 & S2). unfold push. rewrite D. unfold append1.
  pose proof (some_lt _ _ _ D) as Li. specialize (S2 _ D).
  destruct (d_len d <? length (h_arr (w_heap w) (d_arr d)))%nat eqn:C.
  - apply Nat.ltb_lt in C. unfold safe. cbn [w_heap w_docs]. rewrite upd_length. split.
    + destruct (Nat.eq_dec (d_arr d) a2) as [<-|N].
      * rewrite h_arr_upd_eq by auto. apply upd_firstn. auto.
      * now rewrite h_arr_upd_neq by auto.
    + split; auto. intros d'. rewrite upd_eq by auto. intros [= <-]. cbn. intros. specialize (S2 H). lia.
  - unfold safe. cbn [w_heap w_docs]. rewrite app_length. split.
    + now rewrite h_arr_app by auto.
    + split; [lia|]. intros d'. rewrite upd_eq by auto. intros [= <-]. cbn. lia.
Qed.

Lemma invalidate_at w i l m : at_ w i l m -> at_ (invalidate w i) i l None /\ frame i w (invalidate w i).
Proof.
  intros (d & D & G1 & G2 & G3 & G4 & G5). unfold invalidate. rewrite D.
  pose proof (some_lt _ _ _ D) as Li. split.
  - eexists. split; [apply upd_eq; exact Li|]. repeat split; auto.
  - repeat split; cbn; rewrite ?upd_length; auto.
    + intros. apply upd_neq; auto.
    + intros d' D'. rewrite D in H. injection H as <-. rewrite upd_eq in D' by auto. injection D' as <-. now left.
Qed.

Lemma invalidate_safe w i a2 n : safe w i a2 n ->
  firstn n (h_arr (w_heap (invalidate w i)) a2) = firstn n (h_arr (w_heap w) a2) /\
  safe (invalidate w i) i a2 n.
Proof.
  intros (S1 & S2). unfold invalidate. destruct (nth_error (w_docs w) i) as [d|] eqn:D.
  - cbn. split; auto. split; auto. cbn. intros d'. rewrite upd_eq by (eapply some_lt; eauto).
    intros [= <-]. cbn. auto.
  - split; auto. split; auto. intros d'. rewrite D. discriminate.
Qed.

Lemma frame_trans' i w1 w2 w3 l m : at_ w1 i l m -> frame i w1 w2 -> frame i w2 w3 -> frame i w1 w3.
Proof. intros (d & D & _). eauto using frame_trans. Qed.

Definition okp := Forall (fun p : ptr => match p with None => True | Some e => keyed e end).

Lemma before_nil_keyed ps : okp ps -> Forall keyed (before_nil ps).
Proof. induction 1 as [|[e|] r H]; cbn; auto. Qed.

Lemma append_loop_at ps : forall w i l m, at_ w i l m -> okp ps ->
  let '(w', o) := append_loop w i ps in
  at_ w' i (l ++ before_nil ps) m /\ frame i w w' /\
  o = (if any_nil ps then Panic (PErr ENilElement) else Ret tt).
Proof.
  induction ps as [|[e|] r IH]; intros w i l m A O; cbn.
  - rewrite app_nil_r. auto using frame_refl.
  - inversion O as [|? ? K O']; subst. destruct (push_at w i l m e A K) as [A1 F1].
    specialize (IH (push w i (Some e)) i (l ++ [e]) m A1 O').
    destruct (append_loop (push w i (Some e)) i r) as [w' o]. destruct IH as (A2 & F2 & ->).
    rewrite <- app_assoc in A2. split; [exact A2|]. split; [|reflexivity]. eapply frame_trans'; eauto.
  - rewrite app_nil_r. auto using frame_refl.
Qed.

Lemma append_doc_at ps w i l m : at_ w i l m -> okp ps ->
  let '(w', o) := append_doc w i ps in
  at_ w' i (l ++ before_nil ps) (if any_nil ps then m else None) /\ frame i w w' /\
  o = (if any_nil ps then Panic (PErr ENilElement) else Ret tt).
Proof.
  intros A O. unfold append_doc. pose proof (append_loop_at ps w i l m A O) as H.
  destruct (append_loop w i ps) as [w' o]. destruct H as (A1 & F1 & ->).
  destruct (any_nil ps); [auto|]. destruct (invalidate_at _ _ _ _ A1) as [A2 F2].
  split; [exact A2|]. split; [|reflexivity]. eapply frame_trans'; eauto.
Qed.

Lemma append_all ps w i l m : at_ w i l m -> Forall keyed ps ->
  let '(w', o) := append_loop w i (some ps) in
  at_ w' i (l ++ ps) m /\ frame i w w' /\ o = Ret tt.
Proof.
  intros A K. assert (O : okp (some ps)) by (unfold okp, some; now apply Forall_map).
  pose proof (append_loop_at (some ps) w i l m A O) as H.
  destruct (append_loop w i (some ps)) as [w' o].
  assert (B : before_nil (some ps) = ps) by (clear; unfold some; induction ps; cbn; congruence).
  assert (N : any_nil (some ps) = false) by (clear; unfold some; induction ps; cbn; congruence).
  now rewrite B, N in H.
Qed.

Lemma nth_firstn_some n j (arr : list ptr) (l2 : list elem) : firstn n arr = some l2 -> (j < n)%nat -> (n <= length arr)%nat ->
  exists e, nth j arr None = Some e /\ nth_error l2 j = Some e.
Proof.
  intros H L La.
  assert (Q : nth_error (firstn n arr) j = nth_error arr j)
    by (clear - L; revert j arr L; induction n; intros [|j] [|x arr] L; cbn; auto; try lia; apply IHn; lia).
  rewrite H in Q. unfold some in Q. rewrite nth_error_map in Q.
  destruct (nth_error l2 j) as [e|] eqn:E; cbn in Q.
  - exists e. split; auto. symmetry in Q. now apply nth_error_nth with (d := None) in Q.
  - symmetry in Q. apply nth_error_None in Q. unfold ptr in *. lia.
Qed.

Lemma skipn_nth_error {A} (l : list A) j e : nth_error l j = Some e -> skipn j l = e :: skipn (S j) l.
Proof.
  revert j; induction l as [|x l IH]; intros [|j] H; cbn in H; try discriminate.
  - injection H as ->. reflexivity.
  - cbn [skipn]. now apply IH.
Qed.

Lemma extend_loop_at n : forall w i a2 j l2 l m, at_ w i l m -> Forall keyed l2 ->
  safe w i a2 (j + n) -> firstn (j + n) (h_arr (w_heap w) a2) = some l2 ->
  length l2 = (j + n)%nat ->
  let '(w', o) := extend_loop grow w i a2 j n in
  at_ w' i (l ++ skipn j l2) m /\ frame i w w' /\ o = Ret tt.
Proof.
  induction n as [|n IH]; intros w i a2 j l2 l m A K S E L; cbn [extend_loop].
  - rewrite skipn_all2, app_nil_r by lia. auto using frame_refl.
  - assert (La : (j + Datatypes.S n <= length (h_arr (w_heap w) a2))%nat).
    { apply (f_equal (@length _)) in E. rewrite firstn_length in E. unfold some in E. rewrite map_length in E. lia. }
    destruct (nth_firstn_some _ j _ _ E ltac:(lia) La) as (e & -> & E2).
    assert (Ke : keyed e) by (eapply Forall_forall; [exact K|]; eapply nth_error_In; eauto).
    destruct (push_at w i l m e A Ke) as [A1 F1].
    destruct (push_safe w i l m e a2 (j + Datatypes.S n) A Ke S) as [Q S'].
    rewrite <- Nat.add_succ_comm in *.
    specialize (IH (push w i (Some e)) i a2 (Datatypes.S j) l2 (l ++ [e]) m A1 K S').
    rewrite Q in IH. specialize (IH E L).
    destruct (extend_loop grow (push w i (Some e)) i a2 (Datatypes.S j) n) as [w' o]. destruct IH as (A2 & F2 & ->).
    rewrite <- app_assoc in A2. rewrite (skipn_nth_error _ _ _ E2). split; [exact A2|]. split; [|reflexivity].
    eapply frame_trans'; eauto.
Qed.

Lemma each_append_at n : forall w i a2 j l2 l m, at_ w i l m -> Forall keyed l2 ->
  safe w i a2 (j + n) -> firstn (j + n) (h_arr (w_heap w) a2) = some l2 ->
  length l2 = (j + n)%nat ->
  let '(w', o) := each_append grow w i a2 j n in
  at_ w' i (l ++ skipn j l2) (if Nat.eqb n 0 then m else None) /\ frame i w w' /\ o = Ret tt.
Proof.
  induction n as [|n IH]; intros w i a2 j l2 l m A K S E L; cbn [each_append].
  - rewrite skipn_all2, app_nil_r by lia. auto using frame_refl.
  - assert (La : (j + Datatypes.S n <= length (h_arr (w_heap w) a2))%nat).
    { apply (f_equal (@length _)) in E. rewrite firstn_length in E. unfold some in E. rewrite map_length in E. lia. }
    destruct (nth_firstn_some _ j _ _ E ltac:(lia) La) as (e & -> & E2).
    assert (Ke : keyed e) by (eapply Forall_forall; [exact K|]; eapply nth_error_In; eauto).
    unfold append_doc. cbn [append_loop DocOps.append_loop].
    destruct (push_at w i l m e A Ke) as [A1 F1].
    destruct (push_safe w i l m e a2 (j + Datatypes.S n) A Ke S) as [Q S'].
    destruct (invalidate_at _ _ _ _ A1) as [A2 F2].
    destruct (invalidate_safe _ _ _ _ S') as [Q2 S2].
    rewrite <- Nat.add_succ_comm in *.
    specialize (IH (invalidate (push w i (Some e)) i) i a2 (Datatypes.S j) l2 (l ++ [e]) None A2 K S2).
    rewrite Q2, Q in IH. specialize (IH E L).
    destruct (each_append grow (invalidate (push w i (Some e)) i) i a2 (Datatypes.S j) n) as [w' o].
    destruct IH as (A3 & F3 & ->).
    rewrite <- app_assoc in A3. rewrite (skipn_nth_error _ _ _ E2). split.
    + cbn [Nat.eqb]. destruct (n =? 0)%nat; exact A3.
    + split; [|reflexivity]. eapply frame_trans'; [exact A|exact F1|]. eapply frame_trans'; eauto.
Qed.

Lemma omit_loop_at ps : forall w i l m, at_ w i l m -> okp ps ->
  let '(w', o) := omit_loop grow fuel w i ps in
  let '(l', o') := non_empty fuel ps in
  at_ w' i (l ++ l') (if is_nil l' then m else None) /\ frame i w w' /\ o = o'.
Proof.
  induction ps as [|[e|] r IH]; intros w i l m A O; cbn [omit_loop non_empty].
  - rewrite app_nil_r. cbn. auto using frame_refl.
  - inversion O as [|? ? K O']; subst. destruct (v_is_empty fuel e) as [[|]|p|].
    + now apply IH.
    + unfold append_doc. cbn [append_loop DocOps.append_loop].
      destruct (push_at w i l m e A K) as [A1 F1]. destruct (invalidate_at _ _ _ _ A1) as [A2 F2].
      specialize (IH _ _ _ _ A2 O').
      destruct (omit_loop grow fuel (invalidate (push w i (Some e)) i) i r) as [w' o].
      destruct (non_empty fuel r) as [l' o']. destruct IH as (A3 & F3 & ->).
      rewrite <- app_assoc in A3. cbn [is_nil]. split; [|split; [|reflexivity]].
      * destruct (is_nil l'); exact A3.
      * eapply frame_trans'; [exact A|exact F1|]. eapply frame_trans'; eauto.
    + rewrite app_nil_r. cbn. auto using frame_refl.
    + rewrite app_nil_r. cbn. auto using frame_refl.
  - inversion O; subst. now apply IH.
Qed.

Lemma arr_new_loop_at vs : forall w i l, at_ w i l None -> Forall keyed vs ->
  at_ (arr_new_loop grow w i vs) i (l ++ vs) None /\ frame i w (arr_new_loop grow w i vs).
Proof.
  induction vs as [|v r IH]; intros w i l A K; cbn [arr_new_loop].
  - rewrite app_nil_r. auto using frame_refl.
  - inversion K; subst. destruct (push_at w i l None v A) as [A1 F1]; auto.
    destruct (invalidate_at _ _ _ _ A1) as [A2 F2]. destruct (IH _ _ _ A2 H2) as [A3 F3].
    rewrite <- app_assoc in A3. split; [exact A3|].
    eapply frame_trans'; [exact A|exact F1|]. eapply frame_trans'; eauto.
Qed.

Lemma store_at w i d l m n e : nth_error (w_docs w) i = Some d -> good w d l m -> keyed e ->
  (n < length l)%nat ->
  at_ (store w d n (Some e)) i (replace_at n e l) m /\ frame i w (store w d n (Some e)).
Proof.
  intros D (G1 & G2 & G3 & G4 & G5) K L. unfold store. pose proof (elems_length _ _ _ G2 G3) as Ll. split.
  - exists d. split; [exact D|]. unfold good, elems; cbn [w_heap w_docs d_arr d_len].
    rewrite upd_length, h_arr_upd_eq, upd_length by auto. repeat split; auto.
    + rewrite upd_firstn_lt by lia. unfold elems in G3. rewrite G3. unfold some.
      rewrite upd_map, upd_replace by auto. reflexivity.
    + apply Forall_replace; auto.
  - repeat split; cbn; rewrite ?upd_length; auto.
    + intros a La Na. rewrite D in H. injection H as <-. apply h_arr_upd_neq; auto.
    + intros d' D'. rewrite H in D'. injection D' as <-. now left.
Qed.

Lemma remove_at_ w i d l m n : nth_error (w_docs w) i = Some d -> good w d l m -> (n < length l)%nat ->
  at_ (remove w i d n) i (delete_at n l) m /\ frame i w (remove w i d n).
Proof.
  intros D (G1 & G2 & G3 & G4 & G5) L. unfold remove. pose proof (elems_length _ _ _ G2 G3) as Ll.
  pose proof (some_lt _ _ _ D) as Li. set (a := h_arr (w_heap w) (d_arr d)) in *.
  set (a' := firstn n a ++ firstn (d_len d - S n) (skipn (S n) a) ++ skipn (d_len d - 1) a).
  assert (E : firstn (d_len d) a = some l) by exact G3.
  assert (La : length a' = length a).
  { unfold a'. rewrite !app_length, !firstn_length, !skipn_length. lia. }
  assert (E' : firstn (d_len d - 1) a' = some (delete_at n l)).
  { unfold a'. rewrite app_assoc, firstn_app.
    assert (Lb : length (firstn n a ++ firstn (d_len d - S n) (skipn (S n) a)) = (d_len d - 1)%nat)
      by (rewrite app_length, !firstn_length, skipn_length; lia).
    rewrite Lb, Nat.sub_diag. cbn [firstn]. rewrite app_nil_r, firstn_all2 by (rewrite Lb; lia).
    unfold delete_at, some. rewrite map_app, <- firstn_map, <- skipn_map. fold (some l). rewrite <- E.
    rewrite firstn_firstn. replace (Nat.min n (d_len d)) with n by lia.
    rewrite skipn_firstn_comm. reflexivity. }
  split.
  - eexists. split; [apply upd_eq; exact Li|]. unfold good, elems; cbn [w_heap w_docs d_arr d_len].
    rewrite upd_length, h_arr_upd_eq by auto. rewrite La. repeat split; auto; try lia.
    now apply Forall_delete_at.
  - repeat split; cbn [w_heap w_docs]; rewrite ?upd_length; auto.
    + intros. apply upd_neq; auto.
    + intros b Lb Nb. rewrite D in H. injection H as <-. apply h_arr_upd_neq; auto.
    + intros d' D'. rewrite D in H. injection H as <-. rewrite upd_eq in D' by auto. injection D' as <-. now left.
Qed.

Lemma alloc_inv w s cap n l : inv w s -> (n <= length cap)%nat -> firstn n cap = some l -> Forall keyed l ->
  let '(w', i) := alloc w cap n in inv w' (s ++ [MkS l None]) /\ i = length s /\ at_ w' i l None.
Proof.
  intros (L & D & H) Lc E K. unfold alloc.
  assert (G : good (MkW (w_heap w ++ [cap]) (w_docs w ++ [MkDoc (length (w_heap w)) n [] false]))
      (MkDoc (length (w_heap w)) n [] false) l None).
  { unfold good, elems. cbn [w_heap d_arr d_len]. rewrite h_arr_new, app_length. cbn [length].
    repeat split; auto. lia. }
  split; [|split].
  - split; [cbn [w_docs]; rewrite !app_length; cbn; lia|]. split.
    + intros i j di dj. cbn [w_docs]. intros Hi Hj N.
      destruct (Nat.lt_ge_cases i (length (w_docs w))) as [Li|Li];
      destruct (Nat.lt_ge_cases j (length (w_docs w))) as [Lj|Lj].
      * rewrite nth_error_app1 in Hi, Hj by auto. eauto.
      * rewrite nth_error_app1 in Hi by auto. rewrite nth_error_app2 in Hj by auto.
        destruct (H _ _ Hi) as (x & _ & G1 & _).
        destruct (j - length (w_docs w))%nat as [|q]; cbn in Hj; [|now destruct q].
        injection Hj as <-. cbn. lia.
      * rewrite nth_error_app2 in Hi by auto. rewrite nth_error_app1 in Hj by auto.
        destruct (H _ _ Hj) as (x & _ & G1 & _).
        destruct (i - length (w_docs w))%nat as [|q]; cbn in Hi; [|now destruct q].
        injection Hi as <-. cbn. lia.
      * apply some_lt in Hi. apply some_lt in Hj. rewrite app_length in *. cbn in *. lia.
    + intros i d. cbn [w_docs]. intros Hi.
      destruct (Nat.lt_ge_cases i (length (w_docs w))) as [Li|Li].
      * rewrite nth_error_app1 in Hi by auto. destruct (H _ _ Hi) as (x & Ex & G1 & G2 & G3 & G4 & G5).
        exists x. rewrite nth_error_app1 by lia. split; auto.
        unfold good, elems in *. cbn [w_heap]. rewrite h_arr_app, app_length by auto. repeat split; auto. lia.
      * rewrite nth_error_app2 in Hi by auto. rewrite nth_error_app2 by lia.
        replace (i - length s)%nat with (i - length (w_docs w))%nat by lia.
        destruct (i - length (w_docs w))%nat as [|q]; cbn in Hi |- *; [|now destruct q].
        injection Hi as <-. eexists. split; [reflexivity|exact G].
  - exact L.
  - eexists. split; [|exact G]. cbn [w_docs]. rewrite nth_error_app2, Nat.sub_diag by lia. reflexivity.
Qed.

Lemma reset_at w i d l m : nth_error (w_docs w) i = Some d -> good w d l m ->
  let w' := fst (exec grow fuel w (OReset i)) in at_ w' i [] None /\ frame i w w'.
Proof.
  intros D (G1 & G2 & G3 & G4 & G5). cbn. unfold with_doc_at. rewrite D. cbn.
  pose proof (some_lt _ _ _ D) as Li. split.
  - eexists. split; [apply upd_eq; exact Li|]. unfold good, elems; cbn [w_heap w_docs d_arr d_len].
    rewrite upd_length, h_arr_upd_eq by auto. repeat split; auto. lia.
  - repeat split; cbn [w_heap w_docs]; rewrite ?upd_length; auto.
    + intros. apply upd_neq; auto.
    + intros b Lb Nb. rewrite D in H. injection H as <-. apply h_arr_upd_neq; auto.
    + intros d' D'. rewrite D in H. injection H as <-. rewrite upd_eq in D' by auto. injection D' as <-. now left.
Qed.

Lemma fresh_at w i d l m : nth_error (w_docs w) i = Some d -> good w d l m ->
  let w' := MkW (w_heap w ++ [repeat None 128])
              (upd i (MkDoc (length (w_heap w)) 0 (d_cache d) (d_valid d)) (w_docs w)) in
  at_ w' i [] m /\ frame i w w'.
Proof.
  intros D (G1 & G2 & G3 & G4 & G5). pose proof (some_lt _ _ _ D) as Li. cbn zeta. split.
  - eexists. split; [apply upd_eq; exact Li|]. unfold good, elems; cbn [w_heap w_docs d_arr d_len].
    rewrite app_length. cbn [length]. repeat split; auto; lia.
  - repeat split; cbn [w_heap w_docs]; rewrite ?upd_length, ?app_length; try lia.
    + intros. apply upd_neq; auto.
    + intros b Lb Nb. apply h_arr_app; auto.
    + intros d' D'. rewrite upd_eq in D' by auto. injection D' as <-. cbn. lia.
Qed.

(* ------------------------------------------------------------------ lookups *)

Fixpoint s_idx (k : bytes) (l : list elem) : option nat :=
  match l with
  | [] => None
  | e :: r => if bytes_eqb (key e) k then Some O
              else match s_idx k r with Some n => Some (S n) | None => None end
  end.

Lemma keyed_key e : keyed e -> elem_key e = Ret (key e).
Proof. intros (k & E). unfold key. now rewrite E. Qed.

Lemma find_key_spec k l : Forall keyed l -> forall i,
  find_key k (some l) i = Ret (match s_idx k l with Some n => Some (i + n)%nat | None => None end).
Proof.
  induction 1 as [|e r K _ IH]; intros i; cbn [some map find_key s_idx]; [reflexivity|].
  cbn [p_key]. rewrite keyed_key by auto. cbn [bind].
  destruct (bytes_eqb (key e) k). { now rewrite Nat.add_0_r. }
  change (map (@Some elem) r) with (some r). rewrite IH.
  destruct (s_idx k r); [|reflexivity]. do 2 f_equal. lia.
Qed.

Lemma s_idx_some k l n : s_idx k l = Some n ->
  (n < length l)%nat /\ nth_error l n = s_find k l /\ has k l = true /\
  s_delete k l = delete_at n l /\ forall e, key e = k -> s_set e l = replace_at n e l.
Proof.
  unfold has. revert n. induction l as [|x r IH]; intros n H; [discriminate|]. cbn in *.
  destruct (bytes_eqb (key x) k) eqn:E.
  - injection H as <-. repeat split; auto; try lia. intros e <-. now rewrite E.
  - destruct (s_idx k r) as [q|]; [|discriminate]. injection H as <-.
    destruct (IH _ eq_refl) as (A & B & C & D & F). repeat split; auto; try lia.
    + cbn. now rewrite D.
    + intros e <-. rewrite E. cbn. now rewrite (F e eq_refl).
Qed.
Lemma s_idx_none k l : s_idx k l = None ->
  s_find k l = None /\ s_delete k l = l /\ forall e, key e = k -> s_set e l = l ++ [e].
Proof.
  induction l as [|x r IH]; intros H; [auto|]. cbn in *.
  destruct (bytes_eqb (key x) k) eqn:E; [discriminate|].
  destruct (s_idx k r) as [q|]; [discriminate|]. destruct (IH eq_refl) as (A & B & C).
  repeat split; auto.
  - now rewrite B.
  - intros e <-. rewrite E. now rewrite (C e eq_refl).
Qed.

Lemma nth_some n l : (n < length l)%nat -> nth n (some l) None = nth_error l n.
Proof.
  intros H. unfold some. revert n H. induction l as [|x r IH]; intros n H; [cbn in H; lia|].
  destruct n; cbn; auto. apply IH. cbn in H. lia.
Qed.

(* ------------------------------------------------------------------ the cache *)

Lemma NoDup_snoc {A} (l : list A) x : NoDup l -> ~ In x l -> NoDup (l ++ [x]).
Proof.
  intros H N. induction H as [|y l Hy Hl IH]; cbn; [constructor; [tauto|constructor]|].
  constructor.
  - rewrite in_app_iff. cbn in *. intros [|[->|[]]]; tauto.
  - apply IH. cbn in N. tauto.
Qed.
Lemma map_put_new m k e : map_get m k = None -> map_put m k e = m ++ [(k, e)].
Proof.
  unfold map_get. induction m as [|[k' e'] r IH]; cbn; auto. destruct (bytes_eqb k' k); [discriminate|].
  intros H. now rewrite IH.
Qed.
Lemma map_get_app m1 m2 k :
  map_get (m1 ++ m2) k = match map_get m1 k with Some e => Some e | None => map_get m2 k end.
Proof.
  unfold map_get. induction m1 as [|[k' e'] r IH]; cbn; [reflexivity|].
  destruct (bytes_eqb k' k); auto.
Qed.
Lemma map_get_none m k : map_get m k = None <-> ~ In k (map fst m).
Proof.
  unfold map_get. induction m as [|[k' e'] r IH]; cbn; [tauto|].
  destruct (bytes_eqb k' k) eqn:E.
  - apply bytes_eqb_eq in E. subst. split; [discriminate|tauto].
  - rewrite IH. split; intros H; [|tauto]. intros [->|H']; [now rewrite beq_refl in E|tauto].
Qed.

Lemma cache_loop_spec l : Forall keyed l -> forall m0, NoDup (map fst m0) ->
  exists m, cache_loop (some l) m0 = Ret m /\ NoDup (map fst m) /\
    forall k, map_get m k = match map_get m0 k with Some e => Some e | None => s_find k l end.
Proof.
  induction 1 as [|e r K _ IH]; intros m0 N; cbn [some map cache_loop s_find].
  - exists m0. repeat split; auto. intros k. now destruct (map_get m0 k).
  - change (map (@Some elem) r) with (some r). cbn [p_key]. rewrite keyed_key by auto. cbn [bind].
    destruct (map_get m0 (key e)) as [x|] eqn:E.
    + destruct (IH m0 N) as (m & Em & Nm & Hm). exists m. repeat split; auto.
      intros k. rewrite Hm. destruct (map_get m0 k) eqn:E2; auto.
      destruct (bytes_eqb (key e) k) eqn:B; auto. apply bytes_eqb_eq in B. congruence.
    + rewrite map_put_new by auto.
      destruct (IH (m0 ++ [(key e, e)])) as (m & Em & Nm & Hm).
      { rewrite map_app. cbn. apply NoDup_snoc; [exact N|]. now apply map_get_none. }
      exists m. repeat split; auto. intros k. rewrite Hm, map_get_app.
      destruct (map_get m0 k) eqn:E2; auto. unfold map_get at 1. cbn [find fst].
      destruct (bytes_eqb (key e) k); reflexivity.
Qed.

Lemma cache_indexes l m : Forall keyed l -> cache_loop (some l) [] = Ret m -> indexes m l.
Proof.
  intros K E. destruct (cache_loop_spec l K []) as (m' & E' & N & H); [constructor|].
  rewrite E in E'. injection E' as <-. split; auto.
Qed.
Lemma cache_total l : Forall keyed l -> exists m, cache_loop (some l) [] = Ret m.
Proof. intros K. destruct (cache_loop_spec l K []) as (m' & E' & _); [constructor|]. eauto. Qed.

(* ------------------------------------------------------------ elements read *)

Lemma find_nul_lt l n : find_nul l = Some n -> 0 <= n < zlen l.
Proof.
  revert n. induction l as [|b r IH]; cbn; intros n H; [discriminate|].
  destruct (b =? 0); [injection H as <-; zl|]. destruct (find_nul r) as [q|]; [|discriminate].
  injection H as <-. specialize (IH _ eq_refl). zl.
Qed.

Lemma rd_step_keyed r pos ende p v : 0 <= pos -> is_u32 ende -> rd_step r pos ende = Ret (RElem p v) -> keyed (Some v).
Proof.
  intros P U H. unfold rd_step in H. destruct (ende <=? pos) eqn:C; [discriminate|].
  destruct (goindex r pos) as [b| |]; cbn in H; try discriminate.
  destruct (b =? 0); [discriminate|]. unfold is_u32 in U.
  rewrite (u32_id (pos + 1)) in H by (unfold is_u32; lia). unfold rd_validate_key in H.
  destruct (find_nul (slice r (pos + 1) ende)) as [n|] eqn:F.
  - cbn in H. apply find_nul_lt in F.
    destruct (validate_core _ _ _ _ _ _) as [[q [e|]]| |]; cbn in H; try discriminate.
    injection H as _ <-. 
    assert (L : 0 <= n /\ pos + 2 + n <= ende /\ pos + 2 + n <= zlen r).
    { unfold slice, zlen in F. rewrite firstn_length, skipn_length in F. unfold zlen. lia. }
    rewrite (u32_id (pos + 1 + (n + 1))) by (unfold is_u32; lia). eexists. cbn [elem_key].
    replace (pos + 1 + (n + 1) =? 0) with false by lia.
    rewrite (u32_id (pos + 1)), (u32_id (pos + 1 + (n + 1) - 1)) by (unfold is_u32; lia). apply goslice_ok; lia.
  - destruct ((ende <=? zlen r) || (pos + 1 =? ende)); discriminate.
Qed.

Lemma rd_step_pos r pos ende p v : rd_step r pos ende = Ret (RElem p v) -> 0 <= p.
Proof.
  intros H. unfold rd_step in H. destruct (ende <=? pos); [discriminate|].
  destruct (goindex r pos) as [b| |]; cbn in H; try discriminate.
  destruct (b =? 0); [discriminate|].
  destruct (rd_validate_key _ _ _) as [[n [e|]]| |]; cbn in H; try discriminate.
  destruct (validate_core _ _ _ _ _ _) as [[q [e|]]| |]; cbn in H; try discriminate.
  injection H as <- _. apply u32_range.
Qed.

Lemma um_loop_keyed f : forall r pos ende, 0 <= pos -> is_u32 ende -> Forall keyed (fst (um_loop f r pos ende)).
Proof.
  induction f as [|f IH]; intros r pos ende P U; cbn; [constructor|].
  destruct (rd_step r pos ende) as [[q e|q|q v]| |] eqn:E; cbn; try constructor.
  pose proof (IH r q ende (rd_step_pos _ _ _ _ _ E) U) as H.
  destruct (um_loop f r q ende). cbn in *. constructor; auto. eapply rd_step_keyed; eauto.
Qed.
Lemma um_elems_keyed r : Forall keyed (fst (um_elems fuel r)).
Proof.
  unfold um_elems. destruct (zlen r <? 5); [constructor|].
  destruct (h <- goslice r 0 4 ;; readi32 h) as [l| |]; try constructor.
  destruct (zlen r <? l); [constructor|]. apply um_loop_keyed; [lia|]. apply u32_range.
Qed.

(* ------------------------------------------------------------- refinement *)

Lemma inv_look w s i : inv w s ->
  match nth_error s i with
  | None => nth_error (w_docs w) i = None
  | Some x => exists d, nth_error (w_docs w) i = Some d /\ good w d (s_elems x) (s_memo x)
  end.
Proof.
  intros I. destruct (nth_error s i) as [x|] eqn:E.
  - exact (inv_at _ _ _ _ I E).
  - destruct I as (L & _). apply nth_error_None in E. apply nth_error_None. lia.
Qed.

Lemma inv_same w s i x : inv w s -> nth_error s i = Some x -> inv w (s_put s i (s_elems x) (s_memo x)).
Proof. intros I E. eapply inv_update; eauto using frame_refl, inv_at. Qed.

Lemma arr_append_ok vs : Forall keyed vs ->
  okp (map (fun v : elem => match v with None => None | Some x => Some (Some x) end) vs).
Proof. induction 1 as [|[v|] r]; cbn; constructor; auto. Qed.

Lemma safe_other w s i i2 d2 x2 : inv w s -> nth_error (w_docs w) i2 = Some d2 ->
  nth_error s i2 = Some x2 -> good w d2 (s_elems x2) (s_memo x2) -> safe w i (d_arr d2) (d_len d2).
Proof.
  intros (L & D & H) D2 E2 (G1 & _). split; [exact G1|]. intros d Di Ea.
  destruct (Nat.eq_dec i i2) as [->|N].
  - rewrite Di in D2. injection D2 as <-. lia.
  - exfalso. exact (D _ _ _ _ Di D2 N Ea).
Qed.

Ltac look I i := let L := fresh "L" in
  pose proof (inv_look _ _ i I) as L; unfold with_doc_at, s_at;
  destruct (nth_error _ i) as [?x|] eqn:?E;
  [destruct L as (?d & ?D & ?G); rewrite D|rewrite L; now split].

Theorem exec_refines w s o : inv w s -> op_ok o ->
  let '(w', r) := exec grow fuel w o in
  let '(s', r') := s_exec fuel s o in
  inv w' s' /\ agrees r r'.
Proof.
  intros I O. destruct o; cbn [exec s_exec].
  - (* ONew *)
    pose proof (alloc_inv w s (repeat None cap) 0 [] I) as H. cbn [repeat length firstn] in H.
    specialize (H ltac:(lia) eq_refl (Forall_nil _)).
    destruct (alloc w (repeat None cap) 0). destruct H as (H & -> & _). split; [exact H|reflexivity].
  - (* OCopy *)
    look I d. pose proof G as (G1 & G2 & G3 & G4 & G5).
    pose proof (alloc_inv w s (firstn (d_len d0) (h_arr (w_heap w) (d_arr d0)) ++
      repeat None (length (h_arr (w_heap w) (d_arr d0)) - d_len d0)) (d_len d0) (s_elems x) I) as H.
    destruct (alloc w _ _). destruct H as (H & -> & _); auto.
    + rewrite app_length, firstn_length. lia.
    + rewrite firstn_app, firstn_firstn, Nat.min_id, firstn_length.
      replace (d_len d0 - _)%nat with 0%nat by lia. cbn. rewrite app_nil_r. exact G3.
    + split; [exact H|reflexivity].
  - (* OAppend *)
    look I d. unfold s_append. cbn [op_ok] in O.
    pose proof (append_doc_at ps w d _ _ (ex_intro _ _ (conj D G)) O) as H.
    destruct (append_doc w d ps) as [w' o]. destruct H as (A & F & ->).
    destruct (any_nil ps); cbn [lift]; (split; [eapply inv_update; eauto|reflexivity]).
  - (* OAppendOmitEmpty *)
    look I d. cbn [op_ok] in O.
    pose proof (omit_loop_at ps w d _ _ (ex_intro _ _ (conj D G)) O) as H.
    destruct (omit_loop grow fuel w d ps) as [w' o]. destruct (non_empty fuel ps) as [l o'].
    destruct H as (A & F & ->). destruct o' as [[]|p|]; cbn [lift].
    + destruct (invalidate_at _ _ _ _ A) as [A2 F2]. split; [|reflexivity].
      eapply inv_update; eauto. eapply frame_trans'; eauto. eexists; eauto.
    + split; [eapply inv_update; eauto|reflexivity].
    + split; [eapply inv_update; eauto|exact Logic.I].
  - (* OSet *)
    destruct p as [e|]; cbn [s_exec]; look I d; [|now split].
    pose proof G as (G1 & G2 & G3 & G4 & G5). inversion O as [|? ? K _]; subst.
    rewrite keyed_key by auto. cbn [bind]. rewrite G3, find_key_spec by auto.
    destruct (s_idx (key e) (s_elems x)) as [n|] eqn:N.
    + destruct (s_idx_some _ _ _ N) as (A & _ & -> & _ & B). rewrite (B e eq_refl). cbn [Nat.add].
      destruct (store_at w d d0 _ _ n e D G K A) as [A1 F1]. split; [eapply inv_update; eauto|reflexivity].
    + destruct (s_idx_none _ _ N) as (A & _ & B). unfold has. rewrite A, (B e eq_refl).
      destruct (push_at w d _ _ e (ex_intro _ _ (conj D G)) K) as [A1 F1].
      destruct (invalidate_at _ _ _ _ A1) as [A2 F2]. split; [|reflexivity].
      eapply inv_update; eauto. eapply frame_trans'; eauto. eexists; eauto.
  - (* ODelete *)
    look I d. pose proof G as (G1 & G2 & G3 & G4 & G5). rewrite G3, find_key_spec by auto.
    destruct (s_idx k (s_elems x)) as [n|] eqn:N.
    + destruct (s_idx_some _ _ _ N) as (A & B & -> & -> & _). cbn [Nat.add]. rewrite nth_some, B by auto.
      destruct (remove_at_ w d d0 _ _ n D G A) as [A1 F1]. split; [eapply inv_update; eauto|reflexivity].
    + destruct (s_idx_none _ _ N) as (A & B & _). unfold has. rewrite A, B.
      destruct (invalidate_at w d _ _ (ex_intro _ _ (conj D G))) as [A1 F1].
      split; [eapply inv_update; eauto|reflexivity].
  - (* OExtend *)
    look I d. pose proof (inv_look _ _ d2 I) as L2. fold (s_at s d2).
    destruct (nth_error s d2) as [x2|] eqn:E2; [destruct L2 as (dd & D2 & G2); rewrite D2|rewrite L2; now split].
    pose proof (safe_other w s d d2 dd x2 I D2 E2 G2) as S. destruct G2 as (H1 & H2 & H3 & H4 & H5).
    pose proof (elems_length _ _ _ H2 H3) as Ll.
    pose proof (extend_loop_at (d_len dd) w d (d_arr dd) 0 (s_elems x2) _ _ (ex_intro _ _ (conj D G)) H4 S H3 (eq_sym Ll)) as H.
    destruct (extend_loop grow w d (d_arr dd) 0 (d_len dd)) as [w' o]. destruct H as (A & F & ->).
    destruct (invalidate_at _ _ _ _ A) as [A2 F2]. cbn [skipn] in *. split; [|reflexivity].
    eapply inv_update; eauto. eapply frame_trans'; eauto. eexists; eauto.
  - (* OReset *)
    look I d. pose proof (reset_at w d d0 _ _ D G) as H. cbn in H. unfold with_doc_at in H. rewrite D in H.
    cbn in H. destruct H as [A F]. split; [eapply inv_update; eauto|reflexivity].
  - (* OUnmarshalBSON *)
    look I d. pose proof (um_elems_keyed b) as K. destruct (um_elems fuel b) as [es o]. cbn [fst] in K.
    destruct (fresh_at w d d0 _ _ D G) as [A F].
    match goal with |- context [append_loop ?w1 d _] => set (w1' := w1) in * end.
    pose proof (append_all es w1' d [] _ A K) as H. unfold some in H.
    destruct (append_loop w1' d (map Some es)) as [w' o']. destruct H as (A2 & F2 & _). cbn [fst app] in *.
    assert (Inv : inv w' (s_put s d es (s_memo x))).
    { eapply inv_update; eauto. eapply frame_trans'; eauto. eexists; eauto. }
    destruct o; cbn [ret_of bind]; split; try exact Inv; reflexivity.
  - (* OUnmarshalDocument *)
    look I d2. pose proof G as (H1 & H2 & H3 & H4 & H5). pose proof (elems_length _ _ _ H2 H3) as Ll.
    rewrite Ll. destruct (s_elems x) as [|e0 r0] eqn:Es; cbn [length is_nil]; [split; [exact I|reflexivity]|].
    pose proof (inv_look _ _ d I) as L2.
    destruct (nth_error s d) as [x1|] eqn:E1; [destruct L2 as (dd & D2 & G2); rewrite D2|rewrite L2; now split].
    rewrite <- Es in *. change (S (length r0)) with (length (e0 :: r0)). rewrite <- Es, <- Ll.
    pose proof (safe_other w s d d2 d0 x I D E G) as S.
    pose proof (each_append_at (d_len d0) w d (d_arr d0) 0 (s_elems x) _ _ (ex_intro _ _ (conj D2 G2)) H4 S H3 (eq_sym Ll)) as H.
    destruct (each_append grow w d (d_arr d0) 0 (d_len d0)) as [w' o]. destruct H as (A & F & ->).
    cbn [skipn lift] in *. replace (d_len d0 =? 0)%nat with false in A by (rewrite Ll, Es; reflexivity).
    split; [eapply inv_update; eauto|reflexivity].
  - (* OMap *)
    look I d. pose proof G as (G1 & G2 & G3 & G4 & G5).
    destruct (s_memo x) as [l|] eqn:M; cbn [memo_ok] in G5.
    + destruct G5 as (V & C & K). rewrite V. rewrite <- M. split; [now apply inv_same|].
      cbn. now apply cache_indexes.
    + rewrite G5, G3. destruct (cache_total _ G4) as (m & Em). rewrite Em. split.
      * eapply inv_update; eauto.
        -- split; [apply upd_length|]. split; [cbn; lia|]. split; [intros; apply upd_neq; auto|].
           intros d1 D1. split; [reflexivity|]. cbn. intros d' D'. rewrite D in D1. injection D1 as <-.
           rewrite upd_eq in D' by (eapply some_lt; eauto). injection D' as <-. now left.
        -- eexists. split; [apply upd_eq; eapply some_lt; eauto|]. repeat split; auto.
      * cbn. now apply cache_indexes.
  - look I d. destruct G as (G1 & G2 & G3 & _). rewrite (elems_length _ _ _ G2 G3). split; [exact I|reflexivity].
  - look I d. destruct G as (G1 & G2 & G3 & _). unfold in_len, at_idx. rewrite (elems_length _ _ _ G2 G3), G3.
    cbn [op_ok] in O. destruct (i <? _) eqn:C; (split; [exact I|]); cbn; auto. rewrite nth_some by lia. reflexivity.
  - look I d. destruct G as (G1 & G2 & G3 & _). unfold in_len, at_idx. rewrite (elems_length _ _ _ G2 G3), G3.
    cbn [op_ok] in O. destruct (i <? _) eqn:C; (split; [exact I|]); cbn; auto. rewrite nth_some by lia. reflexivity.
  - look I d. destruct G as (G1 & G2 & G3 & _). rewrite G3. split; [exact I|reflexivity].
  - look I d. destruct G as (G1 & G2 & G3 & G4 & _). rewrite G3, find_key_spec by auto. cbn [ret_of].
    split; [exact I|]. cbn. destruct (s_idx k (s_elems x)) as [n|] eqn:N.
    + destruct (s_idx_some _ _ _ N) as (A & B & _). now rewrite nth_some, B.
    + now rewrite (proj1 (s_idx_none _ _ N)).
  - (* ONewArray *)
    pose proof (alloc_inv w s (repeat None (length vs)) 0 [] I) as H. cbn [repeat length firstn] in H.
    specialize (H ltac:(lia) eq_refl (Forall_nil _)).
    destruct (alloc w (repeat None (length vs)) 0) as [w1 i]. destruct H as (H & -> & A).
    destruct (arr_new_loop_at vs w1 (length s) [] A O) as [A2 F2]. split; [|reflexivity].
    assert (Q : nth_error (s ++ [MkS [] None]) (length s) = Some (MkS [] None))
      by (rewrite nth_error_app2, Nat.sub_diag by lia; reflexivity).
    pose proof (inv_update _ _ _ _ _ _ _ H Q F2 A2) as R. unfold s_put, replace_at in R.
    rewrite firstn_app, Nat.sub_diag, firstn_all, skipn_all2 in R by (rewrite app_length; cbn; lia).
    cbn [firstn] in R. rewrite app_nil_r in R. exact R.
  - (* OArrAppend *)
    look I d. unfold s_append. cbn [op_ok] in O. apply arr_append_ok in O. revert O.
    set (ps := map _ vs). intros O.
    pose proof (append_doc_at ps w d _ _ (ex_intro _ _ (conj D G)) O) as H.
    destruct (append_doc w d ps) as [w' o]. destruct H as (A & F & ->).
    destruct (any_nil ps); cbn [lift]; (split; [eapply inv_update; eauto|reflexivity]).
  - (* OArrSet *)
    look I d. pose proof G as (G1 & G2 & G3 & _). unfold in_len. rewrite (elems_length _ _ _ G2 G3).
    destruct O as [O K]. destruct (i <? _) eqn:C; [|now split].
    destruct (store_at w d d0 _ _ (Z.to_nat i) v D G K ltac:(lia)) as [A1 F1].
    split; [eapply inv_update; eauto|reflexivity].
  - (* OArrDelete *)
    look I d. pose proof G as (G1 & G2 & G3 & _). unfold in_len, at_idx.
    rewrite (elems_length _ _ _ G2 G3), G3. cbn [op_ok] in O. destruct (i <? _) eqn:C; [|now split].
    rewrite nth_some by lia. destruct (nth_error (s_elems x) (Z.to_nat i)) as [e|] eqn:Ne.
    2:{ apply nth_error_None in Ne. lia. }
    destruct (remove_at_ w d d0 _ _ (Z.to_nat i) D G ltac:(lia)) as [A1 F1].
    split; [eapply inv_update; eauto|reflexivity].
  - (* OArrLookup *)
    look I d. pose proof G as (G1 & G2 & G3 & _). unfold in_len, at_idx.
    rewrite (elems_length _ _ _ G2 G3), G3. cbn [op_ok] in O. destruct (i <? _) eqn:C; [|now split].
    rewrite nth_some by lia. destruct (nth_error (s_elems x) (Z.to_nat i)) as [e|] eqn:Ne.
    2:{ apply nth_error_None in Ne. lia. }
    split; [exact I|reflexivity].
  - look I d. destruct G as (G1 & G2 & G3 & _). rewrite G3. split; [exact I|reflexivity].
Qed.

Theorem run_refines os : forall w s, inv w s -> Forall op_ok os ->
  let '(w', rs) := run grow fuel w os in
  let '(s', rs') := s_run fuel s os in
  inv w' s' /\ Forall2 agrees rs rs'.
Proof.
  induction os as [|o r IH]; intros w s I O; cbn [run s_run]; [auto|].
  inversion O; subst. pose proof (exec_refines w s o I H1) as H.
  destruct (exec grow fuel w o) as [w1 x]. destruct (s_exec fuel s o) as [s1 y]. destruct H as [I1 A].
  specialize (IH w1 s1 I1 H2). destruct (run grow fuel w1 r) as [w2 xs]. destruct (s_run fuel s1 r) as [s2 ys].
  destruct IH. auto.
Qed.

Lemma nth_ext_error {A} (l l' : list A) : (forall i, nth_error l i = nth_error l' i) -> l = l'.
Proof.
  revert l'. induction l as [|x l IH]; intros [|y l'] H; auto.
  - now specialize (H O).
  - now specialize (H O).
  - pose proof (H O) as H0. cbn in H0. injection H0 as ->. f_equal. apply IH. intros i. exact (H (S i)).
Qed.
Lemma inv_w0 : inv w0 [].
Proof. repeat split; cbn; intros [|i]; discriminate. Qed.

Lemma inv_shown w s : inv w s -> shown w = map (fun d => map Some (s_elems d)) s.
Proof.
  intros (L & _ & H). unfold shown. apply nth_ext_error. intros i. rewrite !nth_error_map.
  destruct (nth_error (w_docs w) i) as [d|] eqn:D.
  - destruct (H _ _ D) as (x & -> & (_ & _ & G & _)). cbn. now rewrite G.
  - apply nth_error_None in D. rewrite L in D. apply nth_error_None in D. now rewrite D.
Qed.
End Run.
