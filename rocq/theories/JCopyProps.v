(* C119: copies of jsonx documents and arrays, and what they share with what they were copied from. *)
Require Import ZArith List Bool Lia.
From Verif Require Import Base Json JCopy.
Import ListNotations.
Open Scope nat_scope.

(* ------------------------------------------------------------------ specification *)

(* What a client sees who follows the pointers, at most n deep. *)
Inductive tree := TPlain (j : jval) | TDoc (fs : list (bytes * tree)) | TArr (ts : list tree).
Section Show.
Variable f : nat -> option tree.
Fixpoint see_elems (es : list pelem) : option (list (bytes * tree)) :=
  match es with
  | [] => Some []
  | Some (k, Some v) :: r => match f v, see_elems r with Some t, Some ts => Some ((k, t) :: ts) | _, _ => None end
  | _ => None
  end.
Fixpoint see_vals (vs : list (option nat)) : option (list tree) :=
  match vs with
  | [] => Some []
  | Some v :: r => match f v, see_vals r with Some t, Some ts => Some (t :: ts) | _, _ => None end
  | _ => None
  end.
End Show.
Fixpoint see (n : nat) (h : heap) (v : nat) : option tree :=
  match n with
  | O => None
  | S n =>
      match nth_error (h_vals h) v with
      | None => None
      | Some (Plain j) => Some (TPlain j)
      | Some (ToDoc d) => match nth_error (h_docs h) d with None => None | Some es => option_map TDoc (see_elems (see n h) es) end
      | Some (ToArr a) => match nth_error (h_arrs h) a with None => None | Some vs => option_map TArr (see_vals (see n h) vs) end
      end
  end.
Definition see_doc (n : nat) (h : heap) (d : nat) : option (list (bytes * tree)) :=
  match nth_error (h_docs h) d with None => None | Some es => see_elems (see n h) es end.
Definition see_arr (n : nat) (h : heap) (a : nat) : option (list tree) :=
  match nth_error (h_arrs h) a with None => None | Some vs => see_vals (see n h) vs end.
(* the document at d, the array at a, shows these fields and values, with no nil in it and no document inside itself *)
Definition doc_is (h : heap) (d : nat) (fs : list (bytes * tree)) : Prop := exists n, see_doc n h d = Some fs.
Definition arr_is (h : heap) (a : nat) (ts : list tree) : Prop := exists n, see_arr n h a = Some ts.

(* What a client can do to a copy at d, or at a, that has the values vs: add to it, read JSON into one of those values,
   make new values, documents and arrays. *)
Inductive edit (target : nat + nat) (vs : list nat) : heap -> heap -> Prop :=
| ed_doc h h' d es : target = inl d -> d_append h d es = Ret h' -> edit target vs h h'
| ed_arr h h' a ws : target = inr a -> a_append h a ws = Ret h' -> edit target vs h h'
| ed_val h h' v p : In v vs -> v_set h v p = Ret h' -> edit target vs h h'
| ed_new h p : edit target vs h (fst (v_new h p))
| ed_newd h : edit target vs h (fst (d_new h))
| ed_newa h : edit target vs h (fst (a_new h)).
Inductive edits (target : nat + nat) (vs : list nat) : heap -> heap -> Prop :=
| eds_none h : edits target vs h h
| eds_more h h1 h2 : edit target vs h h1 -> edits target vs h1 h2 -> edits target vs h h2.
Fixpoint targets (es : list pelem) : list nat :=
  match es with [] => [] | Some (_, Some v) :: r => v :: targets r | _ :: r => targets r end.
Fixpoint vtargets (vs : list (option nat)) : list nat :=
  match vs with [] => [] | Some v :: r => v :: vtargets r | _ :: r => vtargets r end.
Definition doc_vals (h : heap) (d : nat) : list nat := match nth_error (h_docs h) d with Some es => targets es | None => [] end.
Definition arr_vals (h : heap) (a : nat) : list nat := match nth_error (h_arrs h) a with Some vs => vtargets vs | None => [] end.

(* ------------------------------------------------------------------------ lemmas *)

Definition grows {A} (l l' : list A) : Prop := forall i x, nth_error l i = Some x -> nth_error l' i = Some x.
Definition ext (h h' : heap) : Prop := grows (h_docs h) (h_docs h') /\ grows (h_arrs h) (h_arrs h') /\ grows (h_vals h) (h_vals h').
Lemma grows_refl {A} (l : list A) : grows l l. Proof. intros i x E. exact E. Qed.
Lemma grows_trans {A} (a b c : list A) : grows a b -> grows b c -> grows a c. Proof. unfold grows. auto. Qed.
Lemma grows_app {A} (l m : list A) : grows l (l ++ m).
Proof. intros i x E. rewrite nth_error_app1; [exact E|]. apply nth_error_Some. congruence. Qed.
Lemma replace_at {A} (l : list A) : forall i x, i < length l -> nth_error (replace l i x) i = Some x.
Proof. induction l as [|y l IH]; intros [|i] x L; cbn in *; try lia; [reflexivity|]. apply IH. lia. Qed.
Lemma replace_other {A} (l : list A) : forall i j x, i <> j -> nth_error (replace l i x) j = nth_error l j.
Proof. induction l as [|y l IH]; intros [|i] [|j] x N; cbn; try congruence; auto. Qed.
Lemma replace_length {A} (l : list A) : forall i x, length (replace l i x) = length l.
Proof. induction l as [|y l IH]; intros [|i] x; cbn; auto. Qed.
Lemma grows_replace {A} (b l : list A) i x : grows b l -> length b <= i -> grows b (replace l i x).
Proof. intros G L j y E. rewrite replace_other; [auto|]. assert (j < length b) by (apply nth_error_Some; congruence). lia. Qed.
Lemma ext_refl h : ext h h. Proof. split; [|split]; apply grows_refl. Qed.
Lemma ext_trans a b c : ext a b -> ext b c -> ext a c.
Proof. intros (A & B & C) (D & E & F). split; [|split]; eapply grows_trans; eauto. Qed.

Lemma see_elems_mono f g es : (forall v t, f v = Some t -> g v = Some t) -> forall ts, see_elems f es = Some ts -> see_elems g es = Some ts.
Proof.
  intros H. induction es as [|[[k [v|]]|] es IH]; intros ts E; cbn [see_elems] in *; try discriminate; [exact E|].
  destruct (f v) as [t|] eqn:F; [|discriminate]. destruct (see_elems f es) as [r|]; [|discriminate].
  now rewrite (H v t F), (IH r eq_refl).
Qed.
Lemma see_vals_mono f g vs : (forall v t, f v = Some t -> g v = Some t) -> forall ts, see_vals f vs = Some ts -> see_vals g vs = Some ts.
Proof.
  intros H. induction vs as [|[v|] vs IH]; intros ts E; cbn [see_vals] in *; try discriminate; [exact E|].
  destruct (f v) as [t|] eqn:F; [|discriminate]. destruct (see_vals f vs) as [r|]; [|discriminate].
  now rewrite (H v t F), (IH r eq_refl).
Qed.
Lemma see_ext n : forall h h' v t, ext h h' -> see n h v = Some t -> see n h' v = Some t.
Proof.
  induction n as [|n IH]; intros h h' v t X E; [discriminate|]. pose proof X as (D & A & V). cbn [see] in *.
  destruct (nth_error (h_vals h) v) as [p|] eqn:P; [|discriminate]. rewrite (V _ _ P). destruct p as [j|d|a]; [exact E| |].
  - destruct (nth_error (h_docs h) d) as [es|] eqn:Q; [|discriminate]. rewrite (D _ _ Q).
    destruct (see_elems (see n h) es) as [ts|] eqn:S; [|discriminate].
    erewrite see_elems_mono; [exact E| |exact S]. intros w u. apply (IH h h' w u X).
  - destruct (nth_error (h_arrs h) a) as [es|] eqn:Q; [|discriminate]. rewrite (A _ _ Q).
    destruct (see_vals (see n h) es) as [ts|] eqn:S; [|discriminate].
    erewrite see_vals_mono; [exact E| |exact S]. intros w u. apply (IH h h' w u X).
Qed.
Lemma see_S n : forall h v t, see n h v = Some t -> see (S n) h v = Some t.
Proof.
  induction n as [|n IH]; intros h v t E; [discriminate|]. remember (S n) as m. cbn [see]. rewrite Heqm in E. cbn [see] in E.
  destruct (nth_error (h_vals h) v) as [[j|d|a]|]; try discriminate; [exact E| |].
  - destruct (nth_error (h_docs h) d) as [es|]; [|discriminate]. destruct (see_elems (see n h) es) as [ts|] eqn:S; [|discriminate].
    subst m. erewrite see_elems_mono; [exact E| |exact S]. apply IH.
  - destruct (nth_error (h_arrs h) a) as [es|]; [|discriminate]. destruct (see_vals (see n h) es) as [ts|] eqn:S; [|discriminate].
    subst m. erewrite see_vals_mono; [exact E| |exact S]. apply IH.
Qed.
Lemma see_le m n h v t : m <= n -> see m h v = Some t -> see n h v = Some t.
Proof. induction 1; auto using see_S. Qed.
Lemma see_doc_le m n h d fs : m <= n -> see_doc m h d = Some fs -> see_doc n h d = Some fs.
Proof. intros L. unfold see_doc. destruct (nth_error (h_docs h) d); [|discriminate]. apply see_elems_mono. intros v t. now apply see_le. Qed.
Lemma see_arr_le m n h d fs : m <= n -> see_arr m h d = Some fs -> see_arr n h d = Some fs.
Proof. intros L. unfold see_arr. destruct (nth_error (h_arrs h) d); [|discriminate]. apply see_vals_mono. intros v t. now apply see_le. Qed.
Lemma doc_ext h h' d fs : ext h h' -> doc_is h d fs -> doc_is h' d fs.
Proof.
  intros X [n E]. exists n. unfold see_doc in *. destruct (nth_error (h_docs h) d) eqn:Q; [|discriminate].
  rewrite (proj1 X _ _ Q). revert E. apply see_elems_mono. intros v t. now apply see_ext.
Qed.
Lemma arr_ext h h' a ts : ext h h' -> arr_is h a ts -> arr_is h' a ts.
Proof.
  intros X [n E]. exists n. unfold see_arr in *. destruct (nth_error (h_arrs h) a) eqn:Q; [|discriminate].
  rewrite (proj1 (proj2 X) _ _ Q). revert E. apply see_vals_mono. intros v t. now apply see_ext.
Qed.
Lemma ext_v_new h p : ext h (fst (v_new h p)).
Proof. split; [|split]; cbn; try apply grows_refl. apply grows_app. Qed.

(* two pointers to values of the same content *)
Definition same (h : heap) (v w : nat) : Prop := exists p, nth_error (h_vals h) v = Some p /\ nth_error (h_vals h) w = Some p.
Lemma same_see h v w n : same h v w -> see n h v = see n h w.
Proof. intros (p & A & B). destruct n; [reflexivity|]. cbn [see]. now rewrite A, B. Qed.
Definition copied (b h : heap) (e e' : pelem) : Prop :=
  exists k v w, e = Some (k, Some v) /\ e' = Some (k, Some w) /\ same h v w /\ length (h_vals b) <= w.
Definition vcopied (b h : heap) (e e' : option nat) : Prop :=
  exists v w, e = Some v /\ e' = Some w /\ same h v w /\ length (h_vals b) <= w.
Lemma same_ext h h' v w : ext h h' -> same h v w -> same h' v w.
Proof. intros (_ & _ & V) (p & A & B). exists p. auto. Qed.
Lemma copied_ext b h h' e e' : grows (h_vals h) (h_vals h') -> copied b h e e' -> copied b h' e e'.
Proof. intros V (k & v & w & A & B & (p & C & D) & L). exists k, v, w. repeat split; auto. exists p. auto. Qed.
Lemma vcopied_ext b h h' e e' : grows (h_vals h) (h_vals h') -> vcopied b h e e' -> vcopied b h' e e'.
Proof. intros V (v & w & A & B & (p & C & D) & L). exists v, w. repeat split; auto. exists p. auto. Qed.

Lemma Forall2_weak {A B} (R S : A -> B -> Prop) l m : (forall x y, R x y -> S x y) -> Forall2 R l m -> Forall2 S l m.
Proof. intros H. induction 1; constructor; auto. Qed.
Lemma v_copy_ok h v h' w : v_copy h v = Ret (h', w) ->
  exists u, v = Some u /\ h_docs h' = h_docs h /\ h_arrs h' = h_arrs h /\ grows (h_vals h) (h_vals h') /\ same h' u w /\ w = length (h_vals h).
Proof.
  unfold v_copy. destruct v as [u|]; [|discriminate]. destruct (nth_error (h_vals h) u) as [p|] eqn:P; [|discriminate].
  intros E. injection E as <- <-. exists u. cbn. repeat split; auto using grows_app. exists p. cbn. split; [now apply grows_app|].
  rewrite nth_error_app2, Nat.sub_diag by lia. reflexivity.
Qed.
Lemma d_copy_loop_ok b nd es : forall h h' done cs, ext b h -> length (h_docs b) <= nd -> length (h_vals b) <= length (h_vals h) ->
  nth_error (h_docs h) nd = Some cs -> Forall2 (copied b h) done cs -> d_copy_loop h nd es = Ret h' ->
  ext b h' /\ exists cs', nth_error (h_docs h') nd = Some cs' /\ Forall2 (copied b h') (done ++ es) cs'.
Proof.
  induction es as [|e es IH]; intros h h' done cs X L Lv N F E; cbn [d_copy_loop] in E.
  - injection E as <-. split; [exact X|]. exists cs. now rewrite app_nil_r.
  - unfold e_copy in E. destruct e as [[k v]|]; [|discriminate].
    destruct (v_copy h v) as [[h1 w]|p|] eqn:C; try discriminate. cbn [bind] in E.
    apply v_copy_ok in C as (u & -> & D1 & A1 & G1 & S1 & ->).
    unfold d_append in E. rewrite D1, N in E. cbn [bind] in E.
    match type of E with d_copy_loop ?h2 _ _ = _ => set (h2' := h2) in E end.
    assert (X2 : ext b h2').
    { destruct X as (XD & XA & XV). split; [|split]; cbn.
      - now apply grows_replace.
      - now rewrite A1.
      - eapply grows_trans; eauto. }
    change (Some (k, Some u) :: es) with ([Some (k, Some u)] ++ es). rewrite app_assoc.
    eapply IH; [exact X2|exact L| | | |exact E].
    + cbn. destruct S1 as (p & _ & S2). assert (length (h_vals h) < length (h_vals h1)) by (apply nth_error_Some; congruence). lia.
    + cbn. apply replace_at. apply nth_error_Some. congruence.
    + apply Forall2_app.
      * eapply Forall2_weak; [|exact F]. intros x y. now apply copied_ext.
      * constructor; [|constructor]. exists k, u, (length (h_vals h)). auto.
Qed.
Lemma d_copy_ok h d h' d' : d_copy h d = Ret (h', d') ->
  ext h h' /\ length (h_docs h) <= d' /\ exists es cs, nth_error (h_docs h) d = Some es /\ nth_error (h_docs h') d' = Some cs /\ Forall2 (copied h h') es cs.
Proof.
  unfold d_copy. destruct (nth_error (h_docs h) d) as [es|] eqn:Q; [|discriminate]. cbn [d_new].
  destruct (d_copy_loop _ _ es) as [h1|p|] eqn:E; try discriminate. cbn [bind]. intros R. injection R as <- <-.
  apply (d_copy_loop_ok h _ es _ _ [] []) in E as (X & cs & N & F); cbn; auto.
  - split; [exact X|]. split; [lia|]. exists es, cs. auto.
  - split; [|split]; cbn; try apply grows_refl. apply grows_app.
  - rewrite nth_error_app2, Nat.sub_diag by lia. reflexivity.
Qed.
Lemma a_copy_loop_ok b na es : forall h h' done cs, ext b h -> length (h_arrs b) <= na -> length (h_vals b) <= length (h_vals h) ->
  nth_error (h_arrs h) na = Some cs -> Forall2 (vcopied b h) done cs -> a_copy_loop h na es = Ret h' ->
  ext b h' /\ exists cs', nth_error (h_arrs h') na = Some cs' /\ Forall2 (vcopied b h') (done ++ es) cs'.
Proof.
  induction es as [|v es IH]; intros h h' done cs X L Lv N F E; cbn [a_copy_loop] in E.
  - injection E as <-. split; [exact X|]. exists cs. now rewrite app_nil_r.
  - destruct (v_copy h v) as [[h1 w]|p|] eqn:C; try discriminate. cbn [bind] in E.
    apply v_copy_ok in C as (u & -> & D1 & A1 & G1 & S1 & ->).
    unfold a_append in E. rewrite A1, N in E. cbn [bind] in E.
    match type of E with a_copy_loop ?h2 _ _ = _ => set (h2' := h2) in E end.
    assert (X2 : ext b h2').
    { destruct X as (XD & XA & XV). split; [|split]; cbn.
      - now rewrite D1.
      - now apply grows_replace.
      - eapply grows_trans; eauto. }
    change (Some u :: es) with ([Some u] ++ es). rewrite app_assoc.
    eapply IH; [exact X2|exact L| | | |exact E].
    + cbn. destruct S1 as (p & _ & S2). assert (length (h_vals h) < length (h_vals h1)) by (apply nth_error_Some; congruence). lia.
    + cbn. apply replace_at. apply nth_error_Some. congruence.
    + apply Forall2_app.
      * eapply Forall2_weak; [|exact F]. intros x y. now apply vcopied_ext.
      * constructor; [|constructor]. exists u, (length (h_vals h)). auto.
Qed.
Lemma a_copy_ok h a h' a' : a_copy h a = Ret (h', a') ->
  ext h h' /\ length (h_arrs h) <= a' /\ exists es cs, nth_error (h_arrs h) a = Some es /\ nth_error (h_arrs h') a' = Some cs /\ Forall2 (vcopied h h') es cs.
Proof.
  unfold a_copy. destruct (nth_error (h_arrs h) a) as [es|] eqn:Q; [|discriminate]. cbn [a_new].
  destruct (a_copy_loop _ _ es) as [h1|p|] eqn:E; try discriminate. cbn [bind]. intros R. injection R as <- <-.
  apply (a_copy_loop_ok h _ es _ _ [] []) in E as (X & cs & N & F); cbn; auto.
  - split; [exact X|]. split; [lia|]. exists es, cs. auto.
  - split; [|split]; cbn; try apply grows_refl. apply grows_app.
  - rewrite nth_error_app2, Nat.sub_diag by lia. reflexivity.
Qed.
Lemma copied_see b h n es cs : Forall2 (copied b h) es cs -> see_elems (see n h) cs = see_elems (see n h) es.
Proof. induction 1 as [|e c es cs (k & v & w & -> & -> & S & _) _ IH]; [reflexivity|]. cbn [see_elems]. now rewrite IH, (same_see h v w n S). Qed.
Lemma vcopied_see b h n es cs : Forall2 (vcopied b h) es cs -> see_vals (see n h) cs = see_vals (see n h) es.
Proof. induction 1 as [|e c es cs (v & w & -> & -> & S & _) _ IH]; [reflexivity|]. cbn [see_vals]. now rewrite IH, (same_see h v w n S). Qed.
Lemma copied_fresh b h es cs : Forall2 (copied b h) es cs -> forall v, In v (targets cs) -> length (h_vals b) <= v.
Proof. induction 1 as [|e c es cs (k & v & w & -> & -> & S & L) _ IH]; intros x I; [easy|]. destruct I as [<-|I]; auto. Qed.
Lemma vcopied_fresh b h es cs : Forall2 (vcopied b h) es cs -> forall v, In v (vtargets cs) -> length (h_vals b) <= v.
Proof. induction 1 as [|e c es cs (v & w & -> & -> & S & L) _ IH]; intros x I; [easy|]. destruct I as [<-|I]; auto. Qed.

Lemma edit_ext b tg vs h h' : (match tg with inl d => length (h_docs b) <= d | inr a => length (h_arrs b) <= a end) ->
  (forall v, In v vs -> length (h_vals b) <= v) -> edit tg vs h h' -> ext b h -> ext b h'.
Proof.
  intros Ht Hv E X. pose proof X as (D & A & V). destruct E as [h h' d es -> E|h h' a ws -> E|h h' v p I E|h p|h|h].
  - unfold d_append in E. destruct (nth_error _ _); [|discriminate]. injection E as <-. split; [|split]; cbn; auto. now apply grows_replace.
  - unfold a_append in E. destruct (nth_error _ _); [|discriminate]. injection E as <-. split; [|split]; cbn; auto. now apply grows_replace.
  - unfold v_set in E. destruct (nth_error _ _); [|discriminate]. injection E as <-. split; [|split]; cbn; auto. apply grows_replace; auto.
  - split; [|split]; cbn; auto. eapply grows_trans; [exact V|apply grows_app].
  - split; [|split]; cbn; auto. eapply grows_trans; [exact D|apply grows_app].
  - split; [|split]; cbn; auto. eapply grows_trans; [exact A|apply grows_app].
Qed.
Lemma edits_ext b tg vs h h' : (match tg with inl d => length (h_docs b) <= d | inr a => length (h_arrs b) <= a end) ->
  (forall v, In v vs -> length (h_vals b) <= v) -> edits tg vs h h' -> ext b h -> ext b h'.
Proof. intros Ht Hv E. induction E; auto. intros X. apply IHE. eapply edit_ext; eauto. Qed.

(* copying does not fail when nothing is nil *)
Lemma d_copy_loop_total nd es : forall h, nd < length (h_docs h) -> (forall e, In e es -> exists k v, e = Some (k, Some v) /\ v < length (h_vals h)) ->
  exists h', d_copy_loop h nd es = Ret h'.
Proof.
  induction es as [|e es IH]; intros h L H; [cbn; eauto|]. cbn [d_copy_loop].
  destruct (H e (or_introl eq_refl)) as (k & v & -> & Lv). cbn [e_copy]. unfold v_copy.
  destruct (nth_error (h_vals h) v) eqn:P; [|apply nth_error_None in P; lia]. cbn [v_new bind]. unfold d_append. cbn [h_docs h_arrs h_vals].
  destruct (nth_error (h_docs h) nd) eqn:Q; [|apply nth_error_None in Q; lia]. cbn [bind]. apply IH.
  - cbn. now rewrite replace_length.
  - intros e I. destruct (H e (or_intror I)) as (k' & v' & -> & L'). exists k', v'. split; [reflexivity|]. cbn. rewrite app_length. lia.
Qed.
Lemma see_in n h v t : see n h v = Some t -> v < length (h_vals h).
Proof. intros E. apply nth_error_Some. destruct n; [discriminate|]. cbn [see] in E. now destruct (nth_error (h_vals h) v). Qed.
Lemma see_elems_in n h es : forall fs, see_elems (see n h) es = Some fs -> forall e, In e es -> exists k v, e = Some (k, Some v) /\ v < length (h_vals h).
Proof.
  induction es as [|[[k [v|]]|] es IH]; intros fs E e I; try easy. cbn [see_elems] in E.
  destruct (see n h v) eqn:S; [|discriminate]. destruct (see_elems (see n h) es) as [r|]; [|discriminate].
  destruct I as [<-|I]; [|eauto]. exists k, v. split; [reflexivity|]. eapply see_in; eauto.
Qed.

Lemma a_copy_loop_total na vs : forall h, na < length (h_arrs h) -> (forall v, In v vs -> exists u, v = Some u /\ u < length (h_vals h)) ->
  exists h', a_copy_loop h na vs = Ret h'.
Proof.
  induction vs as [|v vs IH]; intros h L H; [cbn; eauto|]. cbn [a_copy_loop].
  destruct (H v (or_introl eq_refl)) as (u & -> & Lv). unfold v_copy.
  destruct (nth_error (h_vals h) u) eqn:P; [|apply nth_error_None in P; lia]. cbn [v_new bind]. unfold a_append. cbn [h_docs h_arrs h_vals].
  destruct (nth_error (h_arrs h) na) eqn:Q; [|apply nth_error_None in Q; lia]. cbn [bind]. apply IH.
  - cbn. now rewrite replace_length.
  - intros e I. destruct (H e (or_intror I)) as (v' & -> & L'). exists v'. split; [reflexivity|]. cbn. rewrite app_length. lia.
Qed.
Lemma see_vals_in n h vs : forall ts, see_vals (see n h) vs = Some ts -> forall v, In v vs -> exists u, v = Some u /\ u < length (h_vals h).
Proof.
  induction vs as [|[v|] vs IH]; intros ts E e I; try easy. cbn [see_vals] in E.
  destruct (see n h v) eqn:S; [|discriminate]. destruct (see_vals (see n h) vs) as [r|]; [|discriminate].
  destruct I as [<-|I]; [|eauto]. exists v. split; [reflexivity|]. eapply see_in; eauto.
Qed.

(* a document, or an array, that shows something is not inside itself *)
Lemma see_append h d old new n : nth_error (h_docs h) d = Some old -> (forall m, m < n -> see_doc m h d = None) ->
  forall m v t, m <= n -> see m h v = Some t -> see m (MkHeap (replace (h_docs h) d (old ++ new)) (h_arrs h) (h_vals h)) v = Some t.
Proof.
  intros Q N. induction m as [|m IH]; intros v t L E; [discriminate|]. cbn [see h_vals h_docs h_arrs] in *.
  destruct (nth_error (h_vals h) v) as [[j|x|a]|]; try discriminate; [exact E| |].
  - destruct (Nat.eq_dec d x) as [<-|Nx].
    + specialize (N m ltac:(lia)). unfold see_doc in N. destruct (nth_error (h_docs h) d); [|discriminate]. now rewrite N in E.
    + rewrite replace_other by auto. destruct (nth_error (h_docs h) x) as [es|]; [|discriminate].
      destruct (see_elems (see m h) es) as [ts|] eqn:S; [|discriminate]. erewrite see_elems_mono; [exact E| |exact S]. intros w u. apply IH. lia.
  - destruct (nth_error (h_arrs h) a) as [es|]; [|discriminate].
    destruct (see_vals (see m h) es) as [ts|] eqn:S; [|discriminate]. erewrite see_vals_mono; [exact E| |exact S]. intros w u. apply IH. lia.
Qed.
Lemma least h d n fs : see_doc n h d = Some fs -> exists m, see_doc m h d = Some fs /\ forall i, i < m -> see_doc i h d = None.
Proof.
  induction n as [n IH] using lt_wf_ind. intros E. destruct n as [|n]; [exists 0; split; [exact E|lia]|].
  destruct (see_doc n h d) as [fs'|] eqn:F.
  - assert (fs' = fs) by (apply (see_doc_le n (S n)) in F; [congruence|lia]). subst. apply (IH n); auto.
  - exists (S n). split; [exact E|]. intros i L. destruct (see_doc i h d) as [x|] eqn:G; [|reflexivity].
    apply (see_doc_le i n) in G; [congruence|lia].
Qed.

Lemma see_aappend h a old new n : nth_error (h_arrs h) a = Some old -> (forall m, m < n -> see_arr m h a = None) ->
  forall m v t, m <= n -> see m h v = Some t -> see m (MkHeap (h_docs h) (replace (h_arrs h) a (old ++ new)) (h_vals h)) v = Some t.
Proof.
  intros Q N. induction m as [|m IH]; intros v t L E; [discriminate|]. cbn [see h_vals h_docs h_arrs] in *.
  destruct (nth_error (h_vals h) v) as [[j|x|x]|]; try discriminate; [exact E| |].
  - destruct (nth_error (h_docs h) x) as [es|]; [|discriminate].
    destruct (see_elems (see m h) es) as [ts|] eqn:S; [|discriminate]. erewrite see_elems_mono; [exact E| |exact S]. intros w u. apply IH. lia.
  - destruct (Nat.eq_dec a x) as [<-|Nx].
    + specialize (N m ltac:(lia)). unfold see_arr in N. destruct (nth_error (h_arrs h) a); [|discriminate]. now rewrite N in E.
    + rewrite replace_other by auto. destruct (nth_error (h_arrs h) x) as [es|]; [|discriminate].
      destruct (see_vals (see m h) es) as [ts|] eqn:S; [|discriminate]. erewrite see_vals_mono; [exact E| |exact S]. intros w u. apply IH. lia.
Qed.
Lemma aleast h d n fs : see_arr n h d = Some fs -> exists m, see_arr m h d = Some fs /\ forall i, i < m -> see_arr i h d = None.
Proof.
  induction n as [n IH] using lt_wf_ind. intros E. destruct n as [|n]; [exists 0; split; [exact E|lia]|].
  destruct (see_arr n h d) as [fs'|] eqn:F.
  - assert (fs' = fs) by (apply (see_arr_le n (S n)) in F; [congruence|lia]). subst. apply (IH n); auto.
  - exists (S n). split; [exact E|]. intros i L. destruct (see_arr i h d) as [x|] eqn:G; [|reflexivity].
    apply (see_arr_le i n) in G; [congruence|lia].
Qed.
Lemma see_elems_snoc f es : forall ts k v t, see_elems f es = Some ts -> f v = Some t -> see_elems f (es ++ [Some (k, Some v)]) = Some (ts ++ [(k, t)]).
Proof.
  induction es as [|[[k0 [u|]]|] es IH]; intros ts k v t E F; cbn [see_elems app] in *; try discriminate; [injection E as <-; now rewrite F|].
  destruct (f u); [|discriminate]. destruct (see_elems f es) as [r|]; [|discriminate]. injection E as <-. now rewrite (IH r k v t eq_refl F).
Qed.

(* ---------------------------------------------------------------------- theorems *)

(* A document that shows fs can be copied; the copy shows fs and so does the document still; nothing that is done to the copy,
   and to the values in it, is seen in the document. *)
Theorem C119_document : forall h d fs, doc_is h d fs -> exists h1 d1, d_copy h d = Ret (h1, d1) /\ d1 <> d /\
  doc_is h1 d fs /\ doc_is h1 d1 fs /\ forall h2, edits (inl d1) (doc_vals h1 d1) h1 h2 -> doc_is h2 d fs.
Proof.
  intros h d fs O. pose proof O as [n E]. unfold see_doc in E. destruct (nth_error (h_docs h) d) as [es|] eqn:Q; [|discriminate].
  assert (exists h1, d_copy_loop (fst (d_new h)) (length (h_docs h)) es = Ret h1) as [h1 C].
  { apply d_copy_loop_total; [cbn; rewrite app_length; cbn; lia|]. exact (see_elems_in n h es fs E). }
  assert (D : d_copy h d = Ret (h1, length (h_docs h))) by (unfold d_copy; rewrite Q; cbn [d_new fst] in *; now rewrite C).
  exists h1, (length (h_docs h)). split; [exact D|]. apply d_copy_ok in D as (X & L & es' & cs & Q' & N & F). rewrite Q in Q'. injection Q' as <-.
  assert (d < length (h_docs h)) by (apply nth_error_Some; congruence). split; [lia|].
  assert (O1 : doc_is h1 d fs) by (eapply doc_ext; eauto). split; [exact O1|]. split.
  - exists n. unfold see_doc. rewrite N, (copied_see _ _ n _ _ F). revert E. apply see_elems_mono. intros v t. now apply see_ext.
  - intros h2 Ed. eapply doc_ext; [|exact O]. eapply edits_ext; [| |exact Ed|exact X]; cbn; [lia|].
    unfold doc_vals. rewrite N. exact (copied_fresh _ _ _ _ F).
Qed.
Print Assumptions C119_document.
Theorem C119_array : forall h a ts, arr_is h a ts -> exists h1 a1, a_copy h a = Ret (h1, a1) /\ a1 <> a /\
  arr_is h1 a ts /\ arr_is h1 a1 ts /\ forall h2, edits (inr a1) (arr_vals h1 a1) h1 h2 -> arr_is h2 a ts.
Proof.
  intros h a ts O. assert (exists h1 a1, a_copy h a = Ret (h1, a1)) as (h1 & a1 & C).
  { destruct O as [n E]. unfold see_arr in E. unfold a_copy. destruct (nth_error (h_arrs h) a) as [es|] eqn:Q; [|discriminate].
    destruct (a_copy_loop_total (length (h_arrs h)) es (fst (a_new h))) as [h1 C].
    - cbn. rewrite app_length. cbn. lia.
    - exact (see_vals_in n h es ts E).
    - cbn [a_new fst] in *. rewrite C. cbn [bind]. eauto. }
  exists h1, a1. split; [exact C|]. apply a_copy_ok in C as (X & L & es & cs & Q & N & F).
  assert (a < length (h_arrs h)) by (apply nth_error_Some; congruence). split; [lia|].
  split; [eapply arr_ext; eauto|]. split.
  - destruct O as [n E]. exists n. unfold see_arr in *. rewrite Q in E. rewrite N, (vcopied_see _ _ n _ _ F).
    revert E. apply see_vals_mono. intros v t. now apply see_ext.
  - intros h2 Ed. eapply arr_ext; [|exact O]. eapply edits_ext; [| |exact Ed|exact X]; cbn; [lia|].
    unfold arr_vals. rewrite N. exact (vcopied_fresh _ _ _ _ F).
Qed.
Print Assumptions C119_array.

(* The copy does not see what is appended to the document. *)
Theorem C119_original : forall h d fs h1 d1 new h2, doc_is h d fs -> d_copy h d = Ret (h1, d1) -> d_append h1 d new = Ret h2 -> doc_is h2 d1 fs.
Proof.
  intros h d fs h1 d1 new h2 O C A. apply d_copy_ok in C as (X & L & es & cs & Q & N & F).
  pose proof (doc_ext _ _ _ _ X O) as [n E]. pose proof (proj1 X _ _ Q) as Q1.
  destruct (least _ _ _ _ E) as (m & Em & Min). exists m. unfold d_append in A. rewrite Q1 in A. injection A as <-.
  assert (d < length (h_docs h)) by (apply nth_error_Some; congruence).
  unfold see_doc in *. cbn [h_docs]. rewrite replace_other, N by lia. rewrite Q1 in Em. rewrite <- (copied_see _ _ m _ _ F) in Em.
  revert Em. apply see_elems_mono. intros v t. apply (see_append h1 d es new m Q1); [|lia].
  intros i Li. specialize (Min i Li). unfold see_doc. now rewrite Q1 in *.
Qed.
Print Assumptions C119_original.
Theorem C119_original_array : forall h a ts h1 a1 new h2, arr_is h a ts -> a_copy h a = Ret (h1, a1) -> a_append h1 a new = Ret h2 -> arr_is h2 a1 ts.
Proof.
  intros h a ts h1 a1 new h2 O C A. apply a_copy_ok in C as (X & L & es & cs & Q & N & F).
  pose proof (arr_ext _ _ _ _ X O) as [n E]. pose proof (proj1 (proj2 X) _ _ Q) as Q1.
  destruct (aleast _ _ _ _ E) as (m & Em & Min). exists m. unfold a_append in A. rewrite Q1 in A. injection A as <-.
  assert (a < length (h_arrs h)) by (apply nth_error_Some; congruence).
  unfold see_arr in *. cbn [h_arrs]. rewrite replace_other, N by lia. rewrite Q1 in Em. rewrite <- (vcopied_see _ _ m _ _ F) in Em.
  revert Em. apply see_vals_mono. intros v t. apply (see_aappend h1 a es new m Q1); [|lia].
  intros i Li. specialize (Min i Li). unfold see_arr. now rewrite Q1 in *.
Qed.
Print Assumptions C119_original_array.

(* But a document inside is shared: what is appended to it through the copy is seen in the original. *)
Theorem C119_nested_refuted : forall h d k v x inner h1 d1 key j,
  nth_error (h_docs h) d = Some [Some (k, Some v)] -> nth_error (h_vals h) v = Some (ToDoc x) -> doc_is h x inner ->
  d_copy h d = Ret (h1, d1) ->
  exists w h2 u h3, doc_vals h1 d1 = [w] /\ nth_error (h_vals h1) w = Some (ToDoc x) /\ v_new h1 (Plain j) = (h2, u) /\
    d_append h2 x [Some (key, Some u)] = Ret h3 /\
    doc_is h d [(k, TDoc inner)] /\ doc_is h3 d [(k, TDoc (inner ++ [(key, TPlain j)]))].
Proof.
  intros h d k v x inner h1 d1 key j Q P O C. apply d_copy_ok in C as (X & L & es & cs & Q' & N & F).
  rewrite Q in Q'. injection Q' as <-. inversion F as [|? c ? cs' (k' & v' & w & Ev & -> & (p & S1 & S2) & Lw) F']; subst. inversion F'; subst.
  injection Ev as <- <-. pose proof (proj2 (proj2 X) _ _ P) as P1. rewrite P1 in S1. injection S1 as <-.
  set (h2 := fst (v_new h1 (Plain j))). pose proof (ext_v_new h1 (Plain j)) as X2. fold h2 in X2.
  pose proof (doc_ext _ h2 _ _ (ext_trans _ _ _ X X2) O) as [n2 E2].
  destruct (least _ _ _ _ E2) as (m & Em & Min).
  destruct (nth_error (h_docs h2) x) as [old|] eqn:Qx; [|unfold see_doc in Em; rewrite Qx in Em; discriminate].
  pose proof (proj1 (ext_trans _ _ _ X X2) _ _ Q) as Qd. pose proof (proj2 (proj2 X2) _ _ P1) as P2.
  assert (Nx : x <> d).
  { intros ->. unfold see_doc in Em. rewrite Qd in Em. cbn [see_elems] in Em. destruct m as [|m]; [discriminate|].
    cbn [see] in Em. rewrite P2 in Em. specialize (Min m ltac:(lia)). unfold see_doc in Min. rewrite Qd in *. rewrite Min in Em. discriminate. }
  exists w, h2, (length (h_vals h1)). eexists. split; [unfold doc_vals; now rewrite N|]. split; [exact S2|]. split; [reflexivity|].
  split; [unfold d_append; rewrite Qx; reflexivity|]. split.
  { destruct O as [n E]. exists (S n). unfold see_doc in *. rewrite Q. cbn [see_elems see]. rewrite P.
    destruct (nth_error (h_docs h) x); [|discriminate]. now rewrite E. }
  exists (S (S m)). unfold see_doc. cbn [h_docs]. rewrite replace_other, Qd by auto.
  set (h3 := MkHeap _ _ _).
  assert (A : see_elems (see (S m) h3) old = Some inner).
  { unfold see_doc in Em. rewrite Qx in Em. revert Em. apply see_elems_mono. intros u t Su. apply see_S. revert Su.
    refine (see_append h2 x old _ m Qx _ m u t (le_n m)). intros i Li. exact (Min i Li). }
  assert (B : see (S m) h3 (length (h_vals h1)) = Some (TPlain j)).
  { cbn [see]. subst h3 h2. cbn. rewrite nth_error_app2, Nat.sub_diag by lia. reflexivity. }
  assert (V : see (S (S m)) h3 v = Some (TDoc (inner ++ [(key, TPlain j)]))).
  { remember (S m) as m1. cbn [see]. change (h_vals h3) with (h_vals h2). rewrite P2. unfold h3 at 1. cbn [h_docs].
    rewrite replace_at by (apply nth_error_Some; congruence). now rewrite (see_elems_snoc _ _ _ key _ _ A B). }
  remember (S (S m)) as m2. cbn [see_elems]. now rewrite V.
Qed.
Print Assumptions C119_nested_refuted.

(* A nil element, or an element whose value is nil, cannot be copied. *)
Theorem C119_nil_refuted : forall h d fs es e rest, nth_error (h_docs h) d = Some (es ++ e :: rest) -> (exists n, see_elems (see n h) es = Some fs) ->
  (e = None \/ exists k, e = Some (k, None)) -> d_copy h d = Panic PNil.
Proof.
  intros h d fs es e rest Q H En.
  destruct H as [n E].
  unfold d_copy. rewrite Q. cbn [d_new]. pose proof (see_elems_in n h es fs E) as I. clear -I En.
  match goal with |- context [d_copy_loop ?h0 ?nd _] => assert (G : forall es h1, nd < length (h_docs h1) ->
    (forall e, In e es -> exists k v, e = Some (k, Some v) /\ v < length (h_vals h1)) -> d_copy_loop h1 nd (es ++ e :: rest) = Panic PNil) end.
  { clear -En. induction es as [|e0 es IH]; intros h1 L I; cbn [app d_copy_loop].
    - destruct En as [->|[k ->]]; reflexivity.
    - destruct (I e0 (or_introl eq_refl)) as (k & v & -> & Lv). cbn [e_copy]. unfold v_copy.
      destruct (nth_error (h_vals h1) v) eqn:P; [|apply nth_error_None in P; lia]. cbn [v_new bind]. unfold d_append. cbn [h_docs h_arrs h_vals].
      destruct (nth_error (h_docs h1) (length (h_docs h))) eqn:Q; [|apply nth_error_None in Q; lia]. cbn [bind]. apply IH.
      + cbn. now rewrite replace_length.
      + intros e' I'. destruct (I e' (or_intror I')) as (k' & v' & -> & L'). exists k', v'. split; [reflexivity|]. cbn. rewrite app_length. lia. }
  rewrite G; [reflexivity| |exact I]. cbn. rewrite app_length. cbn. lia.
Qed.
Print Assumptions C119_nil_refuted.

(* ------------------------------------------------------------------ non-vacuity *)

(* {"a": {"b": null}} *)
Definition ex_h : heap := MkHeap [[Some ([97%Z], Some 0)]; [Some ([98%Z], Some 1)]] [[Some 1]] [ToDoc 1; Plain JNull].
Example C119_ex : doc_is ex_h 0 [([97%Z], TDoc [([98%Z], TPlain JNull)])] /\ doc_is ex_h 1 [([98%Z], TPlain JNull)] /\ arr_is ex_h 0 [TPlain JNull].
Proof. split; [|split]; exists 5; reflexivity. Qed.
(* an edit of the copy that is seen there *)
Example C119_edit_ex : exists h1 h2, d_copy ex_h 0 = Ret (h1, 2) /\ edits (inl 2) (doc_vals h1 2) h1 h2 /\
  doc_is h2 2 [([97%Z], TPlain JNull); ([99%Z], TPlain JNull)] /\ doc_is h2 0 [([97%Z], TDoc [([98%Z], TPlain JNull)])].
Proof.
  eexists. eexists. split; [reflexivity|]. split.
  - eapply eds_more; [apply (ed_val _ _ _ _ 2 (Plain JNull)); [now left|reflexivity]|].
    eapply eds_more; [eapply (ed_doc _ _ _ _ 2 [Some ([99%Z], Some 2)]); reflexivity|]. apply eds_none.
  - split; exists 5; reflexivity.
Qed.
Example C119_array_ex : exists h1, a_copy ex_h 0 = Ret (h1, 1).
Proof. eexists. reflexivity. Qed.
(* the document inside the copy of ex_h is that of ex_h *)
Example C119_nested_ex : exists w h1 h3, d_copy ex_h 0 = Ret (h1, 2) /\ doc_vals h1 2 = [w] /\ nth_error (h_vals h1) w = Some (ToDoc 1) /\
  d_append h1 1 [Some ([99%Z], Some 1)] = Ret h3 /\ doc_is h3 0 [([97%Z], TDoc [([98%Z], TPlain JNull); ([99%Z], TPlain JNull)])].
Proof. do 3 eexists. repeat (split; [reflexivity|]). exists 5. reflexivity. Qed.
Example C119_nil_ex : d_copy (MkHeap [[Some ([97%Z], Some 0); Some ([98%Z], None)]] [] [Plain JNull]) 0 = Panic PNil.
Proof. apply (C119_nil_refuted _ _ [([97%Z], TPlain JNull)] [Some ([97%Z], Some 0)] (Some ([98%Z], None)) []); [reflexivity|exists 1; reflexivity|eauto]. Qed.
