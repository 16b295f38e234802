(* C107: what is shared between documents, and what an edit changes. *)
Require Import ZArith List Bool Arith Lia.
From Verif Require Import Base BSpec Alias.
Import ListNotations.
Open Scope nat_scope.

(* ---- specification ---- *)
Definition shows (h : heap) (d : nat) (fs : fields) : Prop := exists n, show n h d = Some fs.
Definition elem_shows (h : heap) (e : nat) (f : bytes * bval) : Prop := exists n, show_elem (show n h) h e = Some f.
Definition val_shows (h : heap) (v : nat) (f : bytes * bval) : Prop := exists n, show_val (show n h) h v = Some f.
Definition reached (h : heap) : Prop := exists os, h = run empty_heap os.

(* A document, element or value, and what is put in its place wherever it occurs. *)
Inductive part := PDoc (d : nat) (x : fields) | PElem (e : nat) (f : bytes * bval) | PVal (v : nat) (f : bytes * bval).
Definition is_part (h : heap) (p : part) : Prop :=
  match p with PDoc d x => shows h d x | PElem e f => elem_shows h e f | PVal v f => val_shows h v f end.
Definition graft_val (p : part) (rec : nat -> option fields) (h : heap) (v : nat) : option (bytes * bval) :=
  match p with
  | PVal w f => if v =? w then Some f else show_val rec h v
  | _ => show_val rec h v
  end.
Definition graft_elem (p : part) (rec : nat -> option fields) (h : heap) (e : nat) : option (bytes * bval) :=
  let default := match nth_error (h_elems h) e with None => None | Some v => graft_val p rec h v end in
  match p with PElem e1 f => if e =? e1 then Some f else default | _ => default end.
Fixpoint graft (p : part) (n : nat) (h : heap) (d : nat) : option fields :=
  let default k := match nth_error (h_docs h) d with None => None | Some es => mapO (graft_elem p (graft p k h) h) es end in
  match n with
  | O => None
  | S k => match p with PDoc s x => if d =? s then Some x else default k | _ => default k end
  end.
(* the operations that change something that exists, and what they change *)
Definition edits (o : op) (p : part) : Prop :=
  match o, p with
  | OAppend d _, PDoc s _ | OReplace d _ _, PDoc s _ | ODelete d _, PDoc s _ | OExtend d _, PDoc s _
  | OReset d, PDoc s _ | OWrap d _, PDoc s _ | OArrSet d _ _, PDoc s _ => d = s
  | OSetValue e _, PElem s _ => e = s
  | OValueSet v _, PVal s _ => v = s
  | _, _ => False
  end.
(* the operations that do not, beyond parsing what was bytes *)
Definition only_makes (o : op) : bool :=
  match o with ORead _ | OLook _ | OCopy _ | OValueCopy _ | OElemCopy _ | OSub _ _ _ | OConvert _ _ => true | _ => false end.
Definition edited_doc (o : op) : option nat :=
  match o with
  | OAppend d _ | OReplace d _ _ | ODelete d _ | OExtend d _ | OReset d | OWrap d _ | OArrSet d _ _ => Some d
  | _ => None
  end.

(* ---- lists ---- *)
Lemma upd_len : forall A (l : list A) i x, length (upd l i x) = length l.
Proof. induction l; destruct i; simpl; intros; auto. Qed.
Lemma upd_other : forall A (l : list A) i j x, i <> j -> nth_error (upd l i x) j = nth_error l j.
Proof. induction l; destruct i, j; simpl; intros; auto; try congruence. Qed.
Lemma upd_same : forall A (l : list A) i x, i < length l -> nth_error (upd l i x) i = Some x.
Proof. induction l; destruct i; simpl; intros; try lia; auto. apply IHl; lia. Qed.
Lemma upd_in : forall A (l : list A) i x y, In y (upd l i x) -> y = x \/ In y l.
Proof.
  induction l; destruct i; simpl; intros x y Q; auto; destruct Q as [Q|Q]; auto.
  destruct (IHl _ _ _ Q); auto.
Qed.
Lemma mapO_ext : forall A B (f g : A -> option B) l, (forall x, In x l -> f x = g x) -> mapO f l = mapO g l.
Proof.
  induction l as [|a l IH]; simpl; intros E; auto. rewrite (E a) by auto. rewrite IH; auto.
Qed.
Lemma mapO_imp : forall A B (f g : A -> option B) l ys,
  (forall x y, In x l -> f x = Some y -> g x = Some y) -> mapO f l = Some ys -> mapO g l = Some ys.
Proof.
  induction l as [|a l IH]; simpl; intros ys E Q; auto.
  destruct (f a) eqn:F; [|discriminate]. destruct (mapO f l) eqn:M; [|discriminate].
  rewrite (E a b) by auto. rewrite (IH l0); auto.
Qed.
Lemma nth_lt : forall A (l : list A) i x, nth_error l i = Some x -> i < length l.
Proof. intros A l i x Q. apply nth_error_Some. congruence. Qed.
Lemma nth_old : forall A (l r : list A) i, i < length l -> nth_error (l ++ r) i = nth_error l i.
Proof. intros. now apply nth_error_app1. Qed.

(* ---- more levels change nothing ---- *)
Lemma show_val_imp : forall (r1 r2 : nat -> option fields) h v f,
  (forall d fs, r1 d = Some fs -> r2 d = Some fs) -> show_val r1 h v = Some f -> show_val r2 h v = Some f.
Proof.
  unfold show_val. intros r1 r2 h v f E Q. destruct (nth_error (h_vals h) v) as [c|]; [|discriminate].
  destruct (vc_body c) as [t|a d]; auto. destruct (r1 d) eqn:R; [|discriminate]. now rewrite (E _ _ R).
Qed.
Lemma show_elem_imp : forall (r1 r2 : nat -> option fields) h e f,
  (forall d fs, r1 d = Some fs -> r2 d = Some fs) -> show_elem r1 h e = Some f -> show_elem r2 h e = Some f.
Proof.
  unfold show_elem. intros r1 r2 h e f E Q. destruct (nth_error (h_elems h) e); [|discriminate].
  eauto using show_val_imp.
Qed.
Lemma show_more : forall m n h d fs, show n h d = Some fs -> show (n + m) h d = Some fs.
Proof.
  intros m n h. induction n as [|n IH]; intros d fs Q; [discriminate|]. simpl in Q |- *.
  destruct (nth_error (h_docs h) d); [|discriminate]. revert Q. apply mapO_imp. intros x y _.
  now apply show_elem_imp.
Qed.
Lemma show_le : forall m n h d fs, n <= m -> show n h d = Some fs -> show m h d = Some fs.
Proof. intros m n h d fs L Q. replace m with (n + (m - n)) by lia. now apply show_more. Qed.
Lemma shows_one : forall h d x y, shows h d x -> shows h d y -> x = y.
Proof.
  intros h d x y [n N] [m M]. apply (show_more m) in N. apply (show_more n) in M.
  rewrite Nat.add_comm in M. congruence.
Qed.
Lemma elem_one : forall h e x y, elem_shows h e x -> elem_shows h e y -> x = y.
Proof.
  intros h e x y [n N] [m M].
  assert (show_elem (show (n + m) h) h e = Some x) by (revert N; apply show_elem_imp; intros; now apply show_more).
  assert (show_elem (show (n + m) h) h e = Some y)
    by (revert M; apply show_elem_imp; intros; apply (show_le _ m); auto; lia).
  congruence.
Qed.
Lemma val_one : forall h e x y, val_shows h e x -> val_shows h e y -> x = y.
Proof.
  intros h e x y [n N] [m M].
  assert (show_val (show (n + m) h) h e = Some x) by (revert N; apply show_val_imp; intros; now apply show_more).
  assert (show_val (show (n + m) h) h e = Some y)
    by (revert M; apply show_val_imp; intros; apply (show_le _ m); auto; lia).
  congruence.
Qed.

(* ---- grafting ---- *)
Lemma graft_val_in : forall p n h v f, is_part h p ->
  (forall d fs, show n h d = Some fs -> graft p n h d = Some fs) ->
  show_val (show n h) h v = Some f -> graft_val p (graft p n h) h v = Some f.
Proof.
  intros p n h v f T IH Q.
  assert (D : show_val (graft p n h) h v = Some f) by (revert Q; now apply show_val_imp).
  destruct p as [s x|e g|w g]; simpl in *; auto.
  destruct (Nat.eqb_spec v w) as [E|]; auto. rewrite E in *. f_equal. apply (val_one h w); auto. now exists n.
Qed.
Lemma graft_in : forall p n h d fs, is_part h p -> show n h d = Some fs -> graft p n h d = Some fs.
Proof.
  intros p n h d fs T. revert d fs. induction n as [|n IH]; intros d fs Q; [discriminate|].
  assert (D : match nth_error (h_docs h) d with None => None | Some es => mapO (graft_elem p (graft p n h) h) es end = Some fs).
  { simpl in Q. destruct (nth_error (h_docs h) d) as [es|]; [|discriminate].
    revert Q. apply mapO_imp. intros e y _ Q.
    assert (M : match nth_error (h_elems h) e with None => None | Some v => graft_val p (graft p n h) h v end = Some y).
    { unfold show_elem in Q. destruct (nth_error (h_elems h) e); [|discriminate]. now apply graft_val_in. }
    unfold graft_elem. destruct p as [s x|e1 f|w f]; auto.
    destruct (Nat.eqb_spec e e1) as [E|]; auto. rewrite E in *. f_equal. apply (elem_one h e1); auto. now exists n. }
  simpl. destruct p as [s x|e f|w f]; auto.
  destruct (Nat.eqb_spec d s) as [E|]; auto. rewrite E in *. f_equal. apply (shows_one h s); auto. now exists (S n).
Qed.
Definition part_within (m : nat) (h : heap) (p : part) : Prop :=
  match p with PDoc d x => show m h d = Some x | PElem e f => show_elem (show m h) h e = Some f | PVal v f => show_val (show m h) h v = Some f end.
Lemma graft_out : forall p m n h d fs, part_within m h p -> graft p n h d = Some fs -> show (n + m) h d = Some fs.
Proof.
  intros p m n h d fs T. revert d fs. induction n as [|n IH]; intros d fs Q; [discriminate|].
  assert (EL : forall e y, graft_elem p (graft p n h) h e = Some y -> show_elem (show (n + m) h) h e = Some y).
  { intros e y G.
    assert (VL : forall v z, graft_val p (graft p n h) h v = Some z -> show_val (show (n + m) h) h v = Some z).
    { intros v z Z.
      assert (Q1 : show_val (graft p n h) h v = Some z -> show_val (show (n + m) h) h v = Some z)
        by (apply show_val_imp; exact IH).
      destruct p as [s x|e1 g|w g]; simpl in Z; auto.
      destruct (Nat.eqb_spec v w) as [E|]; auto. rewrite E in *. injection Z as <-. simpl in T.
      revert T. apply show_val_imp. intros d0 fs0. apply show_le. lia. }
    assert (Q1 : match nth_error (h_elems h) e with None => None | Some v => graft_val p (graft p n h) h v end = Some y ->
      show_elem (show (n + m) h) h e = Some y).
    { unfold show_elem. destruct (nth_error (h_elems h) e); [apply VL|discriminate]. }
    unfold graft_elem in G. destruct p as [s x|e1 f|w f]; auto.
    destruct (Nat.eqb_spec e e1) as [E|]; auto. rewrite E in *. injection G as <-. simpl in T.
    revert T. apply show_elem_imp. intros d0 fs0. apply show_le. lia. }
  assert (Q1 : match nth_error (h_docs h) d with None => None | Some es => mapO (graft_elem p (graft p n h) h) es end = Some fs ->
    show (S n + m) h d = Some fs).
  { simpl. destruct (nth_error (h_docs h) d); [|discriminate]. apply mapO_imp. intros. now apply EL. }
  simpl in Q. destruct p as [s x|e f|w f]; auto.
  destruct (Nat.eqb_spec d s) as [E|]; auto. rewrite E in *. injection Q as <-. simpl in T.
  apply (show_le _ m); auto. lia.
Qed.
Lemma graft_iff : forall p h d fs, is_part h p -> (shows h d fs <-> exists n, graft p n h d = Some fs).
Proof.
  intros p h d fs T. split; intros [n N].
  - exists n. now apply graft_in.
  - assert (exists m, part_within m h p) as [m M] by (destruct p; exact T).
    exists (n + m). eauto using graft_out.
Qed.

(* Heaps that agree but for the part *)
Definition doc_at (p : part) (d : nat) : Prop := match p with PDoc s _ => d = s | _ => False end.
Definition elem_at (p : part) (d : nat) : Prop := match p with PElem s _ => d = s | _ => False end.
Definition val_at (p : part) (d : nat) : Prop := match p with PVal s _ => d = s | _ => False end.
Definition wf (h : heap) : Prop :=
  (forall es e, In es (h_docs h) -> In e es -> e < length (h_elems h)) /\
  (forall v, In v (h_elems h) -> v < length (h_vals h)) /\
  (forall c a d, In c (h_vals h) -> vc_body c = Sub a d -> d < length (h_docs h)).
Definition agrees (p : part) (h h' : heap) : Prop :=
  (forall d, d < length (h_docs h) -> ~ doc_at p d -> nth_error (h_docs h') d = nth_error (h_docs h) d) /\
  (forall d, d < length (h_elems h) -> ~ elem_at p d -> nth_error (h_elems h') d = nth_error (h_elems h) d) /\
  (forall d, d < length (h_vals h) -> ~ val_at p d -> nth_error (h_vals h') d = nth_error (h_vals h) d).
Lemma graft_same : forall p n h h' d, wf h -> agrees p h h' -> d < length (h_docs h) -> graft p n h' d = graft p n h d.
Proof.
  intros p n h h' d (W1 & W2 & W3) (A1 & A2 & A3). revert d. induction n as [|n IH]; intros d L; [reflexivity|].
  assert (VL : forall v, v < length (h_vals h) -> graft_val p (graft p n h') h' v = graft_val p (graft p n h) h v).
  { intros v Lv.
    assert (D : ~ val_at p v -> show_val (graft p n h') h' v = show_val (graft p n h) h v).
    { intros N. unfold show_val. rewrite (A3 v Lv N). destruct (nth_error (h_vals h) v) as [c|] eqn:E; auto.
      destruct (vc_body c) as [t|a s] eqn:B; auto. rewrite IH; auto.
      apply nth_error_In in E. eauto. }
    destruct p as [s x|e f|w f]; simpl; auto. destruct (Nat.eqb_spec v w); auto. }
  assert (EL : forall e, e < length (h_elems h) -> graft_elem p (graft p n h') h' e = graft_elem p (graft p n h) h e).
  { intros e Le.
    assert (D : ~ elem_at p e ->
      match nth_error (h_elems h') e with None => None | Some v => graft_val p (graft p n h') h' v end =
      match nth_error (h_elems h) e with None => None | Some v => graft_val p (graft p n h) h v end).
    { intros N. rewrite (A2 e Le N). destruct (nth_error (h_elems h) e) as [v|] eqn:E; auto.
      apply VL. apply nth_error_In in E. auto. }
    unfold graft_elem. destruct p as [s x|e1 f|w f]; auto. destruct (Nat.eqb_spec e e1); auto. }
  assert (D : ~ doc_at p d ->
    match nth_error (h_docs h') d with None => None | Some es => mapO (graft_elem p (graft p n h') h') es end =
    match nth_error (h_docs h) d with None => None | Some es => mapO (graft_elem p (graft p n h) h) es end).
  { intros N. rewrite (A1 d L N). destruct (nth_error (h_docs h) d) as [es|] eqn:E; auto.
    apply mapO_ext. intros e I. apply EL. apply nth_error_In in E. eauto. }
  simpl. destruct p as [s x|e f|w f]; auto. destruct (Nat.eqb_spec d s); auto.
Qed.

(* ---- every operation keeps the heap well formed ---- *)
Lemma wf_set_doc : forall h d es, wf h -> (forall e, In e es -> e < length (h_elems h)) -> wf (set_doc h d es).
Proof.
  intros h d es (A & B & C) N. unfold wf, set_doc; simpl. rewrite upd_len. repeat split; auto.
  intros es0 e I J. apply upd_in in I. destruct I as [->|I]; eauto.
Qed.
Lemma wf_new_val : forall h c, wf h -> (forall a d, vc_body c = Sub a d -> d < length (h_docs h)) -> wf (new_val h c).
Proof.
  intros h c (A & B & C) N. unfold wf, new_val; simpl. rewrite app_length. simpl. repeat split; auto.
  - intros v I. specialize (B v I). lia.
  - intros c0 a d I E. apply in_app_iff in I. destruct I as [I|[<-|[]]]; eauto.
Qed.
Lemma wf_new_elem : forall h v, wf h -> v < length (h_vals h) -> wf (new_elem h v).
Proof.
  intros h v (A & B & C) N. unfold wf, new_elem; simpl. rewrite app_length. simpl. repeat split; auto.
  - intros es e I J. specialize (A es e I J). lia.
  - intros w I. apply in_app_iff in I. destruct I as [I|[<-|[]]]; auto.
Qed.
Lemma wf_new_doc : forall h es, wf h -> (forall e, In e es -> e < length (h_elems h)) -> wf (new_doc h es).
Proof.
  intros h es (A & B & C) N. unfold wf, new_doc; simpl. rewrite app_length. simpl. repeat split; auto.
  - intros es0 e I J. apply in_app_iff in I. destruct I as [I|[<-|[]]]; eauto.
  - intros c a d I E. specialize (C c a d I E). lia.
Qed.
Lemma wf_load : forall h fs, wf h -> wf (load h fs).
Proof.
  intros h fs (A & B & C). unfold wf, load; simpl. rewrite !app_length, map_length, !seq_length. simpl. repeat split.
  - intros es e I J. apply in_app_iff in I. destruct I as [I|[<-|[]]].
    + specialize (A es e I J). lia.
    + apply in_seq in J. lia.
  - intros v I. apply in_app_iff in I. destruct I as [I|I]; [specialize (B v I); lia|]. apply in_seq in I. lia.
  - intros c a d I E. apply in_app_iff in I. destruct I as [I|I]; [specialize (C c a d I E); lia|].
    apply in_map_iff in I. destruct I as (f & <- & _). discriminate.
Qed.
Lemma has_lt : forall A (l : list A) i, has l i = true -> i < length l.
Proof. unfold has. intros. now apply Nat.ltb_lt. Qed.
Lemma wf_look : forall h v h' d, wf h -> look h v = Some (h', d) -> wf h' /\ d < length (h_docs h').
Proof.
  intros h v h' d W L. unfold look in L. destruct (nth_error (h_vals h) v) as [c|] eqn:E; [|discriminate].
  destruct (vc_body c) as [t|a s] eqn:B.
  - destruct (inside t) as [[a fs]|] eqn:I; [|discriminate]. injection L as <- <-.
    destruct (wf_load h fs W) as (A1 & A2 & A3). simpl in *.
    unfold wf; simpl. rewrite upd_len, !app_length in *. simpl in *. repeat split; auto; [|lia].
    intros c0 a0 d0 I0 E0. apply upd_in in I0. destruct I0 as [->|I0]; [simpl in E0; injection E0 as <- <-; lia|eauto].
  - injection L as <- <-. split; auto. destruct W as (_ & _ & C). apply nth_error_In in E. eauto.
Qed.
Lemma in_doc : forall h d es e, wf h -> nth_error (h_docs h) d = Some es -> In e es -> e < length (h_elems h).
Proof. intros h d es e (A & _ & _) E I. apply nth_error_In in E. eauto. Qed.
Lemma in_val : forall h v c a d, wf h -> nth_error (h_vals h) v = Some c -> vc_body c = Sub a d -> d < length (h_docs h).
Proof. intros h v c a d (_ & _ & C) E B. apply nth_error_In in E. eauto. Qed.
Lemma in_firstn : forall A n (l : list A) x, In x (firstn n l) -> In x l.
Proof. intros A n l x I. rewrite <- (firstn_skipn n l). apply in_app_iff. auto. Qed.
Lemma in_skipn : forall A n (l : list A) x, In x (skipn n l) -> In x l.
Proof. intros A n l x I. rewrite <- (firstn_skipn n l). apply in_app_iff. auto. Qed.
Lemma wf_exec : forall o h, wf h -> wf (exec h o).
Proof.
  intros o h W.
  destruct o as [fs|v|d|d e|d i e|d i|d d2|d|e v|v|e|v w|k a d|d v|d i v|k v]; simpl.
  - now apply wf_load.
  - destruct (look h v) as [[h' d]|] eqn:L; auto. now apply wf_look in L.
  - destruct (nth_error (h_docs h) d) eqn:E; auto. apply wf_new_doc; eauto using in_doc.
  - destruct (nth_error (h_docs h) d) eqn:E; auto. destruct (has (h_elems h) e) eqn:H; auto. apply has_lt in H.
    apply wf_set_doc; auto. intros e0 I. apply in_app_iff in I. destruct I as [I|[<-|[]]]; eauto using in_doc.
  - destruct (nth_error (h_docs h) d) eqn:E; auto. destruct (has (h_elems h) e) eqn:H; auto. apply has_lt in H.
    apply wf_set_doc; auto. intros e0 I. apply upd_in in I. destruct I as [->|I]; eauto using in_doc.
  - destruct (nth_error (h_docs h) d) eqn:E; auto. apply wf_set_doc; auto. intros e0 I.
    apply in_app_iff in I. destruct I as [I|I]; [apply in_firstn in I|apply (in_skipn _ (S i)) in I]; eauto using in_doc.
  - destruct (nth_error (h_docs h) d) eqn:E; auto. destruct (nth_error (h_docs h) d2) eqn:E2; auto.
    apply wf_set_doc; auto. intros e0 I. apply in_app_iff in I. destruct I; eauto using in_doc.
  - destruct (has (h_docs h) d); auto. apply wf_set_doc; auto. intros e0 [].
  - destruct (has (h_vals h) v) eqn:H; auto. apply has_lt in H. destruct W as (A & B & C).
    unfold wf; simpl. rewrite upd_len. repeat split; auto. intros v0 I. apply upd_in in I. destruct I as [->|I]; auto.
  - destruct (nth_error (h_vals h) v) eqn:E; auto. apply wf_new_val; eauto using in_val.
  - destruct (nth_error (h_elems h) e) as [v|] eqn:E; auto. destruct (nth_error (h_vals h) v) eqn:E2; auto.
    apply wf_new_elem; [apply wf_new_val; eauto using in_val|]. simpl. rewrite app_length. simpl. lia.
  - destruct (nth_error (h_vals h) w) as [c|] eqn:E; auto. pose proof W as (A & B & C).
    unfold wf; simpl. rewrite upd_len. repeat split; auto.
    intros c0 a d I Q. apply upd_in in I. destruct I as [->|I]; eauto using in_val.
  - destruct (has (h_docs h) d) eqn:H; auto. apply has_lt in H.
    apply wf_new_elem; [apply wf_new_val; auto|simpl; rewrite app_length; simpl; lia].
    simpl. intros a0 d0 Q. now injection Q as _ <-.
  - destruct (nth_error (h_docs h) d) eqn:E; auto. destruct (has (h_vals h) v) eqn:H; auto. apply has_lt in H.
    apply wf_set_doc; [now apply wf_new_elem|]. simpl. rewrite app_length. simpl.
    intros e0 I. apply in_app_iff in I. destruct I as [I|[<-|[]]]; [|lia]. pose proof (in_doc _ _ _ _ W E I). lia.
  - destruct (nth_error (h_docs h) d) eqn:E; auto. destruct (has (h_vals h) v) eqn:H; auto. simpl. apply has_lt in H.
    destruct (has l i); auto.
    apply wf_set_doc; [now apply wf_new_elem|]. simpl. rewrite app_length. simpl.
    intros e0 I. apply upd_in in I. destruct I as [->|I]; [lia|]. pose proof (in_doc _ _ _ _ W E I). lia.
  - destruct (nth_error (h_vals h) v) as [c|] eqn:E; auto. destruct (vc_body c) as [t|a d] eqn:B.
    + apply wf_new_elem; [apply wf_new_val; auto; discriminate|simpl; rewrite app_length; simpl; lia].
    + destruct (nth_error (h_docs h) d) as [es|] eqn:D; auto.
      apply wf_new_elem; [apply wf_new_val|simpl; rewrite app_length; simpl; lia].
      * apply wf_new_doc; auto. intros e I. eauto using in_doc.
      * simpl. intros a0 d0 Q. injection Q as _ <-. rewrite app_length. simpl. lia.
Qed.
Lemma wf_run : forall os h, wf h -> wf (run h os).
Proof. unfold run. induction os; simpl; intros; auto using wf_exec. Qed.
Lemma wf_reached : forall h, reached h -> wf h.
Proof. intros h [os ->]. apply wf_run. repeat split; simpl; contradiction. Qed.

(* ---- what was there is left alone ---- *)
Definition old_same (h h' : heap) : Prop :=
  (forall d, d < length (h_docs h) -> nth_error (h_docs h') d = nth_error (h_docs h) d) /\
  (forall d, d < length (h_elems h) -> nth_error (h_elems h') d = nth_error (h_elems h) d) /\
  (forall d, d < length (h_vals h) -> nth_error (h_vals h') d = nth_error (h_vals h) d).
Lemma old_show : forall n h h' d, wf h -> old_same h h' -> d < length (h_docs h) -> show n h' d = show n h d.
Proof.
  intros n h h' d (W1 & W2 & W3) (A1 & A2 & A3). revert d. induction n as [|n IH]; intros d L; [reflexivity|].
  simpl. rewrite (A1 d L). destruct (nth_error (h_docs h) d) as [es|] eqn:E; auto.
  apply mapO_ext. intros e I. apply nth_error_In in E. pose proof (W1 _ _ E I) as Le.
  unfold show_elem. rewrite (A2 e Le). destruct (nth_error (h_elems h) e) as [v|] eqn:Ee; auto.
  apply nth_error_In in Ee. pose proof (W2 _ Ee) as Lv.
  unfold show_val. rewrite (A3 v Lv). destruct (nth_error (h_vals h) v) as [c|] eqn:Ev; auto.
  destruct (vc_body c) as [t|a s] eqn:B; auto. rewrite IH; auto. apply nth_error_In in Ev. eauto.
Qed.
Lemma old_refl : forall h, old_same h h.
Proof. repeat split. Qed.
Lemma old_app : forall h a b c, old_same h (MkHeap (h_docs h ++ a) (h_elems h ++ b) (h_vals h ++ c)).
Proof. intros. repeat split; simpl; intros; now apply nth_old. Qed.
Lemma app_nil_heap : forall h, MkHeap (h_docs h ++ []) (h_elems h ++ []) (h_vals h ++ []) = h.
Proof. destruct h; simpl. now rewrite !app_nil_r. Qed.

Definition grows (h h' : heap) : Prop := exists a b c, h' = MkHeap (h_docs h ++ a) (h_elems h ++ b) (h_vals h ++ c).
Lemma makes_grows : forall h o, only_makes o = true -> (forall v, o <> OLook v) -> grows h (exec h o).
Proof.
  intros h o M N.
  assert (R : grows h h) by (exists [], [], []; now rewrite app_nil_heap).
  destruct o as [fs|v|d|d e|d i e|d i|d d2|d|e v|v|e|v w|k a d|d v|d i v|k v]; try discriminate; simpl.
  - eexists _, _, _. unfold load. reflexivity.
  - exfalso. exact (N v eq_refl).
  - destruct (nth_error (h_docs h) d) as [es|]; auto. exists [es], [], []. unfold new_doc. now rewrite !app_nil_r.
  - destruct (nth_error (h_vals h) v) as [c|]; auto. exists [], [], [c]. unfold new_val. now rewrite !app_nil_r.
  - destruct (nth_error (h_elems h) e) as [v|]; auto. destruct (nth_error (h_vals h) v) as [c|]; auto.
    exists [], [length (h_vals h)], [c]. unfold new_val, new_elem. simpl. now rewrite !app_nil_r.
  - destruct (has (h_docs h) d); auto. exists [], [length (h_vals h)], [MkV k (Sub a d)]. unfold new_val, new_elem. simpl. now rewrite app_nil_r.
  - destruct (nth_error (h_vals h) v) as [c|]; auto. destruct (vc_body c) as [t|a d].
    + exists [], [length (h_vals h)], [MkV k (Raw t)]. unfold new_val, new_elem. simpl. now rewrite app_nil_r.
    + destruct (nth_error (h_docs h) d) as [es|]; auto. eexists _, _, _. unfold new_val, new_elem, new_doc. reflexivity.
Qed.
Lemma grows_old : forall h h', grows h h' -> old_same h h'.
Proof. intros h h' (a & b & c & ->). apply old_app. Qed.

Lemma numbered_snd : forall vs i, map snd (numbered i vs) = vs.
Proof. induction vs; simpl; intros; auto. now rewrite IHvs. Qed.
Lemma mapO_seq : forall B (f : nat -> option B) ys a,
  (forall i, i < length ys -> f (a + i) = nth_error ys i) -> mapO f (seq a (length ys)) = Some ys.
Proof.
  induction ys as [|y ys IH]; intros a Q; simpl; auto.
  pose proof (Q 0 ltac:(simpl; lia)) as Q0. rewrite Nat.add_0_r in Q0. rewrite Q0. simpl.
  rewrite IH; auto. intros i L. specialize (Q (S i) ltac:(simpl; lia)). rewrite Nat.add_succ_r in Q. exact Q.
Qed.
Lemma nth_app_r : forall A (l r : list A) i, nth_error (l ++ r) (length l + i) = nth_error r i.
Proof. intros. rewrite nth_error_app2 by lia. f_equal. lia. Qed.
Lemma nth_seq : forall n a i, i < n -> nth_error (seq a n) i = Some (a + i).
Proof.
  induction n; intros a i L; [lia|]. destruct i; simpl; [f_equal; lia|]. rewrite IHn by lia. f_equal; lia.
Qed.
(* a document just parsed, some value before it having been replaced *)
Lemma fresh_shows : forall h fs v c n, v < length (h_vals h) ->
  show (S n) (MkHeap (h_docs (load h fs)) (h_elems (load h fs)) (upd (h_vals (load h fs)) v c)) (length (h_docs h)) = Some fs.
Proof.
  intros h fs v c n Lv. simpl. replace (length (h_docs h)) with (length (h_docs h) + 0) at 1 by lia.
  rewrite nth_app_r. simpl. apply mapO_seq. intros i L.
  unfold show_elem. simpl. rewrite nth_app_r, nth_seq by auto.
  unfold show_val. simpl. rewrite upd_other by lia. rewrite nth_app_r, nth_error_map.
  destruct (nth_error fs i) as [[k t]|] eqn:E; simpl; auto.
Qed.
Lemma look_part : forall h v h' s, look h v = Some (h', s) -> h' = h \/
  exists f, is_part h (PVal v f) /\ is_part h' (PVal v f) /\ agrees (PVal v f) h h' /\ s = length (h_docs h).
Proof.
  intros h v h' s L. unfold look in L. destruct (nth_error (h_vals h) v) as [c|] eqn:E; [|discriminate].
  destruct (vc_body c) as [t|a d] eqn:B; [|left; congruence].
  destruct (inside t) as [[a fs]|] eqn:I; [|discriminate]. injection L as <- <-. right.
  pose proof (nth_lt _ _ _ _ E) as Lv.
  exists (vc_key c, t). split; [|split; [|split; auto]].
  - exists 0. unfold show_val. now rewrite E, B.
  - exists 1. unfold show_val. cbn [h_vals]. rewrite upd_same by (simpl; rewrite app_length; lia).
    cbn [vc_body vc_key].
    pose proof (fresh_shows h fs v (MkV (vc_key c) (Sub a (length (h_docs h)))) 0 Lv) as F. cbn [load h_docs h_elems h_vals] in F. rewrite F. simpl. do 2 f_equal.
    destruct t; try discriminate; simpl in I; injection I as <- <-; simpl; auto. now rewrite numbered_snd.
  - unfold agrees; simpl. repeat split; intros i Li Ni; try (now apply nth_old).
    rewrite upd_other by (simpl in Ni; congruence). now apply nth_old.
Qed.

(* Making documents, elements and values, copying them, and looking into a sub-document or an
   array to edit it later, change nothing that was there. *)
Theorem C107_makes : forall h o d fs,
  reached h -> only_makes o = true -> d < length (h_docs h) ->
  (shows h d fs <-> shows (exec h o) d fs).
Proof.
  intros h o d fs R M L. apply wf_reached in R.
  assert (C : (exists v, o = OLook v) \/ forall v, o <> OLook v) by (destruct o; [right; congruence|left; eauto|..]; right; congruence).
  destruct C as [[v ->]|N].
  - simpl. destruct (look h v) as [[h' s]|] eqn:K; [|tauto].
    destruct (look_part _ _ _ _ K) as [->|(f & P1 & P2 & A & _)]; [tauto|].
    rewrite (graft_iff _ _ d fs P1), (graft_iff _ _ d fs P2).
    split; intros [n Q]; exists n; [rewrite (graft_same _ n h h')|rewrite <- (graft_same _ n h h')]; auto.
  - pose proof (grows_old _ _ (makes_grows h o M N)) as O.
    unfold shows. split; intros [n Q]; exists n; [rewrite (old_show n h)|rewrite <- (old_show n h (exec h o))]; auto.
Qed.
Print Assumptions C107_makes.

Lemma edit_agrees : forall h o p, edits o p -> agrees p h (exec h o).
Proof.
  intros h o p E.
  assert (R : agrees p h h) by (repeat split).
  assert (S : forall d x es, p = PDoc d x -> agrees p h (set_doc h d es)).
  { intros d x es ->. repeat split; simpl; auto. intros i L N. (apply upd_other; simpl in N; congruence). }
  assert (S2 : forall d x es v, p = PDoc d x -> agrees p h (set_doc (new_elem h v) d es)).
  { intros d x es v ->. repeat split; simpl; auto; intros i L N; [(apply upd_other; simpl in N; congruence)|now apply nth_old]. }
  destruct o as [fs|v|d|d e|d i e|d i|d d2|d|e v|v|e|v w|k a d|d v|d i v|k v]; destruct p as [s x|e1 f|w1 f]; simpl in E; try contradiction; subst; simpl.
  - destruct (nth_error _ _); auto. destruct (has _ _); eauto.
  - destruct (nth_error _ _); auto. destruct (has _ _); eauto.
  - destruct (nth_error _ _); eauto.
  - destruct (nth_error (h_docs h) s); auto. destruct (nth_error _ _); eauto.
  - destruct (has _ _); eauto.
  - destruct (has _ _); auto. repeat split; simpl; auto. intros i L N. (apply upd_other; simpl in N; congruence).
  - destruct (nth_error _ _); auto. repeat split; simpl; auto. intros i L N. (apply upd_other; simpl in N; congruence).
  - destruct (nth_error _ _); auto. destruct (has _ _); eauto.
  - destruct (nth_error _ _); auto. destruct (has _ _ && _); eauto.
Qed.
(* An edit of a document, an element or a value shows in everything that holds it, at every
   depth: each document shows what it showed with the new contents in place of the old. *)
Theorem C107_edit : forall h o p d fs,
  reached h -> edits o p -> is_part (exec h o) p -> d < length (h_docs h) ->
  (shows (exec h o) d fs <-> exists n, graft p n h d = Some fs).
Proof.
  intros h o p d fs R E T L. apply wf_reached in R. rewrite (graft_iff _ _ d fs T).
  split; intros [n Q]; exists n; [rewrite <- (graft_same p n h (exec h o))|rewrite (graft_same p n h (exec h o))]; auto using edit_agrees.
Qed.
Print Assumptions C107_edit.

(* ---- and in nothing else ---- *)
Inductive holds (h : heap) (p : part) : nat -> Prop :=
| in_itself : forall d, doc_at p d -> holds h p d
| in_elem : forall d es e, nth_error (h_docs h) d = Some es -> In e es -> elem_at p e -> holds h p d
| in_value : forall d es e v, nth_error (h_docs h) d = Some es -> In e es -> nth_error (h_elems h) e = Some v ->
    val_at p v -> holds h p d
| in_sub : forall d es e v c a s, nth_error (h_docs h) d = Some es -> In e es -> nth_error (h_elems h) e = Some v ->
    nth_error (h_vals h) v = Some c -> vc_body c = Sub a s -> holds h p s -> holds h p d.
Theorem C107_nowhere_else : forall h o p d fs,
  reached h -> edits o p -> d < length (h_docs h) -> ~ holds h p d ->
  (shows h d fs <-> shows (exec h o) d fs).
Proof.
  intros h o p d fs R E L N. apply wf_reached in R. destruct R as (W1 & W2 & W3).
  destruct (edit_agrees h o p E) as (A1 & A2 & A3).
  enough (Q : forall n d, d < length (h_docs h) -> ~ holds h p d -> show n (exec h o) d = show n h d).
  { unfold shows. split; intros [n K]; exists n; [rewrite Q|rewrite <- Q]; auto. }
  clear d fs L N. induction n as [|n IH]; intros d L N; [reflexivity|]. simpl.
  rewrite (A1 d L) by (intro; apply N; now apply in_itself).
  destruct (nth_error (h_docs h) d) as [es|] eqn:D; auto. apply mapO_ext. intros e I.
  pose proof (W1 _ _ (nth_error_In _ _ D) I) as Le. unfold show_elem.
  rewrite (A2 e Le) by (intro; apply N; now apply (in_elem h p d es e)).
  destruct (nth_error (h_elems h) e) as [v|] eqn:Ee; auto.
  pose proof (W2 _ (nth_error_In _ _ Ee)) as Lv. unfold show_val.
  rewrite (A3 v Lv) by (intro; apply N; now apply (in_value h p d es e v)).
  destruct (nth_error (h_vals h) v) as [c|] eqn:Ev; auto. destruct (vc_body c) as [t|a s] eqn:B; auto.
  rewrite IH; auto; [exact (W3 _ _ _ (nth_error_In _ _ Ev) B)|].
  intros Z. apply N. exact (in_sub h p d es e v c a s D I Ee Ev B Z).
Qed.
Print Assumptions C107_nowhere_else.

(* ---- what is isolated ---- *)
(* edits of what was made since, and looks at it *)
Definition touches_new (h : heap) (o : op) : Prop :=
  match o with
  | OLook v => length (h_vals h) <= v
  | OSetValue e _ => length (h_elems h) <= e
  | OValueSet v _ => length (h_vals h) <= v
  | _ => match edited_doc o with Some d => length (h_docs h) <= d | None => True end
  end.
Lemma edit_of : forall o, (only_makes o = true) \/ (exists p, edits o p).
Proof.
  destruct o as [fs|v|d|d e|d i e|d i|d d2|d|e v|v|e|v w|k a d|d v|d i v|k v]; simpl; auto; right;
    try (now exists (PDoc d [])); [now exists (PElem e ([], BNull))|now exists (PVal v ([], BNull))].
Qed.
Definition longer (h h' : heap) : Prop :=
  length (h_docs h) <= length (h_docs h') /\ length (h_elems h) <= length (h_elems h') /\ length (h_vals h) <= length (h_vals h').
Lemma exec_longer : forall h o, longer h (exec h o).
Proof.
  intros h o. unfold longer.
  destruct o as [fs|v|d|d e|d i e|d i|d d2|d|e v|v|e|v w|k a d|d v|d i v|k v]; simpl.
  2: { destruct (look h v) as [[h' s]|] eqn:L; [|lia]. unfold look in L.
       destruct (nth_error (h_vals h) v) as [c|]; [|discriminate]. destruct (vc_body c) as [t|a d].
       - destruct (inside t) as [[a fs]|]; [|discriminate]. injection L as <- _. simpl. rewrite upd_len, !app_length. lia.
       - injection L as <- _. lia. }
  all: repeat match goal with
       | |- context [match nth_error ?l ?i with _ => _ end] => destruct (nth_error l i)
       | |- context [match vc_body ?c with _ => _ end] => destruct (vc_body c)
       | |- context [if ?b then _ else _] => destruct b
       end; simpl; rewrite ?upd_len, ?app_length; simpl; lia.
Qed.
Lemma touch_old : forall h0 h o, longer h0 h -> old_same h0 h -> touches_new h0 o -> old_same h0 (exec h o).
Proof.
  intros h0 h o (G1 & G2 & G3) (O1 & O2 & O3) T. destruct (edit_of o) as [M|[p E]].
  - assert (C : (exists v, o = OLook v) \/ forall v, o <> OLook v) by (destruct o; [right; congruence|left; eauto|..]; right; congruence).
    destruct C as [[v ->]|N].
    + simpl in *. destruct (look h v) as [[h' s]|] eqn:K; [|repeat split; auto].
      destruct (look_part _ _ _ _ K) as [->|(f & _ & _ & (A1 & A2 & A3) & _)]; [repeat split; auto|].
      repeat split; intros i L; [rewrite A1|rewrite A2|rewrite A3]; auto; simpl; lia.
    + destruct (grows_old _ _ (makes_grows h o M N)) as (A1 & A2 & A3).
      repeat split; intros i L; [rewrite A1|rewrite A2|rewrite A3]; auto; lia.
  - destruct (edit_agrees h o p E) as (A1 & A2 & A3).
    assert (F : forall i, (i < length (h_docs h0) -> ~ doc_at p i) /\ (i < length (h_elems h0) -> ~ elem_at p i) /\
      (i < length (h_vals h0) -> ~ val_at p i)).
    { intros i. destruct o, p; simpl in *; try contradiction; subst; repeat split; intros; lia. }
    repeat split; intros i L; [rewrite A1|rewrite A2|rewrite A3]; auto; try lia; now apply F.
Qed.
Theorem C107_isolated : forall h os d fs,
  reached h -> (forall o, In o os -> touches_new h o) -> d < length (h_docs h) ->
  (shows h d fs <-> shows (run h os) d fs).
Proof.
  intros h os d fs R T L. apply wf_reached in R.
  assert (O : old_same h (run h os)).
  { unfold run. assert (Q : forall os h1, (forall o, In o os -> touches_new h o) -> longer h h1 -> old_same h h1 -> old_same h (fold_left exec os h1)).
    { clear. induction os as [|o os IH]; simpl; intros h1 T G O; auto. apply IH; auto.
      - pose proof (exec_longer h1 o). unfold longer in *. lia.
      - apply touch_old; auto. }
    apply Q; auto; [unfold longer; lia|apply old_refl]. }
  unfold shows. split; intros [n Q]; exists n; [rewrite (old_show n h)|rewrite <- (old_show n h (run h os))]; auto.
Qed.
Print Assumptions C107_isolated.
(* A value that nothing has looked into: its copy, once looked into, is a new document. *)
Theorem C107_value_copy : forall h v k t h' s,
  reached h -> nth_error (h_vals h) v = Some (MkV k (Raw t)) ->
  look (exec h (OValueCopy v)) (length (h_vals h)) = Some (h', s) ->
  s = length (h_docs h) /\
  forall os d fs, (forall o, In o os -> edited_doc o = Some s) -> d < length (h_docs h) ->
    (shows h d fs <-> shows (run h' os) d fs).
Proof.
  intros h v k t h' s R E K.
  assert (H : h' = run h [OValueCopy v; OLook (length (h_vals h))]) by (simpl; simpl in K; now rewrite K).
  assert (S : s = length (h_docs h)).
  { simpl in K. rewrite E in K. unfold look in K. simpl in K. rewrite nth_error_app2, Nat.sub_diag in K by lia. simpl in K.
    destruct (inside t) as [[a fs]|]; [|discriminate]. now injection K as _ <-. }
  split; auto. intros os d fs T L. rewrite H.
  unfold run. rewrite <- fold_left_app. fold (run h ([OValueCopy v; OLook (length (h_vals h))] ++ os)).
  apply C107_isolated; auto. intros o I. apply in_app_iff in I. simpl in I.
  destruct I as [[<-|[<-|[]]]|I]; simpl; auto. specialize (T o I).
  destruct o; simpl in *; try discriminate; injection T as <-; lia.
Qed.
Print Assumptions C107_value_copy.

(* ---- what is not ---- *)
(* Value.Copy and Element.Copy promise an independent object.  Once the sub-document has been
   looked at, or was given by the caller, the copy edits the same document. *)
Theorem C107_value_copy_refuted : forall h e v k a s,
  nth_error (h_elems h) e = Some v -> nth_error (h_vals h) v = Some (MkV k (Sub a s)) ->
  option_map snd (look (exec h (OValueCopy v)) (length (h_vals h))) = Some s /\
  option_map snd (look (exec h (OElemCopy e)) (length (h_vals h))) = Some s /\
  option_map snd (look h v) = Some s.
Proof.
  intros h e v k a s Ee E. simpl. rewrite Ee, E. unfold look. simpl. rewrite nth_error_app2, Nat.sub_diag by lia. simpl. now rewrite E.
Qed.
Print Assumptions C107_value_copy_refuted.

(* A document and its Copy show the same, whatever is done, so long as neither is edited itself. *)
Theorem C107_copy_shared : forall h d os fs,
  reached h -> d < length (h_docs h) ->
  (forall o, In o os -> edited_doc o <> Some d /\ edited_doc o <> Some (length (h_docs h))) ->
  let h' := run (exec h (OCopy d)) os in
  (shows h' d fs <-> shows h' (length (h_docs h)) fs).
Proof.
  intros h d os fs R L T. simpl. destruct (nth_error (h_docs h) d) as [es|] eqn:E; [|apply nth_error_None in E; lia].
  assert (Q : forall os h1, nth_error (h_docs h1) d = Some es -> nth_error (h_docs h1) (length (h_docs h)) = Some es ->
    (forall o, In o os -> edited_doc o <> Some d /\ edited_doc o <> Some (length (h_docs h))) ->
    nth_error (h_docs (run h1 os)) d = Some es /\ nth_error (h_docs (run h1 os)) (length (h_docs h)) = Some es).
  { assert (S : forall h1 o x, nth_error (h_docs h1) x = Some es -> edited_doc o <> Some x -> nth_error (h_docs (exec h1 o)) x = Some es).
    { clear. intros h1 o x N D. pose proof (nth_lt _ _ _ _ N) as Lx. destruct (edit_of o) as [M|[p P]].
      - assert (C : (exists v, o = OLook v) \/ forall v, o <> OLook v) by (destruct o; [right; congruence|left; eauto|..]; right; congruence).
        destruct C as [[v ->]|NL].
        + simpl. destruct (look h1 v) as [[h' s]|] eqn:K; auto.
          destruct (look_part _ _ _ _ K) as [->|(f & _ & _ & (A1 & _) & _)]; auto. rewrite A1; auto.
        + destruct (grows_old _ _ (makes_grows h1 o M NL)) as (A1 & _). rewrite A1; auto.
      - destruct (edit_agrees h1 o p P) as (A1 & _). rewrite A1; auto.
        intros Z. apply D. destruct o, p; simpl in *; try contradiction; congruence. }
    clear T. induction os0 as [|o os0 IH]; intros h1 N1 N2 T; [now split|]. simpl. apply IH.
    - apply S; auto. now apply T; left.
    - apply S; auto. now apply T; left.
    - intros. apply T. now right. }
  specialize (Q os (new_doc h es)). simpl in Q. destruct Q as [Q1 Q2]; auto.
  - now rewrite nth_old.
  - replace (length (h_docs h)) with (length (h_docs h) + 0) at 1 by lia. now rewrite nth_app_r.
  - unfold shows. split; intros [[|n] K]; try discriminate; exists (S n); simpl in *; rewrite Q1, Q2 in *; auto.
Qed.
Print Assumptions C107_copy_shared.
(* So every document with a sub-document can be changed through its copy. *)
Definition through_copy (fs1 : fields) (k : bytes) (gs fs2 : fields) (x : bytes * bval) : heap :=
  run empty_heap [ORead (fs1 ++ (k, BDoc gs) :: fs2); OCopy 0; OLook (length fs1); ORead [x];
    OAppend 2 (length (fs1 ++ (k, BDoc gs) :: fs2) + length gs)].
Theorem C107_copy_refuted : forall fs1 k gs fs2 x,
  shows (run empty_heap [ORead (fs1 ++ (k, BDoc gs) :: fs2); OCopy 0]) 0 (fs1 ++ (k, BDoc gs) :: fs2) /\
  shows (through_copy fs1 k gs fs2 x) 0 (fs1 ++ (k, BDoc (gs ++ [x])) :: fs2) /\
  shows (through_copy fs1 k gs fs2 x) 1 (fs1 ++ (k, BDoc (gs ++ [x])) :: fs2).
Proof.
  intros fs1 k gs fs2 x. set (fs := fs1 ++ (k, BDoc gs) :: fs2).
  assert (Lf : length fs = length fs1 + S (length fs2)) by (unfold fs; rewrite app_length; reflexivity).
  set (raws := fun l : fields => map (fun f => MkV (fst f) (Raw (snd f))) l).
  assert (Ev : nth_error (raws fs) (length fs1) = Some (MkV k (Raw (BDoc gs)))).
  { unfold raws. rewrite nth_error_map. unfold fs. rewrite nth_error_app2, Nat.sub_diag by lia. reflexivity. }
  assert (Lr : length (raws fs) = length fs) by apply map_length.
  assert (Fin : through_copy fs1 k gs fs2 x =
    MkHeap [seq 0 (length fs); seq 0 (length fs); seq (length fs) (length gs) ++ [length fs + length gs]; [length fs + length gs]]
      (seq 0 (length fs + length gs + 1)) (upd (raws fs ++ raws gs) (length fs1) (MkV k (Sub false 2)) ++ raws [x])).
  { unfold through_copy, run. fold fs. cbn [fold_left].
    assert (H2 : exec (exec empty_heap (ORead fs)) (OCopy 0) = MkHeap [seq 0 (length fs); seq 0 (length fs)] (seq 0 (length fs)) (raws fs))
      by reflexivity.
    rewrite H2.
    assert (H3 : exec (MkHeap [seq 0 (length fs); seq 0 (length fs)] (seq 0 (length fs)) (raws fs)) (OLook (length fs1)) =
      MkHeap [seq 0 (length fs); seq 0 (length fs); seq (length fs) (length gs)] (seq 0 (length fs + length gs))
        (upd (raws fs ++ raws gs) (length fs1) (MkV k (Sub false 2)))).
    { cbn [exec]. unfold look. cbn [h_vals]. rewrite Ev. cbn. rewrite seq_length, Lr. now rewrite seq_app. }
    rewrite H3.
    assert (Lg : length (raws gs) = length gs) by apply map_length.
    cbn [exec]. unfold load. cbn [h_docs h_elems h_vals app nth_error length]. rewrite upd_len, app_length, !seq_length, Lr, Lg.
    unfold has. rewrite app_length, !seq_length.
    destruct (Nat.ltb_spec (length fs + length gs) (length fs + length gs + 1)); [|lia].
    unfold set_doc. cbn [upd h_docs h_elems h_vals seq]. f_equal. now rewrite (seq_app (length fs + length gs) 1 0). }
  set (h := through_copy fs1 k gs fs2 x) in *. clearbody h.
  assert (Lg : length (raws gs) = length gs) by apply map_length.
  assert (El : forall i, i < length fs + length gs + 1 -> forall rec, show_elem rec h i = show_val rec h i).
  { intros i L rec. unfold show_elem. rewrite Fin at 1. cbn [h_elems]. now rewrite nth_seq. }
  assert (Sub2 : forall n, show (S n) h 2 = Some (gs ++ [x])).
  { intros n. cbn [show]. rewrite Fin at 1. cbn [h_docs nth_error].
    replace (seq (length fs) (length gs) ++ [length fs + length gs]) with (seq (length fs) (length (gs ++ [x])))
      by (rewrite app_length, seq_app; reflexivity).
    apply mapO_seq. intros i L. rewrite app_length in L. simpl in L. rewrite El by lia.
    generalize (show n h). intros rec. rewrite Fin. unfold show_val. cbn [h_vals].
    destruct (Nat.eq_dec i (length gs)) as [->|Ni].
    - rewrite nth_error_app2 by (rewrite upd_len, app_length; lia).
      rewrite upd_len, app_length, Lr, Lg, Nat.sub_diag. simpl.
      rewrite nth_error_app2, Nat.sub_diag by lia. destruct x; reflexivity.
    - rewrite nth_error_app1 by (rewrite upd_len, app_length; lia).
      rewrite upd_other by lia. rewrite <- Lr, nth_app_r. rewrite nth_error_app1 by lia.
      unfold raws. rewrite nth_error_map. destruct (nth_error gs i) as [[k0 t0]|] eqn:G; reflexivity. }
  assert (Sh : forall d, d = 0 \/ d = 1 -> show 2 h d = Some (fs1 ++ (k, BDoc (gs ++ [x])) :: fs2)).
  { intros d D. set (ys := fs1 ++ (k, BDoc (gs ++ [x])) :: fs2).
    assert (Ly : length ys = length fs) by (unfold ys; rewrite app_length, Lf; reflexivity).
    assert (Nd : nth_error (h_docs h) d = Some (seq 0 (length ys))).
    { rewrite Fin, Ly. destruct D as [-> | ->]; reflexivity. }
    change (show 2 h d) with (match nth_error (h_docs h) d with None => None | Some es => mapO (show_elem (show 1 h) h) es end).
    rewrite Nd. apply mapO_seq. intros i L. rewrite Ly in L. rewrite Nat.add_0_l. rewrite El by lia.
    pose proof (Sub2 0) as S2. revert S2. generalize (show 1 h). intros rec S2.
    rewrite Fin. unfold show_val. cbn [h_vals].
    rewrite nth_error_app1 by (rewrite upd_len, app_length, Lr; lia).
    destruct (Nat.eq_dec i (length fs1)) as [->|Ni].
    - rewrite upd_same by (rewrite app_length, Lr; lia). cbn [vc_body vc_key]. rewrite S2. simpl.
      unfold ys. rewrite nth_error_app2, Nat.sub_diag by lia. reflexivity.
    - rewrite upd_other by auto. rewrite nth_error_app1 by (rewrite Lr; lia). unfold raws. rewrite nth_error_map.
      assert (Same : nth_error ys i = nth_error fs i).
      { unfold ys, fs. destruct (Nat.lt_ge_cases i (length fs1)) as [A|A]; [now rewrite !nth_error_app1 by auto|].
        rewrite !nth_error_app2 by auto. destruct (i - length fs1) eqn:Z; [lia|reflexivity]. }
      rewrite Same. destruct (nth_error fs i) as [[k0 t0]|] eqn:G; reflexivity. }
  split; [|split; exists 2; auto].
  exists 1. unfold run. cbn [fold_left exec load empty_heap h_docs h_elems h_vals app length nth_error new_doc].
  cbn [show h_docs nth_error]. apply mapO_seq. intros i L. unfold show_elem. cbn [h_elems]. simpl. rewrite nth_seq by auto.
  unfold show_val. cbn [h_vals]. simpl. rewrite nth_error_map. destruct (nth_error fs i) as [[k0 t0]|] eqn:G; reflexivity.
Qed.
Print Assumptions C107_copy_refuted.

(* SetValue, said to modify the value of an element, also gives it the key of the value: for a
   value from VC, the empty key. *)
Theorem C107_set_value_refuted : forall h e v k t,
  reached h -> e < length (h_elems h) -> nth_error (h_vals h) v = Some (MkV k (Raw t)) ->
  elem_shows (exec h (OSetValue e v)) e (k, t).
Proof.
  intros h e v k t R L E. exists 0. simpl. unfold has.
  destruct (Nat.ltb_spec v (length (h_vals h))) as [_|B]; [|apply nth_lt in E; lia].
  unfold show_elem. simpl. rewrite upd_same by auto. unfold show_val. simpl. now rewrite E.
Qed.
Print Assumptions C107_set_value_refuted.

(* A document appended to itself, under any key, cannot be written, nor can any document that
   holds it: MarshalBSON, Validate and the rest never return. *)
Theorem C107_itself_refuted : forall h d k a d0,
  reached h -> d < length (h_docs h) ->
  let h' := run h [OSub k a d; OAppend d (length (h_elems h))] in
  holds h' (PDoc d []) d0 -> forall fs, ~ shows h' d0 fs.
Proof.
  intros h d k a d0 R L h' H.
  destruct (nth_error (h_docs h) d) as [es|] eqn:E; [|apply nth_error_None in E; lia].
  assert (HD : has (h_docs h) d = true) by (now apply Nat.ltb_lt).
  assert (Hh : h' = MkHeap (upd (h_docs h) d (es ++ [length (h_elems h)])) (h_elems h ++ [length (h_vals h)])
    (h_vals h ++ [MkV k (Sub a d)])).
  { unfold h', run. cbn [fold_left exec]. rewrite HD. cbn [exec new_elem new_val h_docs h_elems h_vals]. rewrite E.
    unfold has. rewrite app_length. simpl length.
    destruct (Nat.ltb_spec (length (h_elems h)) (length (h_elems h) + 1)); [reflexivity|lia]. }
  assert (HE : nth_error (h_elems h') (length (h_elems h)) = Some (length (h_vals h))).
  { rewrite Hh. simpl. now rewrite nth_error_app2, Nat.sub_diag by lia. }
  assert (HV : nth_error (h_vals h') (length (h_vals h)) = Some (MkV k (Sub a d))).
  { rewrite Hh. simpl. now rewrite nth_error_app2, Nat.sub_diag by lia. }
  assert (HDo : nth_error (h_docs h') d = Some (es ++ [length (h_elems h)])).
  { rewrite Hh. simpl. now rewrite upd_same. }
  clearbody h'.
  assert (NM : forall B (f : nat -> option B) l x, In x l -> f x = None -> mapO f l = None).
  { clear. induction l as [|y l IH]; simpl; intros x I F; [contradiction|]. destruct I as [->|I]; [now rewrite F|].
    rewrite (IH x I F). now destruct (f y). }
  assert (Nd : forall n, show n h' d = None).
  { induction n as [|n IH]; auto. simpl. rewrite HDo. apply (NM _ _ _ (length (h_elems h))); [apply in_app_iff; simpl; auto|].
    unfold show_elem. rewrite HE. unfold show_val. rewrite HV. simpl. now rewrite IH. }
  assert (No : forall n, show n h' d0 = None).
  { induction H as [d1 A|d1 es1 e A I P|d1 es1 e v A I Ev P|d1 es1 e v c a1 s A I Ev Ec B _ IH]; simpl in *; try contradiction.
    - now subst.
    - destruct n as [|n]; auto. simpl. rewrite A. apply (NM _ _ _ e I).
      unfold show_elem. rewrite Ev. unfold show_val. rewrite Ec, B. now rewrite IH. }
  intros fs [n N]. now rewrite No in N.
Qed.
Print Assumptions C107_itself_refuted.

(* ---- what new things hold, and edited ones ---- *)
Definition made (h : heap) (o : op) : Prop :=
  let h' := exec h o in
  match o with
  | ORead fs => shows h' (length (h_docs h)) fs
  | OLook v => forall k t a fs, val_shows h v (k, t) -> inside t = Some (a, fs) ->
      exists s gs, look h v = Some (h', s) /\ shows h' s gs /\ (if a then map snd gs = map snd fs else gs = fs)
  | OCopy d => forall fs, shows h d fs -> shows h' (length (h_docs h)) fs
  | OValueCopy v => forall f, val_shows h v f -> val_shows h' (length (h_vals h)) f
  | OElemCopy e => forall f, elem_shows h e f -> elem_shows h' (length (h_elems h)) f
  | OSub k a d => forall fs, shows h d fs -> elem_shows h' (length (h_elems h)) (k, if a then BArray (map snd fs) else BDoc fs)
  | OConvert k v => forall k0 t, val_shows h v (k0, t) -> elem_shows h' (length (h_elems h)) (k, t)
  | _ => True
  end.
Lemma nth_last : forall A (l : list A) x, nth_error (l ++ [x]) (length l) = Some x.
Proof. intros. now rewrite nth_error_app2, Nat.sub_diag by lia. Qed.
Lemma old_val : forall n h h' v f, wf h -> old_same h h' -> show_val (show n h) h v = Some f -> show_val (show n h') h' v = Some f.
Proof.
  intros n h h' v f W O Q. unfold show_val in *. pose proof O as (_ & _ & A3).
  destruct (nth_error (h_vals h) v) as [c|] eqn:E; [|discriminate]. rewrite (A3 v) by (eapply nth_lt; eauto). rewrite E.
  destruct (vc_body c) as [t|a s] eqn:B; auto. rewrite (old_show n h h'); eauto using in_val.
Qed.
Theorem C107_made : forall h o, reached h -> made h o.
Proof.
  intros h o R. apply wf_reached in R. unfold made.
  destruct o as [fs|v|d|d e|d i e|d i|d d2|d|e v|v|e|v w|k a d|d v|d i v|k v]; auto.
  - exists 1. simpl. rewrite nth_last. apply mapO_seq. intros i L. unfold show_elem. simpl.
    rewrite nth_app_r, nth_seq by auto. unfold show_val. simpl. rewrite nth_app_r, nth_error_map.
    destruct (nth_error fs i) as [[k t]|]; reflexivity.
  - intros k t a fs [n Q] I. unfold show_val in Q. simpl. destruct (nth_error (h_vals h) v) as [c|] eqn:E; [|discriminate].
    unfold look. rewrite E. destruct (vc_body c) as [t0|a0 s] eqn:B.
    + injection Q as Q1 Q2. rewrite Q2, I. exists (length (h_docs h)), fs. split; [reflexivity|]. split; [|now destruct a].
      exists 1. apply fresh_shows. eapply nth_lt; eauto.
    + destruct (show n h s) as [gs|] eqn:S; [|discriminate]. simpl in Q. injection Q as Q1 Q2.
      exists s, gs. split; [reflexivity|]. split; [now exists n|].
      destruct a0; subst t; simpl in I; injection I as <- <-; auto. now rewrite numbered_snd.
  - intros fs [n Q]. pose proof (grows_old _ _ (makes_grows h (OCopy d) eq_refl ltac:(congruence))) as O.
    destruct n as [|n]; [discriminate|]. pose proof Q as Q0. simpl in Q.
    destruct (nth_error (h_docs h) d) as [es|] eqn:E; [|discriminate].
    exists (S n). simpl in O |- *. rewrite E in *. cbn [new_doc h_docs]. rewrite nth_last.
    assert (Q1 : show (S n) (new_doc h es) d = Some fs) by (rewrite (old_show _ h); auto; eapply nth_lt; eauto).
    simpl in Q1. rewrite nth_old in Q1 by (eapply nth_lt; eauto). now rewrite E in Q1.
  - intros f [n Q]. pose proof (grows_old _ _ (makes_grows h (OValueCopy v) eq_refl ltac:(congruence))) as O.
    pose proof (old_val n h _ v f R O Q) as Q1. exists n. unfold show_val in Q.
    destruct (nth_error (h_vals h) v) as [c|] eqn:E; [|discriminate]. simpl in *. rewrite E in *.
    unfold show_val in Q1 |- *. cbn [new_val h_vals] in *. rewrite nth_last. rewrite nth_old, E in Q1 by (eapply nth_lt; eauto). exact Q1.
  - intros f [n Q]. pose proof (grows_old _ _ (makes_grows h (OElemCopy e) eq_refl ltac:(congruence))) as O.
    unfold show_elem in Q. destruct (nth_error (h_elems h) e) as [v|] eqn:Ee; [|discriminate].
    pose proof (old_val n h _ v f R O Q) as Q1. exists n. unfold show_val in Q.
    destruct (nth_error (h_vals h) v) as [c|] eqn:E; [|discriminate]. simpl in *. rewrite Ee, E in *.
    unfold show_elem. cbn [new_elem new_val h_elems]. rewrite nth_last.
    unfold show_val in Q1 |- *. cbn [new_elem new_val h_vals] in *. rewrite nth_last. rewrite nth_old, E in Q1 by (eapply nth_lt; eauto). exact Q1.
  - intros fs [n Q]. pose proof (grows_old _ _ (makes_grows h (OSub k a d) eq_refl ltac:(congruence))) as O.
    assert (L : d < length (h_docs h)) by (destruct n; [discriminate|]; simpl in Q; destruct (nth_error (h_docs h) d) eqn:E; [eapply nth_lt; eauto|discriminate]).
    rewrite <- (old_show n h _ d R O L) in Q. exists n. revert Q. simpl. unfold has. destruct (Nat.ltb_spec d (length (h_docs h))); [|lia].
    intros Q. unfold show_elem. cbn [new_elem new_val h_elems]. rewrite nth_last. unfold show_val. cbn [new_elem new_val h_vals].
    rewrite nth_last. cbn [vc_body vc_key]. unfold new_elem, new_val in *. cbn [h_docs h_elems h_vals] in *. now rewrite Q.
  - intros k0 t [n Q]. pose proof (grows_old _ _ (makes_grows h (OConvert k v) eq_refl ltac:(congruence))) as O.
    exists n. unfold show_val in Q. simpl in O |- *. destruct (nth_error (h_vals h) v) as [c|] eqn:E; [|discriminate].
    destruct (vc_body c) as [t0|a0 s] eqn:B.
    + injection Q as _ <-. unfold show_elem. cbn [new_elem new_val h_elems]. rewrite nth_last. unfold show_val. cbn [new_elem new_val h_vals].
      now rewrite nth_last.
    + destruct (show n h s) as [gs|] eqn:S; [|discriminate]. simpl in Q. injection Q as _ <-.
      destruct n as [|n]; [discriminate|]. pose proof S as S0. simpl in S.
      destruct (nth_error (h_docs h) s) as [es|] eqn:Es; [|discriminate].
      unfold show_elem. cbn [new_elem new_val h_elems new_doc]. rewrite nth_last. unfold show_val. cbn [new_elem new_val new_doc h_vals].
      rewrite nth_last. cbn [vc_body vc_key].
      rewrite <- (old_show (Datatypes.S n) h _ s R O) in S0 by (eapply nth_lt; eauto).
      unfold new_elem, new_val, new_doc in *. cbn [h_docs h_elems h_vals] in *. cbn [show h_docs] in *.
      rewrite nth_last. rewrite nth_old, Es in S0 by (eapply nth_lt; eauto). now rewrite S0.
Qed.
Print Assumptions C107_made.

(* The copy of an element has a value of its own, and EC.Value, given a value that was looked
   into, has a document of its own: by C107_isolated, setting the one or editing the other
   shows in nothing that was there. *)
Theorem C107_own : forall h,
  reached h ->
  (forall e f, elem_shows h e f ->
    nth_error (h_elems (exec h (OElemCopy e))) (length (h_elems h)) = Some (length (h_vals h)) /\
    forall w os d fs, (forall o, In o os -> o = OValueSet (length (h_vals h)) w) -> d < length (h_docs h) ->
      (shows h d fs <-> shows (run h (OElemCopy e :: os)) d fs)) /\
  (forall k v a s k0 es, nth_error (h_vals h) v = Some (MkV k0 (Sub a s)) -> nth_error (h_docs h) s = Some es ->
    look (exec h (OConvert k v)) (length (h_vals h)) = Some (exec h (OConvert k v), length (h_docs h)) /\
    forall os d fs, (forall o, In o os -> edited_doc o = Some (length (h_docs h))) -> d < length (h_docs h) ->
      (shows h d fs <-> shows (run h (OConvert k v :: os)) d fs)).
Proof.
  intros h R. split.
  - intros e f [n Q]. unfold show_elem in Q. destruct (nth_error (h_elems h) e) as [v|] eqn:Ee; [|discriminate].
    unfold show_val in Q. destruct (nth_error (h_vals h) v) as [c|] eqn:Ev; [|discriminate]. split.
    + simpl. rewrite Ee, Ev. apply nth_last.
    + intros w os d fs T L. apply C107_isolated; auto. intros o [<-|I]; simpl; auto. rewrite (T o I). simpl. auto.
  - intros k v a s k0 es Ev Es. split.
    + simpl. rewrite Ev. simpl. rewrite Es. unfold look. cbn [new_elem new_val h_vals new_doc]. now rewrite nth_last.
    + intros os d fs T L. apply C107_isolated; auto. intros o [<-|I]; simpl; auto. specialize (T o I).
      destruct o; simpl in *; try discriminate; injection T as ->; lia.
Qed.
Print Assumptions C107_own.

Definition elem_holds (h : heap) (p : part) (e : nat) : Prop :=
  elem_at p e \/ exists v, nth_error (h_elems h) e = Some v /\
    (val_at p v \/ exists c a s, nth_error (h_vals h) v = Some c /\ vc_body c = Sub a s /\ holds h p s).
Definition val_holds (h : heap) (p : part) (v : nat) : Prop :=
  val_at p v \/ exists c a s, nth_error (h_vals h) v = Some c /\ vc_body c = Sub a s /\ holds h p s.
(* the new contents, what is added not holding what it is added to *)
Definition edited (h : heap) (o : op) (fs fs' : fields) : Prop :=
  match o with
  | OAppend d e => ~ elem_holds h (PDoc d []) e /\ exists f, elem_shows h e f /\ fs' = fs ++ [f]
  | OReplace d i e => ~ elem_holds h (PDoc d []) e /\ exists f, elem_shows h e f /\ fs' = upd fs i f
  | ODelete d i => fs' = firstn i fs ++ skipn (S i) fs
  | OExtend d d2 => (d2 = d \/ ~ holds h (PDoc d []) d2) /\ exists fs2, shows h d2 fs2 /\ fs' = fs ++ fs2
  | OReset d => fs' = []
  | OWrap d v => ~ val_holds h (PDoc d []) v /\ exists f, val_shows h v f /\ fs' = fs ++ [f]
  | OArrSet d i v => ~ val_holds h (PDoc d []) v /\ i < length fs /\ exists f, val_shows h v f /\ fs' = upd fs i f
  | _ => False
  end.
Lemma least : forall (P : nat -> bool) n, P n = true -> exists m, P m = true /\ forall i, i < m -> P i = false.
Proof.
  intros P n. induction n as [n IH] using lt_wf_ind. intros Q.
  destruct (existsb P (seq 0 n)) eqn:X.
  - apply existsb_exists in X. destruct X as (i & I & Z). apply in_seq in I. apply (IH i); auto; lia.
  - exists n. split; auto. intros i L. destruct (P i) eqn:Z; auto.
    assert (existsb P (seq 0 n) = true) by (apply existsb_exists; exists i; split; auto; apply in_seq; lia). congruence.
Qed.
Lemma below_show : forall d x m h h' s gs, wf h -> agrees (PDoc d x) h h' -> show m h d = None ->
  show m h s = Some gs -> show m h' s = Some gs.
Proof.
  intros d x m h h' s gs (W1 & W2 & W3) (A1 & A2 & A3). revert s gs. induction m as [|m IH]; intros s gs N Q; [discriminate|].
  assert (Nm : show m h d = None).
  { destruct (show m h d) eqn:Z; auto. apply (show_le (S m)) in Z; [congruence|lia]. }
  pose proof Q as Q0. simpl in Q. destruct (nth_error (h_docs h) s) as [es|] eqn:E; [|discriminate].
  simpl. rewrite (A1 s), E; [|eapply nth_lt; eauto|simpl; congruence].
  revert Q. apply mapO_imp. intros e y I. unfold show_elem.
  pose proof (W1 _ _ (nth_error_In _ _ E) I) as Le. rewrite (A2 e Le) by (simpl; auto).
  destruct (nth_error (h_elems h) e) as [v|] eqn:Ee; [|discriminate]. pose proof (W2 _ (nth_error_In _ _ Ee)) as Lv.
  unfold show_val. rewrite (A3 v Lv) by (simpl; auto).
  destruct (nth_error (h_vals h) v) as [c|]; [|discriminate]. destruct (vc_body c) as [t|a s1]; auto.
  destruct (show m h s1) eqn:Z; [|discriminate]. now rewrite (IH _ _ Nm Z).
Qed.
Lemma not_holds_show : forall p n h h' d, wf h -> agrees p h h' -> d < length (h_docs h) -> ~ holds h p d -> show n h' d = show n h d.
Proof.
  intros p n h h' d (W1 & W2 & W3) (A1 & A2 & A3). revert d. induction n as [|n IH]; intros d L N; [reflexivity|]. simpl.
  rewrite (A1 d L) by (intro; apply N; now apply in_itself).
  destruct (nth_error (h_docs h) d) as [es|] eqn:D; auto. apply mapO_ext. intros e I.
  pose proof (W1 _ _ (nth_error_In _ _ D) I) as Le. unfold show_elem.
  rewrite (A2 e Le) by (intro; apply N; now apply (in_elem h p d es e)).
  destruct (nth_error (h_elems h) e) as [v|] eqn:Ee; auto.
  pose proof (W2 _ (nth_error_In _ _ Ee)) as Lv. unfold show_val.
  rewrite (A3 v Lv) by (intro; apply N; now apply (in_value h p d es e v)).
  destruct (nth_error (h_vals h) v) as [c|] eqn:Ev; auto. destruct (vc_body c) as [t|a s] eqn:B; auto.
  rewrite IH; auto; [exact (W3 _ _ _ (nth_error_In _ _ Ev) B)|].
  intros Z. apply N. exact (in_sub h p d es e v c a s D I Ee Ev B Z).
Qed.
Lemma not_holds_val : forall p n h h' v f, wf h -> agrees p h h' -> ~ val_holds h p v ->
  show_val (show n h) h v = Some f -> show_val (show n h') h' v = Some f.
Proof.
  intros p n h h' v f W A N Q. unfold show_val in *. destruct (nth_error (h_vals h) v) as [c|] eqn:E; [|discriminate].
  pose proof A as (_ & _ & A3). rewrite (A3 v), E; [|eapply nth_lt; eauto|intro; apply N; now left].
  destruct (vc_body c) as [t|a s] eqn:B; auto. rewrite (not_holds_show p n h h'); auto; [eapply in_val; eauto|].
  intros Z. apply N. right. exists c, a, s. auto.
Qed.
Lemma not_holds_elem : forall p n h h' e f, wf h -> agrees p h h' -> ~ elem_holds h p e ->
  show_elem (show n h) h e = Some f -> show_elem (show n h') h' e = Some f.
Proof.
  intros p n h h' e f W A N Q. unfold show_elem in *. destruct (nth_error (h_elems h) e) as [v|] eqn:E; [|discriminate].
  pose proof A as (_ & A2 & _). rewrite (A2 e), E; [|eapply nth_lt; eauto|intro; apply N; now left].
  eapply not_holds_val; eauto. intros Z. apply N. right. exists v. auto.
Qed.
Lemma mapO_app : forall A B (f : A -> option B) l r ys zs, mapO f l = Some ys -> mapO f r = Some zs -> mapO f (l ++ r) = Some (ys ++ zs).
Proof.
  induction l as [|a l IH]; simpl; intros r ys zs Q1 Q2; [injection Q1 as <-; auto|].
  destruct (f a); [|discriminate]. destruct (mapO f l) eqn:M; [|discriminate]. injection Q1 as <-. now rewrite (IH r l0 zs).
Qed.
Lemma mapO_upd : forall A B (f : A -> option B) l ys i x y, mapO f l = Some ys -> f x = Some y -> mapO f (upd l i x) = Some (upd ys i y).
Proof.
  induction l as [|a l IH]; simpl; intros ys i x y Q1 Q2; [injection Q1 as <-; auto|].
  destruct (f a) eqn:Fa; [|discriminate]. destruct (mapO f l) eqn:M; [|discriminate]. injection Q1 as <-.
  destruct i; simpl; [now rewrite Q2, M|]. now rewrite Fa, (IH l0 i x y).
Qed.
Lemma mapO_firstn : forall A B (f : A -> option B) i l ys, mapO f l = Some ys -> mapO f (firstn i l) = Some (firstn i ys).
Proof.
  induction i; intros l ys Q; [reflexivity|]. destruct l as [|a l]; simpl in Q |- *; [now injection Q as <-|].
  destruct (f a); [|discriminate]. destruct (mapO f l) eqn:M; [|discriminate]. injection Q as <-. simpl. now rewrite (IHi l l0).
Qed.
Lemma mapO_skipn : forall A B (f : A -> option B) i l ys, mapO f l = Some ys -> mapO f (skipn i l) = Some (skipn i ys).
Proof.
  induction i; intros l ys Q; [exact Q|]. destruct l as [|a l]; simpl in Q |- *; [now injection Q as <-|].
  destruct (f a); [|discriminate]. destruct (mapO f l) eqn:M; [|discriminate]. injection Q as <-. simpl. now rewrite (IHi l l0).
Qed.
Lemma mapO_length : forall A B (f : A -> option B) l ys, mapO f l = Some ys -> length ys = length l.
Proof.
  induction l as [|a l IH]; simpl; intros ys Q; [now injection Q as <-|].
  destruct (f a); [|discriminate]. destruct (mapO f l) eqn:M; [|discriminate]. injection Q as <-. simpl. now rewrite (IH l0).
Qed.
Theorem C107_edited : forall h o d fs fs',
  reached h -> edited_doc o = Some d -> shows h d fs -> edited h o fs fs' -> shows (exec h o) d fs'.
Proof.
  intros h o d fs fs' R D [n0 N0] E. apply wf_reached in R.
  destruct (least (fun n => match show n h d with Some _ => true | None => false end) n0) as (n & N & Min); [now rewrite N0|].
  destruct (show n h d) as [fs1|] eqn:Q; [|discriminate].
  assert (fs1 = fs) by (apply (shows_one h d); [now exists n|now exists n0]). subst fs1. clear n0 N0 N.
  destruct n as [|n]; [discriminate|]. assert (Nn : show n h d = None) by (specialize (Min n ltac:(lia)); simpl in Min; now destruct (show n h d)).
  clear Min. simpl in Q. destruct (nth_error (h_docs h) d) as [es|] eqn:Ed; [|discriminate].
  pose proof (nth_lt _ _ _ _ Ed) as Ld.
  assert (A : agrees (PDoc d []) h (exec h o)).
  { apply edit_agrees. destruct o; simpl in D |- *; try discriminate; now injection D as ->. }
  set (h' := exec h o) in *.
  assert (Old : forall m, n <= m -> mapO (show_elem (show m h') h') es = Some fs).
  { intros m Lm. revert Q. apply mapO_imp. intros e y I. unfold show_elem. pose proof A as (_ & A2 & A3).
    rewrite (A2 e) by (simpl; auto; exact (in_doc _ _ _ _ R Ed I)).
    destruct (nth_error (h_elems h) e) as [v|] eqn:Ee; [|discriminate]. unfold show_val. rewrite (A3 v); [|destruct R as (_ & W2 & _); apply W2; eapply nth_error_In; eauto|simpl; auto].
    destruct (nth_error (h_vals h) v) as [c|]; [|discriminate]. destruct (vc_body c) as [t|a s]; auto.
    destruct (show n h s) eqn:Z; [|discriminate]. rewrite (show_le m n h' s l Lm); auto.
    eapply below_show; eauto. }
  assert (New : forall es' m, nth_error (h_docs h') d = Some es' -> mapO (show_elem (show m h') h') es' = Some fs' -> shows h' d fs').
  { intros es' m Z1 Z2. exists (S m). simpl. now rewrite Z1. }
  assert (NewE : forall e f m m', m <= m' -> ~ elem_holds h (PDoc d []) e -> show_elem (show m h) h e = Some f -> show_elem (show m' h') h' e = Some f).
  { intros e f m m' Lm NH Z. apply (not_holds_elem _ m h h' e f R A NH) in Z. revert Z. apply show_elem_imp. intros d1 fs1. now apply show_le. }
  assert (NewV : forall v f m m', m <= m' -> ~ val_holds h (PDoc d []) v -> show_val (show m h) h v = Some f -> show_val (show m' h') h' v = Some f).
  { intros v f m m' Lm NH Z. apply (not_holds_val _ m h h' v f R A NH) in Z. revert Z. apply show_val_imp. intros d1 fs1. now apply show_le. }
  assert (HasE : forall e f, elem_shows h e f -> has (h_elems h) e = true).
  { intros e f [m Z]. unfold show_elem in Z. destruct (nth_error (h_elems h) e) eqn:X; [|discriminate].
    apply Nat.ltb_lt. eapply nth_lt; eauto. }
  assert (HasV : forall v f, val_shows h v f -> has (h_vals h) v = true).
  { intros e f [m Z]. unfold show_val in Z. destruct (nth_error (h_vals h) e) eqn:X; [|discriminate].
    apply Nat.ltb_lt. eapply nth_lt; eauto. }
  assert (Wr : forall v f m, h_elems h' = h_elems h ++ [v] -> show_val (show m h') h' v = Some f ->
    show_elem (show m h') h' (length (h_elems h)) = Some f).
  { intros v f m Z1 Z2. unfold show_elem. now rewrite Z1, nth_last. }
  destruct o as [gs|v|d1|d1 e|d1 i e|d1 i|d1 d2|d1|e v|v|e|v w|k a d1|d1 v|d1 i v|k v]; try discriminate;
    injection D as ->; simpl in E.
  - destruct E as (NH & f & F & ->). pose proof (HasE _ _ F) as He. destruct F as [m F].
    apply (New (es ++ [e]) (n + m)); [unfold h'; simpl; rewrite Ed, He; simpl; now apply upd_same|].
    apply mapO_app; [apply Old; lia|]. simpl. now rewrite (NewE e f m) by (auto; lia).
  - destruct E as (NH & f & F & ->). pose proof (HasE _ _ F) as He. destruct F as [m F].
    apply (New (upd es i e) (n + m)); [unfold h'; simpl; rewrite Ed, He; simpl; now apply upd_same|].
    apply mapO_upd; [apply Old; lia|]. now rewrite (NewE e f m) by (auto; lia).
  - subst fs'. apply (New (firstn i es ++ skipn (S i) es) n); [unfold h'; simpl; rewrite Ed; simpl; now apply upd_same|].
    apply mapO_app; [apply mapO_firstn|apply (mapO_skipn _ _ _ (S i) es fs)]; apply Old; lia.
  - destruct E as (C & fs2 & [m F] & ->). destruct m as [|m]; [discriminate|]. pose proof F as F0. simpl in F.
    destruct (nth_error (h_docs h) d2) as [es2|] eqn:E2; [|discriminate].
    apply (New (es ++ es2) (n + m)); [unfold h'; simpl; rewrite Ed, E2; simpl; now apply upd_same|].
    apply mapO_app; [apply Old; lia|]. destruct (Nat.eq_dec d2 d) as [->|Nd].
    + assert (es2 = es) by congruence. subst es2.
      assert (fs2 = fs) by (apply (shows_one h d); [exists (S m); exact F0|exists (S n); simpl; now rewrite Ed]). subst fs2. apply Old; lia.
    + destruct C as [C|C]; [contradiction|]. revert F. apply mapO_imp. intros e y I. apply NewE; [lia|].
      intros [Z|(v & Z1 & [Z|(c & a & s & Z2 & Z3 & Z4)])]; try (simpl in Z; contradiction).
      apply C. exact (in_sub _ _ d2 es2 e v c a s E2 I Z1 Z2 Z3 Z4).
  - subst fs'. apply (New [] 0); [|reflexivity]. unfold h'; simpl. unfold has.
    destruct (Nat.ltb_spec d (length (h_docs h))); [|lia]. simpl. now apply upd_same.
  - destruct E as (NH & f & F & ->). pose proof (HasV _ _ F) as He. destruct F as [m F].
    apply (New (es ++ [length (h_elems h)]) (n + m)); [unfold h'; simpl; rewrite Ed, He; simpl; now apply upd_same|].
    apply mapO_app; [apply Old; lia|]. simpl. rewrite (Wr v f); auto; [unfold h'; simpl; rewrite Ed, He; reflexivity|].
    apply (NewV v f m); auto; lia.
  - destruct E as (NH & Li & f & F & ->). pose proof (HasV _ _ F) as He. destruct F as [m F].
    assert (Hi : has es i = true) by (apply Nat.ltb_lt; rewrite <- (mapO_length _ _ _ _ _ Q); exact Li).
    apply (New (upd es i (length (h_elems h))) (n + m)); [unfold h'; simpl; rewrite Ed, He, Hi; simpl; now apply upd_same|].
    apply mapO_upd; [apply Old; lia|]. apply (Wr v f); [unfold h'; simpl; rewrite Ed, He, Hi; reflexivity|].
    apply (NewV v f m); auto; lia.
Qed.
Print Assumptions C107_edited.
(* and for elements and values: they show what the new value showed, its key included *)
Theorem C107_value_set : forall h,
  reached h ->
  (forall e v f, e < length (h_elems h) -> ~ val_holds h (PElem e f) v -> val_shows h v f -> elem_shows (exec h (OSetValue e v)) e f) /\
  (forall v w f, v < length (h_vals h) -> ~ val_holds h (PVal v f) w -> val_shows h w f -> val_shows (exec h (OValueSet v w)) v f).
Proof.
  intros h R. apply wf_reached in R. split.
  - intros e v f L N [n Q]. exists n.
    apply (not_holds_val (PElem e f) n h (exec h (OSetValue e v)) v f R) in Q; auto; [|now apply edit_agrees].
    unfold show_elem. rewrite <- Q. simpl. unfold has. destruct (Nat.ltb_spec v (length (h_vals h))) as [Lv|Lv].
    + simpl. now rewrite upd_same.
    + exfalso. revert Q. simpl. unfold has. destruct (Nat.ltb_spec v (length (h_vals h))); [lia|]. unfold show_val.
      destruct (nth_error (h_vals h) v) eqn:X; [apply nth_lt in X; lia|discriminate].
  - intros v w f L N [n Q]. exists n. pose proof Q as Q0.
    apply (not_holds_val (PVal v f) n h (exec h (OValueSet v w)) w f R) in Q; auto; [|now apply edit_agrees].
    assert (Nvw : v <> w) by (intros ->; apply N; left; reflexivity).
    unfold show_val in Q0. destruct (nth_error (h_vals h) w) as [c|] eqn:E; [|discriminate].
    revert Q. simpl. rewrite E. unfold show_val. cbn [h_vals]. rewrite upd_same by auto. rewrite upd_other by auto. now rewrite E.
Qed.
Print Assumptions C107_value_set.

(* A document with an element appended to two others: what is set on it shows in both; and a
   document, its copy, and the copy of a value that was looked into, edited through the latter. *)
Definition ka : bytes := [97%Z].
Definition kb : bytes := [98%Z].
Definition kc : bytes := [99%Z].
Definition two : heap := run empty_heap
  [ORead [(ka, BInt32 1); (kb, BDoc [(kc, BInt32 2)])]; ORead []; OExtend 1 0; OLook 1; OValueCopy 1; OCopy 2].
Example C107_nonvacuous :
  reached two /\ shows two 0 [(ka, BInt32 1); (kb, BDoc [(kc, BInt32 2)])] /\ shows two 1 [(ka, BInt32 1); (kb, BDoc [(kc, BInt32 2)])] /\
  (let h := exec two (OAppend 2 0) in
   is_part h (PDoc 2 [(kc, BInt32 2); (ka, BInt32 1)]) /\
   graft (PDoc 2 [(kc, BInt32 2); (ka, BInt32 1)]) 2 two 1 = Some [(ka, BInt32 1); (kb, BDoc [(kc, BInt32 2); (ka, BInt32 1)])] /\
   shows h 1 [(ka, BInt32 1); (kb, BDoc [(kc, BInt32 2); (ka, BInt32 1)])] /\
   shows h 0 [(ka, BInt32 1); (kb, BDoc [(kc, BInt32 2); (ka, BInt32 1)])] /\
   shows h 3 [(kc, BInt32 2)]) /\
  holds two (PDoc 2 []) 1 /\ ~ holds two (PDoc 2 []) 3 /\
  nth_error (h_vals two) 1 = Some (MkV kb (Sub false 2)) /\ nth_error (h_vals two) 0 = Some (MkV ka (Raw (BInt32 1))) /\
  option_map snd (look two 3) = Some 2.
Proof.
  split; [eexists; reflexivity|]. split; [now exists 2|]. split; [now exists 2|].
  split; [split; [now exists 2|]; split; [reflexivity|]; split; [now exists 3|]; split; [now exists 3|now exists 2]|].
  split.
  - eapply (in_sub _ _ 1 _ 1); [reflexivity|simpl; auto|reflexivity|reflexivity|reflexivity|now apply in_itself].
  - split; [|repeat split; reflexivity].
    intros H. inversion H; subst; simpl in *; try contradiction; try discriminate.
    injection H0 as <-. destruct H1 as [<-|[]]. simpl in H2. injection H2 as <-. simpl in H3. injection H3 as <-. discriminate.
Qed.
Example C107_edited_nonvacuous :
  edited two (OAppend 2 0) [(kc, BInt32 2)] [(kc, BInt32 2); (ka, BInt32 1)] /\ shows two 2 [(kc, BInt32 2)] /\
  ~ val_holds two (PElem 0 (kb, BDoc [(kc, BInt32 2)])) 1 /\ val_shows two 1 (kb, BDoc [(kc, BInt32 2)]) /\
  (forall o, In o [OCopy 0; OAppend (length (h_docs two)) 0; ODelete (length (h_docs two)) 0] -> touches_new two o).
Proof.
  split; [split|split; [|split; [|split]]].
  - intros [[]|(v & E & [[]|(c & a & s & E1 & B & _)])]. injection E as <-. injection E1 as <-. discriminate.
  - exists (ka, BInt32 1). split; [now exists 0|reflexivity].
  - now exists 1.
  - intros [[]|(c & a & s & E1 & B & H)]. injection E1 as <-. injection B as <- <-.
    inversion H as [d A|d es e D I A|d es e v D I E A|d es e v c a s D I E E1 B H1]; subst; simpl in *; try contradiction;
      injection D as <-; destruct I as [<-|[]]; [lia|]. injection E as <-. injection E1 as <-. discriminate.
  - now exists 2.
  - intros o [<-|[<-|[<-|[]]]]; simpl; auto.
Qed.
