(* C104: ranging over an FTDC iterator gives the chunks of the stream in every schedule, always
   ends and leaves no goroutine behind; its errors may be missed. *)
Require Import ZArith List Bool Lia Wellfounded.
From Verif Require Import Pipe.
Import ListNotations.

(* ------------------------------------------------------------- specification *)
Section Spec.
Context {Doc Ch Er : Type}.
Notation look_res := (@look_res Ch Er).
Variable look : option Doc -> Doc -> look_res.
(* the chunks of the documents, one after the other, and the error that ends them *)
Fixpoint chunks (m : option Doc) (ds : list Doc) : list Ch * option Er :=
  match ds with
  | [] => ([], None)
  | d :: r => match look m d with
      | KMeta => chunks (Some d) r
      | KSkip => chunks m r
      | KErr e => ([], Some e)
      | KChunk c => (c :: fst (chunks m r), snd (chunks m r))
      end
  end.
(* the last metadata document *)
Fixpoint metadata (m : option Doc) (ds : list Doc) : option Doc :=
  match ds with
  | [] => m
  | d :: r => match look m d with
      | KMeta => metadata (Some d) r
      | KSkip | KChunk _ => metadata m r
      | KErr _ => m
      end
  end.
(* everything has returned *)
Definition finished (s : @pstate Doc Ch Er) : Prop := s_p s = PDone /\ s_w s = WDone /\ s_c s = CDone.
End Spec.

(* --------------------------------------------------------------------- proofs *)
Section Proofs.
Context {Doc Ch Er : Type}.
Variable look : option Doc -> Doc -> @look_res Ch Er.
Variable canceled : Er.
Variable fin : option Er.
Variable docs : list Doc.
Notation pstate := (@pstate Doc Ch Er).
Notation pstep := (pstep look canceled fin).
Notation psteps := (psteps look canceled fin).
Notation chunks := (chunks look).
Notation metadata := (metadata look).

Definition pend (p : @producer Doc Er) : list Doc := match p with PRead ds => ds | PSend d ds => d :: ds | _ => [] end.
Definition left_ (s : pstate) (l : list Ch) (e : option Er) : Prop :=
  match s_w s with
  | WRecv m => (l, e) = chunks m (pend (s_p s)) /\ s_meta s = m /\ metadata m (pend (s_p s)) = metadata None docs
  | WLook m d => (l, e) = chunks m (d :: pend (s_p s)) /\ s_meta s = m /\ metadata m (d :: pend (s_p s)) = metadata None docs
  | WSend m c => l = c :: fst (chunks m (pend (s_p s))) /\ e = snd (chunks m (pend (s_p s))) /\ s_meta s = m /\ metadata m (pend (s_p s)) = metadata None docs
  | WClose e' | WPush e' => l = [] /\ e = e' /\ s_meta s = metadata None docs
  | WDone => l = [] /\ (forall x, e = Some x -> In x (s_errs s)) /\ s_meta s = metadata None docs
  end.
Definition w_over (w : @worker Doc Ch Er) : Prop := match w with WClose _ | WPush _ | WDone => True | _ => False end.
Definition p_ok (s : pstate) : Prop :=
  match s_p s with
  | PClose e | PPush e => e = fin \/ (s_cancel s = true /\ e = None)
  | PDone => s_cancel s = true \/ forall x, fin = Some x -> In x (s_errs s)
  | _ => True
  end.
Definition c_late (c : consumer) : Prop := match c with CLeave | CClose | CDone => True | _ => False end.
Definition inv (s : pstate) : Prop :=
  (s_stopped s = false ->
     (exists l e, left_ s l e /\ chunks None docs = (s_got s ++ l, e)) /\
     (s_cancel s = true \/ c_late (s_c s) -> w_closed (s_w s) = true) /\
     (forall x, In x (s_errs s) -> fin = Some x \/ snd (chunks None docs) = Some x) /\
     (snd (chunks None docs) = None -> w_over (s_w s) ->
        match s_p s with PPush e => e = fin | PDone => forall x, fin = Some x -> In x (s_errs s) | _ => False end)) /\
  (s_stopped s = true -> (exists l, fst (chunks None docs) = s_got s ++ l) /\ c_late (s_c s)) /\
  (s_c s = CClose \/ s_c s = CDone -> s_cancel s = true) /\
  p_ok s.

Lemma inv_init : inv (pinit docs).
Proof.
  unfold inv, pinit, p_ok. cbn. split; [|repeat split; intuition discriminate].
  intros _. repeat split; try (intuition discriminate).
  - exists (fst (chunks None docs)), (snd (chunks None docs)). destruct (chunks None docs); auto.
Qed.


Ltac flat := unfold inv, p_ok, left_, c_late, w_over in *;
  cbn [s_p s_w s_c s_cancel s_errs s_meta s_got s_stopped s_snap pend w_closed p_closed] in *.


Lemma inv_step s s' : inv s -> pstep s s' -> inv s'.
Proof.
  intros (A & B & C & D) St.
  split; [|split; [|split]].
  - intros Z. assert (Z0 : s_stopped s = false) by (destruct St; cbn in *; congruence).
    specialize (A Z0). destruct A as ((l & e0 & L & E) & A2 & A3 & A4). clear B.
    destruct St; flat; try discriminate.
    + (* p_read *) split; [exists l, e0; auto|]. split; [auto|]. split; [auto|]. intros H1 H2. destruct (A4 H1 H2).
    + (* p_eof *) split; [exists l, e0; auto|]. split; [auto|]. split; [auto|]. intros H1 H2. destruct (A4 H1 H2).
    + (* p_send *) split; [exists l, e0; auto|]. split; [intros H; discriminate (A2 H)|]. split; [auto|]. intros _ [].
    + (* p_cancel *) specialize (A2 (or_introl eq_refl)). split.
      * exists l, e0. destruct w; try discriminate A2; auto.
      * split; [auto|]. split; [auto|]. intros H1 H2. destruct (A4 H1 H2).
    + (* p_close *) split; [exists l, e0; auto|]. split; [auto|]. split; [auto|]. intros H1 H2. destruct (A4 H1 H2).
    + (* p_push *) split.
      * exists l, e0. split; [|exact E]. destruct w; auto. destruct L as (L1 & L2 & L3). repeat split; auto.
        intros x Hx. apply in_or_app. auto.
      * split; [auto|]. split.
        -- intros x Hx. apply in_app_or in Hx as [Hx|Hx]; [auto|]. destruct D as [->|[_ ->]]; [|destruct Hx].
           destruct fin; cbn in Hx; [|destruct Hx]. destruct Hx as [->|[]]; auto.
        -- intros H1 H2. specialize (A4 H1 H2). subst e. intros x Hx. apply in_or_app. right. rewrite Hx. cbn. auto.
    + (* w_eof *) assert (Nc : k = false /\ c_late c -> False) by (intros [_ Hc]; discriminate (A2 (or_intror Hc))).
      assert (Kf : k = false) by (destruct k; auto; discriminate (A2 (or_introl eq_refl))). subst k.
      assert (Pn : pend p = []) by (destruct p; try discriminate; reflexivity). rewrite Pn in L. cbn in L. destruct L as (L1 & L2 & L3). injection L1 as -> ->.
      split; [exists [], None; subst m0; auto|]. split; [intros H'; discriminate (A2 H')|]. split; [auto|].
      intros H1 _. clear A4. destruct p; try discriminate.
      * destruct D as [->|[X _]]; [reflexivity|discriminate].
      * destruct D as [D|D]; [discriminate|exact D].
    + (* w_cancel *) discriminate (A2 (or_introl eq_refl)).
    + (* w_meta *) cbn [PipeProps.chunks PipeProps.metadata] in L. rewrite H in L. split; [exists l, e0; intuition|]. split; [intros H'; discriminate (A2 H')|]. split; [auto|]. intros _ [].
    + (* w_skip *) cbn [PipeProps.chunks PipeProps.metadata] in L. rewrite H in L. split; [exists l, e0; intuition|]. split; [intros H'; discriminate (A2 H')|]. split; [auto|]. intros _ [].
    + (* w_err *) cbn [PipeProps.chunks PipeProps.metadata] in L. rewrite H in L. destruct L as (L1 & L2 & L3). injection L1 as -> ->.
      split; [exists [], (Some e); subst; auto|]. split; [intros H'; discriminate (A2 H')|]. split; [auto|].
      intros H1. rewrite E in H1. discriminate.
    + (* w_chunk *) cbn [PipeProps.chunks PipeProps.metadata] in L. rewrite H in L. destruct L as (L1 & L2 & L3). injection L1 as -> ->.
      split; [eexists _, _; split; [|exact E]; auto|]. split; [intros H'; discriminate (A2 H')|]. split; [auto|]. intros _ [].
    + (* w_send *) destruct L as (-> & -> & L2 & L3). split.
      { exists (fst (chunks m0 (pend p))), (snd (chunks m0 (pend p))). split; [destruct (chunks m0 (pend p)); auto|]. rewrite <- app_assoc. exact E. }
      split; [intros [H'|[]]; discriminate (A2 (or_introl H'))|]. split; [auto|]. intros _ [].
    + (* w_cancel2 *) discriminate (A2 (or_introl eq_refl)).
    + (* w_close *) split; [exists l, e0; auto|]. split; [auto|]. split; auto.
    + (* w_push *) destruct L as (-> & -> & L3). split.
      { exists [], e. repeat split; auto. intros x ->. apply in_or_app. right. cbn. auto. }
      split; [auto|]. split.
      { intros x Hx. apply in_app_or in Hx as [Hx|Hx]; [auto|]. right. rewrite E. cbn. destruct e; cbn in Hx; [|destruct Hx]. destruct Hx as [->|[]]. reflexivity. }
      intros H1 _. specialize (A4 H1 I). destruct p; auto. intros x Hx. apply in_or_app. auto.
    + (* c_more *) split; [exists l, e0; auto|]. split; [intros [H'|[]]; auto|]. split; auto.
    + (* c_end *) split; [exists l, e0; auto|]. split; auto.
    + (* c_cancel *) split; [exists l, e0; auto|]. split; [intros _; apply A2; auto|]. split; auto.
    + (* c_snap *) split; [exists l, e0; auto|]. split; [auto|]. split; auto.
  - destruct St; flat; intros Z; subst; try (destruct (B eq_refl) as ((l & E) & H'); split; [now exists l|]; try tauto; try exact H').
    split; [|exact I]. destruct s; [destruct (B eq_refl) as (? & []) |]. destruct (A eq_refl) as ((l & e & _ & E) & _). exists l. now rewrite E.
  - destruct St; flat; intros H'; try (apply C; auto; tauto); intuition discriminate.
  - destruct St; flat; auto; try (destruct D as [D|D]; [left; auto|right]; intuition; fail).
    + destruct D as [->|[D _]]; [right|left; auto]. intros x ->. apply in_or_app. right. cbn. auto.
    + destruct p; auto. destruct D as [D|D]; [auto|right]. intros x Hx. apply in_or_app. auto.
    + destruct p; auto; destruct D as [D|D]; auto. 1,2: right; intuition.
Qed.

Lemma inv_reach s : psteps (pinit docs) s -> inv s.
Proof. intros H. remember (pinit docs) as i eqn:Ei. induction H; subst; [apply inv_init|]. eapply inv_step; eauto. Qed.

(* a measure that every step lowers *)
Definition mp (p : @producer Doc Er) : nat := match p with PRead ds => 10 * length ds + 3 | PSend _ ds => 10 * length ds + 12 | PClose _ => 2 | PPush _ => 1 | PDone => 0 end.
Definition mw (w : @worker Doc Ch Er) : nat := match w with WRecv _ => 3 | WLook _ _ => 8 | WSend _ _ => 7 | WClose _ => 2 | WPush _ => 1 | WDone => 0 end.
Definition mc (c : consumer) : nat := match c with CWait => 3 | CBody => 4 | CLeave => 2 | CClose => 1 | CDone => 0 end.
Definition mu (s : pstate) : nat := mp (s_p s) + mw (s_w s) + mc (s_c s).
Lemma mu_step s s' : pstep s s' -> mu s' < mu s.
Proof. intros St. destruct St; unfold mu; cbn [s_p s_w s_c mp mw mc length]; lia. Qed.

Lemma progress s : inv s -> finished s \/ exists s', pstep s s'.
Proof.
  intros (_ & _ & C & _). destruct s as [p w c k es m g st q]. cbn [s_c s_cancel] in C. unfold finished. cbn [s_p s_w s_c].
  destruct w as [m0|m0 d|m0 x|e|e|].
  2:{ right. destruct (look m0 d) eqn:L; eexists; eauto using w_meta, w_skip, w_chunk, w_err. }
  3,4: right; eexists; constructor.
  - (* WRecv *) right. destruct p as [[|d ds]|d ds|e|e|]; eexists; try (constructor; fail). apply w_eof. reflexivity.
  - (* WSend *) right. destruct c; [eexists; constructor..| |]; rewrite C by auto; eexists; apply w_cancel2.
  - (* WDone *) destruct c; [right; eexists; now apply c_end|right; eexists; constructor..|].
    destruct p as [[|d ds]|d ds|e|e|]; [right; eexists; constructor..| | | |left; auto].
    + right. rewrite C by auto. eexists. apply p_cancel.
    + right. eexists. constructor.
    + right. eexists. constructor.
Qed.

Lemma ps_trans a b c : psteps a b -> psteps b c -> psteps a c.
Proof. intros H1 H2. induction H2 as [|s1 s2 s3 H2 IH St]; [exact H1|]. exact (ps_step _ _ _ _ _ _ (IH H1) St). Qed.
Lemma ps_one a b : pstep a b -> psteps a b.
Proof. intros. eapply ps_step; [apply ps_refl|auto]. Qed.
Lemma ps_cons a b c : pstep a b -> psteps b c -> psteps a c.
Proof. intros H1 H2. eapply ps_trans; [apply ps_one; eauto|auto]. Qed.

Lemma completes s : inv s -> exists s', psteps s s' /\ finished s'.
Proof.
  remember (mu s) as n eqn:En. revert s En. induction n as [n IH] using (well_founded_induction lt_wf). intros s -> I.
  destruct (progress s I) as [F|(s1 & St)].
  - exists s. split; [apply ps_refl|auto].
  - destruct (IH (mu s1) (mu_step _ _ St) s1 eq_refl (inv_step _ _ I St)) as (s2 & H & F). exists s2. split; [|auto]. eapply ps_cons; eauto.
Qed.

Lemma drive ds : forall m me g, exists p me', psteps (MkP (PRead ds) (WRecv m) CWait false [] me g false [])
  (MkP p (WPush (snd (chunks m ds))) CWait false [] me' (g ++ fst (chunks m ds)) false []).
Proof.
  induction ds as [|d r IH]; intros m me g.
  - exists (PPush fin), me. cbn. rewrite app_nil_r.
    eapply ps_cons; [apply p_eof|]. eapply ps_cons; [apply p_close|]. eapply ps_cons; [now apply w_eof|]. apply ps_one. apply w_close.
  - cbn [PipeProps.chunks]. destruct (look m d) eqn:L.
    + destruct (IH (Some d) (Some d) g) as (p & me' & H). exists p, me'.
      eapply ps_cons; [apply p_read|]. eapply ps_cons; [apply p_send|]. eapply ps_cons; [now apply w_meta|]. exact H.
    + destruct (IH m me g) as (p & me' & H). exists p, me'.
      eapply ps_cons; [apply p_read|]. eapply ps_cons; [apply p_send|]. eapply ps_cons; [now apply w_skip|]. exact H.
    + destruct (IH m me (g ++ [c])) as (p & me' & H). exists p, me'. cbn [fst snd].
      replace (g ++ c :: fst (chunks m r)) with ((g ++ [c]) ++ fst (chunks m r)) by (now rewrite <- app_assoc).
      eapply ps_cons; [apply p_read|]. eapply ps_cons; [apply p_send|]. eapply ps_cons; [apply w_chunk; eauto|].
      eapply ps_cons; [apply w_send|]. eapply ps_cons; [apply c_more|]. exact H.
    + exists (PRead r), me. cbn [fst snd]. rewrite app_nil_r.
      eapply ps_cons; [apply p_read|]. eapply ps_cons; [apply p_send|]. eapply ps_cons; [apply w_err; eauto|]. apply ps_one. apply w_close.
Qed.

(* up to the first chunk *)
Lemma first_chunk ds x l e : forall m me, chunks m ds = (x :: l, e) -> exists r m' me',
  psteps (MkP (PRead ds) (WRecv m) CWait false [] me [] false []) (MkP (PRead r) (WRecv m') CBody false [] me' [x] false []).
Proof.
  induction ds as [|d r IH]; intros m me E; [discriminate|]. cbn [PipeProps.chunks] in E. destruct (look m d) eqn:L.
  - destruct (IH (Some d) (Some d) E) as (r' & m' & me' & H). exists r', m', me'.
    eapply ps_cons; [apply p_read|]. eapply ps_cons; [apply p_send|]. eapply ps_cons; [now apply w_meta|]. exact H.
  - destruct (IH m me E) as (r' & m' & me' & H). exists r', m', me'.
    eapply ps_cons; [apply p_read|]. eapply ps_cons; [apply p_send|]. eapply ps_cons; [now apply w_skip|]. exact H.
  - injection E as -> _ _. exists r, m, me.
    eapply ps_cons; [apply p_read|]. eapply ps_cons; [apply p_send|]. eapply ps_cons; [apply w_chunk; eauto|]. apply ps_one. apply (w_send _ _ _ _ _ _ _ _ _ []).
  - discriminate.
Qed.

Lemma snap_stays s s' : s_c s = CDone -> psteps s s' -> s_c s' = CDone /\ s_snap s' = s_snap s /\ s_got s' = s_got s /\ s_stopped s' = s_stopped s.
Proof.
  intros C H. induction H as [|s1 s2 s3 H IH St]; [auto|]. destruct (IH C) as (C2 & Q & G & T).
  destruct St; cbn in *; try discriminate; auto.
Qed.
End Proofs.

(* ------------------------------------------------------------------- theorems *)
Section Theorems.
Context {Doc Ch Er : Type}.
Variable look : option Doc -> Doc -> @look_res Ch Er.
Variable canceled : Er.
Variable fin : option Er.
Notation psteps := (psteps look canceled fin).
Notation pstep := (pstep look canceled fin).

(* In every schedule the caller is given the chunks of the stream, in order: the first of them
   if it leaves its loop, and all if it does not; Metadata() is then the last metadata. *)
Theorem C104_chunks : forall docs s, psteps (pinit docs) s ->
  (exists l, fst (chunks look None docs) = s_got s ++ l) /\
  (s_stopped s = false -> s_c s = CDone -> s_got s = fst (chunks look None docs) /\ s_meta s = metadata look None docs).
Proof.
  intros docs s R. pose proof (inv_reach look canceled fin docs s R) as (A & B & _). split.
  - destruct (s_stopped s); [apply B; auto|]. destruct (A eq_refl) as ((l & e & _ & E) & _). exists l. now rewrite E.
  - intros Z C. destruct (A Z) as ((l & e & L & E) & A2 & _). rewrite C in A2. specialize (A2 (or_intror I)).
    unfold left_ in L. rewrite E. cbn [fst]. destruct (s_w s); try discriminate; destruct L as (-> & _ & M); rewrite app_nil_r; auto.
Qed.

(* Whatever the schedule, it ends: no run is infinite, and one that cannot go on has left no
   goroutine behind, also when the caller left its loop early. *)
Theorem C104_ends : forall docs,
  (forall f : nat -> @pstate Doc Ch Er, f 0 = pinit docs -> ~ forall i, pstep (f i) (f (S i))) /\
  (forall s, psteps (pinit docs) s -> (forall s', ~ pstep s s') -> finished s) /\
  (forall s, psteps (pinit docs) s -> exists s', psteps s s' /\ finished s').
Proof.
  intros docs. split; [|split].
  - intros f _ H. assert (G : forall i, mu (f i) + i <= mu (f 0)).
    { induction i as [|i IH]; [lia|]. pose proof (mu_step look canceled fin _ _ (H i)). lia. }
    pose proof (G (S (mu (f 0)))). lia.
  - intros s R N. destruct (progress look canceled fin docs s (inv_reach look canceled fin docs s R)) as [F|(s' & St)]; [auto|]. destruct (N s' St).
  - intros s R. apply (completes look canceled fin docs). exact (inv_reach look canceled fin docs s R).
Qed.

(* When all is over, the errors collected are those of the stream. *)
Theorem C104_errors_partial : forall docs s, psteps (pinit docs) s -> finished s -> s_stopped s = false ->
  (forall e, snd (chunks look None docs) = Some e -> In e (s_errs s)) /\
  (forall e, snd (chunks look None docs) = None -> fin = Some e -> In e (s_errs s)) /\
  (forall e, In e (s_errs s) -> fin = Some e \/ snd (chunks look None docs) = Some e).
Proof.
  intros docs s R (Fp & Fw & Fc) Z. pose proof (inv_reach look canceled fin docs s R) as (A & _).
  destruct (A Z) as ((l & e & L & E) & _ & A3 & A4). unfold left_ in L. rewrite Fw in L. destruct L as (_ & L & _). split; [|split; [|exact A3]].
  - intros x Hx. apply L. rewrite E in Hx. exact Hx.
  - intros x Hn Hx. rewrite Fp, Fw in A4. exact (A4 Hn I x Hx).
Qed.

(* But the caller may come to Close before them: for every stream there is a schedule in which
   the loop has ended and Close finds nothing, and what ReadMetrics and the others copied then
   is all they will ever report. *)
Theorem C104_missed_refuted : forall docs, exists s, psteps (pinit docs) s /\
  s_c s = CDone /\ s_stopped s = false /\ s_got s = fst (chunks look None docs) /\ s_errs s = [] /\
  forall s', psteps s s' -> s_snap s' = [].
Proof.
  intros docs. destruct (drive look canceled fin docs None None []) as (p & me & H). cbn [app] in H.
  eexists. split.
  - eapply ps_trans; [exact H|]. eapply ps_cons; [now apply c_end|]. eapply ps_cons; [apply c_cancel|]. apply ps_one. apply c_snap.
  - repeat split. intros s' R. eapply snap_stays in R; [|reflexivity]. apply R.
Qed.

(* A caller that leaves the loop may be told of a cancellation it did not ask for. *)
Theorem C104_canceled_refuted : forall docs x l e, chunks look None docs = (x :: l, e) ->
  exists s, psteps (pinit docs) s /\ s_stopped s = true /\ s_got s = [x] /\ s_c s = CDone /\ s_errs s = [canceled] /\ s_snap s = [canceled].
Proof.
  intros docs x l e E. destruct (first_chunk look canceled fin docs x l e None None E) as (r & m & me & H).
  eexists. split.
  - eapply ps_trans; [exact H|]. eapply ps_cons; [apply c_stop|]. eapply ps_cons; [apply c_cancel|]. eapply ps_cons; [apply w_cancel|].
    eapply ps_cons; [apply w_close|]. eapply ps_cons; [apply w_push|]. apply ps_one. apply c_snap.
  - repeat split.
Qed.

(* While a chunk is handled Metadata() may be of what follows it. *)
Theorem C104_metadata_refuted : forall d1 d2 r x, look None d1 = KChunk x -> look None d2 = KMeta ->
  exists s, psteps (pinit (d1 :: d2 :: r)) s /\ s_c s = CBody /\ s_got s = [x] /\ s_meta s = Some d2.
Proof.
  intros d1 d2 r x H1 H2. eexists. split.
  - unfold pinit. eapply ps_cons; [apply p_read|]. eapply ps_cons; [apply p_send|]. eapply ps_cons; [apply w_chunk; eauto|].
    eapply ps_cons; [apply w_send|]. eapply ps_cons; [apply p_read|]. eapply ps_cons; [apply p_send|]. apply ps_one. now apply w_meta.
  - repeat split.
Qed.
End Theorems.
Print Assumptions C104_chunks.
Print Assumptions C104_ends.
Print Assumptions C104_errors_partial.
Print Assumptions C104_missed_refuted.
Print Assumptions C104_canceled_refuted.
Print Assumptions C104_metadata_refuted.

(* ---------------------------------------------------------------- FTDC streams *)
From Verif Require Import Base Value Stream Ftdc FtdcRaw.
Open Scope Z_scope.

(* what the worker makes of a document; a panic ends the process (see C65) *)
Definition look_of (unzip : bytes -> option bytes) (fuel : nat) (m : option document) (d : document) : @look_res rawdoc gerr :=
  match raw_chunk_doc unzip fuel m d with
  | Ret WMeta => KMeta | Ret WSkip => KSkip | Ret (WErr e) => KErr e | Ret c => KChunk c
  | _ => KSkip
  end.
Definition fin_of (o : option gerr) : option gerr := match o with Some EEOF => None | o => o end.

(* The sequential reading of FtdcRaw.v, on which the theorems about ReadChunks rest, gives the
   chunks and the error of the goroutines. *)
Theorem C104_sequential : forall unzip n fuel s docs s' o cs e,
  read_docs n fuel s = (docs, s', Ret o) -> raw_read_chunks unzip n fuel s = (cs, Ret e) ->
  exists w, chunks (look_of unzip fuel) None docs = (cs, w) /\ e = match w with Some x => Some x | None => fin_of o end.
Proof.
  intros unzip n fuel s docs s' o cs e R C. unfold raw_read_chunks in C. rewrite R in C.
  assert (Q : forall m ws w, raw_chunks_of unzip fuel m docs = (ws, Ret w) -> chunks (look_of unzip fuel) m docs = (ws, w)).
  { clear. induction docs as [|d r IH]; intros m ws w E; cbn [raw_chunks_of chunks] in *; [injection E as <- <-; reflexivity|].
    unfold look_of at 1. destruct (raw_chunk_doc unzip fuel m d) as [[| |e|ms pt id mt ref]| |]; try discriminate; auto.
    - injection E as <- <-. reflexivity.
    - destruct (raw_chunks_of unzip fuel m r) as [l o] eqn:Er. injection E as <- ->. rewrite (IH m l w Er). reflexivity. }
  destruct (raw_chunks_of unzip fuel None docs) as [ws [w| |]] eqn:E; cbn [bind] in C; try discriminate.
  exists w. rewrite (Q _ _ _ E). destruct w as [w|]; injection C as <- <-; auto.
Qed.
Print Assumptions C104_sequential.

(* a reader gets to the end of a metadata document, a chunk and a corrupt chunk, and misses the error *)
Example C104_nonvacuous :
  let look := fun (_ : option Z) d => if d =? 0 then KMeta else if d <? 0 then KErr d else KChunk d in
  chunks look None [0; 7; -1; 9] = ([7], Some (-1)) /\ metadata look None [0; 7; -1; 9] = Some 0 /\
  exists s, psteps look 99 None (pinit [0; 7; -1; 9]) s /\ s_c s = Pipe.CDone /\ s_got s = [7] /\ s_errs s = [] /\
    exists s', psteps look 99 None s s' /\ finished s' /\ In (-1) (s_errs s') /\ s_snap s' = [].
Proof.
  cbv zeta. split; [reflexivity|]. split; [reflexivity|].
  destruct (C104_missed_refuted (fun (_ : option Z) d => if d =? 0 then KMeta else if d <? 0 then KErr d else KChunk d) 99 None [0; 7; -1; 9])
    as (s & R & C & Z0 & G & E & Q).
  exists s. split; [exact R|]. split; [exact C|]. split; [exact G|]. split; [exact E|].
  destruct (C104_ends (fun (_ : option Z) d => if d =? 0 then KMeta else if d <? 0 then KErr d else KChunk d) 99 None [0; 7; -1; 9]) as (_ & _ & H).
  destruct (H s R) as (s' & R' & F). exists s'. split; [exact R'|]. split; [exact F|].
  assert (R0 := ps_trans _ _ _ _ _ _ R R').
  destruct (snap_stays _ _ _ s s' C R') as (_ & _ & _ & Z1).
  destruct (C104_errors_partial _ _ _ _ s' R0 F) as (E1 & _ & E3); [congruence|]. split; [now apply E1|exact (Q s' R')].
Qed.
