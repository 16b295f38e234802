(* Properties of the synchronized recorder and collector of events (C99) and of the shim (C100). *)
Require Import ZArith List Bool Arith Lia Permutation.
From Verif Require Import Base Events EventsProps RecorderProps Lin Sync SyncProps SyncRec.
Import List ListNotations.

(* ------------------------------------------------------------- what linearizable histories are *)

(* calls one after the other, without their results *)
Inductive chain {St Op Res} (does : Op -> St -> Res -> St -> Prop) : St -> list Op -> St -> Prop :=
| ch_nil s : chain does s [] s
| ch_cons s o r s1 os s' : does o s r s1 -> chain does s1 os s' -> chain does s (o :: os) s'.
Definition called {Op Res} (h : list (event Op Res)) : list Op := flat_map (fun e => match e with Call _ o => [o] | _ => [] end) h.

Section Chain.
Context {St Op Res : Type}.
Variable does : Op -> St -> Res -> St -> Prop.
Notation athread := (@athread Op Res).
Definition pend (x : athread) : list Op := match x with APending o => [o] | _ => [] end.
Definition pends (U : list tid) (ts : tid -> athread) : list Op := flat_map (fun t => pend (ts t)) U.
Lemma pends_other U ts t x : ~ In t U -> pends U (aset ts t x) = pends U ts.
Proof.
  unfold pends. induction U as [|u U IH]; cbn; [reflexivity|]. intros N. rewrite IH by tauto. f_equal. unfold aset.
  destruct (Nat.eqb_spec u t); [tauto|reflexivity].
Qed.
Lemma pends_set U ts t x : NoDup U -> In t U -> Permutation (pends U (aset ts t x) ++ pend (ts t)) (pends U ts ++ pend x).
Proof.
  induction 1 as [|u U Nu _ IH]; [intros []|]. change (pends (u :: U) (aset ts t x)) with (pend (aset ts t x u) ++ pends U (aset ts t x)).
  change (pends (u :: U) ts) with (pend (ts u) ++ pends U ts). intros [->|Hi].
  - rewrite pends_other by auto. unfold aset. rewrite Nat.eqb_refl.
    etransitivity; [apply Permutation_app_comm|]. rewrite <- !app_assoc. apply Permutation_app_head, Permutation_app_comm.
  - rewrite <- !app_assoc. unfold aset at 1. destruct (Nat.eqb_spec u t) as [->|]; [contradiction|].
    apply Permutation_app_head. now apply IH.
Qed.
Definition atids (es : list (@aevent Op Res)) : list tid := map (fun e => match e with AInv t _ | ALin t | ARet t _ => t end) es.
Lemma atomic_chain U s ts es s' ts' : atomic does s ts es s' ts' -> NoDup U -> incl (atids es) U ->
  exists os, chain does s os s' /\ Permutation (os ++ pends U ts') (pends U ts ++ called (visible es)).
Proof.
  intros A Nd. induction A as [s ts|s ts t o es s' ts' E A IH|s ts t o r s1 es s' ts' E Do A IH|s ts t r es s' ts' E A IH]; intros I.
  - exists []. split; [constructor|]. cbn. now rewrite app_nil_r.
  - destruct IH as (os & C & P); [intros x Hx; apply I; now right|]. exists os. split; [exact C|]. rewrite P.
    pose proof (pends_set U ts t (APending o) Nd (I t (or_introl eq_refl))) as Q. rewrite E in Q. cbn [pend] in Q. rewrite app_nil_r in Q.
    rewrite Q. cbn. now rewrite <- app_assoc.
  - destruct IH as (os & C & P); [intros x Hx; apply I; now right|]. exists (o :: os). split; [econstructor; eauto|].
    pose proof (pends_set U ts t (ADone r) Nd (I t (or_introl eq_refl))) as Q. rewrite E in Q. cbn [pend] in Q. rewrite app_nil_r in Q.
    rewrite <- Q. cbn [app]. rewrite P. rewrite <- app_assoc. change (visible (ALin t :: es)) with (visible es). cbn [app]. apply Permutation_middle.
  - destruct IH as (os & C & P); [intros x Hx; apply I; now right|]. exists os. split; [exact C|]. rewrite P.
    pose proof (pends_set U ts t AIdle Nd (I t (or_introl eq_refl))) as Q. rewrite E in Q. cbn [pend] in Q. rewrite !app_nil_r in Q.
    apply Permutation_app; [exact Q|reflexivity].
Qed.
Lemma idle_chain s es s' ts' : atomic does s (fun _ => AIdle) es s' ts' -> (forall t, ts' t = AIdle) ->
  exists os, chain does s os s' /\ Permutation os (called (visible es)).
Proof.
  intros A Q. destruct (atomic_chain (nodup Nat.eq_dec (atids es)) _ _ _ _ _ A (NoDup_nodup _ _)) as (os & C & P).
  { intros x Hx. now apply nodup_In. }
  exists os. split; [exact C|].
  assert (Z0 : forall U (ts : tid -> athread), (forall t, ts t = AIdle) -> pends U ts = []).
  { unfold pends. intros U ts Hu. induction U as [|u U IH]; cbn; [reflexivity|]. now rewrite Hu, IH. }
  rewrite (Z0 _ ts' Q), (Z0 _ (fun _ => AIdle)), app_nil_r in P by auto. exact P.
Qed.
End Chain.

(* ------------------------------------------------------------------ a lock that is not deferred *)

Section NoDefer.
Context {St Op Res L : Type}.
Variable start : Op -> L.
Variable mstep : L -> St -> micro Res L * St.
Variable panics : Res -> bool.
Notation cfg := (@config St Op Res L).
Notation lstep := (lstep start mstep panics).
Notation lrun := (lrun start mstep panics).
Notation cstep := (@cstep St Op Res L (fun _ => false) start mstep).
Notation crun := (@crun St Op Res L (fun _ => false) start mstep).

(* the lock is held and nobody is at work *)
Definition leaked (c : cfg) : Prop := c_writer c <> None /\ forall u o l, c_ts c u <> Inside o l.
Record lagrees (c d : cfg) : Prop := {
  la_st : c_st c = c_st d; la_ts : c_ts c = c_ts d; la_rs : c_readers d = [];
  la_w : c_writer d = c_writer c \/ (c_writer d = None /\ leaked c);
  la_in : forall u o l, c_ts c u = Inside o l -> c_writer c = Some u;
  la_left : forall u r, c_ts c u = Leaving r -> panics r = true -> leaked c
}.
Lemma set_cases (ts : @threads Op Res L) t x u y : set ts t x u = y -> (u = t /\ x = y) \/ (u <> t /\ ts u = y).
Proof. unfold set. destruct (Nat.eqb_spec u t); auto. Qed.
Lemma lsimulate c e c' d : lstep c e c' -> lagrees c d -> exists d', cstep d e d' /\ lagrees c' d'.
Proof.
  intros S [Es Et Er Ew Ei El]. destruct d as [ds dw drs dts]. cbn in Es, Et, Er, Ew. subst drs.
  destruct S as [s w ts t o E|s ts t o E|s w ts t o l l' s' E M|s ts t o l r s' E M P|s w ts t o l r s' E M P|s w ts t r E]; cbn in *; subst ds dts.
  - exists (MkCfg s dw [] (set ts t (Waiting o))). split; [now constructor|]. constructor; cbn; auto.
    + destruct Ew as [Ew|[Ew [L1 L2]]]; [now left|right]. split; [exact Ew|]. split; [exact L1|]. cbn in *. intros u o' l'. intros Q.
      apply set_cases in Q as [[_ Q]|[_ Q]]; [discriminate|now apply L2 in Q].
    + intros u o' l' Q. apply set_cases in Q as [[_ Q]|[_ Q]]; [discriminate|eauto].
    + intros u r Q P. apply set_cases in Q as [[_ Q]|[_ Q]]; [discriminate|]. destruct (El u r Q P) as [L1 L2]. split; [exact L1|]. cbn in *.
      intros u' o' l' Q'. apply set_cases in Q' as [[_ Q']|[_ Q']]; [discriminate|now apply L2 in Q'].
  - destruct Ew as [Ew|[_ [X _]]]; [|cbn in X; congruence]. subst dw.
    exists (MkCfg s (Some t) [] (set ts t (Inside o (start o)))). split; [now constructor|].
    constructor; cbn; auto.
    + intros u o' l' Q. apply set_cases in Q as [[-> Q]|[_ Q]]; [reflexivity|]. apply Ei in Q. discriminate.
    + intros u r Q P. apply set_cases in Q as [[_ Q]|[_ Q]]; [discriminate|]. destruct (El u r Q P) as [L1 L2]. cbn in L1. congruence.
  - destruct Ew as [Ew|[_ [_ X]]]; [|cbn in X; now apply X in E]. subst dw.
    exists (MkCfg s' w [] (set ts t (Inside o l'))). split; [econstructor; eauto|]. constructor; cbn; auto.
    + intros u o' l'' Q. apply set_cases in Q as [[-> Q]|[_ Q]]; eauto.
    + intros u r Q P. apply set_cases in Q as [[_ Q]|[_ Q]]; [discriminate|]. destruct (El u r Q P) as [L1 L2]. cbn in L2. now apply L2 in E.
  - destruct Ew as [Ew|[_ [_ X]]]; [|cbn in X; now apply X in E]. subst dw.
    exists (MkCfg s' None [] (set ts t (Leaving r))). split; [eapply s_unlock; eauto|]. constructor; cbn; auto.
    + intros u o' l'' Q. apply set_cases in Q as [[-> Q]|[Nu Q]]; [discriminate|]. apply Ei in Q. congruence.
    + intros u r' Q P'. apply set_cases in Q as [[_ Q]|[_ Q]]; [injection Q as <-; congruence|].
      destruct (El u r' Q P') as [L1 L2]. cbn in L2. now apply L2 in E.
  - destruct Ew as [Ew|[_ [_ X]]]; [|cbn in X; now apply X in E]. pose proof (Ei _ _ _ E) as W. subst w dw.
    assert (Lk : leaked (MkCfg s' (Some t) [] (set ts t (Leaving r)))).
    { split; cbn; [discriminate|]. intros u o' l'' Q. apply set_cases in Q as [[-> Q]|[Nu Q]]; [discriminate|]. apply Ei in Q. congruence. }
    exists (MkCfg s' None [] (set ts t (Leaving r))). split; [eapply s_unlock; eauto|]. constructor; cbn; auto.
    intros u o' l'' Q. now apply Lk in Q.
  - exists (MkCfg s dw [] (set ts t Idle)). split; [now constructor|]. 
    assert (Lk : leaked (MkCfg s w [] ts) -> leaked (MkCfg s w [] (set ts t Idle))).
    { intros [L1 L2]. split; [exact L1|]. cbn in *. intros u' o' l' Q'. apply set_cases in Q' as [[_ Q']|[_ Q']]; [discriminate|now apply L2 in Q']. }
    constructor; cbn; auto.
    + destruct Ew as [Ew|[Ew Lw]]; [now left|right; auto].
    + intros u o' l' Q. apply set_cases in Q as [[_ Q]|[_ Q]]; [discriminate|eauto].
    + intros u r' Q P. apply set_cases in Q as [[_ Q]|[_ Q]]; [discriminate|]. eauto.
Qed.
Lemma lruns c h c' : lrun c h c' -> forall d, lagrees c d -> exists d', crun d h d' /\ lagrees c' d'.
Proof.
  induction 1 as [c|c e c' es c'' S R IH]; intros d A; [exists d; split; [constructor|exact A]|].
  destruct (lsimulate _ _ _ _ S A) as (d1 & S1 & A1). destruct (IH d1 A1) as (d2 & R2 & A2).
  exists d2. split; [econstructor; eauto|exact A2].
Qed.
Lemma lfresh s : lagrees (fresh s) (fresh s).
Proof. constructor; cbn; auto; discriminate. Qed.

(* the lock stays held *)
Lemma leaked_step c e c' : lstep c e c' -> leaked c -> leaked c' /\ forall u o, c_ts c u = Waiting o -> c_ts c' u = Waiting o /\ forall r, ~ In (Return u r) e.
Proof.
  intros S [L1 L2]. destruct S as [s w ts t o E|s ts t o E|s w ts t o l l' s' E M|s ts t o l r s' E M P|s w ts t o l r s' E M P|s w ts t r E]; cbn in *;
    try (now apply L2 in E); try congruence.
  - split; [split; [exact L1|]; cbn; intros u o' l' Q; apply set_cases in Q as [[_ Q]|[_ Q]]; [discriminate|now apply L2 in Q]|].
    intros u o' Q. split; [|intros r [X|[]]; discriminate]. rewrite set_other; [exact Q|intros ->; congruence].
  - split; [split; [exact L1|]; cbn; intros u o' l' Q; apply set_cases in Q as [[_ Q]|[_ Q]]; [discriminate|now apply L2 in Q]|].
    intros u o' Q. split; [rewrite set_other; [exact Q|intros ->; congruence]|]. intros r' [X|[]]. injection X as -> ->. congruence.
Qed.
Lemma leaked_run c h c' : lrun c h c' -> leaked c -> leaked c' /\ forall u o, c_ts c u = Waiting o -> c_ts c' u = Waiting o /\ forall r, ~ In (Return u r) h.
Proof.
  induction 1 as [c|c e c' es c'' S R IH]; intros Lk; [split; [exact Lk|auto]|].
  destruct (leaked_step _ _ _ S Lk) as [L1 W1]. destruct (IH L1) as [L2 W2]. split; [exact L2|].
  intros u o Q. destruct (W1 u o Q) as [Q1 N1]. destruct (W2 u o Q1) as [Q2 N2]. split; [exact Q2|].
  intros r I. apply in_app_iff in I as [I|I]; [now apply N1 in I|now apply N2 in I].
Qed.
(* a run cut at an event *)
Lemma lrun_app c h1 e h2 c' : lrun c (h1 ++ e :: h2) c' -> exists d d', lrun c h1 d /\ lstep d [e] d' /\ lrun d' h2 c'.
Proof.
  intros R. remember (h1 ++ e :: h2) as h eqn:Eh. revert h1 Eh. induction R as [c|c x c1 es c2 S R IH]; intros h1 Eh; [now destruct h1|].
  assert (X : x = [] \/ exists y, x = [y]) by (destruct S; eauto). destruct X as [-> | [y ->]]; cbn [app] in Eh.
  - destruct (IH h1 Eh) as (d & d' & R1 & S1 & R2). exists d, d'. split; [exact (lr_step _ _ _ _ _ _ _ _ S R1)|auto].
  - destruct h1 as [|y1 h1]; cbn in Eh; injection Eh as -> Eh.
    + subst es. exists c, c1. split; [constructor|auto].
    + destruct (IH h1 Eh) as (d & d' & R1 & S1 & R2). exists d, d'. split; [exact (lr_step _ _ _ _ _ _ _ _ S R1)|auto].
Qed.
Lemma leaked_calls c h c' : lrun c h c' -> leaked c -> forall h1 u o h2 r, h = h1 ++ Call u o :: h2 -> ~ In (Return u r) h2.
Proof.
  intros R Lk h1 u o h2 r ->. destruct (lrun_app _ _ _ _ _ R) as (d & d' & R1 & S1 & R2).
  destruct (leaked_run _ _ _ R1 Lk) as [L1 _]. destruct (leaked_step _ _ _ S1 L1) as [L2 _]. destruct (leaked_run _ _ _ R2 L2) as [_ W].
  assert (Q : c_ts d' u = Waiting o) by (inversion S1; subst; cbn; apply set_same). now apply (W u o Q).
Qed.
End NoDefer.

(* ------------------------------------------------------------------------------ C99 *)

Section C99.
(* Any recorder: its state, its calls, and what they do alone; the program inside makes any steps. *)
Context {St Op Res L : Type}.
Variable start : Op -> L.
Variable mstep : L -> St -> micro Res L * St.
Variable panics : Res -> bool.
Variable does : Op -> St -> Res -> St -> Prop.
Hypothesis inside : forall o s r s', alone start mstep o s r s' -> does o s r s'.

(* Every concurrent history of calls on a synchronized recorder is one in which each call takes
   effect at one instant between its start and its end, as the recorder alone would; and when all
   calls have returned the recorder is left as by those calls one after the other, in some order. *)
Theorem C99_recorder : forall s h c, lrun start mstep panics (fresh s) h c ->
  linearizable does s h /\
  ((forall t, c_ts c t = Idle) -> exists os, chain does s os (c_st c) /\ Permutation os (called h)).
Proof.
  intros s h c R. destruct (lruns _ _ _ _ _ _ R _ (lfresh panics s)) as (d & Rd & A).
  assert (Rs : forall o : Op, (fun _ : Op => false) o = true -> (fun _ : L => False) (start o)) by discriminate.
  assert (R1 : forall (l : L) (s : St) x s', (fun _ => False) l -> mstep l s = (x, s') ->
    s' = s /\ match x with MRun l' => (fun _ : L => False) l' | MDone _ => True end) by (intros; contradiction).
  destruct (runs_atomic _ _ _ (fun _ => False) Rs R1 _ _ _ Rd s _ (fresh_agrees _ _ _ (fun _ => False) s)) as (es & s' & ats & V & G & At).
  assert (A' : atomic does s (fun _ => AIdle) es s' ats).
  { revert inside At. clear. intros Im At. induction At; [constructor|eapply a_inv|eapply a_lin|eapply a_ret]; eauto. }
  split; [exists es, s', ats; auto|]. intros Q.
  assert (Qd : forall t, c_ts d t = Idle) by (intros t; rewrite <- (la_ts _ _ _ A); auto).
  assert (Es : c_st d = s').
  { destruct (c_writer d) as [t|] eqn:W; [|now apply (g_none _ _ _ _ _ _ _ G)].
    destruct (g_w _ _ _ _ _ _ _ G t W) as (o & l & E & _). now rewrite Qd in E. }
  destruct (idle_chain _ _ _ _ _ A') as (os & C & P); [intros t; rewrite (g_ts _ _ _ _ _ _ _ G t), Qd; reflexivity|].
  exists os. rewrite V in P. rewrite (la_st _ _ _ A), Es. auto.
Qed.
(* While no call has panicked, a call under way can go on. *)
Theorem C99_progress : forall s h c t, (forall l s r s', mstep l s = (MDone r, s') -> panics r = false) ->
  lrun start mstep panics (fresh s) h c -> c_ts c t <> Idle ->
  exists e c', lstep start mstep panics c e c' /\ forall u o, ~ In (Call u o) e.
Proof.
  intros s h c t Np R N. destruct (lruns _ _ _ _ _ _ R _ (lfresh panics s)) as (d & Rd & A).
  assert (Rs : forall o : Op, (fun _ : Op => false) o = true -> (fun _ : L => False) (start o)) by discriminate.
  assert (R1 : forall (l : L) (s : St) x s', (fun _ => False) l -> mstep l s = (x, s') ->
    s' = s /\ match x with MRun l' => (fun _ : L => False) l' | MDone _ => True end) by (intros; contradiction).
  assert (NoLk : ~ leaked c /\ c_readers c = []).
  { revert R Np. clear. intros R Np. assert (G : forall c, lrun start mstep panics (fresh s) h c -> True) by auto. clear G.
    assert (G : forall c c', lrun start mstep panics c h c' ->
      (c_readers c = [] /\ forall w, c_writer c = Some w -> exists o l, c_ts c w = Inside o l) ->
      c_readers c' = [] /\ forall w, c_writer c' = Some w -> exists o l, c_ts c' w = Inside o l).
    { clear R c. intros c c' R. induction R as [c|c e c' es c'' S R IH]; [auto|]. intros [Q1 Q2]. apply IH. clear IH R.
      destruct S as [s0 w ts t o E|s0 ts t o E|s0 w ts t o l l' s' E M|s0 ts t o l r s' E M P|s0 w ts t o l r s' E M P|s0 w ts t r E]; cbn in *; split; auto.
      - intros u W. destruct (Q2 u W) as (o' & l & E'). exists o', l. rewrite set_other; [exact E'|intros ->; congruence].
      - intros u W. injection W as <-. rewrite set_same. eauto.
      - intros u W. destruct (Nat.eq_dec u t) as [->|Nu]; [rewrite set_same; eauto|rewrite set_other by auto; eauto].
      - discriminate.
      - rewrite (Np _ _ _ _ M) in P. discriminate.
      - intros u W. destruct (Q2 u W) as (o' & l & E'). exists o', l. rewrite set_other; [exact E'|intros ->; congruence]. }
    destruct (G _ _ R) as [G1 G2]; [split; [reflexivity|discriminate]|]. split; [|exact G1].
    intros [L1 L2]. destruct (c_writer c) as [w|] eqn:W; [|congruence]. destruct (G2 w eq_refl) as (o & l & E). now apply L2 in E. }
  destruct NoLk as [NoLk Rc].
  assert (Nd : c_ts d t <> Idle) by (rewrite <- (la_ts _ _ _ A); exact N).
  destruct (rwmutex_progress _ _ _ (fun _ => False) Rs R1 s h d t Rd Nd) as (e & d' & S & Nc).
  assert (Ec : c = d).
  { destruct A as [A1 A2 A3 A4 _ _]. destruct c, d; cbn in *. subst. destruct A4 as [-> | [_ X]]; [reflexivity|contradiction]. }
  subst d. clear A Rd. exists e.
  destruct S as [s0 w rs ts u o E|s0 ts u o E Rl|s0 rs ts u o E Rl|s0 w rs ts u o l l' s' E M|s0 rs ts u o l r s' E Rl M|s0 w rs ts u o l r s' E Rl M|s0 w rs ts u r E];
    cbn in Rc; try discriminate; subst rs || idtac; eexists; (split; [|exact Nc]).
  - apply l_call. exact E.
  - apply l_lock. exact E.
  - eapply l_body; eauto.
  - eapply l_unlock; eauto.
  - apply l_return. exact E.
Qed.
(* After one panic of the recorder inside, no call made from then on ever returns. *)
Theorem C99_panic_refuted : forall s h1 t r h2 c, lrun start mstep panics (fresh s) (h1 ++ Return t r :: h2) c -> panics r = true ->
  forall a u o b r', h2 = a ++ Call u o :: b -> ~ In (Return u r') b.
Proof.
  intros s h1 t r h2 c R P a u o b r' E.
  destruct (lrun_app _ _ _ _ _ _ _ _ R) as (d & d' & R1 & S1 & R2).
  destruct (lruns _ _ _ _ _ _ R1 _ (lfresh panics s)) as (x & _ & A).
  assert (Q : c_ts d t = Leaving r) by (inversion S1; subst; auto).
  pose proof (la_left _ _ _ A t r Q P) as Lk. destruct (leaked_step _ _ _ _ _ _ S1 Lk) as [L1 _].
  exact (leaked_calls _ _ _ _ _ _ R2 L1 a u o b r' E).
Qed.
End C99.
Print Assumptions C99_recorder.
Print Assumptions C99_progress.
Print Assumptions C99_panic_refuted.

(* The recorders of performance points inside: the calls with their instants, on the recorder and the
   points given to the collector. *)
Definition rdoes (call : Z -> rcall -> recorder -> recorded) (o : rop) (s : rstate) (x : rres) (s' : rstate) : Prop :=
  let '(r, out, errs) := call (fst o) (snd o) (fst s) in x = Base.Ret errs /\ s' = (r, snd s ++ out).
Lemma chain_run call r out os s' : chain (rdoes call) (r, out) os s' -> exists r' o e, run call os r = (r', o, e) /\ s' = (r', out ++ o).
Proof.
  revert r out. induction os as [|[now c] os IH]; intros r out H; inversion H as [|? ? x ? ? ? D H']; subst.
  - exists r, [], []. now rewrite app_nil_r.
  - unfold rdoes in D. cbn [fst snd] in D. cbn [run]. destruct (call now c r) as [[r1 o1] e1]. destruct D as [-> ->].
    destruct (IH _ _ H') as (r' & o & e & E & ->). rewrite E. do 3 eexists. split; [reflexivity|]. now rewrite app_assoc.
Qed.
Lemma all_adds_perm b cs ds : Permutation cs ds -> all_adds b cs = all_adds b ds.
Proof.
  unfold all_adds. induction 1 as [|x l l' _ IH|x y l|l l' l'' _ IH1 _ IH2]; cbn [map fold_right]; try congruence.
  rewrite !plus_assoc. f_equal. unfold plus. f_equal; lia.
Qed.
(* Nothing recorded by any goroutine is lost: after any concurrent calls on a synchronized single
   recorder, EndTest hands over one point with all that was recorded. *)
Theorem C99_nothing_lost : forall L (start : rop -> L) (mstep : L -> rstate -> micro rres L * rstate) ans,
  (forall o s x s', alone start mstep o s x s' -> rdoes (single_call ans) o s x s') ->
  forall r h c now r' out errs, clean r -> lrun start mstep rpanics (fresh (r, [])) h c -> (forall t, c_ts c t = Idle) -> Forall inner (called h) ->
  single_call ans now EndTest (fst (c_st c)) = (r', out, errs) ->
  exists p, snd (c_st c) ++ out = [p] /\ has (all_adds true (called h)) p /\ clean r'.
Proof.
  intros L start mstep ans Im r h c now r' out errs C R Q I E.
  destruct (C99_recorder start mstep rpanics _ Im _ _ _ R) as [_ X]. destruct (X Q) as (os & Ch & P).
  destruct (chain_run _ _ _ _ _ Ch) as (r1 & o1 & e1 & E1 & Es). rewrite Es in *. cbn [fst snd app] in *.
  assert (I' : Forall inner os) by (eapply Permutation_Forall; [apply Permutation_sym; exact P|exact I]).
  destruct (C73_single ans os now r r' (o1 ++ out) errs C I') as (p & E2 & H & _ & Cl).
  { eapply run_snoc; eauto. }
  exists p. split; [exact E2|]. split; [|exact Cl]. now rewrite <- (all_adds_perm true os (called h) P).
Qed.
Print Assumptions C99_nothing_lost.

(* The synchronized collector of events: as C41, with AddEvent. *)
Theorem C99_collector : forall C D P L (start : ecop D P -> L) (mstep : L -> C -> micro ecres L * C) (does : ecop D P -> C -> ecres -> C -> Prop),
  (forall o s r s', alone start mstep o s r s' -> does o s r s') ->
  (exists reading : L -> Prop, reading (start (EC OpInfo)) /\
     forall l s x s', reading l -> mstep l s = (x, s') -> s' = s /\ match x with MRun l' => reading l' | MDone _ => True end) ->
  forall s h c, crun esync_rlock start mstep (fresh s) h c ->
  linearizable does s h /\
  ((forall t, c_ts c t = Idle) -> exists os, chain does s os (c_st c) /\ Permutation os (called h)) /\
  (forall t, c_ts c t <> Idle -> exists e c', cstep esync_rlock start mstep c e c' /\ forall u o, ~ In (Call u o) e).
Proof.
  intros C D P L start mstep does Im (reading & R0 & R1) s h c R.
  assert (Rs : forall o, esync_rlock o = true -> reading (start o)) by (intros [[]|]; cbn; congruence).
  destruct (runs_atomic _ _ _ reading Rs R1 _ _ _ R s _ (fresh_agrees _ _ _ reading s)) as (es & s' & ats & V & G & At).
  assert (A' : atomic does s (fun _ => AIdle) es s' ats).
  { revert Im At. clear. intros Im At. induction At; [constructor|eapply a_inv|eapply a_lin|eapply a_ret]; eauto. }
  split; [exists es, s', ats; auto|]. split.
  - intros Q.
    assert (Es : c_st c = s').
    { destruct (c_writer c) as [t|] eqn:W; [|now apply (g_none _ _ _ _ _ _ _ G)].
      destruct (g_w _ _ _ _ _ _ _ G t W) as (o & l & E & _). now rewrite Q in E. }
    destruct (idle_chain _ _ _ _ _ A') as (os & Ch & Pm); [intros t; rewrite (g_ts _ _ _ _ _ _ _ G t), Q; reflexivity|].
    exists os. rewrite V in Pm. rewrite Es. auto.
  - intros t N. exact (rwmutex_progress _ _ _ reading Rs R1 s h c t R N).
Qed.
Print Assumptions C99_collector.

(* A recorder that loads its state in one step and stores it in another; its collector panics when
   the test ends. *)
Inductive rl := RStart (o : rop) | RLoaded (o : rop) (s : rstate).
Definition rl_step (l : rl) (s : rstate) : micro rres rl * rstate :=
  match l with
  | RStart o => (MRun (RLoaded o s), s)
  | RLoaded o s0 =>
      let '(r, out, errs) := single_call (fun _ => None) (fst o) (snd o) (fst s0) in
      match snd o with EndTest => (MDone (Panic PNil), s) | _ => (MDone (Base.Ret errs), (r, snd s0 ++ out)) end
  end.
Definition rl_step' (l : rl) (s : rstate) : micro rres rl * rstate :=
  match l with
  | RStart o => (MRun (RLoaded o s), s)
  | RLoaded o s0 =>
      let '(r, out, errs) := single_call (fun _ => None) (fst o) (snd o) (fst s0) in (MDone (Base.Ret errs), (r, snd s0 ++ out))
  end.
Lemma rl_alone o s x s' : alone RStart rl_step' o s x s' -> rdoes (single_call (fun _ => None)) o s x s'.
Proof.
  intros A. unfold alone in A. inversion A as [? ? ? ? E|? ? l' s1 ? ? E B]; subst; cbn in E; [discriminate|].
  injection E as <- <-. unfold rdoes. inversion B as [? ? ? ? E2|? ? ? ? ? ? E2 ?]; subst; cbn -[single_call] in E2;
    destruct (single_call _ _ _ _) as [[r1 o1] e1]; [|discriminate]. injection E2 as <- <-. auto.
Qed.
Definition new_rec : rstate := (MkRec zero_time (fresh_point no_gauges) zero_time [], []).
Lemma lr_tau {St Op Res L} start (mstep : L -> St -> micro Res L * St) pn c c' es c'' :
  @lstep St Op Res L start mstep pn c [] c' -> lrun start mstep pn c' es c'' -> lrun start mstep pn c es c''.
Proof. intros A B. exact (lr_step _ _ _ _ _ _ _ _ A B). Qed.
Lemma lr_ev {St Op Res L} start (mstep : L -> St -> micro Res L * St) pn c e c' es c'' :
  @lstep St Op Res L start mstep pn c [e] c' -> lrun start mstep pn c' es c'' -> lrun start mstep pn c (e :: es) c''.
Proof. intros A B. exact (lr_step _ _ _ _ _ _ _ _ A B). Qed.
Definition h_two : list (event rop rres) :=
  [Call 1%nat (5%Z, IncOperations 3); Call 2%nat (5%Z, IncOperations 4); Return 1%nat (Base.Ret []); Return 2%nat (Base.Ret [])].
Example C99_used : exists c, lrun RStart rl_step' rpanics (fresh new_rec) h_two c /\ (forall t, c_ts c t = Idle) /\ clean (fst new_rec) /\
  Forall inner (called h_two) /\ c_ops (p_c (r_point (fst (c_st c)))) = 7%Z /\ (forall l s r s', rl_step' l s = (MDone r, s') -> rpanics r = false).
Proof.
  eexists. split; [|split; [|split; [|split; [|split]]]].
  - unfold h_two, fresh.
    eapply lr_ev; [apply (l_call _ _ _ _ _ _ 1%nat); reflexivity|].
    eapply lr_ev; [apply (l_call _ _ _ _ _ _ 2%nat); reflexivity|].
    eapply lr_tau; [apply (l_lock _ _ _ _ _ 2%nat); reflexivity|].
    eapply lr_tau; [eapply (l_body _ _ _ _ _ _ 2%nat); reflexivity|].
    eapply lr_tau; [eapply (l_unlock _ _ _ _ _ 2%nat); reflexivity|].
    eapply lr_tau; [apply (l_lock _ _ _ _ _ 1%nat); reflexivity|].
    eapply lr_tau; [eapply (l_body _ _ _ _ _ _ 1%nat); reflexivity|].
    eapply lr_tau; [eapply (l_unlock _ _ _ _ _ 1%nat); reflexivity|].
    eapply lr_ev; [eapply (l_return _ _ _ _ _ _ 1%nat); reflexivity|].
    eapply lr_ev; [eapply (l_return _ _ _ _ _ _ 2%nat); reflexivity|].
    apply lr_nil.
  - intros t. cbn. unfold set. repeat (destruct (Nat.eqb t _); [reflexivity|]). reflexivity.
  - split; [reflexivity|exists no_gauges; reflexivity].
  - repeat constructor.
  - reflexivity.
  - intros [o|o s0] s r s'; cbn -[single_call]; [discriminate|]. destruct (single_call _ _ _ _) as [[r1 o1] e1]. intros E. now injection E as <- <-.
Qed.
Example C99_panic_used : exists c, lrun RStart rl_step rpanics (fresh new_rec)
    ([Call 1%nat (5%Z, EndTest)] ++ Return 1%nat (Panic PNil) :: [] ++ Call 2%nat (6%Z, Reset) :: []) c /\ c_ts c 2%nat = Waiting (6%Z, Reset).
Proof.
  eexists. split.
  - cbn [app]. unfold fresh.
    eapply lr_ev; [apply (l_call _ _ _ _ _ _ 1%nat); reflexivity|].
    eapply lr_tau; [apply (l_lock _ _ _ _ _ 1%nat); reflexivity|].
    eapply lr_tau; [eapply (l_body _ _ _ _ _ _ 1%nat); reflexivity|].
    eapply lr_tau; [eapply (l_panic _ _ _ _ _ _ 1%nat); reflexivity|].
    eapply lr_ev; [eapply (l_return _ _ _ _ _ _ 1%nat); reflexivity|].
    eapply lr_ev; [apply (l_call _ _ _ _ _ _ 2%nat); reflexivity|].
    apply lr_nil.
  - reflexivity.
Qed.

(* ------------------------------------------------------------------------------ C100 *)

(* A shim passes every call on, once and in order, and resets the timer when it is reset... *)
Theorem C100_forwards : forall cs, snd (shim_run cs) = cs /\
  fst (shim_run cs) = repeat ResetTimer (List.length (filter (fun c => match c with Reset => true | _ => false end) cs)).
Proof.
  induction cs as [|c cs [I1 I2]]; [split; reflexivity|]. cbn [shim_run].
  destruct (shim_call c) as [t x] eqn:E. destruct (shim_run cs) as [t' x']. cbn [fst snd] in *. subst.
  destruct c; cbn in E; injection E as <- <-; split; reflexivity.
Qed.
(* ... but never starts or stops it, whatever the iterations are. *)
Theorem C100_refuted : forall cs, ~ In StartTimer (fst (shim_run cs)) /\ ~ In StopTimer (fst (shim_run cs)).
Proof. intros cs. destruct (C100_forwards cs) as [_ ->]. split; intros I; apply repeat_spec in I; discriminate. Qed.
Print Assumptions C100_forwards.
Print Assumptions C100_refuted.
Example C100_used : shim_run [Reset; BeginIteration; EndIteration 5; EndTest] = ([ResetTimer], [Reset; BeginIteration; EndIteration 5; EndTest]).
Proof. reflexivity. Qed.
