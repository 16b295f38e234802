(* Objects guarded by a sync.RWMutex: the interleavings of their methods, what it means that
   they are linearizable, and that they are.

   A method takes the lock (Lock, or RLock for the methods that only read), runs its body and
   releases the lock (defer).  The body is any number of steps on the state of the object, and
   steps of different goroutines interleave in every way the lock allows.  A panic in the body
   is a result: the deferred unlock runs and the panic goes to the caller.  sync.RWMutex is
   modelled by what it promises: one goroutine with Lock and none with RLock, or any number
   with RLock. *)
Require Import List Bool Arith Lia.
Import ListNotations.

Definition tid := nat.
Inductive event (Op Res : Type) := Call (t : tid) (o : Op) | Return (t : tid) (r : Res).
Arguments Call {Op Res} t o.
Arguments Return {Op Res} t r.

(* ---------------------------------------------------------------- what is promised *)

Section Atomic.
(* the state, the operations (with arguments) and results, and what the operations do *)
Context {St Op Res : Type}.
Variable does : Op -> St -> Res -> St -> Prop.

(* The atomic object: a call takes effect at one instant (Lin) between Call and Return.  The
   history is linearizable when such instants can be inserted. *)
Inductive aevent := AInv (t : tid) (o : Op) | ALin (t : tid) | ARet (t : tid) (r : Res).
Inductive athread := AIdle | APending (o : Op) | ADone (r : Res).
Definition aset (ts : tid -> athread) (t : tid) (x : athread) : tid -> athread := fun u => if Nat.eqb u t then x else ts u.
Inductive atomic : St -> (tid -> athread) -> list aevent -> St -> (tid -> athread) -> Prop :=
| a_nil s ts : atomic s ts [] s ts
| a_inv s ts t o es s' ts' : ts t = AIdle -> atomic s (aset ts t (APending o)) es s' ts' -> atomic s ts (AInv t o :: es) s' ts'
| a_lin s ts t o r s1 es s' ts' : ts t = APending o -> does o s r s1 ->
    atomic s1 (aset ts t (ADone r)) es s' ts' -> atomic s ts (ALin t :: es) s' ts'
| a_ret s ts t r es s' ts' : ts t = ADone r -> atomic s (aset ts t AIdle) es s' ts' -> atomic s ts (ARet t r :: es) s' ts'.
Definition visible (es : list aevent) : list (event Op Res) :=
  flat_map (fun e => match e with AInv t o => [Call t o] | ALin _ => [] | ARet t r => [Return t r] end) es.
Definition linearizable (s : St) (h : list (event Op Res)) : Prop :=
  exists es s' ts', visible es = h /\ atomic s (fun _ => AIdle) es s' ts'.

End Atomic.

Section Lin.
Context {St Op Res L : Type}.
Notation event := (event Op Res).
(* what is local to a body *)
Inductive micro := MRun (l : L) | MDone (r : Res).
(* whether a method takes RLock, its first step, and the steps *)
Variable rlock : Op -> bool.
Variable start : Op -> L.
Variable mstep : L -> St -> micro * St.

(* ---------------------------------------------------------------- the lock at work *)

Inductive thread := Idle | Waiting (o : Op) | Inside (o : Op) (l : L) | Leaving (r : Res).
Definition threads := tid -> thread.
Definition set (ts : threads) (t : tid) (x : thread) : threads := fun u => if Nat.eqb u t then x else ts u.
(* those that hold the lock *)
Record config := MkCfg { c_st : St; c_writer : option tid; c_readers : list tid; c_ts : threads }.

Fixpoint remove1 (t : tid) (l : list tid) : list tid :=
  match l with [] => [] | u :: r => if Nat.eqb u t then r else u :: remove1 t r end.

Inductive cstep : config -> list event -> config -> Prop :=
| s_call s w rs ts t o : ts t = Idle ->
    cstep (MkCfg s w rs ts) [Call t o] (MkCfg s w rs (set ts t (Waiting o)))
| s_lock s ts t o : ts t = Waiting o -> rlock o = false ->
    cstep (MkCfg s None [] ts) [] (MkCfg s (Some t) [] (set ts t (Inside o (start o))))
| s_rlock s rs ts t o : ts t = Waiting o -> rlock o = true ->
    cstep (MkCfg s None rs ts) [] (MkCfg s None (t :: rs) (set ts t (Inside o (start o))))
| s_body s w rs ts t o l l' s' : ts t = Inside o l -> mstep l s = (MRun l', s') ->
    cstep (MkCfg s w rs ts) [] (MkCfg s' w rs (set ts t (Inside o l')))
| s_unlock s rs ts t o l r s' : ts t = Inside o l -> rlock o = false -> mstep l s = (MDone r, s') ->
    cstep (MkCfg s (Some t) rs ts) [] (MkCfg s' None rs (set ts t (Leaving r)))
| s_runlock s w rs ts t o l r s' : ts t = Inside o l -> rlock o = true -> mstep l s = (MDone r, s') ->
    cstep (MkCfg s w rs ts) [] (MkCfg s' w (remove1 t rs) (set ts t (Leaving r)))
| s_return s w rs ts t r : ts t = Leaving r ->
    cstep (MkCfg s w rs ts) [Return t r] (MkCfg s w rs (set ts t Idle)).

Inductive crun : config -> list event -> config -> Prop :=
| r_nil c : crun c [] c
| r_step c e c' es c'' : cstep c e c' -> crun c' es c'' -> crun c (e ++ es) c''.

Definition fresh (s : St) : config := MkCfg s None [] (fun _ => Idle).

(* running the body alone, from beginning to end *)
Inductive bruns : L -> St -> Res -> St -> Prop :=
| b_done l s r s' : mstep l s = (MDone r, s') -> bruns l s r s'
| b_more l s l' s1 r s' : mstep l s = (MRun l', s1) -> bruns l' s1 r s' -> bruns l s r s'.
Definition alone (o : Op) (s : St) (r : Res) (s' : St) : Prop := bruns (start o) s r s'.

(* ---------------------------------------------------------------------------- proof *)

(* the methods that take RLock do not write *)
Definition pure (l : L) : Prop := forall s r s', bruns l s r s' -> s' = s.
Variable reading : L -> Prop.
Hypothesis reading_start : forall o, rlock o = true -> reading (start o).
Hypothesis reading_step : forall l s x s', reading l -> mstep l s = (x, s') ->
  s' = s /\ match x with MRun l' => reading l' | MDone _ => True end.

(* the steps made so far *)
Inductive msteps : L -> St -> L -> St -> Prop :=
| m_nil l s : msteps l s l s
| m_snoc l s l1 s1 l2 s2 : msteps l s l1 s1 -> mstep l1 s1 = (MRun l2, s2) -> msteps l s l2 s2.
Lemma msteps_done l s l1 s1 r s2 : msteps l s l1 s1 -> mstep l1 s1 = (MDone r, s2) -> bruns l s r s2.
Proof.
  intros M. assert (G : bruns l1 s1 r s2 -> bruns l s r s2).
  { induction M as [|l s l1 s1 l2 s3 M IH E]; auto. intros B. apply IH. eapply b_more; eauto. }
  intros E. apply G. now apply b_done.
Qed.

Definition abs (x : thread) : athread :=
  match x with Idle => AIdle | Waiting o => APending o | Inside o _ => APending o | Leaving r => ADone r end.

Record agrees (c : config) (s : St) (ats : tid -> athread) : Prop := {
  g_ts : forall t, ats t = abs (c_ts c t);
  g_none : c_writer c = None -> c_st c = s;
  g_excl : c_writer c <> None -> c_readers c = [];
  g_in : forall t o l, c_ts c t = Inside o l -> if rlock o then In t (c_readers c) else c_writer c = Some t;
  g_w : forall t, c_writer c = Some t -> exists o l, c_ts c t = Inside o l /\ rlock o = false /\ msteps (start o) s l (c_st c);
  g_r : forall t, In t (c_readers c) -> exists o l, c_ts c t = Inside o l /\ rlock o = true /\ reading l /\ msteps (start o) s l s;
  g_nd : NoDup (c_readers c)
}.

Lemma set_same ts t x : set ts t x t = x.
Proof. unfold set. now rewrite Nat.eqb_refl. Qed.
Lemma set_other ts t u x : u <> t -> set ts t x u = ts u.
Proof. unfold set. intros N. destruct (Nat.eqb_spec u t); congruence. Qed.
Lemma aset_abs ats ts t x : (forall u, ats u = abs (ts u)) -> forall u, aset ats t (abs x) u = abs (set ts t x u).
Proof. intros H u. unfold aset, set. destruct (Nat.eqb u t); auto. Qed.
Lemma remove1_in t u l : In u (remove1 t l) -> In u l.
Proof. induction l as [|x l IH]; cbn; [auto|]. destruct (Nat.eqb x t); cbn; tauto. Qed.
Lemma remove1_keep t u l : u <> t -> In u l -> In u (remove1 t l).
Proof.
  intros N. induction l as [|x l IH]; cbn; [auto|]. destruct (Nat.eqb_spec x t) as [->|]; cbn; intuition congruence.
Qed.
Lemma remove1_nd t l : NoDup l -> NoDup (remove1 t l) /\ ~ In t (remove1 t l).
Proof.
  induction 1 as [|x l Nx Nl IH]; cbn; [split; [constructor|auto]|]. destruct IH as [I1 I2].
  destruct (Nat.eqb_spec x t) as [->|N]; [now split|].
  split; [constructor; auto; intros Q; apply remove1_in in Q; contradiction|]. cbn. intuition.
Qed.
Lemma remove1_nd' t l : NoDup l -> NoDup (remove1 t l).
Proof. intros H. apply remove1_nd. exact H. Qed.

(* one step of the object is no or one step of the atomic object *)
Lemma simulate c e c' s ats : cstep c e c' -> agrees c s ats ->
  exists es s' ats', visible es = e /\ agrees c' s' ats' /\
    (forall more s'' ats'', atomic alone s' ats' more s'' ats'' -> atomic alone s ats (es ++ more) s'' ats'').
Proof.
  intros St0 [Gts Gno Gex Gin Gw Gr Gnd].
  destruct St0 as [s0 w rs ts t o Et|s0 ts t o Et Rl|s0 rs ts t o Et Rl|s0 w rs ts t o l l' s' Et Em|s0 rs ts t o l r s' Et Rl Em|s0 w rs ts t o l r s' Et Rl Em|s0 w rs ts t r Et];
    cbn [c_st c_writer c_readers c_ts] in *.
  - (* call *)
    exists [AInv t o], s, (aset ats t (APending o)). split; [reflexivity|]. split.
    + constructor; cbn [c_st c_writer c_readers c_ts]; auto.
      * change (APending o) with (abs (Waiting o)). now apply aset_abs.
      * intros u o' l' E. destruct (Nat.eq_dec u t) as [->|N]; [rewrite set_same in E; discriminate|]. rewrite set_other in E by auto. exact (Gin _ _ _ E).
      * intros u E. destruct (Gw u E) as (o' & l' & E' & Q). exists o', l'. split; [|exact Q].
        rewrite set_other; auto. intros ->. congruence.
      * intros u E. destruct (Gr u E) as (o' & l' & E' & Q). exists o', l'. split; [|exact Q].
        rewrite set_other; auto. intros ->. congruence.
    + intros more s'' ats'' A. apply a_inv; auto. now rewrite Gts, Et.
  - (* lock *)
    exists [], s, ats. split; [reflexivity|]. split; [|auto].
    constructor; cbn [c_st c_writer c_readers c_ts]; auto; try discriminate.
    + intros u. unfold set. destruct (Nat.eqb_spec u t) as [->|]; [now rewrite Gts, Et|apply Gts].
    + intros u o' l' E. destruct (Nat.eq_dec u t) as [->|N].
      * rewrite set_same in E. injection E as <- <-. now rewrite Rl.
      * rewrite set_other in E by auto. specialize (Gin u o' l' E). destruct (rlock o'); [contradiction|discriminate].
    + intros u E. injection E as <-. exists o, (start o). rewrite set_same. repeat split; auto. rewrite (Gno eq_refl). constructor.
    + intros u [].
  - (* rlock *)
    exists [], s, ats. split; [reflexivity|]. split; [|auto].
    assert (Nt : ~ In t rs) by (intros Q; destruct (Gr t Q) as (o' & l' & E' & _); congruence).
    constructor; cbn [c_st c_writer c_readers c_ts]; auto; try discriminate.
    + intros u. unfold set. destruct (Nat.eqb_spec u t) as [->|]; [now rewrite Gts, Et|apply Gts].
    + congruence.
    + intros u o' l' E. destruct (Nat.eq_dec u t) as [->|N].
      * rewrite set_same in E. injection E as <- <-. rewrite Rl. now left.
      * rewrite set_other in E by auto. specialize (Gin u o' l' E). destruct (rlock o'); [now right|exact Gin].
    + intros u [<-|Q].
      * exists o, (start o). rewrite set_same. repeat split; auto. constructor.
      * destruct (Gr u Q) as (o' & l' & E' & X). exists o', l'. split; [|exact X]. rewrite set_other; auto. intros ->. contradiction.
    + now constructor.
  - (* body *)
    exists [], s, ats. split; [reflexivity|]. split; [|auto]. pose proof (Gin t o l Et) as H. destruct (rlock o) eqn:Ro.
    + destruct (Gr t H) as (o' & l1 & E' & _ & Rd & Ms). rewrite Et in E'. injection E' as <- <-.
      destruct (reading_step l s0 _ _ Rd Em) as [-> Rd'].
      assert (Wn : w = None) by (destruct w; [|reflexivity]; specialize (Gex ltac:(discriminate)); subst; contradiction).
      pose proof (Gno Wn) as Es. subst s0.
      constructor; cbn [c_st c_writer c_readers c_ts]; auto.
      * intros u. unfold set. destruct (Nat.eqb_spec u t) as [->|]; [now rewrite Gts, Et|apply Gts].
      * intros u o' l1 E. destruct (Nat.eq_dec u t) as [->|N]; [rewrite set_same in E; injection E as <- <-; now rewrite Ro|].
        rewrite set_other in E by auto. exact (Gin _ _ _ E).
      * intros u E. congruence.
      * intros u Q. destruct (Nat.eq_dec u t) as [->|N].
        -- exists o, l'. rewrite set_same. repeat split; auto. eapply m_snoc; eauto.
        -- rewrite set_other by auto. auto.
    + subst w. destruct (Gw t eq_refl) as (o' & l1 & E' & _ & Ms). rewrite Et in E'. injection E' as <- <-.
      specialize (Gex ltac:(discriminate)). subst rs.
      constructor; cbn [c_st c_writer c_readers c_ts]; auto; try discriminate; try (intros ? []; fail).
      * intros u. unfold set. destruct (Nat.eqb_spec u t) as [->|]; [now rewrite Gts, Et|apply Gts].
      * intros u o' l1 E. destruct (Nat.eq_dec u t) as [->|N]; [rewrite set_same in E; injection E as <- <-; now rewrite Ro|].
        rewrite set_other in E by auto. exact (Gin _ _ _ E).
      * intros u E. injection E as <-. exists o, l'. rewrite set_same. repeat split; auto. eapply m_snoc; eauto.
  - (* unlock *)
    destruct (Gw t eq_refl) as (o' & l1 & E' & _ & Ms). rewrite Et in E'. injection E' as <- <-.
    specialize (Gex ltac:(discriminate)). subst rs.
    exists [ALin t], s', (aset ats t (ADone r)). split; [reflexivity|]. split.
    + constructor; cbn [c_st c_writer c_readers c_ts]; auto; try discriminate; try (intros ? []).
      * change (ADone r) with (abs (Leaving r)). now apply aset_abs.
      * intros u o' l1 E. destruct (Nat.eq_dec u t) as [->|N]; [rewrite set_same in E; discriminate|].
        rewrite set_other in E by auto. specialize (Gin u o' l1 E). destruct (rlock o'); [contradiction|congruence].
    + intros more s'' ats'' A. eapply a_lin; [|eapply msteps_done; eauto|exact A]. now rewrite Gts, Et.
  - (* runlock *)
    pose proof (Gin t o l Et) as H. rewrite Rl in H.
    destruct (Gr t H) as (o' & l1 & E' & _ & Rd & Ms). rewrite Et in E'. injection E' as <- <-.
    destruct (reading_step l s0 _ _ Rd Em) as [-> _].
    assert (Wn : w = None) by (destruct w; [|reflexivity]; specialize (Gex ltac:(discriminate)); subst; contradiction).
    subst w. pose proof (Gno eq_refl) as Es. subst s0.
    exists [ALin t], s, (aset ats t (ADone r)). split; [reflexivity|]. split.
    + constructor; cbn [c_st c_writer c_readers c_ts]; auto; try discriminate; try congruence.
      * change (ADone r) with (abs (Leaving r)). now apply aset_abs.
      * intros u o' l1 E. destruct (Nat.eq_dec u t) as [->|N]; [rewrite set_same in E; discriminate|].
        rewrite set_other in E by auto. specialize (Gin u o' l1 E). destruct (rlock o'); [now apply remove1_keep|exact Gin].
      * intros u Q. assert (u <> t) by (intros ->; now destruct (remove1_nd t rs Gnd)). apply remove1_in in Q. rewrite set_other by auto. auto.
      * now apply remove1_nd'.
    + intros more s'' ats'' A. eapply a_lin; [|eapply msteps_done; eauto|exact A]. now rewrite Gts, Et.
  - (* return *)
    exists [ARet t r], s, (aset ats t AIdle). split; [reflexivity|]. split.
    + constructor; cbn [c_st c_writer c_readers c_ts]; auto.
      * change AIdle with (abs Idle). now apply aset_abs.
      * intros u o' l' E. destruct (Nat.eq_dec u t) as [->|N]; [rewrite set_same in E; discriminate|]. rewrite set_other in E by auto. exact (Gin _ _ _ E).
      * intros u E. destruct (Gw u E) as (o' & l' & E' & Q). exists o', l'. split; [|exact Q]. rewrite set_other; auto. intros ->. congruence.
      * intros u E. destruct (Gr u E) as (o' & l' & E' & Q). exists o', l'. split; [|exact Q]. rewrite set_other; auto. intros ->. congruence.
    + intros more s'' ats'' A. apply a_ret with (r := r); auto. now rewrite Gts, Et.
Qed.

Lemma fresh_agrees s : agrees (fresh s) s (fun _ => AIdle).
Proof.
  constructor; cbn; auto; try congruence; try discriminate; try (intros ? []). constructor.
Qed.

Lemma runs_atomic c h c' : crun c h c' -> forall s ats, agrees c s ats ->
  exists es s' ats', visible es = h /\ agrees c' s' ats' /\ atomic alone s ats es s' ats'.
Proof.
  induction 1 as [c|c e c' es c'' Hs _ IH]; intros s ats G.
  - exists [], s, ats. split; [reflexivity|]. split; [exact G|constructor].
  - destruct (simulate c e c' s ats Hs G) as (e1 & s1 & a1 & V1 & G1 & A1).
    destruct (IH s1 a1 G1) as (e2 & s2 & a2 & V2 & G2 & A2). exists (e1 ++ e2), s2, a2.
    split; [unfold visible in *; rewrite flat_map_app; congruence|]. split; [exact G2|]. now apply A1.
Qed.

(* Every history is linearizable; when no call is under way the state is the one the calls
   in that order lead to. *)
Theorem rwmutex_linearizable (does : Op -> St -> Res -> St -> Prop) s h c :
  (forall o s r s', alone o s r s' -> does o s r s') ->
  crun (fresh s) h c ->
  exists es s' ts', visible es = h /\ atomic does s (fun _ => AIdle) es s' ts' /\
    ((forall t, c_ts c t = Idle) -> c_st c = s').
Proof.
  intros Hd R. destruct (runs_atomic _ _ _ R s _ (fresh_agrees s)) as (es & s' & ats' & V & G & A). exists es, s', ats'.
  split; [exact V|]. split.
  - clear V G R. induction A; [constructor|eapply a_inv|eapply a_lin|eapply a_ret]; eauto.
  - intros Q. destruct (c_writer c) as [t|] eqn:W; [|now apply (g_none _ _ _ G)].
    destruct (g_w _ _ _ G t W) as (o & l & E & _). now rewrite Q in E.
Qed.

(* No deadlock: while calls are under way one of them can go on. *)
Theorem rwmutex_progress s h c t : crun (fresh s) h c -> c_ts c t <> Idle ->
  exists e c', cstep c e c' /\ (forall u o, ~ In (Call u o) e).
Proof.
  intros R N. destruct (runs_atomic _ _ _ R s _ (fresh_agrees s)) as (_ & s' & ats' & _ & G & _). destruct c as [st w rs ts].
  assert (In1 : forall u o l, ts u = Inside o l -> exists e c', cstep (MkCfg st w rs ts) e c' /\ (forall u o, ~ In (Call u o) e)).
  { intros u o l E. destruct (mstep l st) as [[l'|r] st'] eqn:Em.
    - exists [], (MkCfg st' w rs (set ts u (Inside o l'))). split; [econstructor; eauto|auto].
    - pose proof (g_in _ _ _ G u o l E) as Q. cbn in Q. destruct (rlock o) eqn:Ro.
      + exists [], (MkCfg st' w (remove1 u rs) (set ts u (Leaving r))). split; [eapply s_runlock; eauto|auto].
      + subst w. exists [], (MkCfg st' None rs (set ts u (Leaving r))). split; [eapply s_unlock; eauto|auto]. }
  destruct w as [u|].
  { destruct (g_w _ _ _ G u eq_refl) as (o & l & E & _). eauto. }
  destruct rs as [|u rs].
  2:{ destruct (g_r _ _ _ G u (or_introl eq_refl)) as (o & l & E & _). eauto. }
  cbn in N. destruct (ts t) as [|o|o l|r] eqn:E; [congruence| | |].
  - destruct (rlock o) eqn:Ro.
    + exists [], (MkCfg st None [t] (set ts t (Inside o (start o)))). split; [apply s_rlock; auto|auto].
    + exists [], (MkCfg st (Some t) [] (set ts t (Inside o (start o)))). split; [apply s_lock; auto|auto].
  - eauto.
  - exists [Return t r], (MkCfg st None [] (set ts t Idle)). split; [apply s_return; auto|]. intros u o [Q|[]]. discriminate.
Qed.
End Lin.
Arguments micro : clear implicits.
