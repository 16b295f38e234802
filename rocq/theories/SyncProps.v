(* Properties of the synchronized and buffered collectors (C41, C42, C71). *)
Require Import ZArith List Bool Arith Lia ZifyNat ZifyBool.
From Verif Require Import Base Value Ftdc Collect Lin Sync.
Import ListNotations.

(* ------------------------------------------------------------------------------ C41 *)

(* the sequential collector *)
Definition calls {C D} (k : collector C D) (o : cop D) (s : C) (r : cres) (s' : C) : Prop := k_call k o s = (s', r).

Section C41.
Context {C D L : Type}.
Variable k : collector C D.
Variable start : cop D -> L.
Variable mstep : L -> C -> micro cres L * C.
(* The collector inside is any program whose calls, alone, are those of k, and whose Info
   does not write. *)
Definition implements : Prop := forall o s r s', alone start mstep o s r s' -> calls k o s r s'.
Definition info_reads : Prop := exists reading : L -> Prop, reading (start OpInfo) /\
  forall l s x s', reading l -> mstep l s = (x, s') -> s' = s /\ match x with MRun l' => reading l' | MDone _ => True end.

(* Every concurrent history of calls on a synchronized collector is one in which each call
   takes effect at one instant between its start and its end, as the collector alone would;
   the state left behind is that of these calls in that order; and no call waits for ever. *)
Theorem C41_synchronized : implements -> info_reads -> forall s h c,
  crun sync_rlock start mstep (fresh s) h c ->
  (exists es s' ts', visible es = h /\ atomic (calls k) s (fun _ => AIdle) es s' ts' /\
     ((forall t, c_ts c t = Idle) -> c_st c = s')) /\
  (forall t, c_ts c t <> Idle -> exists e c', cstep sync_rlock start mstep c e c' /\ forall u o, ~ In (Call u o) e).
Proof.
  intros Im (reading & R0 & R1) s h c R.
  assert (Rs : forall o, sync_rlock o = true -> reading (start o)) by (intros []; cbn; congruence).
  split.
  - exact (rwmutex_linearizable _ _ _ reading Rs R1 (calls k) s h c Im R).
  - intros t N. exact (rwmutex_progress _ _ _ reading Rs R1 s h c t R N).
Qed.

(* Samples are neither lost nor counted twice: when Info counts the accepted samples of the
   collector alone, it counts those of all goroutines together. *)
Definition counts : Prop := forall s,
  (forall d s', k_add k s d = (s', Base.Ret None) -> snd (k_info k s') = (snd (k_info k s) + 1)%Z) /\
  (forall d s' e, k_add k s d = (s', Base.Ret (Some e)) -> snd (k_info k s') = snd (k_info k s)) /\
  (forall d s' r, k_set_metadata k s d = (s', r) -> snd (k_info k s') = snd (k_info k s)) /\
  (forall s' r, k_resolve k s = (s', r) -> snd (k_info k s') = snd (k_info k s)).
Definition ok_adds (h : list (event (cop D) cres)) : Z :=
  zlen (filter (fun e => match e with Return _ (RAdd (Base.Ret None)) => true | _ => false end) h).
Definition returns_plain (e : event (cop D) cres) : Prop :=
  match e with Call _ OpReset => False | Return _ (RAdd (Base.Ret _)) => True | Return _ (RAdd _) => False | _ => True end.

Definition wt (x : @athread (cop D) cres) : Z := match x with ADone (RAdd (Base.Ret None)) => 1%Z | _ => 0%Z end.
Definition bad (x : @athread (cop D) cres) : Prop :=
  match x with APending OpReset => True | ADone (RAdd (Base.Ret _)) => False | ADone (RAdd _) => True | _ => False end.
Fixpoint wsum (U : list tid) (ts : tid -> @athread (cop D) cres) : Z :=
  match U with [] => 0 | t :: r => wt (ts t) + wsum r ts end%Z.
Lemma wsum_other U ts t x : ~ In t U -> wsum U (aset ts t x) = wsum U ts.
Proof.
  induction U as [|u U IH]; cbn; [reflexivity|]. intros N. rewrite IH by tauto. f_equal. unfold aset.
  destruct (Nat.eqb_spec u t); [tauto|reflexivity].
Qed.
Lemma wsum_set U ts t x : NoDup U -> In t U -> wsum U (aset ts t x) = (wsum U ts - wt (ts t) + wt x)%Z.
Proof.
  induction 1 as [|u U Nu _ IH]; [intros []|]. intros [->|Hi]; cbn.
  - rewrite wsum_other by auto. unfold aset at 1. rewrite Nat.eqb_refl. lia.
  - rewrite IH by auto. unfold aset at 1. destruct (Nat.eqb_spec u t) as [->|]; [contradiction|lia].
Qed.
Definition tids (es : list (@aevent (cop D) cres)) : list tid := map (fun e => match e with AInv t _ | ALin t | ARet t _ => t end) es.

Lemma atomic_counts : counts -> forall s ts es s' ts' U, atomic (calls k) s ts es s' ts' ->
  NoDup U -> incl (tids es) U -> Forall returns_plain (visible es) -> (forall t, ~ bad (ts t)) -> (forall t, ~ bad (ts' t)) ->
  (snd (k_info k s') - snd (k_info k s) = ok_adds (visible es) + wsum U ts' - wsum U ts)%Z.
Proof.
  intros Hc s ts es s' ts' U A Nd. 
  assert (NB : forall s ts es s' ts', atomic (calls k) s ts es s' ts' -> Forall returns_plain (visible es) -> (forall t, ~ bad (ts' t)) ->
    (forall t r, ts t = ADone r -> ~ bad (ADone r))).
  { clear s ts es s' ts' A. induction 1 as [s ts|s ts t o es s' ts' E A IH|s ts t o r s1 es s' ts' E Do A IH|s ts t r es s' ts' E A IH]; intros F B u q Eu.
    - rewrite <- Eu. apply B.
    - cbn in F. inversion F; subst. apply (IH H2 B u). unfold aset. destruct (Nat.eqb_spec u t) as [->|]; congruence.
    - apply (IH F B u). unfold aset. destruct (Nat.eqb_spec u t) as [->|]; congruence.
    - cbn in F. inversion F; subst. destruct (Nat.eq_dec u t) as [->|N].
      + rewrite E in Eu. injection Eu as <-. cbn in H1 |- *. destruct r as [[]| | | |]; tauto.
      + apply (IH H2 B u). unfold aset. destruct (Nat.eqb_spec u t); congruence. }
  induction A as [s ts|s ts t o es s' ts' E A IH|s ts t o r s1 es s' ts' E Do A IH|s ts t r es s' ts' E A IH]; intros I F B B'.
  - change (ok_adds (visible [])) with 0%Z. lia.
  - cbn in I, F. inversion F; subst.
    rewrite IH; auto.
    + rewrite wsum_set by (auto; apply I; now left). rewrite E. change (ok_adds (visible (AInv t o :: es))) with (ok_adds (visible es)). cbn [wt]. lia.
    + intros x Hx. apply I. now right.
    + intros u. unfold aset. destruct (Nat.eqb u t); [|apply B]. cbn. cbn in H1. destruct o; auto.
  - cbn in I. change (visible (ALin t :: es)) with (visible es) in *.
    assert (Nb : ~ bad (ADone r)).
    { apply (NB _ _ _ _ _ A F B' t). unfold aset. now rewrite Nat.eqb_refl. }
    assert (Hs : (snd (k_info k s1) = snd (k_info k s) + wt (ADone r))%Z).
    { destruct (Hc s) as (H1 & H2 & H3 & H4). unfold calls, k_call in Do. pose proof (B t) as Bt. rewrite E in Bt.
      destruct o as [d|d| | |].
      - destruct (k_add k s d) as [s2 q] eqn:Ek. injection Do as <- <-. destruct q as [[e|]| |]; cbn in Nb |- *; try tauto.
        + rewrite (H2 _ _ _ Ek). lia.
        + rewrite (H1 _ _ Ek). lia.
      - destruct (k_set_metadata k s d) as [s2 q] eqn:Ek. injection Do as <- <-. cbn. rewrite (H3 _ _ _ Ek). lia.
      - destruct (k_resolve k s) as [s2 q] eqn:Ek. injection Do as <- <-. cbn. rewrite (H4 _ _ eq_refl). lia.
      - cbn in Bt. tauto.
      - injection Do as <- <-. cbn. lia. }
    assert (E1 := IH). rewrite wsum_set in E1 by (auto; apply I; now left). rewrite E in E1. cbn [wt] in E1.
    specialize (E1 ltac:(intros x Hx; apply I; now right) F).
    enough ((snd (k_info k s') - snd (k_info k s1) = ok_adds (visible es) + wsum U ts' - (wsum U ts - 0 + wt (ADone r)))%Z) by lia.
    apply E1; auto. intros u. unfold aset. destruct (Nat.eqb u t); auto.
  - cbn in I, F. inversion F; subst.
    assert (E1 := IH). rewrite wsum_set in E1 by (auto; apply I; now left). rewrite E in E1.
    assert (ok_adds (visible (ARet t r :: es)) = wt (ADone r) + ok_adds (visible es))%Z as ->.
    { change (visible (ARet t r :: es)) with (Return t r :: visible es). unfold ok_adds. cbn [filter].
      destruct r as [[[|]| |]| | | |]; cbn [wt]; rewrite ?zlen_cons; lia. }
    cbn [wt] in E1. specialize (E1 ltac:(intros x Hx; apply I; now right) H2).
    enough ((snd (k_info k s') - snd (k_info k s) = ok_adds (visible es) + wsum U ts' - (wsum U ts - wt (ADone r) + 0))%Z) by lia.
    apply E1; auto. intros u. unfold aset. destruct (Nat.eqb u t); auto.
Qed.

Theorem C41_no_lost_samples : implements -> info_reads -> counts -> forall s h c,
  crun sync_rlock start mstep (fresh s) h c ->
  (forall t, c_ts c t = Idle) -> Forall returns_plain h ->
  (snd (k_info k (c_st c)) = snd (k_info k s) + ok_adds h)%Z.
Proof.
  intros Im (reading & R0 & R1) Hc s h c R Q F.
  assert (Rs : forall o, sync_rlock o = true -> reading (start o)) by (intros []; cbn; congruence).
  destruct (runs_atomic _ _ _ reading Rs R1 _ _ _ R s _ (fresh_agrees _ _ _ reading s)) as (es & s' & ats & V & G & A).
  assert (Es : c_st c = s').
  { destruct (c_writer c) as [t|] eqn:W; [|now apply (g_none _ _ _ _ _ _ _ G)].
    destruct (g_w _ _ _ _ _ _ _ G t W) as (o & l & E & _). now rewrite Q in E. }
  assert (Hi : forall t, ats t = AIdle) by (intros t; rewrite (g_ts _ _ _ _ _ _ _ G t), Q; reflexivity).
  assert (A' : atomic (calls k) s (fun _ => AIdle) es s' ats).
  { revert Im A. clear. intros Im A. induction A; [constructor|eapply a_inv|eapply a_lin|eapply a_ret]; eauto. }
  subst h. pose proof (atomic_counts Hc _ _ _ _ _ (nodup Nat.eq_dec (tids es)) A' (NoDup_nodup _ _)) as E.
  assert (Z0 : forall U (ts : tid -> @athread (cop D) cres), (forall t, ts t = AIdle) -> wsum U ts = 0%Z).
  { intros U ts Hu. induction U as [|u U IH]; cbn; [reflexivity|]. now rewrite Hu, IH. }
  rewrite (Z0 _ ats Hi), (Z0 _ (fun _ => AIdle)) in E by auto. subst s'.
  enough ((snd (k_info k (c_st c)) - snd (k_info k s) = ok_adds (visible es) + 0 - 0)%Z) by lia.
  apply E; auto.
  - intros x Hx. now apply nodup_In.
  - intros t. rewrite Hi. auto.
Qed.
End C41.

(* The collectors of the package, loading and storing their state in separate steps. *)
Lemma ls_implements {C D} (k : collector C D) : implements k LStart (ls_step k).
Proof.
  intros o s r s' A. unfold alone in A. inversion A as [? ? ? ? E|? ? l' s1 ? ? E B]; subst; cbn in E; [discriminate|].
  injection E as <- <-. inversion B as [? ? ? ? E2|? ? ? ? ? ? E2 ?]; subst; cbn in E2; [|discriminate].
  injection E2 as <- <-. unfold calls. destruct o; cbn; try reflexivity; destruct (k_call k _ s) eqn:Ek; cbn in *; auto.
  - destruct (k_add k s d). cbn in *. congruence.
  - destruct (k_set_metadata k s d). cbn in *. congruence.
  - destruct (k_resolve k s). cbn in *. congruence.
Qed.
Lemma ls_info_reads {C D} (k : collector C D) : info_reads LStart (ls_step k).
Proof.
  exists (fun l => match l with LStart o | LLoaded o _ => o = OpInfo end). split; [reflexivity|].
  intros [o|o s0] s x s' E Es; cbn in Es; injection Es as <- <-; subst; auto.
Qed.
Lemma uncomp_counts json fuel : counts (uncomp_collector json fuel).
Proof.
  intros s. cbn [uncomp_collector k_add k_set_metadata k_resolve k_info snd fst]. unfold u_add.
  split; [|split; [|split]].
  - intros d s'. destruct (negb _); [discriminate|]. destruct (_ <=? _)%Z; [discriminate|]. intros E. injection E as <-.
    cbn. zlens. lia.
  - intros d s' e. destruct (negb _); [intros E; injection E as <-; reflexivity|].
    destruct (_ <=? _)%Z; [intros E; injection E as <-; reflexivity|discriminate].
  - intros d s' r E. injection E as <- <-. reflexivity.
  - intros s' r E. injection E as <- <-. reflexivity.
Qed.
Lemma b_add_counts nan fuel now c es c' e : b_add nan fuel now c es = (c', Base.Ret e) ->
  b_samples c' = (b_samples c + match e with None => 1 | Some _ => 0 end)%Z.
Proof.
  unfold b_add. destruct (b_ref c) as [r|] eqn:Er.
  - destruct (_ <=? _)%Z; [intros E; injection E as <- <-; lia|]. destruct (Tree.obs_doc fuel es) as [fs| |]; try discriminate.
    destruct (b_last c) as [l|]; [|discriminate]. destruct (negb _); [intros E; injection E as <- <-; lia|].
    destruct (fill _ _ _ _ _ _ _) as [ds q]. destruct q as [[x|]| |]; intros E; inversion E; subst; unfold b_samples; cbn; rewrite Er; lia.
  - destruct (Tree.obs_doc fuel es) as [fs| |]; try discriminate. cbn zeta. destruct (_ <? _)%Z; [discriminate|].
    intros E. injection E as <- <-. unfold b_samples. cbn. rewrite Er. lia.
Qed.
Lemma base_counts nan zip fuel : counts (base_collector nan zip fuel).
Proof.
  intros s. cbn [base_collector k_add k_set_metadata k_resolve k_info snd fst].
  split; [|split; [|split]].
  - intros d s' E. now rewrite (b_add_counts _ _ _ _ _ _ _ E).
  - intros d s' e E. rewrite (b_add_counts _ _ _ _ _ _ _ E). lia.
  - intros d s' r E. injection E as <- <-. reflexivity.
  - intros s' r E. injection E as <- <-. reflexivity.
Qed.
Lemma bt_samples_app mx ds l : bt_samples (MkBatch mx ds l) = (fold_right (fun b n => b_samples b + n) 0 ds + b_samples l)%Z.
Proof.
  unfold bt_samples, bt_chunks. cbn [bt_done bt_last]. induction ds as [|b ds IH]; cbn [app fold_right]; lia.
Qed.
Lemma bt_add_counts nan fuel now c es c' e : bt_add nan fuel now c es = (c', Base.Ret e) ->
  bt_samples c' = (bt_samples c + match e with None => 1 | Some _ => 0 end)%Z.
Proof.
  destruct c as [mx ds l]. unfold bt_add. cbn [bt_max bt_done bt_last]. destruct (_ <=? _)%Z.
  - destruct (b_add _ _ _ _ _) as [l' q] eqn:Eb. intros E. injection E as <- ->. rewrite !bt_samples_app.
    rewrite (b_add_counts _ _ _ _ _ _ _ Eb). change (b_samples (new_base mx)) with 0%Z.
    rewrite fold_right_app. cbn [fold_right]. 
    assert (G : forall a, fold_right (fun b n => b_samples b + n)%Z a ds = (fold_right (fun b n => b_samples b + n) 0 ds + a)%Z).
    { clear. intros a. induction ds as [|b ds IH]; cbn [fold_right]; lia. }
    rewrite G. lia.
  - destruct (b_add _ _ _ _ _) as [l' q] eqn:Eb. intros E. injection E as <- ->. rewrite !bt_samples_app.
    rewrite (b_add_counts _ _ _ _ _ _ _ Eb). lia.
Qed.
Lemma batch_counts nan zip fuel : counts (batch_collector nan zip fuel).
Proof.
  intros s. cbn [batch_collector k_add k_set_metadata k_resolve k_info snd fst].
  split; [|split; [|split]].
  - intros d s' E. now rewrite (bt_add_counts _ _ _ _ _ _ _ E).
  - intros d s' e E. rewrite (bt_add_counts _ _ _ _ _ _ _ E). lia.
  - intros d s' r E. injection E as <- <-. destruct s as [mx [|b ds] l]; unfold bt_set_metadata; cbn [bt_done bt_max bt_last]; rewrite !bt_samples_app; cbn [fold_right]; reflexivity.
  - intros s' r E. injection E as <- <-. reflexivity.
Qed.

(* Instances: any interleaving of Add, SetMetadata, Resolve and Info on synchronized base,
   batch and uncompressed collectors counts every accepted sample. *)
Corollary C41_collectors nan zip json fuel :
  let safe := fun {C} (k : collector C (Z * document)) => forall s h c,
    crun sync_rlock LStart (ls_step k) (fresh s) h c -> (forall t, c_ts c t = Idle) -> Forall returns_plain h ->
    (snd (k_info k (c_st c)) = snd (k_info k s) + ok_adds h)%Z in
  safe (base_collector nan zip fuel) /\ safe (batch_collector nan zip fuel) /\ safe (uncomp_collector json fuel).
Proof.
  cbn zeta. split; [|split]; intros s h c R Q F.
  - exact (C41_no_lost_samples _ _ _ (ls_implements _) (ls_info_reads _) (base_counts _ _ _) s h c R Q F).
  - exact (C41_no_lost_samples _ _ _ (ls_implements _) (ls_info_reads _) (batch_counts _ _ _) s h c R Q F).
  - exact (C41_no_lost_samples _ _ _ (ls_implements _) (ls_info_reads _) (uncomp_counts _ _) s h c R Q F).
Qed.

(* Two goroutines add at once: with the lock both samples are there. Without (all calls let
   in together) one is lost, so the claim is about the lock. *)
Definition two : list (event (cop (Z * document)) cres) :=
  [Call 1%nat (OpAdd (0%Z, [])); Call 2%nat (OpAdd (0%Z, [])); Return 1%nat (RAdd (Base.Ret None)); Return 2%nat (RAdd (Base.Ret None))].
Definition k0 := uncomp_collector (fun _ => Base.Ret (inl [])) 0.
Lemma r_tau {St Op Res L} rlock start (mstep : L -> St -> micro Res L * St) c c' es c'' :
  @cstep St Op Res L rlock start mstep c [] c' -> crun rlock start mstep c' es c'' -> crun rlock start mstep c es c''.
Proof. intros A B. exact (r_step _ _ _ _ _ _ _ _ A B). Qed.
Lemma r_ev {St Op Res L} rlock start (mstep : L -> St -> micro Res L * St) c e c' es c'' :
  @cstep St Op Res L rlock start mstep c [e] c' -> crun rlock start mstep c' es c'' -> crun rlock start mstep c (e :: es) c''.
Proof. intros A B. exact (r_step _ _ _ _ _ _ _ _ A B). Qed.
Example C41_nonvacuous : exists c, crun sync_rlock LStart (ls_step k0) (fresh (new_uncomp true 10)) two c /\
  (forall t, c_ts c t = Idle) /\ Forall returns_plain two /\ ok_adds two = 2%Z /\ snd (k_info k0 (c_st c)) = 2%Z.
Proof.
  eexists. split; [|split; [|split; [|split]]].
  - unfold two, fresh.
    eapply r_ev; [apply (s_call _ _ _ _ _ _ _ 1%nat); reflexivity|].
    eapply r_ev; [apply (s_call _ _ _ _ _ _ _ 2%nat); reflexivity|].
    eapply r_tau; [apply (s_lock _ _ _ _ _ 1%nat); reflexivity|].
    eapply r_tau; [eapply (s_body _ _ _ _ _ _ _ 1%nat); reflexivity|].
    eapply r_tau; [eapply (s_unlock _ _ _ _ _ _ 1%nat); reflexivity|].
    eapply r_tau; [apply (s_lock _ _ _ _ _ 2%nat); reflexivity|].
    eapply r_tau; [eapply (s_body _ _ _ _ _ _ _ 2%nat); reflexivity|].
    eapply r_tau; [eapply (s_unlock _ _ _ _ _ _ 2%nat); reflexivity|].
    eapply r_ev; [eapply (s_return _ _ _ _ _ _ _ 1%nat); reflexivity|].
    eapply r_ev; [eapply (s_return _ _ _ _ _ _ _ 2%nat); reflexivity|].
    apply r_nil.
  - intros t. cbn. unfold set. repeat (destruct (Nat.eqb t _); [reflexivity|]). reflexivity.
  - repeat constructor.
  - reflexivity.
  - reflexivity.
Qed.
Theorem C41_needs_lock : exists c, crun (fun _ => true) LStart (ls_step k0) (fresh (new_uncomp true 10)) two c /\
  (forall t, c_ts c t = Idle) /\ snd (k_info k0 (c_st c)) <> (snd (k_info k0 (new_uncomp true 10)) + ok_adds two)%Z.
Proof.
  eexists. split; [|split].
  - unfold two, fresh.
    eapply r_ev; [apply (s_call _ _ _ _ _ _ _ 1%nat); reflexivity|].
    eapply r_ev; [apply (s_call _ _ _ _ _ _ _ 2%nat); reflexivity|].
    eapply r_tau; [apply (s_rlock _ _ _ _ _ _ 1%nat); reflexivity|].
    eapply r_tau; [eapply (s_rlock _ _ _ _ _ _ 2%nat); reflexivity|].
    eapply r_tau; [eapply (s_body _ _ _ _ _ _ _ 1%nat); reflexivity|].
    eapply r_tau; [eapply (s_body _ _ _ _ _ _ _ 2%nat); reflexivity|].
    eapply r_tau; [eapply (s_runlock _ _ _ _ _ _ _ 1%nat); reflexivity|].
    eapply r_tau; [eapply (s_runlock _ _ _ _ _ _ _ 2%nat); reflexivity|].
    eapply r_ev; [eapply (s_return _ _ _ _ _ _ _ 1%nat); reflexivity|].
    eapply r_ev; [eapply (s_return _ _ _ _ _ _ _ 2%nat); reflexivity|].
    apply r_nil.
  - intros t. cbn. unfold set. repeat (destruct (Nat.eqb t _); [reflexivity|]). reflexivity.
  - vm_compute. discriminate.
Qed.

(* ------------------------------------------------------------------------- C42, C71 *)

Section C42.
Context {C D : Type}.
Variable k : collector C D.

(* what the buffered collector took, and what the collector inside was given *)
Definition accepted (es : list (bevent D)) : list D := flat_map (fun e => match e with BAddNil _ d => [d] | _ => [] end) es.
Definition delivered (es : list (bevent D)) : list D := flat_map (fun e => match e with BInner d => [d] | _ => [] end) es.
(* The events of one client are calls of Add each followed by its answer, which if nil is
   about the sample given.  The last argument is the call under way, if any. *)
Definition add_of (e : bevent D) : option tid :=
  match e with BAdd u _ | BAddNil u _ | BAddErr u | BAddPanic u => Some u | _ => None end.
Inductive in_order (t : tid) : list (bevent D) -> option D -> Prop :=
| io_nil : in_order t [] None
| io_add es d : in_order t es None -> in_order t (es ++ [BAdd t d]) (Some d)
| io_nil_answer es d : in_order t es (Some d) -> in_order t (es ++ [BAddNil t d]) None
| io_err es d : in_order t es (Some d) -> in_order t (es ++ [BAddErr t]) None
| io_panic es d : in_order t es (Some d) -> in_order t (es ++ [BAddPanic t]) None
| io_other es e now : add_of e <> Some t -> in_order t es now -> in_order t (es ++ [e]) now.

(* between the channel and the collector inside *)
Definition under_way (s : buffered C D) : list D :=
  match bf_consumer s with Adding d | DrainAdding d => [d] | _ => [] end.
Lemma accepted_app (a b : list (bevent D)) : accepted (a ++ b) = accepted a ++ accepted b.
Proof. apply flat_map_app. Qed.
Lemma delivered_app (a b : list (bevent D)) : delivered (a ++ b) = delivered a ++ delivered b.
Proof. apply flat_map_app. Qed.
Lemma in_snoc {A} (x y : A) l : In x (l ++ [y]) <-> In x l \/ x = y.
Proof. rewrite in_app_iff. cbn. intuition. Qed.

Lemma cap_inv n i es s : bsteps k (new_buffered n i) es s -> bf_cap s = n /\ (length (bf_pipe s) <= n)%nat.
Proof.
  intros R. remember (new_buffered n i) as s0 eqn:E0. induction R as [s|s es s1 e s2 R IH Nc H].
  - subst. cbn. split; [reflexivity|lia].
  - destruct (IH E0) as [I1 I2]. destruct H; cbn [bf_cap bf_pipe length] in *; split; auto; try lia. rewrite app_length. cbn. lia.
Qed.

Definition shape (s : buffered C D) : Prop :=
  match bf_consumer s with
  | Selecting | Adding _ => bf_closed s = false
  | Draining | DrainAdding _ => bf_closed s = true /\ bf_cancelled s = true
  | Returned => bf_closed s = true /\ bf_cancelled s = true /\ bf_pipe s = []
  | Crashed => bf_closed s = true -> bf_cancelled s = true
  end.
Lemma shape_inv n i es s : bsteps k (new_buffered n i) es s -> shape s.
Proof.
  intros R. remember (new_buffered n i) as s0 eqn:E0. induction R as [s|s es s1 e s2 R IH Nc H].
  - subst. reflexivity.
  - specialize (IH E0). unfold shape in *. destruct H; cbn [bf_consumer bf_closed bf_cancelled bf_pipe] in *; auto.
    all: try (destruct co; intuition congruence).
    + destruct p; auto.
    + tauto.
Qed.
Lemma cancel_inv n i es s : bsteps k (new_buffered n i) es s -> bf_cancelled s = true -> In BCancel es.
Proof.
  intros R. remember (new_buffered n i) as s0 eqn:E0. induction R as [s|s es s1 e s2 R IH Nc H].
  - subst. discriminate.
  - specialize (IH E0). intros E. apply in_snoc. destruct H; cbn [bf_cancelled] in *; auto.
Qed.

Lemma flow_inv n i es s : bsteps k (new_buffered n i) es s ->
  (bf_consumer s <> Crashed -> accepted es = delivered es ++ under_way s ++ bf_pipe s) /\
  exists rest, accepted es = delivered es ++ rest /\ (length rest <= S n)%nat.
Proof.
  intros R. 
  assert (F : forall es s, bsteps k (new_buffered n i) es s -> bf_consumer s <> Crashed -> accepted es = delivered es ++ under_way s ++ bf_pipe s).
  { clear. intros es s R. remember (new_buffered n i) as s0 eqn:E0. induction R as [s|s es s1 e s2 R IH Nc H]; [subst; reflexivity|].
    specialize (IH E0 Nc). intros Nc2. pose proof (shape_inv n i es s1 ltac:(now subst)) as Sh.
    rewrite accepted_app, delivered_app. unfold under_way, shape in *.
    destruct H; cbn [bf_consumer bf_pipe bf_closed accepted delivered flat_map app] in *; rewrite ?app_nil_r; rewrite IH; auto.
    all: try (destruct co; intuition congruence).
    all: try (rewrite <- ?app_assoc; reflexivity).
    - destruct (cap_inv _ _ _ _ ltac:(subst; exact R)) as [Ca Cl]. cbn in Ca, Cl. destruct p; [|cbn in Cl; lia].
      now rewrite <- app_assoc.
    - destruct p; reflexivity.
    - apply app_nil_r. }
  split; [now apply F|].
  destruct (cap_inv _ _ _ _ R) as [_ Hl]. 
  assert (NC : forall es s, bsteps k (new_buffered n i) es s -> bf_consumer s <> Crashed -> exists rest, accepted es = delivered es ++ rest /\ (length rest <= S n)%nat).
  { clear - F. intros es s R N. exists (under_way s ++ bf_pipe s). split; [now apply F|]. destruct (cap_inv _ _ _ _ R) as [_ Hl].
    rewrite app_length. unfold under_way. destruct (bf_consumer s); cbn; lia. }
  inversion R as [s0|s0 es1 s1 e s2 R1 N1 H]; subst; [exists []; split; [reflexivity|cbn; lia]|].
  destruct (bf_consumer s) eqn:Ec; try (apply (NC (es1 ++ [e]) s R); congruence).
  destruct (NC _ _ R1 N1) as (rest & E & L). exists rest. split; [|exact L].
  rewrite accepted_app, delivered_app. destruct H; cbn [bf_consumer] in *; subst; try discriminate; try congruence;
    cbn [accepted delivered flat_map app]; rewrite ?app_nil_r; auto.
Qed.

Lemma client_inv n i es s t : bsteps k (new_buffered n i) es s ->
  in_order t es (match bf_clients s t with CAdding d => Some d | _ => None end).
Proof.
  intros R. remember (new_buffered n i) as s0 eqn:E0. induction R as [s|s es s1 e s2 R IH Nc H]; [subst; constructor|].
  specialize (IH E0).
  destruct H; cbn [bf_clients] in *; try (apply io_other; [discriminate|exact IH]);
    unfold bset; rewrite (Nat.eqb_sym t); destruct (Nat.eqb_spec t0 t) as [<-|N]; try (apply io_other; [cbn; congruence|exact IH]);
    rewrite H in IH; try (econstructor; exact IH); apply io_other; (discriminate || exact IH).
Qed.

(* Samples accepted reach the collector inside once each and in the order of acceptance,
   with at most size+1 on their way; when the goroutine has returned all of them have; each
   client's samples are accepted in the order of its calls; and before the context ends no
   Add fails or panics.  (After it an Add may panic: C42_refuted.) *)
Theorem C42_buffered_partial n i es s : bsteps k (new_buffered n i) es s ->
  (exists rest, accepted es = delivered es ++ rest /\ (length rest <= S n)%nat) /\
  (bf_consumer s = Returned -> accepted es = delivered es) /\
  (forall t, exists now, in_order t es now) /\
  (forall t, In (BAddErr t) es \/ In (BAddPanic t) es -> In BCancel es).
Proof.
  intros R. destruct (flow_inv _ _ _ _ R) as [F P]. split; [exact P|]. split; [|split].
  - intros E. pose proof (shape_inv _ _ _ _ R) as Sh. unfold shape in Sh. rewrite E in Sh. destruct Sh as (_ & _ & Ep).
    rewrite F by congruence. unfold under_way. rewrite E, Ep. apply app_nil_r.
  - intros t. eexists. exact (client_inv _ _ _ _ t R).
  - intros t. clear F P. remember (new_buffered n i) as s0 eqn:E0. induction R as [s|s es s1 e s2 R IH Nc H]; [intros [[]|[]]|].
    specialize (IH E0). intros Q. rewrite !in_snoc in *. destruct Q as [[Q|Q]|[Q|Q]]; auto; subst.
    + left. inversion H; subst. eapply cancel_inv; [exact R|reflexivity].
    + left. inversion H; subst. eapply cancel_inv; [exact R|]. pose proof (shape_inv _ _ _ _ R) as Sh. unfold shape in Sh. cbn in Sh.
      destruct co; try tauto; discriminate.
Qed.

(* And the goroutine can always go on until everything accepted is delivered, when Add of
   the collector inside does not panic. *)
Theorem C42_drains n i es s : (forall c d, exists c' e, k_add k c d = (c', Base.Ret e)) ->
  bsteps k (new_buffered n i) es s -> exists es' s',
    bsteps k (new_buffered n i) (es ++ es') s' /\
    Forall (fun e => match e with BTau | BInner _ => True | _ => False end) es' /\
    accepted (es ++ es') = accepted es /\ delivered (es ++ es') = accepted es.
Proof.
  intros T. 
  assert (NoCr : forall es s, bsteps k (new_buffered n i) es s -> bf_consumer s <> Crashed).
  { intros e0 s0 R. remember (new_buffered n i) as s1 eqn:E0. induction R as [s1|s1 es1 s2 e s3 R IH Nc H]; [subst; discriminate|].
    destruct H; cbn in *; try discriminate; try exact (IH E0); auto.
    - destruct (T i0 d) as (c' & e & Q). congruence.
    - destruct p; discriminate. }
  intros R. remember (length (under_way s) + 2 * length (bf_pipe s))%nat as m eqn:Em.
  assert (G : forall m es s, (length (under_way s) + 2 * length (bf_pipe s) <= m)%nat -> bsteps k (new_buffered n i) es s ->
    exists es' s', bsteps k (new_buffered n i) (es ++ es') s' /\ Forall (fun e => match e with BTau | BInner _ => True | _ => False end) es' /\
      accepted (es ++ es') = accepted es /\ under_way s' = [] /\ bf_pipe s' = []).
  { clear es s R m Em. induction m as [|m IH]; intros es s Lm R.
    - exists [], s. rewrite app_nil_r. split; [exact R|]. split; [constructor|]. split; [reflexivity|].
      destruct (under_way s), (bf_pipe s); cbn in Lm; try lia. auto.
    - pose proof (NoCr _ _ R) as Nc. pose proof (shape_inv _ _ _ _ R) as Sh.
      assert (Go : (exists e s1, bstep k s e s1 /\ match e with BTau | BInner _ => True | _ => False end /\
           (length (under_way s1) + 2 * length (bf_pipe s1) <= m)%nat) \/ under_way s = [] /\ bf_pipe s = []).
      { destruct s as [cap p cl ca co inn errs pa f]. unfold under_way, shape in *. cbn [bf_consumer bf_pipe bf_closed bf_cancelled] in *.
        destruct co as [|d| |d| |]; try congruence.
        - destruct p as [|d p]; [now right|]. left. eexists BTau, _. split; [apply bs_recv|]. split; [exact I|]. cbn in *. lia.
        - left. destruct (T inn d) as (c' & e & Q). eexists (BInner d), _. split; [apply bs_added; exact Q|]. split; [exact I|]. cbn in *. lia.
        - destruct p as [|d p]; [now right|]. left. eexists BTau, _. split; [apply bs_range|]. split; [exact I|]. cbn in *. lia.
        - left. destruct (T inn d) as (c' & e & Q). eexists (BInner d), _. split; [apply bs_drained; exact Q|]. split; [exact I|]. cbn in *. lia.
        - right. tauto. }
      destruct Go as [(e & s1 & St & Ke & Lm1)|[Q1 Q2]].
      + destruct (IH (es ++ [e]) s1 Lm1 ltac:(econstructor; eauto)) as (es' & s' & R' & F' & A' & U').
        exists (e :: es'), s'. rewrite <- app_assoc in R', A'. split; [exact R'|]. split; [now constructor|]. split; [|exact U'].
        cbn [app] in A'. rewrite A', accepted_app. destruct e; try contradiction; cbn; apply app_nil_r.
      + exists [], s. rewrite app_nil_r. auto. }
  destruct (G m es s ltac:(lia) R) as (es' & s' & R' & F' & A' & U1 & U2). exists es', s'. split; [exact R'|]. split; [exact F'|]. split; [exact A'|].
  destruct (flow_inv _ _ _ _ R') as [F _]. specialize (F (NoCr _ _ R')). rewrite U1, U2 in F. cbn in F. rewrite app_nil_r in F. congruence.
Qed.

(* Every buffered collector can panic in Add once its context has ended, and lets Resolve
   run while the goroutine is in Add of the collector inside, without samples whose Add
   has returned nil. *)
Theorem C42_refuted n i t (d : D) : exists es s, bsteps k (new_buffered n i) es s /\ In (BAddPanic t) es.
Proof.
  eexists ([] ++ [BCancel] ++ [BTau] ++ [BAdd t d] ++ [BAddPanic t]), _. split.
  - rewrite !app_assoc. unfold new_buffered.
    eapply bn_snoc; [eapply bn_snoc; [eapply bn_snoc; [eapply bn_snoc; [apply bn_nil| |]| |]| |]| |].
    2: apply bs_cancel. 3: apply bs_close. 4: apply bs_add; reflexivity. 5: eapply bs_panic; unfold bset; now rewrite Nat.eqb_refl.
    all: cbn; discriminate.
  - cbn. tauto.
Qed.
Theorem C71_refuted n i t u d : t <> u -> k_resolve k i = (i, snd (k_resolve k i)) -> exists es s,
  bsteps k (new_buffered (S n) i) es s /\
  accepted es = [d] /\ In (BResolved u (snd (k_resolve k i))) es /\
  bf_consumer s = Adding d /\ bf_clients s u = CResolving.
Proof.
  intros N E.
  eexists ([] ++ [BAdd t d] ++ [BAddNil t d] ++ [BResolve u] ++ [BResolved u (snd (k_resolve k i))] ++ [BTau] ++ [BResolve u]), _. split.
  - rewrite !app_assoc. unfold new_buffered.
    eapply bn_snoc; [eapply bn_snoc; [eapply bn_snoc; [eapply bn_snoc; [eapply bn_snoc; [eapply bn_snoc; [apply bn_nil| |]| |]| |]| |]| |]| |].
    2: apply bs_add; reflexivity. 3: apply bs_send; [unfold bset; now rewrite Nat.eqb_refl|cbn; lia].
    4: apply bs_resolve; unfold bset; destruct (Nat.eqb u t); reflexivity.
    5: eapply bs_resolved; [unfold bset; now rewrite Nat.eqb_refl|exact E].
    6: apply bs_recv. 7: apply bs_resolve; unfold bset; now rewrite Nat.eqb_refl.
    all: cbn; discriminate.
  - split; [reflexivity|]. split; [cbn; tauto|]. split; [reflexivity|]. cbn. unfold bset. now rewrite Nat.eqb_refl.
Qed.
End C42.
Print Assumptions C41_synchronized.
Print Assumptions C41_no_lost_samples.
Print Assumptions C41_collectors.
Print Assumptions C41_needs_lock.
Print Assumptions C42_buffered_partial.
Print Assumptions C42_drains.
Print Assumptions C42_refuted.
Print Assumptions C71_refuted.

(* a case: a full channel, two clients, one sample taken and one refused on cancellation,
   with the sample in the channel delivered after the end of the context *)
Example C42_nonvacuous {C D} (k : collector C D) i (a b : D) i1 i2 : k_add k i a = (i1, Base.Ret None) -> k_add k i1 b = (i2, Base.Ret None) ->
  exists es s, bsteps k (new_buffered 1 i) es s /\ accepted es = [a; b] /\ delivered es = [a; b] /\
    In BCancel es /\ In (BAddErr 3%nat) es /\ bf_consumer s = Returned /\ bf_inner s = i2.
Proof.
  intros E1 E2.
  eexists ([] ++ [BAdd 1%nat a] ++ [BAddNil 1%nat a] ++ [BTau] ++ [BAdd 2%nat b] ++ [BAddNil 2%nat b] ++ [BAdd 3%nat a] ++ [BInner a] ++
    [BCancel] ++ [BTau] ++ [BTau] ++ [BAddErr 3%nat] ++ [BInner b] ++ [BTau]), _. split.
  - rewrite !app_assoc. unfold new_buffered.
    eapply bn_snoc; [eapply bn_snoc; [eapply bn_snoc; [eapply bn_snoc; [eapply bn_snoc; [eapply bn_snoc; [eapply bn_snoc; [eapply bn_snoc; [
      eapply bn_snoc; [eapply bn_snoc; [eapply bn_snoc; [eapply bn_snoc; [eapply bn_snoc; [apply bn_nil| |]| |]| |]| |]| |]| |]| |]| |]| |]| |]| |]| |]| |].
    2: apply bs_add; reflexivity.
    3: apply bs_send; [reflexivity|cbn; lia].
    4: apply bs_recv.
    5: apply bs_add; reflexivity.
    6: apply bs_send; [reflexivity|cbn; lia].
    7: apply bs_add; reflexivity.
    8: eapply bs_added; exact E1.
    9: apply bs_cancel.
    10: apply bs_close.
    11: apply bs_range.
    12: eapply bs_done; reflexivity.
    13: eapply bs_drained; exact E2.
    14: apply bs_end.
    all: cbn; discriminate.
  - cbn. repeat split; tauto.
Qed.
