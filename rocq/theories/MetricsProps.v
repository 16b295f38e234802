(* Properties of the generation of metrics: C46. *)
Require Import ZArith List Bool Lia ZifyBool ZifyNat Permutation String.
From Verif Require Import Base BSpec Elements Value Codec CodecRead CodecRep Api ApiProofs Tree Search EventsProps Events Metrics.
Import List ListNotations.
Open Scope Z_scope.

(* ------------------------------------------------------------------- one after the other *)

(* collectors that give the documents with the fields fss *)
Inductive gives : list collector -> list (bytes * list (bytes * bval)) -> Prop :=
| gv_nil : gives [] []
| gv_cons k d fs cs fss : build_doc fs = Ret d -> gives cs fss -> gives (MkColl k (Some d) :: cs) ((k, fs) :: fss).
Definition sub (x : bytes * list (bytes * bval)) : bytes * bval := (fst x, BDoc (snd x)).

Lemma build_doc_app a b : build_doc (a ++ b) = (x <- build_doc a ;; y <- build_doc b ;; Ret (x ++ y)).
Proof.
  induction a as [|[k v] a IH]; cbn [app build_doc bind].
  - destruct (build_doc b); reflexivity.
  - destruct (build k v); cbn [bind]; try reflexivity. rewrite IH. destruct (build_doc a); cbn [bind]; try reflexivity.
    destruct (build_doc b); reflexivity.
Qed.
(* C46.  Without RunParallelCollectors the sample has the document of the runtime and then
   that of every collector, once and in order. *)
Theorem C46_sequential p docb rt cs fss : build_doc rt = Ret docb -> gives cs fss -> cs <> [] ->
  generate_sequential p docb cs = build_doc ((str "runtime"%string, BDoc rt) :: map sub fss).
Proof.
  intros B G N.
  assert (R : forall doc fs0, build_doc fs0 = Ret doc -> run_all p cs doc = build_doc (fs0 ++ map sub fss)).
  { clear N B. induction G as [|k d fs cs fss Bd G IH]; intros doc fs0 B0; cbn [run_all map].
    - now rewrite app_nil_r, B0.
    - cbn [co_op co_name]. destruct (ec_subdocument k d) as [e|q|] eqn:E; cbn [bind].
      + rewrite (IH _ (fs0 ++ [sub (k, fs)])); [now rewrite <- app_assoc|]. rewrite build_doc_app, B0. cbn [bind build_doc sub fst snd].
        rewrite build_BDoc, Bd. cbn [bind]. rewrite E. reflexivity.
      + rewrite build_doc_app, B0. cbn [bind build_doc sub fst snd]. rewrite build_BDoc, Bd. cbn [bind]. now rewrite E.
      + rewrite build_doc_app, B0. cbn [bind build_doc sub fst snd]. rewrite build_BDoc, Bd. cbn [bind]. now rewrite E. }
  destruct cs as [|c cs]; [easy|]. unfold generate_sequential. destruct (ec_subdocument (str "runtime"%string) docb) as [e|q|] eqn:E; cbn [bind].
  - rewrite (R _ [(str "runtime"%string, BDoc rt)]); [reflexivity|]. cbn [build_doc]. rewrite build_BDoc, B. cbn [bind]. now rewrite E.
  - cbn [build_doc]. rewrite build_BDoc, B. cbn [bind]. now rewrite E.
  - cbn [build_doc]. rewrite build_BDoc, B. cbn [bind]. now rewrite E.
Qed.
Print Assumptions C46_sequential.

(* ----------------------------------------------------------------------------- in parallel *)

(* C46.  With RunParallelCollectors and at least one collector it never returns, whatever the
   schedule, the number of processors and the collectors: nobody closes the channel. *)
Theorem C46_refuted cs rt num s doc : gsteps cs rt (new_generate cs num) s -> gs_main s <> GReturned doc.
Proof.
  intros H. assert (G : gs_closed s = false /\ forall d, gs_main s <> GReturned d); [|now apply G].
  remember (new_generate cs num) as s0 eqn:E. revert E.
  induction H as [s|s s1 s2 H IH S]; intros E; [now subst|]. destruct (IH E) as [I1 I2]. destruct S; cbn in *; split; auto; try congruence.
Qed.
Print Assumptions C46_refuted.

Definition weight (w : gworker) : nat := match w with GNext => 1 | GWork _ => 4 | GSend _ => 3 | GGone => 0 end.
Definition weights (ws : list gworker) : nat := list_sum (map weight ws).
Definition measure (s : gstate) : nat :=
  5 * length (gs_queue s) + weights (gs_workers s) + length (gs_elems s) + match gs_main s with GWait => 2 | GRange _ => 1 | GReturned _ => 0 end.
Lemma weights_set ws i w w' : nth_error ws i = Some w ->
  (weights (firstn i ws ++ w' :: skipn (S i) ws) + weight w = weights ws + weight w')%nat.
Proof.
  intros H. destruct (nth_error_split ws i H) as (a & b & -> & <-). rewrite firstn_app, firstn_all, Nat.sub_diag, firstn_O, app_nil_r.
  replace (skipn (S (length a)) (a ++ w :: b)) with b by (clear; induction a; auto). unfold weights. rewrite !map_app, !list_sum_app. cbn [map]. unfold list_sum. cbn [fold_right]. lia.
Qed.
(* C46.  Every schedule comes to an end. *)
Theorem C46_ends cs rt s s' : gstep cs rt s s' -> (measure s' < measure s)%nat.
Proof.
  intros S. unfold measure. destruct S; cbn [gs_queue gs_workers gs_elems gs_main].
  - pose proof (weights_set _ _ _ (GWork c) H). rewrite H0. cbn in *. lia.
  - pose proof (weights_set _ _ _ GGone H). rewrite H0. cbn in *. lia.
  - pose proof (weights_set _ _ _ (GSend e) H). cbn in *. lia.
  - pose proof (weights_set _ _ _ GGone H). cbn in *. lia.
  - pose proof (weights_set _ _ _ GNext H). rewrite app_length. cbn in *. lia.
  - rewrite H. lia.
  - rewrite H, H0. cbn. lia.
  - rewrite H, H0. cbn. lia.
Qed.
Print Assumptions C46_ends.

(* The elements of the collectors. *)
Definition element (c : collector) (e : value) : Prop := exists d, co_op c = Some d /\ ec_subdocument (co_name c) d = Ret e.
Definition at_work (w : gworker) : list collector := match w with GWork c => [c] | _ => [] end.
Definition to_send (w : gworker) : list value := match w with GSend e => [e] | _ => [] end.
Definition received (m : gmain) : list value :=
  match m with GWait => [] | GRange doc | GReturned doc => flat_map (fun e => match e with Some e => [e] | None => [] end) (tl doc) end.
Definition count_gone (ws : list gworker) : nat := length (filter is_gone ws).
(* Running the collector panics. *)
Definition fails (c : collector) : Prop :=
  co_op c = None \/ exists d p, co_op c = Some d /\ ec_subdocument (co_name c) d = Panic p.
(* where the collectors are and what they gave *)
Record accounted (cs : list collector) (rt : value) (s : gstate) : Prop := MkAcc {
  ac_all : exists panicked finished es, Permutation cs (gs_queue s ++ flat_map at_work (gs_workers s) ++ panicked ++ finished) /\
    Forall fails panicked /\ length panicked = gs_panics s /\ (gs_queue s <> [] -> (count_gone (gs_workers s) <= gs_panics s)%nat) /\
    Forall2 element finished es /\ Permutation es (flat_map to_send (gs_workers s) ++ gs_elems s ++ received (gs_main s));
  ac_main : match gs_main s with
            | GWait => True
            | GRange doc | GReturned doc => forallb is_gone (gs_workers s) = true /\ exists r, doc = Some rt :: map Some r
            end }.
Lemma set_worker (ws : list gworker) i w w' : nth_error ws i = Some w -> exists a b, ws = a ++ w :: b /\ firstn i ws ++ w' :: skipn (S i) ws = a ++ w' :: b.
Proof.
  intros H. destruct (nth_error_split ws i H) as (a & b & -> & <-). exists a, b. split; [reflexivity|].
  rewrite firstn_app, firstn_all, Nat.sub_diag, firstn_O, app_nil_r. do 2 f_equal. clear. induction a; auto.
Qed.
Lemma not_all_gone ws i w : nth_error ws i = Some w -> is_gone w = false -> forallb is_gone ws = false.
Proof.
  intros H G. apply nth_error_In in H. destruct (forallb is_gone ws) eqn:E; [|reflexivity]. rewrite forallb_forall in E. rewrite (E _ H) in G. discriminate.
Qed.
Lemma received_map rt r : received (GRange (Some rt :: map Some r)) = r.
Proof. cbn. induction r; cbn; congruence. Qed.
Lemma forall2_perm {A B} (R : A -> B -> Prop) l l' : Permutation l l' -> forall m, Forall2 R l m -> exists m', Permutation m m' /\ Forall2 R l' m'.
Proof.
  induction 1 as [|x l l' P IH|x y l|l l1 l2 P1 IH1 P2 IH2]; intros m F.
  - exists m. inversion F; subst. auto.
  - inversion F as [|? b ? m0 Rx F0]; subst. destruct (IH _ F0) as (m' & Q & F'). exists (b :: m'). auto.
  - inversion F as [|? b ? m0 Rx F0]; subst. inversion F0 as [|? b' ? m1 Ry F1]; subst. exists (b' :: b :: m1). split; [constructor|auto].
  - destruct (IH1 _ F) as (m1 & Q1 & F1). destruct (IH2 _ F1) as (m2 & Q2 & F2). exists m2. split; [now transitivity m1|exact F2].
Qed.
Lemma Forall2_len {A B} (R : A -> B -> Prop) l m : Forall2 R l m -> length l = length m.
Proof. induction 1; cbn; congruence. Qed.
Lemma count_gone_mid a w b : count_gone (a ++ w :: b) = (count_gone a + (if is_gone w then 1 else 0) + count_gone b)%nat.
Proof. unfold count_gone. rewrite filter_app, app_length. cbn [filter]. destruct (is_gone w); cbn [length]; lia. Qed.
Lemma accounted_step cs rt s s' : accounted cs rt s -> gstep cs rt s s' -> accounted cs rt s'.
Proof.
  intros [(pk & fin & es & P & Pp & Lp & G & F & Q) M] S. destruct S as [s i c q W E|s i W E|s i c d e W O E|s i c W O|s i e W L|s Hm A|s doc e r Hm E|s doc Hm E C];
    cbn [gs_queue gs_elems gs_workers gs_main gs_panics] in *.
  - destruct (set_worker _ _ _ (GWork c) W) as (a & b & Ew & ->). rewrite Ew in *. rewrite E in *. split; cbn [gs_queue gs_elems gs_workers gs_main gs_panics].
    + exists pk, fin, es. rewrite count_gone_mid in *. rewrite !flat_map_app in *. cbn [flat_map at_work to_send app is_gone] in *. split; [|].
      * rewrite P. rewrite <- !app_assoc. cbn [app]. rewrite !app_assoc. rewrite <- !(app_assoc (q ++ flat_map at_work a)). apply Permutation_middle.
      * split; [exact Pp|]. split; [exact Lp|]. split; [intros _; apply G; discriminate|auto].
    + destruct (gs_main s); auto; destruct M as [M _]; rewrite forallb_app in M; cbn in M; destruct (forallb is_gone a); discriminate.
  - destruct (set_worker _ _ _ GGone W) as (a & b & Ew & ->). rewrite Ew in *. rewrite E in *. split; cbn [gs_queue gs_elems gs_workers gs_main gs_panics].
    + exists pk, fin, es. rewrite !flat_map_app in *. cbn [flat_map at_work to_send app] in *. repeat (split; [now (auto || congruence)|]). auto.
    + destruct (gs_main s); auto; destruct M as [M _]; rewrite forallb_app in M; cbn in M; destruct (forallb is_gone a); discriminate.
  - destruct (set_worker _ _ _ (GSend e) W) as (a & b & Ew & ->). rewrite Ew in *. split; cbn [gs_queue gs_elems gs_workers gs_main gs_panics].
    + exists pk, (c :: fin), (e :: es). rewrite count_gone_mid in *. rewrite !flat_map_app in *. cbn [flat_map at_work to_send app is_gone] in *. split; [|].
      * rewrite P. apply Permutation_app_head. rewrite <- !app_assoc. apply Permutation_app_head. cbn [app].
        rewrite !(app_assoc (flat_map at_work b)). apply Permutation_middle.
      * split; [exact Pp|]. split; [exact Lp|]. split; [exact G|]. split; [constructor; [exists d; auto|exact F]|]. rewrite Q. rewrite <- !app_assoc. cbn [app]. apply Permutation_middle.
    + destruct (gs_main s); auto; destruct M as [M _]; rewrite forallb_app in M; cbn in M; destruct (forallb is_gone a); discriminate.
  - destruct (set_worker _ _ _ GGone W) as (a & b & Ew & ->). rewrite Ew in *. split; cbn [gs_queue gs_elems gs_workers gs_main gs_panics].
    + exists (c :: pk), fin, es. rewrite count_gone_mid in *. rewrite !flat_map_app in *. cbn [flat_map at_work to_send app is_gone length] in *. split; [|].
      * rewrite P. apply Permutation_app_head. rewrite <- !app_assoc. apply Permutation_app_head. cbn [app]. apply Permutation_middle.
      * split; [constructor; [exact O|exact Pp]|]. split; [lia|]. split; [intros X; specialize (G X); lia|]. auto.
    + destruct (gs_main s); auto; destruct M as [M _]; rewrite forallb_app in M; cbn in M; destruct (forallb is_gone a); discriminate.
  - destruct (set_worker _ _ _ GNext W) as (a & b & Ew & ->). rewrite Ew in *. split; cbn [gs_queue gs_elems gs_workers gs_main gs_panics].
    + exists pk, fin, es. rewrite count_gone_mid in *. rewrite !flat_map_app in *. cbn [flat_map at_work to_send app is_gone] in *. repeat (split; [now auto|]).
      rewrite Q. rewrite <- !app_assoc. apply Permutation_app_head. cbn [app].
      rewrite !(app_assoc (flat_map to_send b)). apply Permutation_middle.
    + destruct (gs_main s); auto; destruct M as [M _]; rewrite forallb_app in M; cbn in M; destruct (forallb is_gone a); discriminate.
  - split; cbn [gs_queue gs_elems gs_workers gs_main gs_panics]; auto.
    + exists pk, fin, es. rewrite Hm in Q. auto 10.
    + split; [exact A|]. exists []. reflexivity.
  - rewrite Hm in M. destruct M as [M [r' ->]]. rewrite Hm, received_map, E in Q. split; cbn [gs_queue gs_elems gs_workers gs_main gs_panics]; auto.
    + exists pk, fin, es. repeat (split; [now auto|]). change (Some rt :: map Some r') with (map Some (rt :: r')). 
      replace (map Some (rt :: r') ++ [Some e]) with (Some rt :: map Some (r' ++ [e])) by (rewrite map_app; reflexivity).
      rewrite received_map, Q. apply Permutation_app_head. cbn [app]. rewrite app_assoc. apply Permutation_cons_append.
    + split; [exact M|]. exists (r' ++ [e]). rewrite map_app. reflexivity.
  - rewrite Hm in M. destruct M as [M [r' ->]]. split; cbn [gs_queue gs_elems gs_workers gs_main gs_panics]; auto.
    + exists pk, fin, es. rewrite Hm, E in Q. auto 10.
    + split; [exact M|]. exists r'. reflexivity.
Qed.

(* C46, in parallel, whatever the collectors do: when a schedule has come to its end, the main
   thread waits for ever with a document that has the element of every collector that was
   run and did not panic, exactly once.  Every panic is reported once, and costs a worker:
   if there are as many panics as workers, collectors may not have been run.  Missing: that
   it returns. *)
Theorem C46_panics_partial cs rt num s : (1 <= num)%nat -> cs <> [] -> Forall (fun c => (exists e, element c e) \/ fails c) cs ->
  gsteps cs rt (new_generate cs num) s -> (forall s', ~ gstep cs rt s s') ->
  exists finished panicked unrun es r, Permutation cs (finished ++ panicked ++ unrun) /\ Forall2 element finished es /\ Permutation es r /\
    gs_main s = GRange (Some rt :: map Some r) /\ Forall fails panicked /\ gs_panics s = length panicked /\
    (unrun <> [] -> length panicked = Nat.min num (length cs)).
Proof.
  intros N NE Ok H Stop.
  assert (A0 : accounted cs rt (new_generate cs num) /\ gs_workers (new_generate cs num) <> []).
  { split; [split|].
    - exists [], [], []. unfold new_generate. cbn [gs_queue gs_workers gs_elems gs_panics gs_main received length].
      assert (X : forall n, flat_map at_work (repeat GNext n) = [] /\ flat_map to_send (repeat GNext n) = [] /\ count_gone (repeat GNext n) = O)
        by (induction n as [|n (? & ? & ?)]; cbn; auto).
      destruct (X (Nat.min num (length cs))) as (-> & -> & ->). rewrite !app_nil_r. auto 10.
    - exact I.
    - destruct cs as [|c cs]; [easy|]. cbn. destruct num; [lia|]. cbn. discriminate. }
  destruct A0 as [A0 W0].
  assert (A : accounted cs rt s /\ length (gs_workers s) = length (gs_workers (new_generate cs num)) /\ (gs_panics s <= count_gone (gs_workers s))%nat).
  { assert (P0 : gs_panics (new_generate cs num) = O) by reflexivity.
    clear W0 Stop. remember (new_generate cs num) as s0 eqn:E0. clear E0. induction H as [s|s s1 s2 H IH St]; [split; [exact A0|]; split; [reflexivity|]; lia|]. destruct (IH A0 P0) as (I1 & I2 & I3).
    split; [eapply accounted_step; eauto|]. rewrite <- I2.
    assert (X : forall w' i w, nth_error (gs_workers s1) i = Some w ->
      length (firstn i (gs_workers s1) ++ w' :: skipn (S i) (gs_workers s1)) = length (gs_workers s1) /\
      (count_gone (firstn i (gs_workers s1) ++ w' :: skipn (S i) (gs_workers s1)) + (if is_gone w then 1 else 0) = count_gone (gs_workers s1) + (if is_gone w' then 1 else 0))%nat).
    { intros w' i w W. destruct (set_worker _ _ _ w' W) as (a & b & Ew & ->). rewrite Ew, !count_gone_mid, !app_length. cbn [length]. lia. }
    destruct St as [? i c q W E|? i W E|? i c d e W O E|? i c W O|? i e W L|? Hm A|? doc e r Hm E|? doc Hm E C]; cbn [gs_workers gs_panics]; auto.
    - destruct (X (GWork c) _ _ W) as [X1 X2]. cbn [is_gone] in X2. lia.
    - destruct (X GGone _ _ W) as [X1 X2]. cbn [is_gone] in X2. lia.
    - destruct (X (GSend e) _ _ W) as [X1 X2]. cbn [is_gone] in X2. lia.
    - destruct (X GGone _ _ W) as [X1 X2]. cbn [is_gone] in X2. lia.
    - destruct (X GNext _ _ W) as [X1 X2]. cbn [is_gone] in X2. lia. }
  destruct A as ([(pk & fin & es & P & Pp & Lp & G & F & Q) M] & LW & LG).
  assert (AllGone : forall i w, nth_error (gs_workers s) i = Some w -> w = GGone).
  { intros i w W. destruct w as [|c|e|]; [| | |reflexivity]; exfalso.
    - destruct (gs_queue s) as [|c q] eqn:E; [exact (Stop _ (gs_end cs rt s i W E))|exact (Stop _ (gs_take cs rt s i c q W E))].
    - assert (I : In c cs).
      { destruct (set_worker _ _ _ GGone W) as (a & b & Ew & _).
        apply (Permutation_in c (Permutation_sym P)). rewrite Ew, flat_map_app. cbn [flat_map at_work]. rewrite !in_app_iff. cbn. tauto. }
      rewrite Forall_forall in Ok. destruct (Ok c I) as [(e & d & E1 & E2)|Fc].
      + exact (Stop _ (gs_work cs rt s i c d e W E1 E2)).
      + exact (Stop _ (gs_panic cs rt s i c W Fc)).
    - assert (L : (length (gs_elems s) < length cs)%nat).
      { apply Permutation_length in P. apply Permutation_length in Q. apply Forall2_len in F. destruct (set_worker _ _ _ GGone W) as (a & b & Ew & _).
        rewrite Ew, flat_map_app in Q. cbn [flat_map to_send app] in Q. rewrite !app_length in *. cbn [length] in Q. lia. }
      exact (Stop _ (gs_send cs rt s i e W L)). }
  assert (Gone : forallb is_gone (gs_workers s) = true).
  { apply forallb_forall. intros w I. apply In_nth_error in I as [i W]. now rewrite (AllGone _ _ W). }
  assert (Cg : count_gone (gs_workers s) = length (gs_workers s)).
  { clear -Gone. unfold count_gone. induction (gs_workers s) as [|w ws IH]; [reflexivity|]. cbn in *. apply andb_prop in Gone as [G1 G2]. rewrite G1. cbn. now rewrite IH. }
  assert (Idle : flat_map at_work (gs_workers s) = [] /\ flat_map to_send (gs_workers s) = []).
  { clear - Gone. induction (gs_workers s) as [|w ws IH]; [auto|]. cbn in Gone. apply andb_prop in Gone as [G1 G2]. destruct (IH G2) as [I1 I2].
    destruct w; try discriminate. cbn. auto. }
  destruct Idle as [I1 I2]. rewrite I1 in P. rewrite I2 in Q. cbn [app] in *.
  destruct (gs_main s) as [|doc|doc] eqn:Em.
  - exfalso. exact (Stop _ (gs_wait cs rt s Em Gone)).
  - destruct M as [_ [r ->]]. destruct (gs_elems s) as [|e es'] eqn:Ee; [|exfalso; exact (Stop _ (gs_receive cs rt s _ e es' Em Ee))].
    rewrite received_map in Q. cbn [app] in Q. exists fin, pk, (gs_queue s), es, r. split.
    { rewrite P. rewrite Permutation_app_comm, <- app_assoc, Permutation_app_comm, <- app_assoc. apply Permutation_app_head, Permutation_app_comm. }
    repeat (split; [now auto|]). intros Un. specialize (G Un). cbn [new_generate gs_workers] in LW. rewrite repeat_length in LW. lia.
  - exfalso. exact (C46_refuted _ _ _ _ doc H Em).
Qed.
Print Assumptions C46_panics_partial.
(* With as many panics as workers, collectors that do not panic are left out: here one
   worker, one collector that panics and any number after it. *)
Theorem C46_panic_refuted : forall c rest rt, fails c -> exists s,
  gsteps (c :: rest) rt (new_generate (c :: rest) 1) s /\ (forall s', ~ gstep (c :: rest) rt s s') /\
  gs_main s = GRange [Some rt] /\ gs_queue s = rest.
Proof.
  intros c rest rt Fc. exists (MkG rest [] false [GGone] 1 (GRange [Some rt])). split; [|split; [|split; reflexivity]].
  - eapply gs_more; [eapply gs_more; [eapply gs_more; [apply gs_refl|]|]|].
    + exact (gs_take (c :: rest) rt (new_generate (c :: rest) 1) 0 c rest eq_refl eq_refl).
    + exact (gs_panic (c :: rest) rt (MkG rest [] false [GWork c] 0 GWait) 0 c eq_refl Fc).
    + exact (gs_wait (c :: rest) rt (MkG rest [] false [GGone] 1 GWait) eq_refl eq_refl).
  - intros s' S. inversion S as [? i c' q W E|? i W E|? i c' d e W O E|? i c' W O|? i e W L|? Hm A|? doc e r Hm E|? doc Hm E C];
      subst; cbn in *; try discriminate; destruct i as [|[|i]]; discriminate.
Qed.
Print Assumptions C46_panic_refuted.
(* When none panics, all are there. *)
Theorem C46_partial cs rt num s : (1 <= num)%nat -> cs <> [] -> Forall (fun c => exists e, element c e) cs ->
  gsteps cs rt (new_generate cs num) s -> (forall s', ~ gstep cs rt s s') ->
  exists es r, Forall2 element cs es /\ Permutation es r /\ gs_main s = GRange (Some rt :: map Some r).
Proof.
  intros N NE Ok H Stop.
  destruct (C46_panics_partial cs rt num s N NE) as (fin & pk & un & es & r & P & F & Q & Em & Fp & _ & U); auto.
  { eapply Forall_impl; [|exact Ok]. auto. }
  assert (pk = []) as ->.
  { destruct pk as [|c pk]; [reflexivity|]. exfalso. inversion_clear Fp as [|? ? Fc _]. rewrite Forall_forall in Ok.
    assert (I : In c cs) by (apply (Permutation_in c (Permutation_sym P)); rewrite !in_app_iff; cbn; auto).
    destruct (Ok c I) as (e & d & E1 & E2). destruct Fc as [O|(d' & p & O1 & O2)]; congruence. }
  assert (un = []) as ->.
  { destruct un as [|c un]; [reflexivity|]. exfalso. specialize (U ltac:(discriminate)). destruct cs; [easy|]. cbn in U. destruct num; [lia|discriminate]. }
  cbn [app] in P. rewrite app_nil_r in P.
  destruct (forall2_perm _ _ _ (Permutation_sym P) _ F) as (es2 & P2 & F2). exists es2, r. split; [exact F2|]. split; [|exact Em].
  rewrite <- P2. exact Q.
Qed.
Print Assumptions C46_partial.
Example C46_nonvacuous : exists cs rt s, gives cs [([97], [([98], BInt32 1)])] /\ Forall (fun c => exists e, element c e) cs /\
  gsteps cs rt (new_generate cs 4) s /\ exists r, gs_main s = GRange (Some rt :: map Some r) /\ length r = 1%nat /\ gs_elems s = [].
Proof.
  destruct (build_doc_rep [([98], BInt32 1)]) as (d & B & Rd).
  { repeat constructor; cbn; unfold is_u8; lia. }
  { reflexivity. }
  destruct (ec_subdocument_rep [97] d [([98], BInt32 1)]) as (e & E & _); [repeat constructor; easy|reflexivity|apply Rd|].
  set (c := MkColl [97] (Some d)). exists [c], e.
  pose proof (gs_take [c] e (new_generate [c] 4) 0%nat c [] eq_refl eq_refl) as S1. match type of S1 with gstep _ _ _ ?x => set (s1 := x) in * end.
  pose proof (gs_work [c] e s1 0%nat c d e eq_refl eq_refl E) as S2. match type of S2 with gstep _ _ _ ?x => set (s2 := x) in * end.
  pose proof (gs_send [c] e s2 0%nat e eq_refl (le_n _)) as S3. match type of S3 with gstep _ _ _ ?x => set (s3 := x) in * end.
  pose proof (gs_end [c] e s3 0%nat eq_refl eq_refl) as S4. match type of S4 with gstep _ _ _ ?x => set (s4 := x) in * end.
  pose proof (gs_wait [c] e s4 eq_refl eq_refl) as S5. match type of S5 with gstep _ _ _ ?x => set (s5 := x) in * end.
  pose proof (gs_receive [c] e s5 _ e [] eq_refl eq_refl) as S6. match type of S6 with gstep _ _ _ ?x => set (s6 := x) in * end.
  exists s6. split; [constructor; [exact B|constructor]|]. split; [constructor; [exists e, d; auto|constructor]|].
  split; [do 6 (eapply gs_more; [|eassumption]); apply gs_refl|]. exists [e]. auto.
Qed.
