(* Properties of histogram points and their recorders: C98. *)
Require Import ZArith List Bool Lia ZifyBool ZifyNat String Permutation.
From Verif Require Import Base BSpec Elements Value Codec CodecRead CodecRep Api ApiProofs Tree GetterProofs ReaderOps CodecProps
  Search EmptyProps Iface Events EventsProps RecorderProps Hist.
Import List ListNotations.
Open Scope Z_scope.

(* --------------------------------------------------------------------- what is recorded when *)

(* A value reported for one of the six histograms. *)
Definition report : Type := fld * Z.
(* What a call at an instant reports, and when the iteration under way began afterwards (zero_time
   if there is none).  lasts: the end of an iteration does not end it. *)
Definition said (lasts : bool) (started now : Z) (c : rcall) : list report * Z :=
  match c with
  | IncIterations v => ([(FNumber, v)], started)
  | IncOperations v => ([(FOps, v)], started)
  | IncSize v => ([(FSize, v)], started)
  | IncError v => ([(FErrors, v)], started)
  | SetDuration d => ([(FDur, d)], started)
  | SetTotalDuration d => ([(FTotal, d)], started)
  | BeginIteration => ([], now)
  | EndIteration d =>
      ([(FNumber, 1); (FDur, d)] ++
         (if started =? zero_time then []
          else [(FTotal, Z.max (-9223372036854775808) (Z.min 9223372036854775807 (now - started)))]),
       if lasts then started else zero_time)
  | _ => ([], started)
  end.
Fixpoint reports (lasts : bool) (started : Z) (cs : list (Z * rcall)) : list report :=
  match cs with
  | [] => []
  | (now, c) :: r => let '(l, s) := said lasts started now c in l ++ reports lasts s r
  end.
Definition timer (f : fld) : bool := match f with FDur | FTotal => true | _ => false end.

Section Values.
Variable fits : Z -> Z -> Z -> bool.
(* a report the histograms have room for: one microsecond to one minute, 0 to ten thousand *)
Definition roomy (x : report) : bool := if timer (fst x) then fits 1000 60000000000 (snd x) else fits 0 10000 (snd x).
Definition accepted (l : list report) (f : fld) : list Z :=
  map snd (filter (fun x => fld_eqb (fst x) f) (filter roomy l)).
Definition refused (l : list report) : list report := filter (fun x => negb (roomy x)) l.
(* a point has exactly the reports there is room for *)
Definition has_reports (l : list report) (p : hperf) : Prop := forall f, h_vals (hp_h p f) = accepted l f.
(* the errors of a test: one for each report refused, and those of the collector *)
Definition complaints (ans : hperf -> option gerr) (l : list report) (out : list hperf) : list gerr :=
  map (fun _ => EOther 640) (refused l) ++ flat_map (fun p => match ans p with Some e => [e] | None => [] end) out.
(* the gauges and the id last set *)
Definition gauge_set (g : gauges) (c : rcall) : gauges :=
  match c with
  | SetState v => MkGau v (g_workers g) (g_failed g)
  | SetWorkers v => MkGau (g_state g) v (g_failed g)
  | SetFailed b => MkGau (g_state g) (g_workers g) b
  | _ => g
  end.
Definition gauges_after (g : gauges) (cs : list (Z * rcall)) : gauges := fold_left (fun g c => gauge_set g (snd c)) cs g.
Definition id_after (i : Z) (cs : list (Z * rcall)) : Z := fold_left (fun i c => match snd c with SetID v => v | _ => i end) cs i.

(* a recorder before a test; g are its gauges *)
Definition fresh (g : gauges) (r : hrec) : Prop :=
  hr_started r = zero_time /\ hr_errs r = [] /\ hr_point r = hist_millisecond g.

Section HRun.
Variable call : Z -> rcall -> hrec -> hrecorded.
(* as run of RecorderProps *)
Fixpoint hrun (cs : list (Z * rcall)) (r : hrec) : hrecorded :=
  match cs with
  | [] => (r, [], [])
  | (now, c) :: cs =>
      let '(r1, out1, errs1) := call now c r in
      let '(r2, out2, errs2) := hrun cs r1 in
      (r2, out1 ++ out2, match cs with [] => errs1 | _ => errs2 end)
  end.
Lemma hrun_snoc cs now c r r1 out1 errs1 r2 out2 errs2 : hrun cs r = (r1, out1, errs1) -> call now c r1 = (r2, out2, errs2) ->
  hrun (cs ++ [(now, c)]) r = (r2, out1 ++ out2, errs2).
Proof.
  revert r r1 out1 errs1. induction cs as [|[now' c'] cs IH]; intros r r1 out1 errs1 E1 E2; cbn in E1 |- *.
  - injection E1 as <- <- _. rewrite E2, app_nil_r. reflexivity.
  - destruct (call now' c' r) as [[ra oa] ea]. destruct (hrun cs ra) as [[rb ob] eb] eqn:B. injection E1 as <- <- _.
    rewrite (IH _ _ _ _ B E2), app_assoc. now destruct cs.
Qed.
End HRun.

(* ------------------------------------------------------------------------------- the proofs *)

Variable ans : hperf -> option gerr.
(* l0: what was reported before and is in earlier points *)
Variable l0 : list report.
Definition J (l : list report) (out : list hperf) (r : hrec) : Prop :=
  (forall f, hp_h (hr_point r) f = MkH (h_low (milli_hist f)) (h_high (milli_hist f)) (accepted l f)) /\
  Permutation (hr_errs r) (complaints ans (l0 ++ l) out).
Lemma roomy_hist f v : roomy (f, v) = fits (h_low (milli_hist f)) (h_high (milli_hist f)) v.
Proof. now destruct f. Qed.
Lemma accepted_app l m f : accepted (l ++ m) f = accepted l f ++ accepted m f.
Proof. unfold accepted. now rewrite !filter_app, map_app. Qed.
Lemma refused_app l m : refused (l ++ m) = refused l ++ refused m.
Proof. unfold refused. apply filter_app. Qed.
Lemma eqb_fld a b : fld_eqb a b = true <-> a = b.
Proof. destruct a, b; cbn; split; congruence. Qed.
Lemma accepted_one f v g : accepted [(f, v)] g = if roomy (f, v) && fld_eqb f g then [v] else [].
Proof. unfold accepted. cbn [filter]. destruct (roomy (f, v)); cbn [filter fst andb]; [|reflexivity]. now destruct (fld_eqb f g). Qed.
Lemma J_record f v l out r : J l out r -> J (l ++ [(f, v)]) out (hrecord fits f v r).
Proof.
  intros [H E]. unfold hrecord. rewrite H. cbn [h_low h_high h_vals]. rewrite <- roomy_hist.
  destruct (roomy (f, v)) eqn:R; split; cbn [hr_point hset_point hr_errs hp_h].
  - intros g. rewrite accepted_app, accepted_one, R. cbn [andb].
    destruct (fld_eqb g f) eqn:G.
    + apply eqb_fld in G as ->. now rewrite (proj2 (eqb_fld f f) eq_refl).
    + rewrite H. assert (X : fld_eqb f g = false) by (destruct (fld_eqb f g) eqn:X; [apply eqb_fld in X as ->; rewrite (proj2 (eqb_fld g g) eq_refl) in G; discriminate|reflexivity]).
      rewrite X. now rewrite app_nil_r.
  - unfold complaints in *. rewrite app_assoc, refused_app. unfold refused at 2. cbn [filter]. rewrite R. cbn [negb]. now rewrite app_nil_r.
  - intros g. rewrite accepted_app, accepted_one, R. cbn [andb]. now rewrite app_nil_r, H.
  - unfold complaints in *. rewrite app_assoc, refused_app. unfold refused at 2. cbn [filter]. rewrite R. cbn [negb]. rewrite map_app. cbn [map].
    rewrite <- app_assoc. cbn [app]. etransitivity; [apply Permutation_app_comm|]. cbn [app]. etransitivity; [|apply Permutation_middle].
    now apply perm_skip.
Qed.
Lemma J_point l out r p : hp_h p = hp_h (hr_point r) -> J l out r -> J l out (hset_point r p).
Proof. intros E [H P]. split; [cbn; rewrite E; exact H|exact P]. Qed.
Lemma stamp_h a b p : hp_h (hset_timestamp a b p) = hp_h p.
Proof. unfold hset_timestamp. now destruct (_ =? _). Qed.
Lemma J_stamp l out r now : J l out r -> J l out (hstamp now r).
Proof. intros H. apply J_point; auto. apply stamp_h. Qed.
Lemma J_started l out r t : J l out r -> J l out (hset_started r t).
Proof. intros H. exact H. Qed.
Lemma J_persist l out r : J l out r -> J l (out ++ [hr_point r]) (hpersist ans r).
Proof.
  intros [H P]. split; [exact H|]. unfold complaints in *. cbn [hpersist hr_errs]. rewrite flat_map_app. cbn [flat_map]. rewrite app_nil_r, app_assoc.
  unfold note. destruct (ans (hr_point r)); [now apply Permutation_app_tail|now rewrite app_nil_r].
Qed.
Lemma J_plain c l out r now lasts : J l out r -> match c with BeginIteration | EndIteration _ | EndTest | Reset => False | _ => True end ->
  J (l ++ fst (said lasts (hr_started r) now c)) out (hplain fits c r) /\ hr_started (hplain fits c r) = hr_started r /\
  snd (said lasts (hr_started r) now c) = hr_started r.
Proof.
  intros H K. destruct c; try contradiction; cbn [said fst snd hplain]; rewrite ?app_nil_r;
    (split; [first [now apply J_record|apply J_point; [reflexivity|exact H]]|split; [|reflexivity]]); unfold hrecord;
    try destruct (fits _ _ _); reflexivity.
Qed.
Lemma record_started f v r : hr_started (hrecord fits f v r) = hr_started r.
Proof. unfold hrecord. now destruct (fits _ _ _). Qed.
Lemma stamp_started now r : hr_started (hstamp now r) = hr_started r.
Proof. reflexivity. Qed.
Lemma J_end d l out r now : J l out r ->
  J (l ++ fst (said false (hr_started r) now (EndIteration d))) out (hend fits now d r) /\ hr_started (hend fits now d r) = zero_time.
Proof.
  intros H. unfold hend. rewrite !record_started, stamp_started. cbn [said fst].
  destruct (hr_started r =? zero_time) eqn:E.
  - rewrite app_nil_r. split; [|rewrite !record_started; cbn; lia].
    change ([(FNumber, 1); (FDur, d)]) with ([(FNumber, 1)] ++ [(FDur, d)]). rewrite app_assoc. now do 2 apply J_record; apply J_stamp.
  - split; [|reflexivity]. apply J_started. unfold htotal. rewrite !record_started, stamp_started, E.
    change ([(FNumber, 1); (FDur, d)]) with ([(FNumber, 1)] ++ [(FDur, d)]). rewrite !app_assoc. do 3 apply J_record. now apply J_stamp.
Qed.

(* what one call of a recorder does within a test *)
Definition steps (call : Z -> rcall -> hrec -> hrecorded) : Prop := forall now c l out r r' o e,
  inner (now, c) -> J l out r -> call now c r = (r', o, e) ->
  let '(m, s) := said false (hr_started r) now c in
  J (l ++ m) (out ++ o) r' /\ hr_started r' = s /\ Forall (has_reports (l ++ m)) o /\ hr_interval r' = hr_interval r /\
  hp_g (hr_point r') = gauge_set (hp_g (hr_point r)) c /\ hp_id (hr_point r') = match c with SetID v => v | _ => hp_id (hr_point r) end.
Lemma J_has l out r : J l out r -> has_reports l (hr_point r).
Proof. intros [H _] f. now rewrite H. Qed.
Lemma record_rest f v r : hp_g (hr_point (hrecord fits f v r)) = hp_g (hr_point r) /\ hp_id (hr_point (hrecord fits f v r)) = hp_id (hr_point r) /\
  hp_ts (hr_point (hrecord fits f v r)) = hp_ts (hr_point r) /\ hr_interval (hrecord fits f v r) = hr_interval r /\ hr_last (hrecord fits f v r) = hr_last r.
Proof. unfold hrecord. now destruct (fits _ _ _). Qed.
Lemma stamp_rest now r : hp_g (hr_point (hstamp now r)) = hp_g (hr_point r) /\ hp_id (hr_point (hstamp now r)) = hp_id (hr_point r) /\
  hr_interval (hstamp now r) = hr_interval r /\ hr_last (hstamp now r) = hr_last r.
Proof. unfold hstamp, hset_timestamp. cbn [hset_point hr_point hr_interval hr_last]. now destruct (_ =? _). Qed.
Lemma total_rest now r : hp_g (hr_point (htotal fits now r)) = hp_g (hr_point r) /\ hp_id (hr_point (htotal fits now r)) = hp_id (hr_point r) /\
  hp_ts (hr_point (htotal fits now r)) = hp_ts (hr_point r) /\ hr_interval (htotal fits now r) = hr_interval r /\ hr_last (htotal fits now r) = hr_last r.
Proof. unfold htotal. destruct (_ =? _); [repeat split|apply record_rest]. Qed.
Lemma end_rest now d r : hp_g (hr_point (hend fits now d r)) = hp_g (hr_point r) /\ hp_id (hr_point (hend fits now d r)) = hp_id (hr_point r) /\
  hp_ts (hr_point (hend fits now d r)) = hp_ts (hr_point (hstamp now r)) /\ hr_interval (hend fits now d r) = hr_interval r /\ hr_last (hend fits now d r) = hr_last r.
Proof.
  unfold hend. set (r1 := hstamp now r). set (r2 := hrecord fits FNumber 1 r1). set (r3 := hrecord fits FDur d r2).
  pose proof (stamp_rest now r) as (A1 & A2 & A3 & A4). fold r1 in A1, A2, A3, A4.
  pose proof (record_rest FNumber 1 r1) as (B1 & B2 & B3 & B4 & B5). fold r2 in B1, B2, B3, B4, B5.
  pose proof (record_rest FDur d r2) as (C1 & C2 & C3 & C4 & C5). fold r3 in C1, C2, C3, C4, C5.
  destruct (hr_started r3 =? zero_time); [repeat split; congruence|].
  pose proof (total_rest now r3) as (D1 & D2 & D3 & D4 & D5). cbn [hset_started hr_point hr_interval hr_last]. repeat split; congruence.
Qed.
Lemma plain_rest c r : match c with BeginIteration | EndIteration _ | EndTest | Reset => False | _ => True end ->
  hp_g (hr_point (hplain fits c r)) = gauge_set (hp_g (hr_point r)) c /\
  hp_id (hr_point (hplain fits c r)) = match c with SetID v => v | _ => hp_id (hr_point r) end /\
  hr_interval (hplain fits c r) = hr_interval r /\ hr_last (hplain fits c r) = hr_last r /\
  hp_ts (hr_point (hplain fits c r)) = match c with SetTime t => t | _ => hp_ts (hr_point r) end.
Proof. intros K. destruct c; try contradiction; cbn [hplain gauge_set]; try (repeat split; fail); pose proof (record_rest) as Q; repeat split; apply Q. Qed.
Lemma plain_step l out now c r : inner (now, c) -> match c with BeginIteration | EndIteration _ => False | _ => True end -> J l out r ->
  let '(m, s) := said false (hr_started r) now c in
  J (l ++ m) (out ++ []) (hplain fits c r) /\ hr_started (hplain fits c r) = s /\ Forall (has_reports (l ++ m)) [] /\ hr_interval (hplain fits c r) = hr_interval r /\
  hp_g (hr_point (hplain fits c r)) = gauge_set (hp_g (hr_point r)) c /\ hp_id (hr_point (hplain fits c r)) = match c with SetID v => v | _ => hp_id (hr_point r) end.
Proof.
  intros I K H. assert (K' : match c with BeginIteration | EndIteration _ | EndTest | Reset => False | _ => True end) by (destruct c; cbn in I; tauto).
  destruct (J_plain c l out r now false H K') as (X & Y & Z). destruct (plain_rest c r K') as (A & B & C & _).
  destruct (said false (hr_started r) now c) as [m s]. cbn [fst snd] in *. rewrite app_nil_r. repeat split; auto; try congruence; try apply X.
Qed.
Lemma begin_step l out now r : J l out r -> J (l ++ []) (out ++ []) (hstamp now (hset_started r now)) .
Proof. intros H. rewrite !app_nil_r. apply J_stamp, J_started, H. Qed.
Lemma stream_steps : steps (hstream_call fits ans).
Proof.
  intros now c l out r r' o e I H E. pose proof (fun K => plain_step l out now c r I K H) as P.
  destruct c; cbn in I; try contradiction; cbn [hstream_call] in E; injection E as <- <- <-;
    try (exact (P Logic.I)).
  - cbn [said]. split; [now apply begin_step|]. destruct (stamp_rest now (hset_started r now)) as (A & B & C & _). repeat split; auto.
  - destruct (J_end dur l out r now H) as [X Y]. cbn [said fst] in *. destruct (end_rest now dur r) as (A & B & _ & C & _).
    split; [apply J_persist, X|]. split; [exact Y|]. split; [constructor; [apply (J_has _ _ _ X)|constructor]|]. repeat split; auto.
Qed.
Lemma single_steps : steps (hsingle_call fits ans).
Proof.
  intros now c l out r r' o e I H E. pose proof (fun K => plain_step l out now c r I K H) as P.
  destruct c; cbn in I; try contradiction; cbn [hsingle_call] in E; injection E as <- <- <-;
    try (exact (P Logic.I)).
  - cbn [said]. rewrite !app_nil_r. repeat split; auto; apply H.
  - destruct (J_end dur l out r now H) as [X Y]. cbn [said fst] in *. destruct (end_rest now dur r) as (A & B & _ & C & _).
    rewrite app_nil_r. split; [exact X|]. repeat split; auto.
Qed.
Lemma grouped_steps : steps (hgrouped_call fits ans).
Proof.
  intros now c l out r r' o e I H E. pose proof (fun K => plain_step l out now c r I K H) as P.
  destruct c; cbn in I; try contradiction; cbn [hgrouped_call] in E;
    try (injection E as <- <- <-; exact (P Logic.I)).
  - injection E as <- <- <-. cbn [said]. split; [now apply begin_step|]. destruct (stamp_rest now (hset_started r now)) as (A & B & C & _). repeat split; auto.
  - destruct (J_end dur l out r now H) as [X Y]. cbn [said fst] in *. destruct (end_rest now dur r) as (A & B & _ & C & _).
    destruct (hr_interval (hend fits now dur r) <=? since now (hr_last (hend fits now dur r))); injection E as <- <- <-.
    + split; [apply J_persist in X; exact X|]. split; [exact Y|]. split; [constructor; [apply (J_has _ _ _ X)|constructor]|]. repeat split; auto.
    + rewrite app_nil_r. split; [exact X|]. repeat split; auto.
Qed.
Lemma hrun_ok call cs : steps call -> forall l out r r' o e, Forall inner cs -> J l out r -> hrun call cs r = (r', o, e) ->
  J (l ++ reports false (hr_started r) cs) (out ++ o) r' /\
  hp_g (hr_point r') = gauges_after (hp_g (hr_point r)) cs /\ hp_id (hr_point r') = id_after (hp_id (hr_point r)) cs /\
  forall pre now c post, cs = pre ++ (now, c) :: post -> exists ra oa ea rb ob eb,
    hrun call pre r = (ra, oa, ea) /\ call now c ra = (rb, ob, eb) /\ Forall (has_reports (l ++ reports false (hr_started r) (pre ++ [(now, c)]))) ob.
Proof.
  intros St. induction cs as [|[now c] cs IH]; intros l out r r' o e I H E; cbn [hrun] in E.
  - injection E as <- <- <-. cbn [reports]. rewrite !app_nil_r. repeat split; auto; try apply H. intros [|? ?]; discriminate.
  - destruct (call now c r) as [[r1 o1] e1] eqn:E1. destruct (hrun call cs r1) as [[r2 o2] e2] eqn:E2. injection E as <- <- <-.
    apply Forall_cons_iff in I as [I1 I]. pose proof (St now c l out r r1 o1 e1 I1 H E1) as X. cbn [reports].
    destruct (said false (hr_started r) now c) as [m s] eqn:Em. destruct X as (X1 & X2 & X3 & X4 & X5 & X6).
    destruct (IH _ _ _ _ _ _ I X1 E2) as (Y1 & Y2 & Y3 & Y4). rewrite X2 in *. rewrite !app_assoc. split; [exact Y1|].
    split; [rewrite Y2, X5; reflexivity|]. split; [rewrite Y3, X6; reflexivity|].
    intros [|[n0 c0] pre] n1 c1 post Ec; cbn [app] in Ec; injection Ec as -> -> ->.
    + do 6 eexists. split; [reflexivity|]. split; [exact E1|]. cbn [app reports]. rewrite Em, app_nil_r. exact X3.
    + destruct (Y4 pre n1 c1 post eq_refl) as (ra & oa & ea & rb & ob & eb & F1 & F2 & F3). cbn [hrun]. rewrite E1, F1.
      do 6 eexists. split; [reflexivity|]. split; [exact F2|]. cbn [app reports]. rewrite Em, app_assoc. exact F3.
Qed.
End Values.
Lemma J_fresh fits ans g r : fresh g r -> J fits ans [] [] [] r.
Proof. intros (_ & E & P). split; [intros f; rewrite P; now destruct f|rewrite E; constructor]. Qed.

(* --------------------------------------------------------------------------- the recorders *)

(* NewHistogramRecorder, NewSingleHistogramRecorder, NewHistogramGroupedRecorder *)
Inductive hkind := HStream | HSingle | HGrouped.
Definition hcall (k : hkind) fits ans : Z -> rcall -> hrec -> hrecorded :=
  match k with HStream => hstream_call fits ans | HSingle => hsingle_call fits ans | HGrouped => hgrouped_call fits ans end.
Lemma hcall_steps k fits ans l0 : steps fits ans l0 (hcall k fits ans).
Proof. destruct k; [apply stream_steps|apply single_steps|apply grouped_steps]. Qed.
(* something within the test gave the point a time *)
Definition dated (cs : list (Z * rcall)) : Prop :=
  clocked cs /\ ~ In (SetTime zero_time) (map snd cs) /\
  Exists (fun x => match snd x with BeginIteration | EndIteration _ | SetTime _ => True | _ => False end) cs.

Lemma hcall_ts k fits ans now c r r' o e : k <> HSingle -> inner (now, c) -> hcall k fits ans now c r = (r', o, e) ->
  hp_ts (hr_point r') = match c with
    | SetTime t => t
    | BeginIteration => if hp_ts (hr_point r) =? zero_time then now else hp_ts (hr_point r)
    | EndIteration _ => if hp_ts (hr_point r) =? zero_time then (if hr_started r =? zero_time then now else hr_started r) else hp_ts (hr_point r)
    | _ => hp_ts (hr_point r)
    end /\ Forall (fun p => hp_ts p = hp_ts (hr_point r')) o.
Proof.
  intros K I E. pose proof (plain_rest fits c r) as P.
  assert (B : hp_ts (hr_point (hstamp now (hset_started r now))) = if hp_ts (hr_point r) =? zero_time then now else hp_ts (hr_point r)).
  { unfold hstamp, hset_timestamp. cbn [hset_point hset_started hr_point hr_started]. destruct (hp_ts (hr_point r) =? zero_time); [|reflexivity]. cbn [hp_ts]. now destruct (now =? zero_time). }
  assert (D : forall d, hp_ts (hr_point (hend fits now d r)) = if hp_ts (hr_point r) =? zero_time then (if hr_started r =? zero_time then now else hr_started r) else hp_ts (hr_point r)).
  { intros d. destruct (end_rest fits now d r) as (_ & _ & -> & _). unfold hstamp, hset_timestamp. cbn [hset_point hr_point]. now destruct (hp_ts (hr_point r) =? zero_time). }
  destruct k; [|congruence|]; destruct c; cbn in I; try contradiction; cbn [hcall hstream_call hgrouped_call] in E;
    try (injection E as <- <- <-; specialize (P Logic.I) as (_ & _ & _ & _ & P); split; [exact P|constructor]);
    try (injection E as <- <- <-; split; [exact B|constructor]).
  - injection E as <- <- <-. cbn [hpersist hr_point]. split; [apply D|repeat constructor].
  - destruct (_ <=? _); injection E as <- <- <-; cbn [hpersist hr_point]; (split; [apply D|repeat constructor]).
Qed.
Lemma hcall_started k fits ans now c r r' o e : inner (now, c) -> hcall k fits ans now c r = (r', o, e) ->
  hr_started r' = snd (said false (hr_started r) now c).
Proof.
  intros I E.
  assert (P : match c with BeginIteration | EndIteration _ | EndTest | Reset => False | _ => True end ->
    hr_started (hplain fits c r) = snd (said false (hr_started r) now c)).
  { intros K. destruct c; try contradiction; cbn [hplain said snd]; rewrite ?record_started; reflexivity. }
  assert (D : forall d, hr_started (hend fits now d r) = zero_time).
  { intros d. unfold hend. rewrite !record_started, stamp_started. destruct (hr_started r =? zero_time) eqn:Z; [rewrite !record_started; cbn; lia|reflexivity]. }
  destruct k, c; cbn in I; try contradiction; cbn [hcall hstream_call hgrouped_call hsingle_call] in E;
    try (injection E as <- <- <-; exact (P Logic.I)); try (injection E as <- <- <-; cbn [said snd hpersist hr_started]; first [reflexivity|apply D]).
  destruct (_ <=? _); injection E as <- <- <-; cbn [said snd hpersist hr_started]; apply D.
Qed.
Lemma hrun_dated k fits ans cs r r' o e : k <> HSingle -> Forall inner cs -> clocked cs -> ~ In (SetTime zero_time) (map snd cs) ->
  hrun (hcall k fits ans) cs r = (r', o, e) ->
  hp_ts (hr_point r) <> zero_time \/ Exists (fun x => match snd x with BeginIteration | EndIteration _ | SetTime _ => True | _ => False end) cs ->
  hp_ts (hr_point r') <> zero_time.
Proof.
  intros K. revert r r' o e. induction cs as [|[now c] cs IH]; intros r r' o e I C S E X; cbn [hrun] in E.
  - injection E as <- <- <-. destruct X as [X|X]; [exact X|inversion X].
  - destruct (hcall k fits ans now c r) as [[r1 o1] e1] eqn:E1. destruct (hrun _ cs r1) as [[r2 o2] e2] eqn:E2. injection E as <- <- <-.
    apply Forall_cons_iff in I as [I1 I]. apply Forall_cons_iff in C as [C1 C]. cbn [map snd fst In] in *.
    eapply IH; [exact I|exact C|tauto|exact E2|].
    destruct (hcall_ts _ _ _ _ _ _ _ _ _ K I1 E1) as [T _].
    destruct X as [X|X]; [|apply Exists_cons in X as [X|X]; [|now right]]; left; rewrite T.
    + destruct c; try exact X; try (replace (hp_ts (hr_point r) =? zero_time) with false by lia; exact X). intros ->. tauto.
    + cbn [snd] in X. destruct c; try contradiction.
      * destruct (hp_ts (hr_point r) =? zero_time) eqn:Z; [exact C1|lia].
      * destruct (hp_ts (hr_point r) =? zero_time) eqn:Z; [destruct (hr_started r =? zero_time) eqn:Z2; [exact C1|lia]|lia].
      * intros ->. tauto.
Qed.

(* C98.  EndTest hands over a point with every value reported in the test that the histograms have
   room for, the gauges and the id set; it reports an error for every other value and for every
   point the collector refused; and the recorder is as before the test, with the gauges.  All but
   the single recorder need a time for the point. *)
Theorem C98_end_test : forall k fits ans g cs now r r' out errs, fresh g r -> Forall inner cs -> k = HSingle \/ dated cs ->
  hrun (hcall k fits ans) (cs ++ [(now, EndTest)]) r = (r', out, errs) ->
  exists before p, out = before ++ [p] /\ has_reports fits (reports false zero_time cs) p /\
    hp_g p = gauges_after g cs /\ hp_id p = id_after 0 cs /\
    Permutation errs (complaints fits ans (reports false zero_time cs) out) /\ fresh (gauges_after g cs) r'.
Proof.
  intros k fits ans g cs now r r' out errs Fr I D E. destruct (hrun (hcall k fits ans) cs r) as [[r1 o1] e1] eqn:E1.
  destruct (hrun_ok fits ans [] _ cs (hcall_steps k fits ans []) _ _ _ _ _ _ I (J_fresh fits ans g r Fr) E1) as (H & Hg & Hi & _).
  destruct Fr as (F1 & F2 & F3). rewrite F1, F3 in *. cbn [app hist_millisecond hp_g hp_id] in *.
  assert (N : k <> HSingle -> hp_ts (hr_point r1) =? zero_time = false).
  { intros K. destruct D as [D|(D1 & D2 & D3)]; [congruence|].
    assert (hp_ts (hr_point r1) <> zero_time); [|lia]. eapply hrun_dated; [exact K|exact I|exact D1|exact D2|exact E1|right; exact D3]. }
  destruct k; cbn [hcall] in *.
  - assert (Ec : hstream_call fits ans now EndTest r1 = (hreset (hr_last r1) (hpersist ans r1), [hr_point r1], hr_errs (hpersist ans r1))).
    { cbn [hstream_call]. unfold hend_test. now rewrite N by discriminate. }
    rewrite (hrun_snoc _ _ _ _ _ _ _ _ _ _ _ E1 Ec) in E. injection E as <- <- <-.
    exists o1, (hr_point r1). split; [reflexivity|]. split; [apply (J_has _ _ _ _ _ _ H)|]. split; [exact Hg|]. split; [exact Hi|].
    split; [apply J_persist in H; apply H|]. unfold fresh. cbn [hreset hr_started hr_errs hr_point hpersist]. now rewrite Hg.
  - assert (Ec : hsingle_call fits ans now EndTest r1 = (hreset (hr_last r1) (hpersist ans (hstamp now r1)), [hr_point (hstamp now r1)], hr_errs (hpersist ans (hstamp now r1)))) by reflexivity.
    rewrite (hrun_snoc _ _ _ _ _ _ _ _ _ _ _ E1 Ec) in E. injection E as <- <- <-. apply (J_stamp _ _ _ _ _ _ now) in H.
    destruct (stamp_rest now r1) as (A & B & _). rewrite <- A in Hg. rewrite <- B in Hi.
    exists o1, (hr_point (hstamp now r1)). split; [reflexivity|]. split; [apply (J_has _ _ _ _ _ _ H)|]. split; [exact Hg|]. split; [exact Hi|].
    split; [apply J_persist in H; apply H|]. unfold fresh. cbn [hreset hr_started hr_errs hr_point hpersist]. now rewrite Hg.
  - assert (Ec : hgrouped_call fits ans now EndTest r1 = (hreset zero_time (hpersist ans r1), [hr_point r1], hr_errs (hpersist ans r1))).
    { cbn [hgrouped_call]. unfold hend_test. now rewrite N by discriminate. }
    rewrite (hrun_snoc _ _ _ _ _ _ _ _ _ _ _ E1 Ec) in E. injection E as <- <- <-.
    exists o1, (hr_point r1). split; [reflexivity|]. split; [apply (J_has _ _ _ _ _ _ H)|]. split; [exact Hg|]. split; [exact Hi|].
    split; [apply J_persist in H; apply H|]. unfold fresh. cbn [hreset hr_started hr_errs hr_point hpersist]. now rewrite Hg.
Qed.
Print Assumptions C98_end_test.

(* The histogram recorder hands over a point at every end of an iteration, with every value so far. *)
Theorem C98_stream : forall fits ans g cs now d r, fresh g r -> Forall inner cs ->
  exists r' before p, hrun (hcall HStream fits ans) (cs ++ [(now, EndIteration d)]) r = (r', before ++ [p], []) /\
    has_reports fits (reports false zero_time (cs ++ [(now, EndIteration d)])) p.
Proof.
  intros fits ans g cs now d r Fr I.
  assert (I' : Forall inner (cs ++ [(now, EndIteration d)])) by (apply Forall_app; split; [exact I|repeat constructor]).
  destruct (hrun (hcall HStream fits ans) (cs ++ [(now, EndIteration d)]) r) as [[r' o] e] eqn:E.
  destruct (hrun_ok fits ans [] _ _ (hcall_steps HStream fits ans []) _ _ _ _ _ _ I' (J_fresh fits ans g r Fr) E) as (_ & _ & _ & X).
  destruct (X cs now (EndIteration d) [] eq_refl) as (ra & oa & ea & rb & ob & eb & F1 & F2 & F3).
  rewrite (hrun_snoc _ _ _ _ _ _ _ _ _ _ _ F1 F2) in E. injection E as <- <- <-. destruct Fr as (F & _). rewrite F in F3.
  cbn [hcall hstream_call] in F2. injection F2 as <- <- <-. exists (hpersist ans (hend fits now d ra)), oa, (hr_point (hend fits now d ra)).
  split; [reflexivity|]. now inversion F3.
Qed.
Print Assumptions C98_stream.

(* All points handed over in a test carry the time of its first iteration. *)
Theorem C98_time_refuted : forall k fits ans g pre t c post now r r' out errs, k <> HSingle -> fresh g r -> Forall untimed pre ->
  match c with BeginIteration | EndIteration _ => True | _ => False end -> t <> zero_time ->
  Forall inner post -> (forall x, ~ In (SetTime x) (map snd post)) ->
  hrun (hcall k fits ans) (pre ++ (t, c) :: post ++ [(now, EndTest)]) r = (r', out, errs) -> Forall (fun p => hp_ts p = t) out.
Proof.
  intros k fits ans g pre t c post now r r' out errs K (F1 & F2 & F3) U C Nt I S E.
  assert (G : forall cs r r' o e, Forall inner cs -> (forall x, ~ In (SetTime x) (map snd cs)) -> hp_ts (hr_point r) = t ->
    hrun (hcall k fits ans) (cs ++ [(now, EndTest)]) r = (r', o, e) -> Forall (fun p => hp_ts p = t) o).
  { clear - K Nt. induction cs as [|[n c] cs IH]; intros r r' o e I S T E; cbn [app hrun] in E.
    - destruct (hcall k fits ans now EndTest r) as [[r1 o1] e1] eqn:E1. injection E as <- <- <-. rewrite app_nil_r.
      destruct k; [|congruence|]; cbn [hcall hstream_call hgrouped_call] in E1; unfold hend_test in E1;
        replace (hp_ts (hr_point r) =? zero_time) with false in E1 by lia; injection E1 as <- <- <-; repeat constructor; exact T.
    - destruct (hcall k fits ans n c r) as [[r1 o1] e1] eqn:E1. destruct (hrun _ (cs ++ _) r1) as [[r2 o2] e2] eqn:E2. injection E as <- <- <-.
      apply Forall_cons_iff in I as [I1 I]. destruct (hcall_ts _ _ _ _ _ _ _ _ _ K I1 E1) as [X Y].
      assert (T1 : hp_ts (hr_point r1) = t).
      { rewrite X. replace (hp_ts (hr_point r) =? zero_time) with false by lia. destruct c; auto.
        exfalso. apply (S t0). now left. }
      apply Forall_app. split; [eapply Forall_impl; [|exact Y]; cbn; congruence|]. eapply IH; [exact I| |exact T1|exact E2].
      intros x Ix. apply (S x). now right. }
  assert (B : hp_ts (hr_point r) = zero_time) by (rewrite F3; reflexivity). clear F2 F3.
  revert r F1 B r' out errs E. induction U as [|[n u] pre Hu U IH]; intros r F1 B r' out errs E; cbn [app hrun] in E.
  - destruct (hcall k fits ans t c r) as [[r1 o1] e1] eqn:E1. destruct (hrun _ (post ++ _) r1) as [[r2 o2] e2] eqn:E2. injection E as <- <- <-.
    assert (I1 : inner (t, c)) by (destruct c; try contradiction; exact Logic.I). destruct (hcall_ts _ _ _ _ _ _ _ _ _ K I1 E1) as [X Y].
    assert (T1 : hp_ts (hr_point r1) = t) by (rewrite X, B, F1; destruct c; try contradiction; reflexivity).
    apply Forall_app. split; [eapply Forall_impl; [|exact Y]; cbn; congruence|]. exact (G _ _ _ _ _ I S T1 E2).
  - destruct (hcall k fits ans n u r) as [[r1 o1] e1] eqn:E1. destruct (hrun _ (pre ++ _) r1) as [[r2 o2] e2] eqn:E2. injection E as <- <- <-.
    assert (I1 : inner (n, u)) by (destruct u; cbn in Hu |- *; tauto). destruct (hcall_ts _ _ _ _ _ _ _ _ _ K I1 E1) as [X Y].
    pose proof (hcall_started _ _ _ _ _ _ _ _ _ I1 E1) as Z.
    assert (O : o1 = []) by (destruct k; [|congruence|]; destruct u; cbn in Hu; try contradiction; cbn [hcall hstream_call hgrouped_call] in E1; injection E1 as <- <- <-; reflexivity).
    subst o1. cbn [app]. eapply IH; [| |exact E2].
    + rewrite Z. destruct u; cbn in Hu; try contradiction; exact F1.
    + rewrite X. destruct u; cbn in Hu; try contradiction; exact B.
Qed.
Print Assumptions C98_time_refuted.

(* The documentation of the recorders promises counters up to one million and timers up to twenty
   minutes; a value the smaller histograms have no room for is lost, and EndTest errs. *)
Theorem C98_range_refuted : forall k fits g r v t now, fresh g r -> 10000 < v <= 1000000 -> fits 0 10000 v = false -> t <> zero_time ->
  exists r' p errs, hrun (hcall k fits (fun _ => None)) [(t, IncSize v); (t, SetTime t); (now, EndTest)] r = (r', [p], errs) /\
    h_vals (hp_h p FSize) = [] /\ errs <> [].
Proof.
  intros k fits g r v t now Fr V Nf Nt.
  destruct (hrun (hcall k fits (fun _ => None)) ([(t, IncSize v); (t, SetTime t)] ++ [(now, EndTest)]) r) as [[r' out] errs] eqn:E.
  destruct (C98_end_test k fits (fun _ => None) g [(t, IncSize v); (t, SetTime t)] now r r' out errs Fr) as (b & p & -> & H & _ & _ & P & _); auto.
  - repeat constructor.
  - right. split; [repeat constructor; exact Nt|]. split; [cbn; intros [X|[X|[]]]; congruence|]. right. left. exact Logic.I.
  - assert (B : b = []).
    { destruct b as [|b1 b]; [reflexivity|]. apply (f_equal (fun x => List.length (snd (fst x)))) in E. cbn [fst snd] in E. rewrite app_length in E. cbn [List.length app] in E.
      exfalso. revert E. destruct k; cbn -[Z.eqb zero_time]; unfold hend_test; cbn -[Z.eqb zero_time];
        try replace (t =? zero_time) with false by lia; unfold hrecord; try destruct (fits _ _ _); cbn -[Z.eqb zero_time];
        try replace (t =? zero_time) with false by lia; cbn; lia. }
    subst b. exists r', p, errs. split; [exact E|]. cbn in H, P. unfold complaints, refused, roomy in P. cbn in P. rewrite Nf in P. cbn in P.
    split; [rewrite (H FSize); unfold accepted, roomy; cbn; now rewrite Nf|]. intros ->. apply Permutation_nil in P. discriminate.
Qed.
Print Assumptions C98_range_refuted.

(* -------------------------------------------------------------- the interval histogram recorder *)

(* Calls and ticks of the worker, one after the other, as the lock orders them. *)
Definition hi_step fits ans (x : Z * option rcall) (r : hrec) : hrecorded :=
  match snd x with Some c => hinterval_call fits ans (fst x) c r | None => hinterval_tick ans (fst x) r end.
Fixpoint hirun fits ans (xs : list (Z * option rcall)) (r : hrec) : hrecorded :=
  match xs with
  | [] => (r, [], [])
  | x :: xs =>
      let '(r1, out1, errs1) := hi_step fits ans x r in
      let '(r2, out2, errs2) := hirun fits ans xs r1 in
      (r2, out1 ++ out2, match xs with [] => errs1 | _ => errs2 end)
  end.
Lemma hirun_snoc fits ans xs x r r1 out1 errs1 r2 out2 errs2 : hirun fits ans xs r = (r1, out1, errs1) ->
  hi_step fits ans x r1 = (r2, out2, errs2) -> hirun fits ans (xs ++ [x]) r = (r2, out1 ++ out2, errs2).
Proof.
  revert r r1 out1 errs1. induction xs as [|y xs IH]; intros r r1 out1 errs1 E1 E2; cbn in E1 |- *.
  - injection E1 as <- <- _. rewrite E2, app_nil_r. reflexivity.
  - destruct (hi_step fits ans y r) as [[ra oa] ea]. destruct (hirun fits ans xs ra) as [[rb ob] eb] eqn:B. injection E1 as <- <- _.
    rewrite (IH _ _ _ _ B E2), app_assoc. now destruct xs.
Qed.
Definition calls (xs : list (Z * option rcall)) : list (Z * rcall) :=
  flat_map (fun x => match snd x with Some c => [(fst x, c)] | None => [] end) xs.
(* whether the point has a time: given since the last tick by an iteration or SetTime *)
Definition stamped_since (st : bool) (x : Z * option rcall) : bool :=
  match snd x with None => false | Some (BeginIteration | EndIteration _ | SetTime _) => true | Some _ => st end.
(* when the iteration under way began *)
Fixpoint began (started : Z) (cs : list (Z * rcall)) : Z :=
  match cs with [] => started | (now, c) :: r => began (snd (said true started now c)) r end.
(* EndTest reports the time since the last iteration began *)
Definition at_end (started now : Z) : list report :=
  if started =? zero_time then [] else [(FTotal, Z.max (-9223372036854775808) (Z.min 9223372036854775807 (now - started)))].
Definition values_of (f : fld) (out : list hperf) : list Z := flat_map (fun p => h_vals (hp_h p f)) out.

(* l0 is in the points out, l1 in the present one *)
Definition JI fits ans l0 l1 out r : Prop :=
  J fits ans l0 l1 out r /\ forall f, values_of f out = accepted fits l0 f.
Lemma J_total fits ans l0 l out r now : J fits ans l0 l out r -> J fits ans l0 (l ++ at_end (hr_started r) now) out (htotal fits now r).
Proof. intros H. unfold htotal, at_end. destruct (_ =? _); [rewrite app_nil_r; exact H|]. now apply J_record. Qed.
Lemma total_started fits now r : hr_started (htotal fits now r) = hr_started r.
Proof. unfold htotal. destruct (_ =? _); [reflexivity|apply record_started]. Qed.
Lemma hicall_ok fits ans l0 l1 out r now c : inner (now, c) -> J fits ans l0 l1 out r ->
  exists r', hinterval_call fits ans now c r = (r', [], []) /\ J fits ans l0 (l1 ++ fst (said true (hr_started r) now c)) out r' /\
    hr_started r' = snd (said true (hr_started r) now c) /\
    hp_ts (hr_point r') = match c with
      | SetTime t => t
      | BeginIteration => if hp_ts (hr_point r) =? zero_time then now else hp_ts (hr_point r)
      | EndIteration _ => if hp_ts (hr_point r) =? zero_time then (if hr_started r =? zero_time then now else hr_started r) else hp_ts (hr_point r)
      | _ => hp_ts (hr_point r)
      end.
Proof.
  intros I H.
  assert (P : match c with BeginIteration | EndIteration _ | EndTest | Reset => False | _ => True end ->
    J fits ans l0 (l1 ++ fst (said true (hr_started r) now c)) out (hplain fits c r) /\
    hr_started (hplain fits c r) = snd (said true (hr_started r) now c) /\
    hp_ts (hr_point (hplain fits c r)) = match c with SetTime t => t | _ => hp_ts (hr_point r) end).
  { intros K. destruct (J_plain fits ans l0 c l1 out r now true H K) as (X & Y & Z). destruct (plain_rest fits c r K) as (_ & _ & _ & _ & T).
    repeat split; try apply X; congruence. }
  destruct c; cbn in I; try contradiction;
    try (eexists; split; [reflexivity|]; destruct (P Logic.I) as (X & Y & Z); split; [exact X|]; split; [exact Y|exact Z]).
  - eexists. split; [reflexivity|]. cbn [said fst snd]. rewrite app_nil_r. split; [apply J_stamp, J_started, H|]. split; [reflexivity|].
    unfold hstamp, hset_timestamp. cbn [hset_point hset_started hr_point hr_started]. destruct (hp_ts (hr_point r) =? zero_time); [|reflexivity]. cbn [hp_ts]. now destruct (now =? zero_time).
  - eexists. split; [reflexivity|]. cbn [said fst snd]. split; [|split].
    + change ([(FNumber, 1); (FDur, dur)]) with ([(FNumber, 1)] ++ [(FDur, dur)]). rewrite !app_assoc.
      assert (X : J fits ans l0 ((l1 ++ [(FNumber, 1)]) ++ [(FDur, dur)]) out (hrecord fits FDur dur (hrecord fits FNumber 1 (hstamp now r)))) by (do 2 apply J_record; now apply J_stamp).
      apply (J_total _ _ _ _ _ _ now) in X. rewrite !record_started, stamp_started in X. exact X.
    + now rewrite total_started, !record_started.
    + destruct (total_rest fits now (hrecord fits FDur dur (hrecord fits FNumber 1 (hstamp now r)))) as (_ & _ & -> & _).
      destruct (record_rest fits FDur dur (hrecord fits FNumber 1 (hstamp now r))) as (_ & _ & -> & _).
      destruct (record_rest fits FNumber 1 (hstamp now r)) as (_ & _ & -> & _).
      unfold hstamp, hset_timestamp. cbn [hset_point hr_point]. now destruct (hp_ts (hr_point r) =? zero_time).
Qed.
Lemma J_empty fits ans l0 l1 out r g : J fits ans l0 l1 out r -> J fits ans (l0 ++ l1) [] out (hset_point r (hist_millisecond g)).
Proof. intros [H P]. split; [intros f; cbn; now destruct f|]. cbn [hset_point hr_errs]. now rewrite app_nil_r. Qed.
Lemma hirun_ok fits ans : forall xs l0 l1 out r r' o e st, Forall inner (calls xs) -> Forall (fun x => fst x <> zero_time) xs ->
  ~ In (SetTime zero_time) (map snd (calls xs)) ->
  JI fits ans l0 l1 out r -> (st = true -> hp_ts (hr_point r) <> zero_time) -> hirun fits ans xs r = (r', o, e) ->
  exists m0 m1, m0 ++ m1 = l0 ++ l1 ++ reports true (hr_started r) (calls xs) /\ JI fits ans m0 m1 (out ++ o) r' /\
    hr_started r' = began (hr_started r) (calls xs) /\
    (fold_left stamped_since xs st = true -> hp_ts (hr_point r') <> zero_time).
Proof.
  induction xs as [|[now [c|]] xs IH]; intros l0 l1 out r r' o e st I C S [H V] T E; cbn [hirun] in E.
  - injection E as <- <- <-. cbn [calls flat_map reports began fold_left]. rewrite !app_nil_r. exists l0, l1. repeat split; auto; apply H.
  - apply Forall_cons_iff in C as [C1 C]. cbn [fst] in C1.
    cbn [calls flat_map snd fst app] in I, S |- *. fold (calls xs) in *. apply Forall_cons_iff in I as [I1 I]. cbn [map snd In] in S.
    destruct (hicall_ok fits ans l0 l1 out r now c I1 H) as (r1 & E1 & H1 & S1 & T1). unfold hi_step in E. cbn [snd fst] in E. rewrite E1 in E.
    destruct (hirun fits ans xs r1) as [[r2 o2] e2] eqn:E2. injection E as <- <- <-. cbn [app reports began fold_left].
    destruct (IH l0 (l1 ++ fst (said true (hr_started r) now c)) out r1 r2 o2 e2 (stamped_since st (now, Some c)) I C) as (m0 & m1 & M & HI & B & F);
      [tauto|split; auto| |exact E2|].
    { intros K. rewrite T1. unfold stamped_since in K. cbn [snd] in K. destruct c; try (exact (T K)).
      - destruct (hp_ts (hr_point r) =? zero_time) eqn:Z; [exact C1|lia].
      - destruct (hp_ts (hr_point r) =? zero_time) eqn:Z; [destruct (hr_started r =? zero_time) eqn:Z2; [exact C1|lia]|lia].
      - intros ->. tauto. }
    exists m0, m1. destruct (said true (hr_started r) now c) as [mm s] eqn:Em. cbn [fst snd] in *. rewrite S1 in *.
    split; [rewrite M, <- !app_assoc; reflexivity|]. split; [exact HI|]. split; [exact B|exact F].
  - apply Forall_cons_iff in C as [C1 C]. cbn [calls flat_map snd fst app] in I, S |- *. fold (calls xs) in *.
    unfold hi_step in E. cbn [snd fst hinterval_tick] in E. unfold hinterval_tick in E.
    set (r1 := hpersist ans (hstamp now r)) in *.
    destruct (hirun fits ans xs (hset_point r1 (hist_millisecond (hp_g (hr_point r1))))) as [[r2 o2] e2] eqn:E2. injection E as <- <- <-. cbn [fold_left].
    assert (H1 : J fits ans l0 l1 (out ++ [hr_point r1]) r1) by (apply (J_persist fits ans l0 l1 out (hstamp now r)), J_stamp, H).
    destruct (IH (l0 ++ l1) [] (out ++ [hr_point r1]) (hset_point r1 (hist_millisecond (hp_g (hr_point r1)))) r2 o2 e2 false I C S) as (m0 & m1 & M & HI & B & F).
    + split; [now apply J_empty|]. intros f. unfold values_of in *. rewrite flat_map_app. cbn [flat_map]. rewrite app_nil_r, V, accepted_app.
      f_equal. destruct H1 as [H1 _]. now rewrite H1.
    + discriminate.
    + exact E2.
    + exists m0, m1. cbn [hset_point hr_started] in *. split; [rewrite M, <- app_assoc; reflexivity|]. rewrite <- app_assoc in HI. split; [exact HI|]. split; [exact B|exact F].
Qed.
(* C98 for the interval histogram recorder: every value reported and not refused is in exactly one
   of the points handed over by the worker and by EndTest, in order, if the last point has a time. *)
Theorem C98_interval : forall fits ans g xs now r r' out errs, fresh g r -> Forall inner (calls xs) ->
  Forall (fun x => fst x <> zero_time) xs -> ~ In (SetTime zero_time) (map snd (calls xs)) -> fold_left stamped_since xs false = true ->
  hirun fits ans (xs ++ [(now, Some EndTest)]) r = (r', out, errs) ->
  let l := reports true zero_time (calls xs) ++ at_end (began zero_time (calls xs)) now in
  (forall f, values_of f out = accepted fits l f) /\ Permutation errs (complaints fits ans l out) /\ exists g', fresh g' r'.
Proof.
  intros fits ans g xs now r r' out errs Fr I C S St E l. destruct (hirun fits ans xs r) as [[r1 o1] e1] eqn:E1.
  destruct (hirun_ok fits ans xs [] [] [] r r1 o1 e1 false I C S) as (m0 & m1 & M & [H V] & B & F);
    [split; [apply (J_fresh fits ans g), Fr|reflexivity]|discriminate|exact E1|].
  destruct Fr as (F1 & F2 & F3). rewrite F1 in *. cbn [app] in *. specialize (F St).
  set (r2 := if hr_started r1 =? zero_time then r1 else hset_started (htotal fits now r1) zero_time).
  assert (H2 : J fits ans m0 (m1 ++ at_end (hr_started r1) now) o1 r2).
  { subst r2. apply (J_total _ _ _ _ _ _ now) in H. unfold htotal in *. now destruct (hr_started r1 =? zero_time). }
  assert (T2 : hp_ts (hr_point r2) =? zero_time = false).
  { subst r2. destruct (total_rest fits now r1) as (_ & _ & T & _). destruct (hr_started r1 =? zero_time); [lia|]. cbn [hset_started hr_point]. lia. }
  assert (E2 : hi_step fits ans (now, Some EndTest) r1 = (hreset (hr_last r2) (hpersist ans r2), [hr_point r2], hr_errs (hpersist ans r2))).
  { unfold hi_step. cbn [snd fst hinterval_call]. fold r2. unfold hend_test. now rewrite T2. }
  rewrite (hirun_snoc _ _ _ _ _ _ _ _ _ _ _ E1 E2) in E. injection E as <- <- <-.
  assert (L : m0 ++ m1 ++ at_end (hr_started r1) now = l) by (subst l; rewrite app_assoc, M, B; reflexivity).
  split; [|split].
  - intros f. unfold values_of in *. rewrite flat_map_app. cbn [flat_map]. rewrite app_nil_r, V. destruct H2 as [H2 _]. rewrite H2. cbn [h_vals].
    now rewrite <- accepted_app, L.
  - apply J_persist in H2 as [_ P]. now rewrite L in P.
  - eexists. repeat split.
Qed.
Print Assumptions C98_interval.
(* One iteration, two totals: EndTest reports the time since the iteration began once more. *)
Theorem C98_interval_total_refuted : forall fits ans g r t0 t1 t2 d, fresh g r -> t0 <> zero_time -> t1 <> zero_time -> t0 <= t1 -> t1 < t2 ->
  is_i64 (t2 - t0) -> fits 1000 60000000000 (t1 - t0) = true -> fits 1000 60000000000 (t2 - t0) = true ->
  exists r' p errs, hirun fits ans [(t0, Some BeginIteration); (t1, Some (EndIteration d)); (t2, Some EndTest)] r = (r', [p], errs) /\
    h_vals (hp_h p FTotal) = [t1 - t0; t2 - t0].
Proof.
  intros fits ans g r t0 t1 t2 d Fr N0 N1 L1 L2 Is Fi1 Fi2. destruct (hirun fits ans ([(t0, Some BeginIteration); (t1, Some (EndIteration d))] ++ [(t2, Some EndTest)]) r) as [[r' out] errs] eqn:E.
  assert (O : exists p, out = [p]).
  { cbn [app hirun] in E. unfold hi_step in E. cbn [snd fst hinterval_call] in E.
    set (ra := htotal fits t1 _) in E. set (rb := if hr_started ra =? zero_time then ra else _) in E.
    assert (T : hp_ts (hr_point rb) =? zero_time = false).
    { assert (Ta : hp_ts (hr_point ra) = t0).
      { subst ra. destruct (total_rest fits t1 (hrecord fits FDur d (hrecord fits FNumber 1 (hstamp t1 (hstamp t0 (hset_started r t0)))))) as (_ & _ & -> & _).
        destruct (record_rest fits FDur d (hrecord fits FNumber 1 (hstamp t1 (hstamp t0 (hset_started r t0))))) as (_ & _ & -> & _).
        destruct (record_rest fits FNumber 1 (hstamp t1 (hstamp t0 (hset_started r t0)))) as (_ & _ & -> & _).
        destruct Fr as (_ & _ & Fp). unfold hstamp, hset_timestamp. cbn [hset_point hset_started hr_point hr_started]. rewrite Fp. cbn [hist_millisecond hp_ts].
        change (zero_time =? zero_time) with true. cbn [hp_ts]. replace (t0 =? zero_time) with false by lia. cbn [hp_ts]. now replace (t0 =? zero_time) with false by lia. }
      subst rb. destruct (total_rest fits t2 ra) as (_ & _ & Tb & _). destruct (hr_started ra =? zero_time); [lia|]. cbn [hset_started hr_point]. lia. }
    unfold hend_test in E. rewrite T in E. injection E as <- <- <-. eauto. }
  destruct O as (p & ->).
  destruct (C98_interval fits ans g [(t0, Some BeginIteration); (t1, Some (EndIteration d))] t2 r r' [p] errs Fr) as (V & _); [| | |reflexivity|exact E|].
  - constructor; [exact Logic.I|constructor; [exact Logic.I|constructor]].
  - constructor; [exact N0|constructor; [exact N1|constructor]].
  - cbn. intros [X|[X|[]]]; discriminate.
  - exists r', p, errs. split; [exact E|]. specialize (V FTotal). unfold values_of in V. cbn [flat_map] in V. rewrite app_nil_r in V. rewrite V.
    cbn [calls flat_map snd fst app reports said began]. unfold at_end. replace (t0 =? zero_time) with false by lia. unfold is_i64 in Is.
    rewrite !Z.max_r by lia. rewrite !Z.min_r by lia.
    rewrite !app_nil_r. cbn [app]. change ([(FNumber, 1); (FDur, d); (FTotal, t1 - t0); (FTotal, t2 - t0)]) with ([(FNumber, 1)] ++ [(FDur, d)] ++ [(FTotal, t1 - t0)] ++ [(FTotal, t2 - t0)]).
    rewrite !accepted_app, !accepted_one. unfold roomy. cbn [timer fst snd fld_eqb]. rewrite Fi1, Fi2, !andb_false_r. reflexivity.
Qed.
Print Assumptions C98_interval_total_refuted.
(* What is reported after a tick is dropped by EndTest unless an iteration begins or ends. *)
Theorem C98_interval_refuted : forall fits ans g xs t seg now r, fresh g r -> Forall inner (calls xs) ->
  Forall (fun x => fst x <> zero_time) xs -> ~ In (SetTime zero_time) (map snd (calls xs)) -> t <> zero_time -> Forall untimed seg ->
  exists r1 out r2 errs, hirun fits ans (xs ++ [(t, None)]) r = (r1, out, []) /\
    hirun fits ans (xs ++ (t, None) :: map (fun x => (fst x, Some (snd x))) seg ++ [(now, Some EndTest)]) r = (r2, out, errs).
Proof.
  intros fits ans g xs t seg now r Fr I C S Nt U.
  destruct (hirun fits ans xs r) as [[r0 o0] e0] eqn:E0.
  destruct (hi_step fits ans (t, None) r0) as [[r1 o1] e1] eqn:E1. pose proof (hirun_snoc _ _ _ _ _ _ _ _ _ _ _ E0 E1) as E.
  assert (X : e1 = [] /\ hp_ts (hr_point r1) = zero_time) by (unfold hi_step in E1; cbn in E1; injection E1 as <- <- <-; auto).
  destruct X as [-> T1].
  assert (G : forall seg xs r r1 o1 e1, Forall untimed seg -> hirun fits ans xs r = (r1, o1, e1) -> hp_ts (hr_point r1) = zero_time ->
    exists r2 errs, hirun fits ans (xs ++ map (fun x => (fst x, Some (snd x))) seg ++ [(now, Some EndTest)]) r = (r2, o1, errs)).
  { clear. induction seg as [|[n c] seg IH]; intros xs r r1 o1 e1 U E T; cbn [map app].
    - set (r2 := if hr_started r1 =? zero_time then r1 else hset_started (htotal fits now r1) zero_time).
      assert (T2 : hp_ts (hr_point r2) =? zero_time = true).
      { subst r2. destruct (total_rest fits now r1) as (_ & _ & Tt & _). destruct (hr_started r1 =? zero_time); [lia|]. cbn [hset_started hr_point]. lia. }
      assert (E2 : hi_step fits ans (now, Some EndTest) r1 = (hreset (hr_last r2) r2, [], hr_errs r2)).
      { unfold hi_step. cbn [snd fst hinterval_call]. fold r2. unfold hend_test. now rewrite T2. }
      pose proof (hirun_snoc _ _ _ _ _ _ _ _ _ _ _ E E2) as F. rewrite app_nil_r in F. eauto.
    - apply Forall_cons_iff in U as [U1 U]. cbn [fst snd].
      assert (Ec : hi_step fits ans (n, Some c) r1 = (hplain fits c r1, [], [])) by (destruct c; cbn in U1; try contradiction; reflexivity).
      pose proof (hirun_snoc _ _ _ _ _ _ _ _ _ _ _ E Ec) as F. rewrite app_nil_r in F.
      destruct (IH (xs ++ [(n, Some c)]) r _ _ _ U F) as (r2 & errs & X).
      { destruct (plain_rest fits c r1) as (_ & _ & _ & _ & Y); [destruct c; cbn in U1; tauto|]. rewrite Y. destruct c; cbn in U1; tauto. }
      rewrite <- app_assoc in X. cbn [app] in X. eauto. }
  destruct (G seg _ _ _ _ _ U E T1) as (r2 & errs & X). rewrite <- app_assoc in X. cbn [app] in X.
  exists r1, (o0 ++ o1), r2, errs. split; [exact E|exact X].
Qed.
Print Assumptions C98_interval_refuted.

(* ----------------------------------------------------------------------------- its document *)

Definition hist_fields (counts : hist -> list Z) (h : hist) : list (bytes * bval) :=
  [(str "lowest", BInt64 (h_low h)); (str "highest", BInt64 (h_high h)); (str "figures", BInt64 5);
   (str "counts", BArray (map BInt64 (counts h)))].
(* as MarshalDocument announces it; times have milliseconds *)
Definition hperf_fields (counts : hist -> list Z) (p : hperf) : list (bytes * bval) :=
  [(str "ts", BDateTime (hp_ts p / 1000000)); (str "id", BInt64 (hp_id p));
   (str "counters", BDoc [(str "n", BDoc (hist_fields counts (hp_h p FNumber))); (str "ops", BDoc (hist_fields counts (hp_h p FOps)));
                          (str "size", BDoc (hist_fields counts (hp_h p FSize))); (str "errors", BDoc (hist_fields counts (hp_h p FErrors)))]);
   (str "timers", BDoc [(str "dur", BDoc (hist_fields counts (hp_h p FDur))); (str "total", BDoc (hist_fields counts (hp_h p FTotal)))]);
   (str "gauges", BDoc [(str "state", BInt64 (g_state (hp_g p))); (str "workers", BInt64 (g_workers (hp_g p)));
                        (str "failed", BBool (g_failed (hp_g p)))])].
Lemma build_counts l : mapM (fun x => v <- ec_int64 [] x ;; Ret (Some v)) l = build_arr (map BInt64 l).
Proof.
  induction l as [|x l IH]; cbn [mapM map build_arr build]; [reflexivity|]. rewrite <- IH. destruct (ec_int64 [] x); reflexivity.
Qed.
Lemma build_hist counts key h : ec_hist counts key h = build key (BDoc (hist_fields counts h)).
Proof.
  rewrite build_BDoc. unfold ec_hist, hist_document, hist_fields, slice_of. cbn [build_doc]. rewrite build_BArray, build_counts. cbn [build].
  repeat match goal with |- context [ec_int64 ?a ?b] => destruct (ec_int64 a b); cbn [bind]; try reflexivity end.
  destruct (build_arr (map BInt64 (counts h))) as [es| |]; cbn [bind]; try reflexivity.
  all: try (destruct (ec_array (str "counts") es); reflexivity).
Qed.
Theorem C98_document : forall counts p, is_i64 (hp_ts p / 1000000) -> wf_fields (hperf_fields counts p) -> small (hperf_fields counts p) ->
  exists d, hperf_document counts p = Ret d /\ build_doc (hperf_fields counts p) = Ret d.
Proof.
  intros counts p Ht W S. destruct (build_doc_rep (hperf_fields counts p) W S) as (d & B & _). exists d. split; [|exact B].
  rewrite <- B. unfold hperf_document, hperf_fields. rewrite !build_hist. cbn [build_doc]. unfold ec_time.
  assert (E : i64 (i64 (hp_ts p / 1000000000 * 1000) + hp_ts p mod 1000000000 / 1000000) = hp_ts p / 1000000).
  { assert (A : hp_ts p / 1000000000 * 1000 + hp_ts p mod 1000000000 / 1000000 = hp_ts p / 1000000) by lia.
    unfold is_i64, i64 in *. lia. }
  rewrite E. rewrite !(build_BDoc (str "counters")), !(build_BDoc (str "timers")), !(build_BDoc (str "gauges")). cbn [build_doc].
  change (build (str "ts") (BDateTime (hp_ts p / 1000000))) with (ec_datetime (str "ts") (hp_ts p / 1000000)).
  destruct (ec_datetime _ _); cbn [bind]; try reflexivity. change (build (str "id") (BInt64 (hp_id p))) with (ec_int64 (str "id") (hp_id p)).
  destruct (ec_int64 _ (hp_id p)); cbn [bind]; try reflexivity.
  repeat match goal with |- context [build ?k (BDoc (hist_fields counts ?h))] => destruct (build k (BDoc (hist_fields counts h))); cbn [bind]; try reflexivity end.
  all: try reflexivity.
Qed.
Print Assumptions C98_document.

(* a histogram that takes values up to 262143, as hdrhist with five figures does *)
Definition some_fits (lo hi v : Z) : bool := (0 <=? v) && (v <? Z.max hi 262144).
Example C98_used : let cs := [(5, BeginIteration); (6, IncSize 500000); (7, SetWorkers 3); (8, EndIteration 2000); (9, IncOperations 4); (10, BeginIteration);
    (12, EndIteration 3000)] in
  fresh no_gauges new_hrec /\ (forall i, fresh no_gauges (new_hgrouped_rec i)) /\ Forall inner cs /\ dated cs /\
  exists r p q s errs, hrun (hcall HStream some_fits (fun _ => None)) (cs ++ [(20, EndTest)]) new_hrec = (r, [p; q; s], errs) /\
    h_vals (hp_h p FDur) = [2000] /\ h_vals (hp_h s FDur) = [2000; 3000] /\ h_vals (hp_h s FTotal) = [3; 2] /\ h_vals (hp_h s FSize) = [] /\
    hp_ts p = 5 /\ hp_ts q = 5 /\ g_workers (hp_g s) = 3 /\ errs = [EOther 640].
Proof.
  cbv zeta. split; [repeat split|]. split; [repeat split|]. split; [repeat constructor|]. split.
  - split; [repeat constructor; discriminate|]. split; [cbn; intuition discriminate|]. left. exact Logic.I.
  - do 5 eexists. split; [vm_compute; reflexivity|]. repeat split.
Qed.
Example C98_interval_used : let xs := [(5, Some BeginIteration); (6, Some (IncOperations 4)); (7, None); (8, Some (EndIteration 2000))] in
  Forall inner (calls xs) /\ Forall (fun x => fst x <> zero_time) xs /\ fold_left stamped_since xs false = true /\
  exists r p q errs, hirun some_fits (fun _ => None) (xs ++ [(20, Some EndTest)]) new_hrec = (r, [p; q], errs) /\
    h_vals (hp_h p FOps) = [4] /\ h_vals (hp_h q FOps) = [] /\ h_vals (hp_h q FTotal) = [3; 15].
Proof.
  cbv zeta. split; [repeat constructor|]. split; [repeat constructor; discriminate|]. split; [reflexivity|].
  do 4 eexists. split; [vm_compute; reflexivity|]. repeat split.
Qed.
Example C98_document_used : let p := MkHP 1500000000000000000 3 milli_hist no_gauges in
  is_i64 (hp_ts p / 1000000) /\ wf_fields (hperf_fields (fun _ => [0; 2; 1]) p) /\ small (hperf_fields (fun _ => [0; 2; 1]) p).
Proof.
  cbv zeta. split; [vm_compute; split; [discriminate|reflexivity]|]. split; [|vm_compute; reflexivity].
  apply (proj1 (wf_doc _)). vm_compute. repeat constructor; discriminate.
Qed.
