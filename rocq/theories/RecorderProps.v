(* Properties of the recorders of performance points: C73 to C75. *)
Require Import ZArith List Bool Lia ZifyBool ZifyNat.
From Verif Require Import Base Events EventsProps.
Import List ListNotations.
Open Scope Z_scope.

(* ------------------------------------------------ C73: EndTest persists what was recorded *)

(* A recorder at work: every call with the instant at which it runs.  What comes out are the
   points given to the collector and the errors of the last call. *)
Section Run.
Variable call : Z -> rcall -> recorder -> recorded.
Fixpoint run (cs : list (Z * rcall)) (r : recorder) : recorded :=
  match cs with
  | [] => (r, [], [])
  | (now, c) :: cs =>
      let '(r1, out1, errs1) := call now c r in
      let '(r2, out2, errs2) := run cs r1 in
      (r2, out1 ++ out2, match cs with [] => errs1 | _ => errs2 end)
  end.
End Run.

(* What a call adds to each of the counters: iterations, operations, size, errors.  counts
   says whether the end of an iteration counts as one. *)
Record amount := MkAmt { a_number : Z; a_ops : Z; a_size : Z; a_errors : Z }.
Definition zero_amount := MkAmt 0 0 0 0.
Definition plus (a b : amount) : amount :=
  MkAmt (a_number a + a_number b) (a_ops a + a_ops b) (a_size a + a_size b) (a_errors a + a_errors b).
Definition adds (counts : bool) (c : rcall) : amount :=
  match c with
  | IncIterations v => MkAmt v 0 0 0
  | IncOperations v => MkAmt 0 v 0 0
  | IncSize v => MkAmt 0 0 v 0
  | IncError v => MkAmt 0 0 0 v
  | EndIteration _ => MkAmt (if counts then 1 else 0) 0 0 0
  | _ => zero_amount
  end.
Definition all_adds (counts : bool) (cs : list (Z * rcall)) : amount := fold_right plus zero_amount (map (fun x => adds counts (snd x)) cs).
(* the counters of a point are what was added, wrapped to 64 bits *)
Definition has (a : amount) (p : perf) : Prop :=
  c_number (p_c p) = i64 (a_number a) /\ c_ops (p_c p) = i64 (a_ops a) /\ c_size (p_c p) = i64 (a_size a) /\ c_errors (p_c p) = i64 (a_errors a).
(* calls within a test *)
Definition inner (x : Z * rcall) : Prop := match snd x with EndTest | Reset => False | _ => True end.
(* the point of a recorder just after a test *)
Definition clean (r : recorder) : Prop := r_errs r = [] /\ exists g, r_point r = fresh_point g.

Lemma has_plus a p c n o s e : has a p ->
  c_number (p_c c) = i64 (c_number (p_c p) + n) -> c_ops (p_c c) = i64 (c_ops (p_c p) + o) ->
  c_size (p_c c) = i64 (c_size (p_c p) + s) -> c_errors (p_c c) = i64 (c_errors (p_c p) + e) -> has (plus a (MkAmt n o s e)) c.
Proof. intros (H1 & H2 & H3 & H4) E1 E2 E3 E4. unfold has. rewrite E1, E2, E3, E4, H1, H2, H3, H4, !i64_add. repeat split. Qed.
Lemma has_same a p c : has a p -> p_c c = p_c p -> has (plus a zero_amount) c.
Proof. intros H E. unfold has in *. rewrite E. cbn. rewrite !Z.add_0_r. exact H. Qed.
Lemma has_clean r : clean r -> has zero_amount (r_point r).
Proof. intros (_ & g & ->). repeat split. Qed.
Lemma i64_keep a : i64 (i64 a + 0) = i64 a.
Proof. rewrite i64_add, Z.add_0_r. reflexivity. Qed.

(* a method that keeps the count: what every recorder's methods do within a test *)
Definition counting (counts : bool) (call : Z -> rcall -> recorder -> recorded) : Prop :=
  forall now c r r' out errs a, inner (now, c) -> has a (r_point r) -> call now c r = (r', out, errs) -> has (plus a (adds counts c)) (r_point r').
Lemma set_timestamp_c a b p : p_c (set_timestamp a b p) = p_c p.
Proof. unfold set_timestamp. now destruct (_ =? _). Qed.
Lemma add_elapsed_c a b p : p_c (add_elapsed a b p) = p_c p.
Proof. unfold add_elapsed. now destruct (_ =? _). Qed.
Ltac keepc H := destruct H as (? & ? & ? & ?); match goal with E : ?x = i64 _ |- ?x = _ => rewrite E; symmetry; apply i64_keep end.
Ltac counted H := eapply has_plus; [exact H|..]; cbn; rewrite ?add_elapsed_c, ?set_timestamp_c; cbn; rewrite ?add_elapsed_c, ?set_timestamp_c; cbn;
  try reflexivity; keepc H.
Ltac samec H := eapply has_same; [exact H|]; cbn; rewrite ?add_elapsed_c, ?set_timestamp_c; cbn; rewrite ?add_elapsed_c, ?set_timestamp_c; reflexivity.

Lemma single_counting ans : counting true (single_call ans).
Proof.
  intros now c r r' out errs a I H E. destruct c; cbn in I; try easy; cbn in E; injection E as <- _ _; cbn [r_point set_point plain adds];
    first [samec H|counted H].
Qed.
Lemma raw_counting ans : counting true (raw_call ans).
Proof.
  intros now c r r' out errs a I H E. destruct c; cbn in I; try easy; cbn in E; injection E as <- _ _; cbn [r_point set_point plain adds];
    first [samec H|counted H].
Qed.
Lemma grouped_counting ans interval : counting true (fun now => grouped_call ans now interval).
Proof.
  intros now c r r' out errs a I H E. destruct c; cbn in I; try easy; cbn in E;
    try destruct (interval <=? since now (r_last r)); injection E as <- _ _; cbn [r_point set_point plain adds];
    first [samec H|counted H].
Qed.
Lemma interval_counting ans : counting false (interval_call ans).
Proof.
  intros now c r r' out errs a I H E. destruct c; cbn in I; try easy; cbn in E; injection E as <- _ _; cbn [r_point set_point plain adds];
    first [samec H|counted H].
Qed.
Lemma run_snoc call cs now c r r1 out1 errs1 r2 out2 errs2 : run call cs r = (r1, out1, errs1) -> call now c r1 = (r2, out2, errs2) ->
  run call (cs ++ [(now, c)]) r = (r2, out1 ++ out2, errs2).
Proof.
  revert r r1 out1 errs1. induction cs as [|[now' c'] cs IH]; intros r r1 out1 errs1 E1 E2; cbn in E1 |- *.
  - injection E1 as <- <- _. rewrite E2, app_nil_r. reflexivity.
  - destruct (call now' c' r) as [[ra oa] ea]. destruct (run call cs ra) as [[rb ob] eb] eqn:B. injection E1 as <- <- _.
    rewrite (IH _ _ _ _ B E2), app_assoc. now destruct cs.
Qed.
Lemma plus_assoc a b c : plus a (plus b c) = plus (plus a b) c.
Proof. unfold plus. cbn. f_equal; lia. Qed.
Lemma run_counting counts call cs r r' out errs a : counting counts call -> Forall inner cs -> has a (r_point r) ->
  run call cs r = (r', out, errs) -> has (plus a (all_adds counts cs)) (r_point r').
Proof.
  intros C. revert r r' out errs a. induction cs as [|[now c] cs IH]; intros r r' out errs a I H E; cbn in E.
  - injection E as <- _ _. destruct a as [x y z w]. unfold plus. cbn. rewrite !Z.add_0_r. exact H.
  - destruct (call now c r) as [[ra oa] ea] eqn:Ea. destruct (run call cs ra) as [[rb ob] eb] eqn:B. injection E as <- _ _.
    inversion I as [|? ? I1 I2]; subst. unfold all_adds. cbn [map fold_right snd]. rewrite plus_assoc. eapply IH; eauto.
Qed.
Lemma plus_zero a : plus zero_amount a = a.
Proof. destruct a. reflexivity. Qed.

(* C73.  The single recorder: EndTest persists one point, with all that was recorded since
   the last EndTest or Reset, reports what the collector answers, and starts afresh. *)
Theorem C73_single ans cs now r r' out errs : clean r -> Forall inner cs ->
  run (single_call ans) (cs ++ [(now, EndTest)]) r = (r', out, errs) ->
  exists p, out = [p] /\ has (all_adds true cs) p /\ errs = match ans p with Some e => [e] | None => [] end /\ clean r'.
Proof.
  intros C I E. destruct (run (single_call ans) cs r) as [[r1 o1] e1] eqn:E1.
  rewrite (run_snoc _ _ now EndTest _ _ _ _ _ _ _ E1 eq_refl) in E. injection E as <- <- <-.
  pose proof (run_counting _ _ _ _ _ _ _ _ (single_counting ans) I (has_clean _ C) E1) as H. rewrite plus_zero in H.
  assert (O1 : o1 = [] /\ r_errs r1 = r_errs r).
  { clear - E1 I. revert r r1 o1 e1 E1. induction cs as [|[t c] cs IH]; intros r r1 o1 e1 E1; cbn in E1; [injection E1 as <- <- _; auto|].
    inversion I as [|? ? I1 I2]; subst. specialize (IH I2).
    destruct (single_call ans t c r) as [[ra oa] ea] eqn:Ea. destruct (run (single_call ans) cs ra) as [[rb ob] eb] eqn:B.
    injection E1 as <- <- <-. destruct (IH _ _ _ _ B) as [-> ->]. rewrite app_nil_r.
    destruct c; cbn in I1; try easy; cbn in Ea; injection Ea as <- <- _; auto. }
  destruct O1 as [-> O1]. cbn [app]. eexists. split; [reflexivity|].
  split; [unfold has in *; rewrite set_timestamp_c; exact H|]. split; [reflexivity|]. destruct C as [C _]. split; [cbn; congruence|eexists; reflexivity].
Qed.
Print Assumptions C73_single.

(* Whether the calls leave the point with a time: ends says what the end of an iteration does. *)
Definition stamp (ends : bool) (st : bool) (x : Z * rcall) : bool :=
  match snd x with
  | BeginIteration => true
  | SetTime t => negb (t =? zero_time)
  | EndIteration _ => ends
  | _ => st
  end.
Definition stamped (ends : bool) (cs : list (Z * rcall)) : bool := fold_left (stamp ends) cs false.
(* the clock never shows the zero time *)
Definition clocked (cs : list (Z * rcall)) : Prop := Forall (fun x => fst x <> zero_time) cs.
(* the errors the collector answers to the points *)
Definition answers (ans : perf -> option gerr) (ps : list perf) : list gerr :=
  flat_map (fun p => match ans p with Some e => [e] | None => [] end) ps.

Definition stamping (ends : bool) (call : Z -> rcall -> recorder -> recorded) : Prop :=
  forall now c r r' out errs st, now <> zero_time -> inner (now, c) -> (st = true -> p_ts (r_point r) <> zero_time) ->
    call now c r = (r', out, errs) -> stamp ends st (now, c) = true -> p_ts (r_point r') <> zero_time.
Definition erring ans (call : Z -> rcall -> recorder -> recorded) : Prop :=
  forall now c r r' out errs, inner (now, c) -> call now c r = (r', out, errs) -> r_errs r' = r_errs r ++ answers ans out.
Lemma set_timestamp_set started now p : now <> zero_time -> p_ts (set_timestamp started now p) <> zero_time.
Proof.
  intros N. unfold set_timestamp. destruct (p_ts p =? zero_time) eqn:E; cbn; [|lia]. destruct (started =? zero_time) eqn:E'; lia.
Qed.
Lemma add_elapsed_ts a b p : p_ts (add_elapsed a b p) = p_ts p.
Proof. unfold add_elapsed. now destruct (_ =? _). Qed.
Lemma note_answers ans l p : note l (ans p) = l ++ answers ans [p].
Proof. unfold answers. cbn. destruct (ans p); cbn; now rewrite ?app_nil_r. Qed.
Lemma answers_nil ans : answers ans [] = [].
Proof. reflexivity. Qed.
Lemma answers_app ans a b : answers ans (a ++ b) = answers ans a ++ answers ans b.
Proof. apply flat_map_app. Qed.
Ltac stampit := cbn; rewrite ?add_elapsed_ts; cbn; auto using set_timestamp_set.
Lemma raw_stamping ans : stamping true (raw_call ans).
Proof.
  intros now c r r' out errs st N I H E S. destruct c; cbn in I; try easy; cbn in E; injection E as <- _ _; cbn in S; stampit; try (now apply H).
  destruct (t =? zero_time) eqn:D; [easy|lia].
Qed.
Lemma grouped_stamping ans interval : stamping false (fun now => grouped_call ans now interval).
Proof.
  intros now c r r' out errs st N I H E S. destruct c; cbn in I; try easy; cbn in E; try discriminate S; injection E as <- _ _; cbn in S; stampit; try (now apply H).
  destruct (t =? zero_time) eqn:D; [easy|lia].
Qed.
Lemma interval_stamping ans : stamping true (interval_call ans).
Proof.
  intros now c r r' out errs st N I H E S. destruct c; cbn in I; try easy; cbn in E; injection E as <- _ _; cbn in S; stampit; try (now apply H).
  destruct (t =? zero_time) eqn:D; [easy|lia].
Qed.
Lemma raw_erring ans : erring ans (raw_call ans).
Proof.
  intros now c r r' out errs I E. destruct c; cbn in I; try easy; cbn in E; injection E as <- <- _; cbn [r_errs set_point];
    now rewrite ?note_answers, ?answers_nil, ?app_nil_r.
Qed.
Lemma grouped_erring ans interval : erring ans (fun now => grouped_call ans now interval).
Proof.
  intros now c r r' out errs I E. destruct c; cbn in I; try easy; cbn in E; try destruct (interval <=? since now (r_last r));
    injection E as <- <- _; cbn [r_errs set_point]; now rewrite ?note_answers, ?answers_nil, ?app_nil_r.
Qed.
Lemma interval_erring ans : erring ans (interval_call ans).
Proof.
  intros now c r r' out errs I E. destruct c; cbn in I; try easy; cbn in E; injection E as <- <- _; cbn [r_errs set_point];
    now rewrite ?note_answers, ?answers_nil, ?app_nil_r.
Qed.
Lemma run_erring ans call cs r r' out errs : erring ans call -> Forall inner cs -> run call cs r = (r', out, errs) -> r_errs r' = r_errs r ++ answers ans out.
Proof.
  intros C. revert r r' out errs. induction cs as [|[now c] cs IH]; intros r r' out errs I E; cbn in E.
  - injection E as <- <- _. now rewrite app_nil_r.
  - destruct (call now c r) as [[ra oa] ea] eqn:Ea. destruct (run call cs ra) as [[rb ob] eb] eqn:B. injection E as <- <- _.
    inversion I as [|? ? I1 I2]; subst. rewrite (IH _ _ _ _ I2 B), (C _ _ _ _ _ _ I1 Ea), answers_app, app_assoc. reflexivity.
Qed.
Lemma run_stamping ends call cs r r' out errs st : stamping ends call -> clocked cs -> Forall inner cs ->
  (st = true -> p_ts (r_point r) <> zero_time) -> run call cs r = (r', out, errs) ->
  fold_left (stamp ends) cs st = true -> p_ts (r_point r') <> zero_time.
Proof.
  intros C. revert r r' out errs st. induction cs as [|[now c] cs IH]; intros r r' out errs st K I H E S; cbn in E, S.
  - injection E as <- _ _. auto.
  - destruct (call now c r) as [[ra oa] ea] eqn:Ea. destruct (run call cs ra) as [[rb ob] eb] eqn:B. injection E as <- <- _.
    inversion I as [|? ? I1 I2]; subst. inversion K as [|? ? K1 K2]; subst. refine (IH _ _ _ _ _ K2 I2 _ B S).
    intros S'. exact (C _ _ _ _ _ _ _ K1 I1 H Ea S').
Qed.

(* the three recorders, with what their EndTest has in common *)
Inductive kind3 := KRaw | KGrouped (interval : Z) | KInterval.
Definition call3 (k : kind3) (ans : perf -> option gerr) : Z -> rcall -> recorder -> recorded :=
  match k with
  | KRaw => raw_call ans
  | KGrouped interval => fun now => grouped_call ans now interval
  | KInterval => interval_call ans
  end.
(* whether the end of an iteration stamps the point, and whether it is counted *)
Definition ends3 (k : kind3) : bool := match k with KGrouped _ => false | _ => true end.
Definition counts3 (k : kind3) : bool := match k with KInterval => false | _ => true end.

(* C73, for the raw, grouped and interval recorders (the latter between two ticks): if the
   calls leave the point with a time, EndTest persists a point with all that was recorded.
   Missing: calls that do not, and the end of an iteration of the interval recorder is not
   counted.  In any case EndTest reports all the errors of the collector since the last one,
   and the recorder starts afresh. *)
Theorem C73_partial k ans cs now r r' out errs : clean r -> Forall inner cs -> clocked cs ->
  run (call3 k ans) (cs ++ [(now, EndTest)]) r = (r', out, errs) ->
  clean r' /\ errs = answers ans out /\
  (stamped (ends3 k) cs = true -> exists before p, out = before ++ [p] /\ has (all_adds (counts3 k) cs) p).
Proof.
  intros C I K E. destruct (run (call3 k ans) cs r) as [[r1 o1] e1] eqn:E1.
  assert (C3 : counting (counts3 k) (call3 k ans)) by (destruct k; [apply raw_counting|apply grouped_counting|apply interval_counting]).
  assert (S3 : stamping (ends3 k) (call3 k ans)) by (destruct k; [apply raw_stamping|apply grouped_stamping|apply interval_stamping]).
  assert (R3 : erring ans (call3 k ans)) by (destruct k; [apply raw_erring|apply grouped_erring|apply interval_erring]).
  pose proof (run_counting _ _ _ _ _ _ _ _ C3 I (has_clean _ C) E1) as H. rewrite plus_zero in H.
  pose proof (run_erring _ _ _ _ _ _ _ R3 I E1) as R. destruct C as (C1 & g & C2). rewrite C1 in R. cbn in R.
  assert (S : stamped (ends3 k) cs = true -> p_ts (r_point r1) <> zero_time)
    by (intros S; eapply run_stamping; [exact S3|exact K|exact I| |exact E1|exact S]; discriminate).
  assert (T : exists reset, call3 k ans now EndTest r1 = end_test ans r1 reset /\ forall x, clean (reset x)).
  { destruct k; eexists; (split; [reflexivity|]); intros x; (split; [reflexivity|eexists; reflexivity]). }
  destruct T as (reset & T & Cl). destruct (end_test ans r1 reset) as [[r2 o2] e2] eqn:E2.
  rewrite (run_snoc _ _ now EndTest _ _ _ _ _ _ _ E1 T) in E. injection E as <- <- <-. unfold end_test in E2.
  destruct (p_ts (r_point r1) =? zero_time) eqn:D; injection E2 as <- <- <-.
  - rewrite app_nil_r. split; [apply Cl|]. split; [exact R|]. intros S'. specialize (S S'). lia.
  - split; [apply Cl|]. split; [now rewrite note_answers, answers_app, R|]. intros _. exists o1, (r_point r1). auto.
Qed.
Print Assumptions C73_partial.

(* calls that record something but give the point no time *)
Definition untimed (x : Z * rcall) : Prop :=
  match snd x with BeginIteration | EndIteration _ | SetTime _ | EndTest | Reset => False | _ => True end.
Lemma run_untimed k ans cs r r' out errs : Forall untimed cs -> run (call3 k ans) cs r = (r', out, errs) ->
  out = [] /\ p_ts (r_point r') = p_ts (r_point r) /\ r_errs r' = r_errs r.
Proof.
  intros U. revert r r' out errs. induction cs as [|[now c] cs IH]; intros r r' out errs E; cbn in E.
  - injection E as <- <- _. auto.
  - destruct (call3 k ans now c r) as [[ra oa] ea] eqn:Ea. destruct (run (call3 k ans) cs ra) as [[rb ob] eb] eqn:B. injection E as <- <- _.
    inversion U as [|? ? U1 U2]; subst. destruct (IH U2 _ _ _ _ B) as (-> & -> & ->). rewrite app_nil_r.
    destruct c; cbn in U1; try easy; destruct k; cbn in Ea; injection Ea as <- <- _; auto.
Qed.
(* C73.  Whatever is recorded without Begin- or EndIteration or SetTime is lost at EndTest, in
   silence, by all three. *)
Theorem C73_refuted k ans cs now r : clean r -> Forall untimed cs ->
  exists r', run (call3 k ans) (cs ++ [(now, EndTest)]) r = (r', [], []) /\ clean r'.
Proof.
  intros (C1 & g & C2) U. destruct (run (call3 k ans) cs r) as [[r1 o1] e1] eqn:E1.
  destruct (run_untimed _ _ _ _ _ _ _ U E1) as (-> & T & R).
  assert (E : exists reset, call3 k ans now EndTest r1 = (reset r1, [], []) /\ forall x, clean (reset x)).
  { destruct k; eexists; (split; [cbn; unfold end_test; rewrite T, C2, R, C1; reflexivity|]); intros x; (split; [reflexivity|eexists; reflexivity]). }
  destruct E as (reset & E & Cl). exists (reset r1). split; [|apply Cl]. apply (run_snoc _ _ now EndTest _ _ _ _ _ _ _ E1 E).
Qed.
Print Assumptions C73_refuted.
(* C73.  The grouped recorder loses what is recorded after an iteration whose end persisted
   the point, unless another one begins. *)
Theorem C73_grouped_refuted interval ans cs now1 now2 now3 d r : r_started r = zero_time -> p_ts (r_point r) = zero_time -> now1 <> zero_time ->
  interval <= since now2 (r_last r) -> Forall untimed cs ->
  exists r' p errs, run (call3 (KGrouped interval) ans) ((now1, BeginIteration) :: (now2, EndIteration d) :: cs ++ [(now3, EndTest)]) r = (r', [p], errs) /\
    p_c p = p_c (add_number 1 (r_point r)) /\ clean r'.
Proof.
  intros Z T N1 L U. cbn [run call3 grouped_call]. destruct (interval <=? since now2 (r_last _)) eqn:D; [|cbn in D; lia]. cbn [r_last r_started r_point].
  match goal with |- context [run _ (cs ++ _) ?x] => set (r1 := x) end.
  destruct (run (call3 (KGrouped interval) ans) cs r1) as [[r2 o2] e2] eqn:E.
  destruct (run_untimed _ _ _ _ _ _ _ U E) as (-> & T2 & R2).
  assert (E3 : call3 (KGrouped interval) ans now3 EndTest r2 = (grouped_reset r2, [], r_errs r2)) by (cbn; unfold end_test; now rewrite T2).
  pose proof (run_snoc _ _ now3 EndTest _ _ _ _ _ _ _ E E3) as F. cbn [call3] in F. rewrite F.
  do 3 eexists. split; [reflexivity|]. split; [|split; [reflexivity|eexists; reflexivity]].
  cbn. rewrite set_timestamp_c. cbn. rewrite add_elapsed_c. cbn. now rewrite set_timestamp_c.
Qed.
Print Assumptions C73_grouped_refuted.
(* C73.  The raw recorder persists the point of the last iteration a second time at EndTest. *)
Theorem C73_raw_twice_refuted ans now1 now2 now3 d r : clean r -> r_started r = zero_time -> now1 <> zero_time ->
  exists r' p errs, run (raw_call ans) [(now1, BeginIteration); (now2, EndIteration d); (now3, EndTest)] r = (r', [p; p], errs).
Proof.
  intros (C1 & g & C2) Z N. cbn. unfold end_test. cbn.
  assert (T : forall a b p, p_ts p <> zero_time -> (p_ts (set_timestamp a b p) =? zero_time) = false).
  { intros a b p H. unfold set_timestamp. destruct (p_ts p =? zero_time) eqn:E; lia. }
  rewrite T; [do 3 eexists; reflexivity|]. rewrite add_elapsed_ts. cbn. apply set_timestamp_set. exact N.
Qed.
Print Assumptions C73_raw_twice_refuted.
(* C73.  The interval recorder does not count its iterations. *)
Theorem C73_iterations_refuted ans now1 now2 now3 d r : clean r -> now1 <> zero_time ->
  exists r' p errs, run (interval_call ans) [(now1, BeginIteration); (now2, EndIteration d); (now3, EndTest)] r = (r', [p], errs) /\
    c_number (p_c p) = 0.
Proof.
  intros (C1 & g & C2) N. cbn. unfold end_test. cbn. rewrite add_elapsed_ts.
  assert (T : forall a b p, p_ts p <> zero_time -> (p_ts (set_timestamp a b p) =? zero_time) = false).
  { intros a b p H. unfold set_timestamp. destruct (p_ts p =? zero_time) eqn:E; lia. }
  rewrite T by (now apply set_timestamp_set). cbn. do 3 eexists. split; [reflexivity|]. cbn.
  now rewrite add_elapsed_c, !set_timestamp_c, C2.
Qed.
Print Assumptions C73_iterations_refuted.
Example C73_nonvacuous : let cs := [(1, BeginIteration); (2, IncOperations 5); (3, EndIteration 7); (4, IncOperations 6); (4, BeginIteration)] in
  clean new_recorder /\ clean (new_grouped 0) /\ Forall inner cs /\ clocked cs /\ stamped true cs = true /\ stamped false cs = true /\
  a_ops (all_adds true cs) = 11 /\ Forall untimed [(2, IncOperations 5)].
Proof.
  cbn zeta. repeat split; try (now eexists); repeat constructor; cbn; try easy; discriminate.
Qed.

(* --------------------------------- C74: the interval recorder loses nothing in any schedule *)

(* what the calls that returned added *)
Definition event_adds (e : ievent) : amount := match e with IEReturn _ c _ => adds false c | _ => zero_amount end.
Definition boundary (e : ievent) : bool := match e with IEReturn _ (EndTest | Reset) _ => true | _ => false end.
Definition is_reset (e : ievent) : bool := match e with IEReturn _ Reset _ => true | _ => false end.
Definition held (p : perf) : amount := MkAmt (c_number (p_c p)) (c_ops (p_c p)) (c_size (p_c p)) (c_errors (p_c p)).
Definition held_all (ps : list perf) : amount := fold_right plus zero_amount (map held ps).
Definition same64 (a b : amount) : Prop :=
  i64 (a_number a) = i64 (a_number b) /\ i64 (a_ops a) = i64 (a_ops b) /\ i64 (a_size a) = i64 (a_size b) /\ i64 (a_errors a) = i64 (a_errors b).
Definition all_event_adds (es : list ievent) : amount := fold_right plus zero_amount (map event_adds es).

Lemma plus_comm a b : plus a b = plus b a.
Proof. unfold plus. f_equal; lia. Qed.
Lemma plus_zero_r a : plus a zero_amount = a.
Proof. rewrite plus_comm. apply plus_zero. Qed.
Lemma fold_plus_app l1 l2 : fold_right plus zero_amount (l1 ++ l2) = plus (fold_right plus zero_amount l1) (fold_right plus zero_amount l2).
Proof. induction l1 as [|a l1 IH]; cbn [app fold_right]; [now rewrite plus_zero|]. rewrite IH. apply plus_assoc. Qed.
Lemma held_all_app a b : held_all (a ++ b) = plus (held_all a) (held_all b).
Proof. unfold held_all. rewrite map_app. apply fold_plus_app. Qed.
Lemma held_all_one p : held_all [p] = held p.
Proof. unfold held_all. cbn [map fold_right]. apply plus_zero_r. Qed.
Lemma same64_plus a b c d : same64 a b -> same64 c d -> same64 (plus a c) (plus b d).
Proof.
  assert (L : forall x y z w, i64 x = i64 y -> i64 z = i64 w -> i64 (x + z) = i64 (y + w)).
  { intros x y z w H1 H2. rewrite <- (i64_add x), H1, i64_add, Z.add_comm, <- (i64_add z), H2, i64_add. f_equal. lia. }
  unfold same64. cbn. intuition.
Qed.
Lemma same64_refl a : same64 a a.
Proof. repeat split. Qed.
Lemma same64_trans a b c : same64 a b -> same64 b c -> same64 a c.
Proof. unfold same64. intuition congruence. Qed.
Lemma i64_i64 a : i64 (i64 a) = i64 a.
Proof. apply i64_id, i64_range. Qed.
Lemma has_held a p : has a p -> same64 (held p) a /\ has (held p) p.
Proof. unfold has, same64. cbn. intros (-> & -> & -> & ->). rewrite !i64_i64. repeat split. Qed.
Lemma fresh_held g : held (fresh_point g) = zero_amount /\ has zero_amount (fresh_point g).
Proof. repeat split. Qed.
Lemma held_c p q : p_c p = p_c q -> held p = held q.
Proof. unfold held. intros ->. reflexivity. Qed.

(* C74.  In every schedule of the interval recorder's methods, its workers and cancellation:
   what the calls added is in the points given to the collector, in the current point, or in
   the points dropped by Reset or by an EndTest that found no time; nothing else is lost and
   nothing is counted twice. *)
Theorem C74_conservation ans es s : isteps ans new_interval es s ->
  exists lost, same64 (held_all (i_out s ++ lost ++ [r_point (i_rec s)])) (all_event_adds es) /\
    (length lost <= length (filter boundary es))%nat /\ (filter is_reset es = [] -> Forall (fun p => p_ts p = zero_time) lost).
Proof.
  intros H. enough (G : exists lost, same64 (plus (held_all (i_out s)) (plus (held_all lost) (held (r_point (i_rec s))))) (all_event_adds es) /\
    (length lost <= length (filter boundary es))%nat /\ (filter is_reset es = [] -> Forall (fun p => p_ts p = zero_time) lost) /\
    has (held (r_point (i_rec s))) (r_point (i_rec s))).
  { destruct G as (lost & G1 & G2 & G3 & _). exists lost. rewrite !held_all_app, held_all_one. auto. }
  remember new_interval as s0 eqn:E0. revert E0. induction H as [s|s es s1 e s2 H IH S]; intros E0.
  { subst. exists []. cbn. repeat split; auto. }
  destruct (IH E0) as (lost & G1 & G2 & G3 & G4). unfold all_event_adds in *. rewrite map_app, fold_plus_app, !filter_app, app_length.
  cbn [map fold_right]. rewrite plus_zero_r.
  assert (Easy : i_out s2 = i_out s1 -> i_rec s2 = i_rec s1 -> event_adds e = zero_amount -> boundary e = false -> is_reset e = false ->
    exists lost0, same64 (plus (held_all (i_out s2)) (plus (held_all lost0) (held (r_point (i_rec s2)))))
      (plus (fold_right plus zero_amount (map event_adds es)) (event_adds e)) /\
    (length lost0 <= length (filter boundary es) + length (filter boundary [e]))%nat /\
    (filter is_reset es ++ filter is_reset [e] = [] -> Forall (fun p => p_ts p = zero_time) lost0) /\ has (held (r_point (i_rec s2))) (r_point (i_rec s2))).
  { intros -> -> -> B1 B2. exists lost. cbn. rewrite B1, B2, plus_zero_r, app_nil_r. cbn. rewrite Nat.add_0_r. auto. }
  assert (Drop : forall p g, held p = held (r_point (i_rec s1)) -> p_ts p = p_ts (r_point (i_rec s1)) -> i_out s2 = i_out s1 -> r_point (i_rec s2) = fresh_point g ->
    event_adds e = zero_amount -> boundary e = true -> (is_reset e = false -> p_ts p = zero_time) ->
    exists lost0, same64 (plus (held_all (i_out s2)) (plus (held_all lost0) (held (r_point (i_rec s2)))))
      (plus (fold_right plus zero_amount (map event_adds es)) (event_adds e)) /\
    (length lost0 <= length (filter boundary es) + length (filter boundary [e]))%nat /\
    (filter is_reset es ++ filter is_reset [e] = [] -> Forall (fun p => p_ts p = zero_time) lost0) /\ has (held (r_point (i_rec s2))) (r_point (i_rec s2))).
  { intros p g Hp Tp -> -> -> B1 B2. exists (lost ++ [p]). destruct (fresh_held g) as [F1 F2].
    cbn [filter]. rewrite B1, held_all_app, held_all_one, F1, !plus_zero_r, Hp, app_length. split; [exact G1|]. split; [cbn; lia|]. split; [|exact F2].
    intros Z. apply app_eq_nil in Z as [Z1 Z2]. apply Forall_app. split; [auto|]. constructor; [|constructor].
    apply B2. destruct (is_reset e); [discriminate|reflexivity]. }
  assert (Put : forall p g, held p = held (r_point (i_rec s1)) -> i_out s2 = i_out s1 ++ [p] -> r_point (i_rec s2) = fresh_point g ->
    event_adds e = zero_amount -> is_reset e = false ->
    exists lost0, same64 (plus (held_all (i_out s2)) (plus (held_all lost0) (held (r_point (i_rec s2)))))
      (plus (fold_right plus zero_amount (map event_adds es)) (event_adds e)) /\
    (length lost0 <= length (filter boundary es) + length (filter boundary [e]))%nat /\
    (filter is_reset es ++ filter is_reset [e] = [] -> Forall (fun p => p_ts p = zero_time) lost0) /\ has (held (r_point (i_rec s2))) (r_point (i_rec s2))).
  { intros p g Hp -> -> -> B2. exists lost. destruct (fresh_held g) as [F1 F2]. cbn [filter]. rewrite B2, app_nil_r.
    rewrite held_all_app, held_all_one, F1, !plus_zero_r, Hp, <- plus_assoc, (plus_comm (held _)). split; [exact G1|]. split; [lia|]. auto. }
  destruct S as [s1|s1 t c|s1 t c|s1 t c now r out errs s1' Hc B E1|s1 w|s1 w|s1 w|s1 w|s1 w now r p Hw Hd B]; try (apply Easy; reflexivity).
  - assert (Out : i_out s1' = i_out s1).
    { subst s1'. unfold stop_worker, start_worker. destruct c; try reflexivity; destruct (i_canceler s1); reflexivity. }
    cbn [i_out i_rec] in *. rewrite Out in *.
    destruct c as [v|v|v|v|v|v|b| |d| | |v|t'|d|d].
    all: lazymatch goal with
      | _ : context [ICHold EndTest] |- _ => idtac
      | _ : context [ICHold Reset] |- _ => idtac
      | _ => exists lost
      end.
    10: { cbn in B. unfold end_test in B. destruct (p_ts (r_point (i_rec s1)) =? zero_time) eqn:Z; injection B as <- <- <-.
      - rewrite app_nil_r in *. apply (Drop (r_point (i_rec s1)) (p_g (r_point (i_rec s1)))); try reflexivity. intros _. lia.
      - apply (Put (r_point (i_rec s1)) (p_g (r_point (i_rec s1)))); reflexivity. }
    10: { cbn in B. injection B as <- <- <-. rewrite app_nil_r in *. apply (Drop (r_point (i_rec s1)) (p_g (r_point (i_rec s1)))); try reflexivity. discriminate. }
    all: pose proof (fun P => interval_counting ans now _ _ _ _ _ (held (r_point (i_rec s1))) P G4 B) as K; specialize (K I); destruct (has_held _ _ K) as [K1 K2];
      cbn [event_adds boundary is_reset filter length]; rewrite ?app_nil_r, ?Nat.add_0_r;
      (assert (O : out = []) by (cbn in B; now injection B as _ <- _)); rewrite O, app_nil_r; refine (conj _ (conj G2 (conj G3 K2)));
      eapply same64_trans; [apply same64_plus; [apply same64_refl|apply same64_plus; [apply same64_refl|exact K1]]|];
      rewrite !plus_assoc; rewrite plus_assoc in G1; apply same64_plus; [exact G1|apply same64_refl].
  - unfold interval_tick in B. injection B as <- Bp.
    apply (Put p (p_g (set_timestamp (r_started (i_rec s1)) now (r_point (i_rec s1))))); try reflexivity.
    rewrite <- Bp. apply held_c, set_timestamp_c.
Qed.
Print Assumptions C74_conservation.
(* two calls with a tick between them, in which nothing is dropped *)
Example C74_nonvacuous ans : exists es s, isteps ans new_interval es s /\ a_ops (all_event_adds es) = 8 /\ filter boundary es = [] /\
  exists p, i_out s = [p] /\ c_ops (p_c p) = 5 /\ c_ops (p_c (r_point (i_rec s))) = 3.
Proof.
  assert (Call : forall s t c now, i_clients s t = ICIdle -> i_lock s = None -> exists s' es r out errs,
    isteps ans s es s' /\ interval_call ans now c (i_rec s) = (r, out, errs) /\ es = [IECall t c; IETau; IEReturn t c errs] /\
    s' = (let s1 := stop_worker c (start_worker c s) in MkI r None (i_canceler s1) (i_root s1) (i_cancelled s1) (i_workers s1) (i_next s1)
           (i_clients s') (i_out s1 ++ out)) /\ i_clients s' t = ICIdle).
  { intros s t c now C L. pose proof (is_call ans s t c C) as S1. match type of S1 with istep _ _ _ ?x => set (s1 := x) in * end.
    pose proof (is_lock ans s1 t c (upd_eq _ _ _) L) as S2. match type of S2 with istep _ _ _ ?x => set (s2 := x) in * end.
    destruct (interval_call ans now c (i_rec s)) as [[r out] errs] eqn:B.
    pose proof (is_body ans s2 t c now r out errs _ (upd_eq _ _ _) B eq_refl) as S3.
    do 5 eexists. split; [exact (ist_snoc _ _ _ _ _ _ (ist_snoc _ _ _ _ _ _ (isteps_one _ _ _ _ S1) S2) S3)|].
    split; [reflexivity|]. split; [reflexivity|]. split; [|cbn; apply upd_eq].
    clear S3 S2 S1. subst s2 s1. unfold stop_worker, start_worker. destruct c; try reflexivity; cbn; destruct (i_canceler s) eqn:X; cbn; rewrite ?X; reflexivity. }
  destruct (Call new_interval 0%nat BeginIteration 7 eq_refl eq_refl) as (s1 & es1 & r1 & o1 & x1 & H1 & B1 & -> & E1 & C1).
  cbn in B1. injection B1 as <- <- <-. cbn in E1.
  destruct (Call s1 0%nat (IncOperations 5) 8 C1 ltac:(now rewrite E1)) as (s2 & es2 & r2 & o2 & x2 & H2 & B2 & -> & E2 & C2).
  rewrite E1 in B2, E2. cbn in B2. injection B2 as <- <- <-. cbn in E2.
  assert (L2 : i_lock s2 = None) by (rewrite E2; reflexivity). assert (W2 : i_workers s2 0%nat = IWSelect) by (rewrite E2; reflexivity).
  assert (D2 : done s2 0%nat = false) by (rewrite E2; reflexivity).
  pose proof (is_tick ans s2 0%nat W2) as S3. match type of S3 with istep _ _ _ ?x => set (s3 := x) in * end.
  pose proof (is_wlock ans s3 0%nat (upd_eq _ _ _) L2) as S4. match type of S4 with istep _ _ _ ?x => set (s4 := x) in * end.
  pose proof (is_persist ans s4 0%nat 9 _ _ (upd_eq _ _ _) D2 eq_refl) as S5.
  match type of S5 with istep _ _ _ ?x => set (s5 := x) in * end.
  destruct (Call s5 0%nat (IncOperations 3) 10 ltac:(exact C2) eq_refl) as (s6 & es6 & r6 & o6 & x6 & H6 & B6 & -> & E6 & C6).
  cbn in B6. injection B6 as <- <- <-.
  do 2 eexists. split.
  { eapply isteps_app; [exact H1|]. eapply isteps_app; [exact H2|]. eapply isteps_app; [|exact H6].
    exact (ist_snoc _ _ _ _ _ _ (ist_snoc _ _ _ _ _ _ (isteps_one _ _ _ _ S3) S4) S5). }
  split; [reflexivity|]. split; [reflexivity|]. rewrite E6. cbn. rewrite E2. cbn. eexists. split; [reflexivity|]. split; reflexivity.
Qed.

(* --------------------------------------- C75: grouped recorders persist once per interval *)

(* The instants at which the ends of iterations persisted a point. *)
Fixpoint persisted_at (interval : Z) (ans : perf -> option gerr) (cs : list (Z * rcall)) (r : recorder) : list Z :=
  match cs with
  | [] => []
  | (now, c) :: cs =>
      let '(r', out, _) := grouped_call ans now interval c r in
      (match c with EndIteration _ => map (fun _ => now) out | _ => [] end) ++ persisted_at interval ans cs r'
  end.
Fixpoint spaced (interval last : Z) (ts : list Z) : Prop :=
  match ts with [] => True | t :: ts => interval <= since t last /\ spaced interval t ts end.
(* C75.  Within a test the grouped recorder persists at the end of iterations only, at least
   the interval after it was made and after the last time. *)
Theorem C75_grouped interval ans made cs : Forall inner cs ->
  spaced interval made (persisted_at interval ans cs (new_grouped made)) /\
  forall r' out errs, run (call3 (KGrouped interval) ans) cs (new_grouped made) = (r', out, errs) ->
    length out = length (persisted_at interval ans cs (new_grouped made)).
Proof.
  intros I. change made with (r_last (new_grouped made)) at 1. generalize (new_grouped made) as r.
  induction cs as [|[now c] cs IH]; intros r; [cbn; split; auto; now intros ? ? ? [= _ <- _]|].
  inversion I as [|? ? I1 I2]; subst. specialize (IH I2). cbn [persisted_at run call3].
  destruct (grouped_call ans now interval c r) as [[r1 o1] e1] eqn:E. destruct (IH r1) as [H1 H2]. split.
  - destruct c; cbn in I1; try easy; cbn in E; try (injection E as <- <- _; exact H1).
    destruct (interval <=? since now (r_last r)) eqn:D; injection E as <- <- _; cbn in *; [split; [lia|exact H1]|exact H1].
  - intros r' out errs. destruct (run _ cs r1) as [[r2 o2] e2] eqn:E2. intros [= _ <- _]. rewrite !app_length. f_equal; [|eapply H2; reflexivity].
    destruct c; cbn in I1; try easy; cbn in E; try (injection E as _ <- _; reflexivity).
    destruct (interval <=? since now (r_last r)); injection E as _ <- _; reflexivity.
Qed.
Print Assumptions C75_grouped.
(* C75.  The grouped histogram recorder persists at the end of every iteration, whatever
   interval it was given, with any clock that does not go back (in the years a duration of
   int64 nanoseconds can span). *)
Fixpoint hg_run (ts : list Z) (r : hgrouped) : list bool :=
  match ts with [] => [] | t :: ts => let '(r', b) := hg_end_iteration t r in b :: hg_run ts r' end.
Fixpoint ascending (last : Z) (ts : list Z) : Prop := match ts with [] => True | t :: ts => last <= t /\ ascending t ts end.
Theorem C75_histogram_refuted interval ts : ascending zero_time ts -> hg_run ts (new_hgrouped interval) = map (fun _ => true) ts.
Proof.
  unfold new_hgrouped. generalize zero_time as last. induction ts as [|t ts IH]; intros last H; [reflexivity|]. destruct H as [H1 H2].
  cbn [hg_run hg_end_iteration hg_interval hg_last]. unfold hg_end_iteration. cbn [hg_interval hg_last].
  destruct (0 <=? since t last) eqn:D; [|unfold since in D; lia]. cbn [map]. f_equal. now apply IH.
Qed.
Print Assumptions C75_histogram_refuted.
Example C75_nonvacuous ans :
  persisted_at 10 ans [(1, BeginIteration); (2, EndIteration 1); (12, EndIteration 1); (13, EndIteration 1); (25, EndIteration 1)] (new_grouped 0) = [12; 25] /\
  hg_run [1; 2; 3] (new_hgrouped 10) = [true; true; true].
Proof. split; [|reflexivity]. cbn. reflexivity. Qed.
