(* x/ftdc/events: performance points, the collectors of events and the recorders of
   performance points.  The histogram points (package hdrhist is outside /repo) are opaque. *)
Require Import ZArith List Bool Lia ZifyBool ZifyNat String Ascii.
From Verif Require Import Base BSpec Elements Value Codec Api.
Import ListNotations.
Open Scope Z_scope.

(* the bytes of a literal *)
Definition str (s : string) : bytes := map (fun c => Z.of_nat (nat_of_ascii c)) (list_ascii_of_string s).

(* performance.go:25-58.  Times are instants in nanoseconds since 1970, as in Api.v; durations
   are int64 nanoseconds. *)
Record counters := MkCnt { c_number : Z; c_ops : Z; c_size : Z; c_errors : Z }.
Record timers := MkTmr { t_dur : Z; t_total : Z }.
Record gauges := MkGau { g_state : Z; g_workers : Z; g_failed : bool }.
Record perf := MkPerf { p_ts : Z; p_id : Z; p_c : counters; p_t : timers; p_g : gauges }.
(* time.Time{}: January 1 of year 1 *)
Definition zero_time : Z := -62135596800000000000.
Definition no_counters := MkCnt 0 0 0 0.
Definition no_timers := MkTmr 0 0.
Definition no_gauges := MkGau 0 0 false.
(* &Performance{Gauges: g} *)
Definition fresh_point (g : gauges) : perf := MkPerf zero_time 0 no_counters no_timers g.

(* performance.go:66-86 *)
Definition perf_document (p : perf) : go document :=
  ts <- ec_time (str "ts") (p_ts p) ;;
  id <- ec_int64 (str "id") (p_id p) ;;
  c1 <- ec_int64 (str "n") (c_number (p_c p)) ;;
  c2 <- ec_int64 (str "ops") (c_ops (p_c p)) ;;
  c3 <- ec_int64 (str "size") (c_size (p_c p)) ;;
  c4 <- ec_int64 (str "errors") (c_errors (p_c p)) ;;
  c <- ec_subdocument (str "counters") [Some c1; Some c2; Some c3; Some c4] ;;
  t1 <- ec_duration (str "dur") (t_dur (p_t p)) ;;
  t2 <- ec_duration (str "total") (t_total (p_t p)) ;;
  t <- ec_subdocument (str "timers") [Some t1; Some t2] ;;
  g1 <- ec_int64 (str "state") (g_state (p_g p)) ;;
  g2 <- ec_int64 (str "workers") (g_workers (p_g p)) ;;
  g3 <- ec_boolean (str "failed") (g_failed (p_g p)) ;;
  g <- ec_subdocument (str "gauges") [Some g1; Some g2; Some g3] ;;
  Ret [Some ts; Some id; Some c; Some t; Some g].

(* for elem := range doc.Iterator() { switch elem.Key() ... } *)
Fixpoint each {P} (f : bytes -> elem -> P -> go P) (d : document) (p : P) : go P :=
  match d with
  | [] => Ret p
  | e :: r => k <- elem_key e ;; p <- f k e p ;; each f r p
  end.
(* performance.go:112-127; the case "opts" reads Operations *)
Definition counters_unmarshal (d : document) (c : counters) : go counters :=
  each (fun k v c =>
    if bytes_eqb k (str "n") then x <- v_int64 v ;; Ret (MkCnt x (c_ops c) (c_size c) (c_errors c)) else
    if bytes_eqb k (str "opts") then x <- v_int64 v ;; Ret (MkCnt (c_number c) x (c_size c) (c_errors c)) else
    if bytes_eqb k (str "size") then x <- v_int64 v ;; Ret (MkCnt (c_number c) (c_ops c) x (c_errors c)) else
    if bytes_eqb k (str "errors") then x <- v_int64 v ;; Ret (MkCnt (c_number c) (c_ops c) (c_size c) x) else
    Ret c) d c.
(* performance.go:129-140 *)
Definition timers_unmarshal (d : document) (t : timers) : go timers :=
  each (fun k v t =>
    if bytes_eqb k (str "dur") then x <- v_int64 v ;; Ret (MkTmr x (t_total t)) else
    if bytes_eqb k (str "total") then x <- v_int64 v ;; Ret (MkTmr (t_dur t) x) else
    Ret t) d t.
(* performance.go:142-155 *)
Definition gauges_unmarshal (d : document) (g : gauges) : go gauges :=
  each (fun k v g =>
    if bytes_eqb k (str "state") then x <- v_int64 v ;; Ret (MkGau x (g_workers g) (g_failed g)) else
    if bytes_eqb k (str "workers") then x <- v_int64 v ;; Ret (MkGau (g_state g) x (g_failed g)) else
    if bytes_eqb k (str "failed") then x <- v_boolean v ;; Ret (MkGau (g_state g) (g_workers g) x) else
    Ret g) d g.
(* performance.go:88-110; the errors of the inner calls are always nil *)
Definition perf_unmarshal (fuel : nat) (d : document) (p : perf) : go perf :=
  each (fun k v p =>
    if bytes_eqb k (str "ts") then x <- v_time v ;; Ret (MkPerf x (p_id p) (p_c p) (p_t p) (p_g p)) else
    if bytes_eqb k (str "id") then Ret p else
    if bytes_eqb k (str "counters") then
      d <- v_mutable_document fuel v ;; c <- counters_unmarshal d (p_c p) ;; Ret (MkPerf (p_ts p) (p_id p) c (p_t p) (p_g p)) else
    if bytes_eqb k (str "timers") then
      d <- v_mutable_document fuel v ;; t <- timers_unmarshal d (p_t p) ;; Ret (MkPerf (p_ts p) (p_id p) (p_c p) t (p_g p)) else
    if bytes_eqb k (str "gauges") then
      d <- v_mutable_document fuel v ;; g <- gauges_unmarshal d (p_g p) ;; Ret (MkPerf (p_ts p) (p_id p) (p_c p) (p_t p) g) else
    Ret p) d p.

(* performance.go:160-178: the new value of *p; *in gets the id chosen here *)
Definition next_id (p i : perf) : Z := if p_id i =? 0 then i64 (p_id p + 1) else p_id i.
Definition perf_add (p i : perf) : perf :=
  MkPerf (p_ts i) (next_id p i)
    (MkCnt (i64 (c_number (p_c p) + c_number (p_c i))) (i64 (c_ops (p_c p) + c_ops (p_c i)))
           (i64 (c_size (p_c p) + c_size (p_c i))) (i64 (c_errors (p_c p) + c_errors (p_c i))))
    (MkTmr (i64 (t_dur (p_t p) + t_dur (p_t i))) (i64 (t_total (p_t p) + t_total (p_t i))))
    (p_g i).
Definition with_id (p : perf) (id : Z) : perf := MkPerf (p_ts p) id (p_c p) (p_t p) (p_g p).

(* ------------------------------------------------------------- collectors of events *)

(* Points are shared by reference: a memory of points, addressed by numbers. *)
Definition memory := nat -> perf.
Definition store (m : memory) (a : nat) (p : perf) : memory := fun b => if Nat.eqb b a then p else m b.
(* c.current.Add(in): both may be the same point *)
Definition mem_add (m : memory) (cur i : nat) : memory :=
  let m := store m i (with_id (m i) (next_id (m cur) (m i))) in
  store m cur (perf_add (m cur) (m i)).

Inductive kind :=
| Basic                   (* collector.go:26-57 *)
| Sampling (n : Z)        (* collector.go:80-120; n is an int *)
| Random (percent : Z)    (* collector.go:122-166 *)
| Interval (dur : Z).     (* collector.go:168-203 *)
(* current, count, lastCollected *)
Record events := MkEv { ev_current : option nat; ev_count : Z; ev_last : Z }.
Definition new_events : events := MkEv None 0 zero_time.
(* what AddEvent does: an error; nil; or the answer of Add of the collector underneath for
   a point *)
Inductive outcome := Refused | Skipped | Forwarded (p : perf).
(* time.Since, which saturates *)
Definition since (now last : Z) : Z := Z.max (-9223372036854775808) (Z.min 9223372036854775807 (now - last)).
(* collector.go:156-166; rnd is the result of rand.Intn(101) *)
Definition should_collect (percent rnd : Z) : bool :=
  if 100 <? percent then true else if percent <=? 0 then false else rnd <? percent.
(* collector.go:46-57, 99-120, 139-154, 186-203.  rnd is the random number drawn, t1 and t2
   the readings of the clock by time.Since and time.Now. *)
Definition add_event (k : kind) (rnd t1 t2 : Z) (i : option nat) (m : memory) (c : events) : go (memory * events * outcome) :=
  match i with
  | None => Ret (m, c, Refused)
  | Some i =>
      let '(m, cur, new) := match ev_current c with None => (m, i, true) | Some cur => (mem_add m cur i, cur, false) end in
      match k with
      | Basic => Ret (m, MkEv (Some cur) (ev_count c) (ev_last c), Forwarded (m cur))
      | Sampling n =>
          if n =? 0 then Panic PIndex (* division by zero *) else
          Ret (m, MkEv (Some cur) (i64 (ev_count c + 1)) (ev_last c),
               if Z.rem (ev_count c) n =? 0 then Forwarded (m cur) else Skipped)
      | Random percent =>
          Ret (m, MkEv (Some cur) (ev_count c) (ev_last c), if should_collect percent rnd then Forwarded (m cur) else Skipped)
      | Interval dur =>
          if new then Ret (m, MkEv (Some cur) (ev_count c) t2, Forwarded (m cur))
          else if dur <=? since t1 (ev_last c) then Ret (m, MkEv (Some cur) (ev_count c) t2, Forwarded (m cur))
          else Ret (m, MkEv (Some cur) (ev_count c) (ev_last c), Skipped)
      end
  end.

(* -------------------------------------------------------------------------- recorders *)

(* the calls of the Recorder interface, recorder.go:14-98 *)
Inductive rcall :=
| IncIterations (v : Z) | IncOperations (v : Z) | IncError (v : Z) | IncSize (v : Z)
| SetWorkers (v : Z) | SetState (v : Z) | SetFailed (b : bool)
| BeginIteration | EndIteration (dur : Z) | EndTest | Reset
| SetID (v : Z) | SetTime (t : Z) | SetTotalDuration (d : Z) | SetDuration (d : Z).

(* performance.go:180-188 *)
Definition set_timestamp (started now : Z) (p : perf) : perf :=
  if p_ts p =? zero_time then
    MkPerf (if started =? zero_time then now else started) (p_id p) (p_c p) (p_t p) (p_g p)
  else p.
Definition add_number (v : Z) (p : perf) : perf :=
  MkPerf (p_ts p) (p_id p) (MkCnt (i64 (c_number (p_c p) + v)) (c_ops (p_c p)) (c_size (p_c p)) (c_errors (p_c p))) (p_t p) (p_g p).
Definition add_dur (v : Z) (p : perf) : perf :=
  MkPerf (p_ts p) (p_id p) (p_c p) (MkTmr (i64 (t_dur (p_t p) + v)) (t_total (p_t p))) (p_g p).
Definition add_total (v : Z) (p : perf) : perf :=
  MkPerf (p_ts p) (p_id p) (p_c p) (MkTmr (t_dur (p_t p)) (i64 (t_total (p_t p) + v))) (p_g p).
(* if !started.IsZero() { Total += time.Since(started) } *)
Definition add_elapsed (started now : Z) (p : perf) : perf :=
  if started =? zero_time then p else add_total (since now started) p.
(* The methods that only change the point, the same in all recorders
   (recorder_performance_single.go:29-39 and the like). *)
Definition plain (c : rcall) (p : perf) : perf :=
  match c with
  | IncIterations v => add_number v p
  | IncOperations v => MkPerf (p_ts p) (p_id p) (MkCnt (c_number (p_c p)) (i64 (c_ops (p_c p) + v)) (c_size (p_c p)) (c_errors (p_c p))) (p_t p) (p_g p)
  | IncSize v => MkPerf (p_ts p) (p_id p) (MkCnt (c_number (p_c p)) (c_ops (p_c p)) (i64 (c_size (p_c p) + v)) (c_errors (p_c p))) (p_t p) (p_g p)
  | IncError v => MkPerf (p_ts p) (p_id p) (MkCnt (c_number (p_c p)) (c_ops (p_c p)) (c_size (p_c p)) (i64 (c_errors (p_c p) + v))) (p_t p) (p_g p)
  | SetState v => MkPerf (p_ts p) (p_id p) (p_c p) (p_t p) (MkGau v (g_workers (p_g p)) (g_failed (p_g p)))
  | SetWorkers v => MkPerf (p_ts p) (p_id p) (p_c p) (p_t p) (MkGau (g_state (p_g p)) v (g_failed (p_g p)))
  | SetFailed b => MkPerf (p_ts p) (p_id p) (p_c p) (p_t p) (MkGau (g_state (p_g p)) (g_workers (p_g p)) b)
  | SetID v => MkPerf (p_ts p) v (p_c p) (p_t p) (p_g p)
  | SetTime t => MkPerf t (p_id p) (p_c p) (p_t p) (p_g p)
  | SetDuration d => add_dur d p
  | SetTotalDuration d => add_total d p
  | _ => p
  end.

(* started, point, lastCollected, catcher *)
Record recorder := MkRec { r_started : Z; r_point : perf; r_last : Z; r_errs : list gerr }.
Definition note (r : list gerr) (e : option gerr) : list gerr := match e with Some e => r ++ [e] | None => r end.
Definition set_point (r : recorder) (p : perf) : recorder := MkRec (r_started r) p (r_last r) (r_errs r).

Section Recorders.
(* the answer of Add of the collector underneath, and the clock of the call: every reading
   within one call gives the same instant (a simplification) *)
Variable ans : perf -> option gerr.
Variable now : Z.

(* Each call gives the new state, the points given to the collector and, for EndTest, the
   errors reported. *)
Definition recorded : Type := recorder * list perf * list gerr.

(* recorder_performance_single.go *)
Definition single_reset (r : recorder) : recorder := MkRec zero_time (fresh_point (p_g (r_point r))) (r_last r) (r_errs r).
Definition single_call (c : rcall) (r : recorder) : recorded :=
  match c with
  | BeginIteration => (MkRec now (r_point r) (r_last r) (r_errs r), [], [])
  | EndIteration d =>
      let p := set_timestamp (r_started r) now (r_point r) in
      let p := add_dur d (add_elapsed (r_started r) now (add_number 1 p)) in
      (MkRec zero_time p (r_last r) (r_errs r), [], [])
  | EndTest =>
      let p := set_timestamp (r_started r) now (r_point r) in
      (single_reset (set_point r p), [p], match ans p with Some e => [e] | None => [] end)
  | Reset => (single_reset r, [], [])
  | _ => (set_point r (plain c (r_point r)), [], [])
  end.

(* EndTest of the raw and grouped recorders *)
Definition end_test (r : recorder) (reset : recorder -> recorder) : recorded :=
  if p_ts (r_point r) =? zero_time then (reset r, [], r_errs r)
  else (reset r, [r_point r], note (r_errs r) (ans (r_point r))).

(* recorder_performance_raw.go; SetDuration and SetTotalDuration replace *)
Definition raw_reset (r : recorder) : recorder := MkRec zero_time (fresh_point (p_g (r_point r))) (r_last r) [].
Definition raw_call (c : rcall) (r : recorder) : recorded :=
  match c with
  | BeginIteration => (MkRec now (set_timestamp now now (r_point r)) (r_last r) (r_errs r), [], [])
  | EndIteration d =>
      let p := add_elapsed (r_started r) now (add_number 1 (r_point r)) in
      let p := add_dur d (set_timestamp (r_started r) now p) in
      (MkRec zero_time p (r_last r) (note (r_errs r) (ans p)), [p], [])
  | EndTest => end_test r raw_reset
  | Reset => (raw_reset r, [], [])
  | SetDuration d =>
      let p := r_point r in
      (set_point r (MkPerf (p_ts p) (p_id p) (p_c p) (MkTmr d (t_total (p_t p))) (p_g p)), [], [])
  | SetTotalDuration d =>
      let p := r_point r in
      (set_point r (MkPerf (p_ts p) (p_id p) (p_c p) (MkTmr (t_dur (p_t p)) d) (p_g p)), [], [])
  | _ => (set_point r (plain c (r_point r)), [], [])
  end.

(* recorder_performance_grouped.go *)
Definition grouped_reset (r : recorder) : recorder := MkRec zero_time (fresh_point (p_g (r_point r))) zero_time [].
Definition grouped_call (interval : Z) (c : rcall) (r : recorder) : recorded :=
  match c with
  | BeginIteration => (MkRec now (set_timestamp now now (r_point r)) (r_last r) (r_errs r), [], [])
  | EndIteration d =>
      let p := add_dur d (add_elapsed (r_started r) now (add_number 1 (r_point r))) in
      if interval <=? since now (r_last r) then
        let p := set_timestamp (r_started r) now p in
        (MkRec zero_time (MkPerf zero_time (p_id p) (p_c p) (p_t p) (p_g p)) now (note (r_errs r) (ans p)), [p], [])
      else (MkRec zero_time p (r_last r) (r_errs r), [], [])
  | EndTest => end_test r grouped_reset
  | Reset => (grouped_reset r, [], [])
  | _ => (set_point r (plain c (r_point r)), [], [])
  end.

(* recorder_performance_interval.go: the bodies of the methods under the lock, 67-191, and of
   the worker, 55-60.  The worker's context is kept in the transition system below. *)
Definition interval_reset (r : recorder) : recorder := MkRec zero_time (fresh_point (p_g (r_point r))) (r_last r) [].
Definition interval_call (c : rcall) (r : recorder) : recorded :=
  match c with
  | BeginIteration => (MkRec now (set_timestamp now now (r_point r)) (r_last r) (r_errs r), [], [])
  | EndIteration d =>
      let p := set_timestamp (r_started r) now (r_point r) in
      (MkRec zero_time (add_dur d (add_elapsed (r_started r) now p)) (r_last r) (r_errs r), [], [])
  | EndTest => end_test r interval_reset
  | Reset => (interval_reset r, [], [])
  | _ => (set_point r (plain c (r_point r)), [], [])
  end.
Definition interval_tick (r : recorder) : recorder * perf :=
  let p := set_timestamp (r_started r) now (r_point r) in
  (MkRec (r_started r) (fresh_point (p_g p)) (r_last r) (note (r_errs r) (ans p)), p).
End Recorders.

(* recorder_performance_single.go:21-26, _raw.go:22-27, _interval.go:32-39: new recorders *)
Definition new_recorder : recorder := MkRec zero_time (fresh_point no_gauges) zero_time [].
(* recorder_performance_grouped.go:25-32 *)
Definition new_grouped (now : Z) : recorder := MkRec zero_time (fresh_point no_gauges) now [].

(* ------------------------------------------- histogram recorder, recorder_histogram_grouped.go *)

(* Whether EndIteration (54-68) persists the point; the constructor (31-36) leaves
   r.interval at zero whatever interval it is given. *)
Record hgrouped := MkHG { hg_interval : Z; hg_last : Z }.
Definition new_hgrouped (interval : Z) : hgrouped := MkHG 0 zero_time.
Definition hg_end_iteration (now : Z) (r : hgrouped) : hgrouped * bool :=
  if hg_interval r <=? since now (hg_last r) then (MkHG (hg_interval r) now, true) else (r, false).

(* ---------------------------------------------------- interval recorder: lock and worker *)

(* Who is where: a client between calls, waiting for the lock with a call, or holding it; a
   worker (41-65) in its select, past the tick and waiting for the lock, holding it, or gone. *)
Inductive iclient := ICIdle | ICWant (c : rcall) | ICHold (c : rcall).
Inductive iworker := IWNone | IWSelect | IWWant | IWHold | IWGone.
Inductive owner := OClient (t : nat) | OWorker (w : nat).
Record istate := MkI {
  i_rec : recorder; i_lock : option owner;
  i_canceler : option nat;          (* r.canceler: the worker it stops *)
  i_root : bool;                    (* the root context is done *)
  i_cancelled : nat -> bool;        (* contexts made by context.WithCancel *)
  i_workers : nat -> iworker; i_next : nat;
  i_clients : nat -> iclient;
  i_out : list perf }.
Definition new_interval : istate :=
  MkI new_recorder None None false (fun _ => false) (fun _ => IWNone) 0 (fun _ => ICIdle) [].
Definition upd {A} (f : nat -> A) (n : nat) (x : A) : nat -> A := fun m => if Nat.eqb m n then x else f m.

Inductive ievent :=
| IECall (t : nat) (c : rcall) | IEReturn (t : nat) (c : rcall) (errs : list gerr)
| IECancel | IETick (w : nat) | IEPersist (w : nat) (p : perf) | IETau.

(* 79-92: BeginIteration starts a worker if there is no canceler *)
Definition start_worker (c : rcall) (s : istate) : istate :=
  match c, i_canceler s with
  | BeginIteration, None =>
      MkI (i_rec s) (i_lock s) (Some (i_next s)) (i_root s) (i_cancelled s) (upd (i_workers s) (i_next s) IWSelect) (S (i_next s))
        (i_clients s) (i_out s)
  | _, _ => s
  end.
(* 127-132: reset calls the canceler and forgets it *)
Definition stop_worker (c : rcall) (s : istate) : istate :=
  match c, i_canceler s with
  | (EndTest | Reset), Some w =>
      MkI (i_rec s) (i_lock s) None (i_root s) (upd (i_cancelled s) w true) (i_workers s) (i_next s) (i_clients s) (i_out s)
  | _, _ => s
  end.
Definition done (s : istate) (w : nat) : bool := i_root s || i_cancelled s w.

Section Interval.
Variable ans : perf -> option gerr.
Inductive istep : istate -> ievent -> istate -> Prop :=
| is_cancel s : istep s IECancel
    (MkI (i_rec s) (i_lock s) (i_canceler s) true (i_cancelled s) (i_workers s) (i_next s) (i_clients s) (i_out s))
| is_call s t c : i_clients s t = ICIdle -> istep s (IECall t c)
    (MkI (i_rec s) (i_lock s) (i_canceler s) (i_root s) (i_cancelled s) (i_workers s) (i_next s) (upd (i_clients s) t (ICWant c)) (i_out s))
| is_lock s t c : i_clients s t = ICWant c -> i_lock s = None -> istep s IETau
    (MkI (i_rec s) (Some (OClient t)) (i_canceler s) (i_root s) (i_cancelled s) (i_workers s) (i_next s) (upd (i_clients s) t (ICHold c)) (i_out s))
(* the body and r.Unlock() *)
| is_body s t c now r out errs s1 : i_clients s t = ICHold c -> interval_call ans now c (i_rec s) = (r, out, errs) ->
    s1 = stop_worker c (start_worker c s) ->
    istep s (IEReturn t c errs)
      (MkI r None (i_canceler s1) (i_root s1) (i_cancelled s1) (i_workers s1) (i_next s1) (upd (i_clients s1) t ICIdle) (i_out s1 ++ out))
(* the worker: 45-48 *)
| is_done s w : i_workers s w = IWSelect -> done s w = true -> istep s IETau
    (MkI (i_rec s) (i_lock s) (i_canceler s) (i_root s) (i_cancelled s) (upd (i_workers s) w IWGone) (i_next s) (i_clients s) (i_out s))
| is_tick s w : i_workers s w = IWSelect -> istep s (IETick w)
    (MkI (i_rec s) (i_lock s) (i_canceler s) (i_root s) (i_cancelled s) (upd (i_workers s) w IWWant) (i_next s) (i_clients s) (i_out s))
| is_wlock s w : i_workers s w = IWWant -> i_lock s = None -> istep s IETau
    (MkI (i_rec s) (Some (OWorker w)) (i_canceler s) (i_root s) (i_cancelled s) (upd (i_workers s) w IWHold) (i_next s) (i_clients s) (i_out s))
(* 53-55: returns with the lock *)
| is_leave s w : i_workers s w = IWHold -> done s w = true -> istep s IETau
    (MkI (i_rec s) (i_lock s) (i_canceler s) (i_root s) (i_cancelled s) (upd (i_workers s) w IWGone) (i_next s) (i_clients s) (i_out s))
(* 56-61 *)
| is_persist s w now r p : i_workers s w = IWHold -> done s w = false -> interval_tick ans now (i_rec s) = (r, p) ->
    istep s (IEPersist w p)
      (MkI r None (i_canceler s) (i_root s) (i_cancelled s) (upd (i_workers s) w IWSelect) (i_next s) (i_clients s) (i_out s ++ [p])).
Inductive isteps : istate -> list ievent -> istate -> Prop :=
| ist_nil s : isteps s [] s
| ist_snoc s es s1 e s2 : isteps s es s1 -> istep s1 e s2 -> isteps s (es ++ [e]) s2.
End Interval.
