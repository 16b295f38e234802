(* Histogram points and the recorders that keep them (x/ftdc/events/histogram.go,
   recorder_histogram*.go, x/ftdc/hdrhist/snapshot.go). *)
Require Import ZArith List Bool String.
From Verif Require Import Base BSpec Value Codec Api Iface Events.
Import List ListNotations.
Open Scope Z_scope.

(* A histogram of package fun/dt/hdrhist, which is no part of the repository: its bounds and the
   values recorded, in order. *)
Record hist := MkH { h_low : Z; h_high : Z; h_vals : list Z }.
Inductive fld := FNumber | FOps | FSize | FErrors | FDur | FTotal.
(* histogram.go:20-38 PerformanceHDR *)
Record hperf := MkHP { hp_ts : Z; hp_id : Z; hp_h : fld -> hist; hp_g : gauges }.
(* histogram.go:40-62 NewHistogramSecond *)
Definition second_hist (f : fld) : hist :=
  match f with FDur | FTotal => MkH 1000 (20 * 60000000000) [] | _ => MkH 0 (10 * 100 * 1000) [] end.
Definition hist_second (g : gauges) : hperf := MkHP zero_time 0 second_hist g.
(* histogram.go:64-86 NewHistogramMillisecond *)
Definition milli_hist (f : fld) : hist :=
  match f with FDur | FTotal => MkH 1000 60000000000 [] | _ => MkH 0 (10 * 1000) [] end.
Definition hist_millisecond (g : gauges) : hperf := MkHP zero_time 0 milli_hist g.

Definition fld_eqb (a b : fld) : bool :=
  match a, b with
  | FNumber, FNumber | FOps, FOps | FSize, FSize | FErrors, FErrors | FDur, FDur | FTotal, FTotal => true
  | _, _ => false
  end.
(* histogram.go:110-118 setTimestamp *)
Definition hset_timestamp (started now : Z) (p : hperf) : hperf :=
  if hp_ts p =? zero_time then MkHP (if started =? zero_time then now else started) (hp_id p) (hp_h p) (hp_g p) else p.

(* started, point, lastCollected, interval, catcher *)
Record hrec := MkHR { hr_started : Z; hr_point : hperf; hr_last : Z; hr_interval : Z; hr_errs : list gerr }.
Definition hset_point (r : hrec) (p : hperf) : hrec := MkHR (hr_started r) p (hr_last r) (hr_interval r) (hr_errs r).
Definition hset_started (r : hrec) (t : Z) : hrec := MkHR t (hr_point r) (hr_last r) (hr_interval r) (hr_errs r).

Section HistRecorders.
(* whether a histogram with these bounds records the value; RecordValue errs if not *)
Variable fits : Z -> Z -> Z -> bool.
(* the answer of Add of the collector underneath, and the clock of the call: every reading
   within one call gives the same instant (a simplification) *)
Variable ans : hperf -> option gerr.
Variable now : Z.

(* catcher.Push(point.….RecordValue(v)) *)
Definition hrecord (f : fld) (v : Z) (r : hrec) : hrec :=
  let p := hr_point r in
  let h := hp_h p f in
  if fits (h_low h) (h_high h) v then
    hset_point r (MkHP (hp_ts p) (hp_id p)
      (fun g => if fld_eqb g f then MkH (h_low h) (h_high h) (h_vals h ++ [v]) else hp_h p g) (hp_g p))
  else MkHR (hr_started r) p (hr_last r) (hr_interval r) (hr_errs r ++ [EOther 640]).
(* catcher.Push(collector.Add(point)) *)
Definition hpersist (r : hrec) : hrec :=
  MkHR (hr_started r) (hr_point r) (hr_last r) (hr_interval r) (note (hr_errs r) (ans (hr_point r))).
Definition hstamp (r : hrec) : hrec := hset_point r (hset_timestamp (hr_started r) now (hr_point r)).
(* if !started.IsZero() { push(Total.RecordValue(time.Since(started))); … } *)
Definition htotal (r : hrec) : hrec := if hr_started r =? zero_time then r else hrecord FTotal (since now (hr_started r)) r.
(* setTimestamp and the values EndIteration records: recorder_histogram.go:51-58, _single.go:55-63,
   _grouped.go:54-62 *)
Definition hend (d : Z) (r : hrec) : hrec :=
  let r := hrecord FDur d (hrecord FNumber 1 (hstamp r)) in
  if hr_started r =? zero_time then r else hset_started (htotal r) zero_time.
(* the methods that are the same in all recorders: recorder_histogram.go:35-49, 63-75 and the like *)
Definition hplain (c : rcall) (r : hrec) : hrec :=
  let p := hr_point r in
  match c with
  | IncIterations v => hrecord FNumber v r
  | IncOperations v => hrecord FOps v r
  | IncSize v => hrecord FSize v r
  | IncError v => hrecord FErrors v r
  | SetDuration d => hrecord FDur d r
  | SetTotalDuration d => hrecord FTotal d r
  | SetState v => hset_point r (MkHP (hp_ts p) (hp_id p) (hp_h p) (MkGau v (g_workers (hp_g p)) (g_failed (hp_g p))))
  | SetWorkers v => hset_point r (MkHP (hp_ts p) (hp_id p) (hp_h p) (MkGau (g_state (hp_g p)) v (g_failed (hp_g p))))
  | SetFailed b => hset_point r (MkHP (hp_ts p) (hp_id p) (hp_h p) (MkGau (g_state (hp_g p)) (g_workers (hp_g p)) b))
  | SetID v => hset_point r (MkHP (hp_ts p) v (hp_h p) (hp_g p))
  | SetTime t => hset_point r (MkHP t (hp_id p) (hp_h p) (hp_g p))
  | _ => r
  end.

(* Each call gives the new state, the points given to the collector and, for EndTest, the errors
   reported. *)
Definition hrecorded : Type := hrec * list hperf * list gerr.
(* recorder_histogram.go:87-91, _single.go:84-88, _grouped.go:97-102, _interval.go:141-149 *)
Definition hreset (last : Z) (r : hrec) : hrec := MkHR zero_time (hist_millisecond (hp_g (hr_point r))) last (hr_interval r) [].
(* EndTest of all but the single recorder: recorder_histogram.go:78-85, _grouped.go:88-95 *)
Definition hend_test (reset : hrec -> hrec) (r : hrec) : hrecorded :=
  if hp_ts (hr_point r) =? zero_time then (reset r, [], hr_errs r)
  else let r := hpersist r in (reset r, [hr_point r], hr_errs r).

(* recorder_histogram.go *)
Definition hstream_call (c : rcall) (r : hrec) : hrecorded :=
  match c with
  | BeginIteration => (hstamp (hset_started r now), [], [])
  | EndIteration d => let r := hend d r in (hpersist r, [hr_point r], [])
  | EndTest => hend_test (hreset (hr_last r)) r
  | Reset => (hreset (hr_last r) r, [], [])
  | _ => (hplain c r, [], [])
  end.
(* recorder_histogram_single.go *)
Definition hsingle_call (c : rcall) (r : hrec) : hrecorded :=
  match c with
  | BeginIteration => (hset_started r now, [], [])
  | EndIteration d => (hend d r, [], [])
  | EndTest => let r := hpersist (hstamp r) in (hreset (hr_last r) r, [hr_point r], hr_errs r)
  | Reset => (hreset (hr_last r) r, [], [])
  | _ => (hplain c r, [], [])
  end.
(* recorder_histogram_grouped.go *)
Definition hgrouped_call (c : rcall) (r : hrec) : hrecorded :=
  match c with
  | BeginIteration => (hstamp (hset_started r now), [], [])
  | EndIteration d =>
      let r := hend d r in
      if hr_interval r <=? since now (hr_last r) then
        let r := hpersist r in (MkHR (hr_started r) (hr_point r) now (hr_interval r) (hr_errs r), [hr_point r], [])
      else (r, [], [])
  | EndTest => hend_test (hreset zero_time) r
  | Reset => (hreset zero_time r, [], [])
  | _ => (hplain c r, [], [])
  end.
(* recorder_histogram_interval.go: the bodies of the methods under the lock, 66-191.  Starting and
   stopping the worker, and the lock, are those of the interval recorder (see Events). *)
Definition hinterval_call (c : rcall) (r : hrec) : hrecorded :=
  match c with
  | BeginIteration => (hstamp (hset_started r now), [], [])
  | EndIteration d => (htotal (hrecord FDur d (hrecord FNumber 1 (hstamp r))), [], [])
  | EndTest =>
      let r := if hr_started r =? zero_time then r else hset_started (htotal r) zero_time in
      hend_test (hreset (hr_last r)) r
  | Reset => (hreset (hr_last r) r, [], [])
  | _ => (hplain c r, [], [])
  end.
(* the worker, 56-60 *)
Definition hinterval_tick (r : hrec) : hrecorded :=
  let r := hpersist (hstamp r) in (hset_point r (hist_millisecond (hp_g (hr_point r))), [hr_point r], []).
End HistRecorders.

(* recorder_histogram.go:28-33, _single.go:28-33, _interval.go:32-39 *)
Definition new_hrec : hrec := MkHR zero_time (hist_millisecond no_gauges) zero_time 0 [].
(* recorder_histogram_grouped.go:31-36: the interval is not stored *)
Definition new_hgrouped_rec (interval : Z) : hrec := MkHR zero_time (hist_millisecond no_gauges) zero_time 0 [].

(* ------------------------------------------------------------------------------- documents *)

Section Documents.
(* the counts Export gives for a histogram *)
Variable counts : hist -> list Z.
(* hdrhist/snapshot.go:16-25 *)
Definition hist_document (h : hist) : go document :=
  e1 <- ec_int64 (str "lowest") (h_low h) ;;
  e2 <- ec_int64 (str "highest") (h_high h) ;;
  e3 <- ec_int64 (str "figures") 5 ;;
  e4 <- slice_of (ec_int64 []) (str "counts") (counts h) ;;
  Ret [Some e1; Some e2; Some e3; Some e4].
(* x_constructor.go:247-249 EC.DocumentMarshaler of a histogram, which never errs *)
Definition ec_hist (key : bytes) (h : hist) : go value := d <- hist_document h ;; ec_subdocument key d.
(* histogram.go:88-108 *)
Definition hperf_document (p : hperf) : go document :=
  ts <- ec_time (str "ts") (hp_ts p) ;;
  id <- ec_int64 (str "id") (hp_id p) ;;
  c1 <- ec_hist (str "n") (hp_h p FNumber) ;;
  c2 <- ec_hist (str "ops") (hp_h p FOps) ;;
  c3 <- ec_hist (str "size") (hp_h p FSize) ;;
  c4 <- ec_hist (str "errors") (hp_h p FErrors) ;;
  c <- ec_subdocument (str "counters") [Some c1; Some c2; Some c3; Some c4] ;;
  t1 <- ec_hist (str "dur") (hp_h p FDur) ;;
  t2 <- ec_hist (str "total") (hp_h p FTotal) ;;
  t <- ec_subdocument (str "timers") [Some t1; Some t2] ;;
  g1 <- ec_int64 (str "state") (g_state (hp_g p)) ;;
  g2 <- ec_int64 (str "workers") (g_workers (hp_g p)) ;;
  g3 <- ec_boolean (str "failed") (g_failed (hp_g p)) ;;
  g <- ec_subdocument (str "gauges") [Some g1; Some g2; Some g3] ;;
  Ret [Some ts; Some id; Some c; Some t; Some g].
End Documents.
