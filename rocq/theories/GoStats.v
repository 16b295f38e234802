(* Counters of the Go runtime (x/ftdc/metrics/golang_info.go). *)
Require Import ZArith List Bool String.
From Verif Require Import Base BSpec Value Codec Api Events.
Import List ListNotations.
Open Scope Z_scope.

(* What one collection reads: the clock, runtime.MemStats and the two calls of package runtime.  The
   counters are uint64, NumGC is a uint32, PauseNs the 256 latest pauses. *)
Record reading := MkRd {
  rd_now : Z; rd_cgo : Z; rd_mallocs : Z; rd_frees : Z; rd_numgc : Z; rd_lastgc : Z; rd_pauses : list Z;
  rd_objects : Z; rd_alloc : Z; rd_sys : Z; rd_idle : Z; rd_inuse : Z; rd_goroutines : Z }.

(* golang_info.go:15-18 goStatsData *)
Record gdata := MkD { gd_prev : Z; gd_cur : Z }.
(* golang_info.go:20 *)
Definition gd_diff (d : gdata) : Z := i64 (gd_cur d - gd_prev d).
Definition gd_next (d : gdata) (x : Z) : gdata := MkD (gd_cur d) x.
(* golang_info.go:22-33 goStats.  The mutex is held for the whole of a collection (112, 222), so
   that collections follow one another. *)
Record gstats := MkGS { gs_cgo : gdata; gs_mallocs : gdata; gs_frees : gdata; gs_gcs : gdata;
  gs_pause : Z; gs_lastgc : Z; gs_last : Z; gs_dur : Z }.
(* golang_info.go:13 *)
Definition new_stats : gstats := MkGS (MkD 0 0) (MkD 0 0) (MkD 0 0) (MkD 0 0) 0 zero_time zero_time 0.

(* golang_info.go:35-60 update; the index is a uint32 *)
Definition update (r : reading) (s : gstats) : go gstats :=
  pause <- goindex (rd_pauses r) (u32 (rd_numgc r + 255) mod 256) ;;
  Ret (MkGS (gd_next (gs_cgo s) (rd_cgo r)) (gd_next (gs_mallocs s) (i64 (rd_mallocs r)))
    (gd_next (gs_frees s) (i64 (rd_frees r))) (gd_next (gs_gcs s) (rd_numgc r))
    pause (i64 (rd_lastgc r)) (rd_now r) (since (rd_now r) (gs_last s))).

(* golang_info.go:67-73 getRate: delta and duration *)
Definition get_rate (s : gstats) (stat : Z) : Z * Z := if gs_dur s =? 0 then (0, 0) else (stat, gs_dur s).
(* golang_info.go:87-92 statRate.int: Go's division truncates *)
Definition rate_int (r : Z * Z) : Z := if snd r =? 0 then 0 else i64 (Z.quot (fst r) (snd r)).

(* golang_info.go:155-161 *)
Inductive ctype := CTCurrent | CTDeltas | CTRates.
(* golang_info.go:138-153 GoRuntimeInfo *)
Record info := MkInfo { in_objects : Z; in_alloc : Z; in_sys : Z; in_idle : Z; in_inuse : Z;
  in_mallocs : Z; in_frees : Z; in_gc : Z; in_pause : Z; in_latency : Z; in_goroutines : Z; in_cgo : Z }.
Definition count_of (t : ctype) (s : gstats) (d : gdata) : Z :=
  match t with
  | CTDeltas => fst (get_rate s (gd_diff d))
  | CTRates => rate_int (get_rate s (gd_diff d))
  | CTCurrent => gd_cur d
  end.
(* golang_info.go:170-254 CollectGoStatsTotals, Current, Deltas and Rates over build; later is the
   clock read by time.Since (233) *)
Definition collect (t : ctype) (later : Z) (r : reading) (s : gstats) : go (gstats * info) :=
  s <- update r s ;;
  Ret (s, MkInfo (rd_objects r) (rd_alloc r) (rd_sys r) (rd_idle r) (rd_inuse r)
    (count_of t s (gs_mallocs s)) (count_of t s (gs_frees s)) (count_of t s (gs_gcs s))
    (i64 (gs_pause s)) (since later (gs_lastgc s)) (rd_goroutines r) (count_of t s (gs_cgo s))).
(* golang_info.go:111-132 CollectBasicGoStats, as far as it changes the counters: it also updates
   them.  Its rates are floating-point quotients and are not modelled. *)
Definition collect_basic (r : reading) (s : gstats) : go gstats := update r s.

(* golang_info.go:256-270 MarshalDocument *)
Definition info_document (i : info) : go document :=
  e1 <- ec_int64 (str "memory.objects.heap") (i64 (in_objects i)) ;;
  e2 <- ec_int64 (str "memory.summary.alloc") (i64 (in_alloc i)) ;;
  e3 <- ec_int64 (str "memory.summary.system") (i64 (in_sys i)) ;;
  e4 <- ec_int64 (str "memory.heap.idle") (i64 (in_idle i)) ;;
  e5 <- ec_int64 (str "memory.heap.used") (i64 (in_inuse i)) ;;
  e6 <- ec_int64 (str "memory.counters.mallocs") (in_mallocs i) ;;
  e7 <- ec_int64 (str "memory.counters.frees") (in_frees i) ;;
  e8 <- ec_int64 (str "gc.rate") (in_gc i) ;;
  e9 <- ec_duration (str "gc.pause.duration.last") (in_pause i) ;;
  e10 <- ec_duration (str "gc.pause.duration.latency") (in_latency i) ;;
  e11 <- ec_int64 (str "goroutines.total") (in_goroutines i) ;;
  e12 <- ec_int64 (str "cgo.calls") (in_cgo i) ;;
  Ret (map Some [e1; e2; e3; e4; e5; e6; e7; e8; e9; e10; e11; e12]).

(* a run of collections: what each asks for and reads *)
Inductive gcall := Collect (t : ctype) (later : Z) (r : reading) | CollectBasic (r : reading).
Definition read_of (c : gcall) : reading := match c with Collect _ _ r => r | CollectBasic r => r end.
Fixpoint collect_all (cs : list gcall) (s : gstats) : go (gstats * list (option info)) :=
  match cs with
  | [] => Ret (s, [])
  | Collect t later r :: rest =>
      '(s, i) <- collect t later r s ;; '(s, is) <- collect_all rest s ;; Ret (s, Some i :: is)
  | CollectBasic r :: rest =>
      s <- collect_basic r s ;; '(s, is) <- collect_all rest s ;; Ret (s, None :: is)
  end.
