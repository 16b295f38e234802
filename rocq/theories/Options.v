(* The options of CollectRuntime: x/ftdc/metrics/metrics.go:31-51, 132-182. *)
Require Import ZArith List Bool String.
From Verif Require Import Base Value Codec Api Events Sort Metrics.
Import List ListNotations.
Open Scope Z_scope.

(* metrics.go:33-43.  Durations are nanoseconds. *)
Record options := MkOpt {
  o_flush : Z; o_collect : Z;
  o_skip_go : bool; o_skip_sys : bool; o_skip_proc : bool;
  o_parallel : bool; o_samples : Z;
  o_collectors : list collector; o_prefix : bytes }.
Definition millisecond : Z := 1000000.
Definition second : Z := 1000 * millisecond.
Definition hour : Z := 3600 * second.

(* metrics.go:47-49 Collectors.Less *)
Definition by_name (a b : collector) : bool := bytes_ltb (co_name a) (co_name b).

(* metrics.go:132-142 NewCollectOptions *)
Definition new_collect_options (prefix : bytes) : options :=
  MkOpt (24 * hour) second false false false false 300 [] prefix.

(* metrics.go:144-150 validateCondition: erc.Collector holds what was pushed.  How the errors are ordered in the error
   that Resolve makes of them is outside /repo; here they are in the order of the calls. *)
Definition validate_condition (ec : list bytes) (cond : bool) (s : string) : list bytes :=
  if cond then ec ++ [str s] else ec.
Definition resolve (ec : list bytes) : option (list bytes) := match ec with [] => None | _ => Some ec end.

(* metrics.go:154-174 Validate.  The receiver is a copy but its slice of collectors is that of the caller: the first part
   of the result is what the slice holds afterwards.  sort is sort.Stable. *)
Definition validate (sort : (collector -> collector -> bool) -> list collector -> list collector) (o : options)
  : list collector * option (list bytes) :=
  let cs := sort by_name (o_collectors o) in
  let ec := validate_condition [] (o_flush o <? millisecond) "flush interval must be greater than a millisecond" in
  let ec := validate_condition ec (o_collect o <? millisecond) "collection interval must be greater than a millisecond" in
  let ec := validate_condition ec (o_flush o <? o_collect o) "collection interval must be smaller than flush interval" in
  let ec := validate_condition ec (o_samples o <? 10) "sample count must be at least 10" in
  let ec := validate_condition ec (o_skip_go o && o_skip_proc o && o_skip_sys o)
              "cannot skip all metrics collection, must specify golang, process, or system" in
  let ec := validate_condition ec (o_parallel o && (zlen cs =? 0))
              "cannot run parallel collectors with no collectors specified" in
  (cs, resolve ec).

(* metrics.go:179-182 and 76-91: CollectRuntime up to its first sample without RunParallelCollectors: the errors of
   Validate, before any file is made, or the sample.  docb is the document of the runtime. *)
Definition first_sample sort (p : pan) (docb : document) (o : options) : list bytes + go document :=
  match validate sort o with
  | (_, Some e) => inl e
  | (cs, None) => inr (generate_sequential p docb cs)
  end.
