(* x/ftdc/events: the synchronized recorder, the synchronized collector of events and the recorder
   for the timer of a benchmark. *)
Require Import ZArith List Bool Arith.
From Verif Require Import Base Events Lin Sync.
Import ListNotations.

(* -------------------------------------------------------------- the synchronized recorder *)

(* recorder_wrapper_sync.go:25-77: each method takes the lock, calls the same method of the recorder
   inside and releases the lock, which is not deferred: when the call panics the lock stays taken.
   The calls of the recorder inside are steps on its state, as in Lin.v. *)
Section NoDefer.
Context {St Op Res L : Type}.
Variable start : Op -> L.
Variable mstep : L -> St -> micro Res L * St.
Variable panics : Res -> bool.
Notation cfg := (@config St Op Res L).
Inductive lstep : cfg -> list (event Op Res) -> cfg -> Prop :=
| l_call s w ts t o : ts t = Idle -> lstep (MkCfg s w [] ts) [Call t o] (MkCfg s w [] (set ts t (Waiting o)))
| l_lock s ts t o : ts t = Waiting o ->
    lstep (MkCfg s None [] ts) [] (MkCfg s (Some t) [] (set ts t (Inside o (start o))))
| l_body s w ts t o l l' s' : ts t = Inside o l -> mstep l s = (MRun l', s') ->
    lstep (MkCfg s w [] ts) [] (MkCfg s' w [] (set ts t (Inside o l')))
| l_unlock s ts t o l r s' : ts t = Inside o l -> mstep l s = (MDone r, s') -> panics r = false ->
    lstep (MkCfg s (Some t) [] ts) [] (MkCfg s' None [] (set ts t (Leaving r)))
| l_panic s w ts t o l r s' : ts t = Inside o l -> mstep l s = (MDone r, s') -> panics r = true ->
    lstep (MkCfg s w [] ts) [] (MkCfg s' w [] (set ts t (Leaving r)))
| l_return s w ts t r : ts t = Leaving r -> lstep (MkCfg s w [] ts) [Return t r] (MkCfg s w [] (set ts t Idle)).
Inductive lrun : cfg -> list (event Op Res) -> cfg -> Prop :=
| lr_nil c : lrun c [] c
| lr_step c e c' es c'' : lstep c e c' -> lrun c' es c'' -> lrun c (e ++ es) c''.
End NoDefer.

(* Calls of a recorder of performance points: the call with the instant it reads from the clock, the
   errors of EndTest or the panic of the collector underneath, and as state the recorder and the
   points it gave to the collector. *)
Definition rop : Type := Z * rcall.
Definition rres : Type := go (list gerr).
Definition rpanics (r : rres) : bool := match r with Base.Ret _ => false | _ => true end.
Definition rstate : Type := recorder * list perf.

(* -------------------------------------------------- the synchronized collector of events *)

(* collector.go:204-255: as the synchronized collector of ftdc (Sync.v), with AddEvent *)
Inductive ecop (D P : Type) := EC (o : cop D) | EEvent (p : P).
Arguments EC {D P}. Arguments EEvent {D P}.
Inductive ecres := ERes (r : cres) | EAdded (r : go (option gerr)).
Definition esync_rlock {D P} (o : ecop D P) : bool := match o with EC OpInfo => true | _ => false end.

(* ------------------------------------------------------------------------- the benchmark shim *)

(* recorder_wrapper_stdlib.go.  What the timer is told, and the calls of the recorder inside.  stdShim
   embeds Recorder and has methods Reset (29-32), Begin (33-36) and End (37-40); the last two are not
   in the interface, so that BeginIteration and EndIteration are those of the recorder inside. *)
Inductive tcall := ResetTimer | StartTimer | StopTimer.
Definition shim_call (c : rcall) : list tcall * list rcall :=
  match c with Reset => ([ResetTimer], [Reset]) | _ => ([], [c]) end.
Fixpoint shim_run (cs : list rcall) : list tcall * list rcall :=
  match cs with
  | [] => ([], [])
  | c :: r => let '(t, x) := shim_call c in let '(t', x') := shim_run r in (t ++ t', x ++ x')
  end.
