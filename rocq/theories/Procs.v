(* x/ftdc/metrics: reports on processes, process_info.go:40-132.  What the operating system
   says of its processes (gopsutil, not in /repo) is a parameter, and so is the report that
   populate (147-189) makes of one. *)
Require Import List Arith.
Import ListNotations.

Section Procs.
Context {Proc Info : Type}.
Variable populate : Proc -> Info.

(* process_info.go:79-114 CollectAllProcesses, after process.Processes() gave procs.  A
   goroutine is between two processes, at work on one, about to send its report, or gone. *)
Inductive qworker := QNext | QWork (p : Proc) | QSend (i : Info) | QGone.
Inductive qmain := QWait | QRange (res : list Info) | QReturned (res : list Info) | QPanicked.
Record qstate := MkQ {
  q_procs : list Proc;      (* procChan, closed after it was filled *)
  q_infos : list Info;      (* infoChan, of len(procs) elements *)
  q_closed : bool;          (* whether infoChan was closed *)
  q_workers : list qworker;
  q_main : qmain }.
(* 80-97 *)
Definition new_collect (procs : list Proc) : qstate :=
  MkQ procs [] false (repeat QNext (Nat.min 32 (length procs))) QWait.
Definition set_at (ws : list qworker) (i : nat) (w : qworker) : list qworker := firstn i ws ++ w :: skipn (S i) ws.
Definition is_gone (w : qworker) : bool := match w with QGone => true | _ => false end.

Variable cap : nat.         (* len(procs) *)
Inductive qstep : qstate -> qstate -> Prop :=
(* 100: the next process, or the end of the loop and wg.Done() *)
| q_take p r is b ws m i : nth_error ws i = Some QNext ->
    qstep (MkQ (p :: r) is b ws m) (MkQ r is b (set_at ws i (QWork p)) m)
| q_end is b ws m i : nth_error ws i = Some QNext -> qstep (MkQ [] is b ws m) (MkQ [] is b (set_at ws i QGone) m)
(* 101-102 *)
| q_work ps is b ws m i p : nth_error ws i = Some (QWork p) ->
    qstep (MkQ ps is b ws m) (MkQ ps is b (set_at ws i (QSend (populate p))) m)
(* 103, which waits while the channel is full, and panics once it is closed *)
| q_send ps is ws m i x : nth_error ws i = Some (QSend x) -> length is < cap ->
    qstep (MkQ ps is false ws m) (MkQ ps (is ++ [x]) false (set_at ws i QNext) m)
| q_panic ps is ws m i x : nth_error ws i = Some (QSend x) -> qstep (MkQ ps is true ws m) (MkQ ps is true ws QPanicked)
(* 107-108 wg.Wait() and close(infoChan) *)
| q_wait ps is ws : forallb is_gone ws = true -> qstep (MkQ ps is false ws QWait) (MkQ ps is true ws (QRange []))
(* 109-113 *)
| q_recv ps x is b ws res : qstep (MkQ ps (x :: is) b ws (QRange res)) (MkQ ps is b ws (QRange (res ++ [x])))
| q_return ps ws res : qstep (MkQ ps [] true ws (QRange res)) (MkQ ps [] true ws (QReturned res)).
Inductive qsteps : qstate -> qstate -> Prop :=
| qs_refl s : qsteps s s
| qs_more s s1 s2 : qsteps s s1 -> qstep s1 s2 -> qsteps s s2.

(* process_info.go:116-131 getChildrenRecursively.  kids is what proc.Children() gives: an
   error or the children, while the processes do not change.  None: out of fuel. *)
Variable kids : Proc -> option (list Proc).
Fixpoint gather (rec : Proc -> option (list Proc)) (cs out : list Proc) : option (list Proc) :=   (* 124-127 *)
  match cs with
  | [] => Some out
  | c :: r => match rec c with Some l => gather rec r (out ++ [c] ++ l) | None => None end
  end.
Fixpoint children (fuel : nat) (p : Proc) : option (list Proc) :=
  match fuel with
  | O => None
  | S n =>
      match kids p with
      | None | Some [] => Some []
      | Some cs => gather (children n) cs []
      end
  end.
(* process_info.go:57-75 CollectProcessInfoWithChildren; None for an error of NewProcess *)
Definition with_children (fuel : nat) (p : option Proc) : option (list Info) :=
  match p with
  | None => Some []
  | Some p => match children fuel p with Some l => Some (populate p :: map populate l) | None => None end
  end.
End Procs.
