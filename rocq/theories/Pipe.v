(* The goroutines behind an FTDC iterator: ReadChunks, ReadMetrics, ReadStructuredMetrics,
   ReadMatrix and ReadSeries of x/ftdc.  One goroutine reads documents (readDiagnostic), one
   makes chunks of them (readChunks), the caller takes the chunks; two unbuffered channels, a
   context and an error collector join them.  What a document is and what it stands for are
   parameters (Ftdc.v and FtdcRaw.v give them); a document whose reading panics ends the
   process and has no place here (C65).  io.Reader is a list of documents and a last error. *)
Require Import List Bool.
Import ListNotations.

Section Pipe.
Context {Doc Ch Er : Type}.
(* read.go:56-158: what the worker makes of a document, given the metadata seen *)
Inductive look_res := KMeta | KSkip | KChunk (c : Ch) | KErr (e : Er).
Variable look : option Doc -> Doc -> look_res.
(* ctx.Err() after cancel *)
Variable canceled : Er.
(* what reading answers after the last document; None for io.EOF (read.go:22-27) *)
Variable fin : option Er.

(* read.go:17-35 readDiagnostic, and iterator_chunk.go:26, the goroutine that calls it: the
   deferred close of the channel comes before the Push of the error. *)
Inductive producer :=
| PRead (ds : list Doc)             (* readBufBSON, with these to come *)
| PSend (d : Doc) (ds : list Doc)   (* the select of lines 28-33 *)
| PClose (e : option Er)            (* returning e: defer close(ch) *)
| PPush (e : option Er)             (* catcher.Push(e) *)
| PDone.
(* read.go:37-160 readChunks and iterator_chunk.go:25 *)
Inductive worker :=
| WRecv (m : option Doc)            (* the select of lines 43-49 *)
| WLook (m : option Doc) (d : Doc)
| WSend (m : option Doc) (c : Ch)   (* the select of lines 144-154 *)
| WClose (e : option Er)
| WPush (e : option Er)
| WDone.
(* iterator_chunk.go:28-40 the caller inside range, and iterator.go:32-41 the function around
   it, whose deferred Push(chunks.Close()) copies the errors *)
Inductive consumer :=
| CWait                             (* the select of lines 29-39 *)
| CBody                             (* in the body of the loop *)
| CLeave                            (* returning: defer cancel() *)
| CClose                            (* the deferred chunks.Close() *)
| CDone.

Record pstate := MkP {
  s_p : producer; s_w : worker; s_c : consumer;
  s_cancel : bool;                  (* cancel() was called *)
  s_errs : list Er;                 (* the catcher of ReadChunks *)
  s_meta : option Doc;              (* what Metadata() returns *)
  s_got : list Ch;                  (* the chunks the caller was given *)
  s_stopped : bool;                 (* the caller left its loop early *)
  s_snap : list Er                  (* the catcher of ReadMetrics and the others *) }.

Definition opt {A} (o : option A) : list A := match o with Some x => [x] | None => [] end.
Definition p_closed (p : producer) : bool := match p with PPush _ | PDone => true | _ => false end.
Definition w_closed (w : worker) : bool := match w with WPush _ | WDone => true | _ => false end.

Inductive pstep : pstate -> pstate -> Prop :=
| p_read d ds w c k es m g s q : pstep (MkP (PRead (d :: ds)) w c k es m g s q) (MkP (PSend d ds) w c k es m g s q)
| p_eof w c k es m g s q : pstep (MkP (PRead []) w c k es m g s q) (MkP (PClose fin) w c k es m g s q)
| p_send d ds m0 c k es m g s q :           (* a rendezvous on ipc *)
    pstep (MkP (PSend d ds) (WRecv m0) c k es m g s q) (MkP (PRead ds) (WLook m0 d) c k es m g s q)
| p_cancel d ds w c es m g s q : pstep (MkP (PSend d ds) w c true es m g s q) (MkP (PClose None) w c true es m g s q)
| p_close e w c k es m g s q : pstep (MkP (PClose e) w c k es m g s q) (MkP (PPush e) w c k es m g s q)
| p_push e w c k es m g s q : pstep (MkP (PPush e) w c k es m g s q) (MkP PDone w c k (es ++ opt e) m g s q)
| w_eof p m0 c k es m g s q : p_closed p = true ->
    pstep (MkP p (WRecv m0) c k es m g s q) (MkP p (WClose None) c k es m g s q)
| w_cancel p m0 c es m g s q :
    pstep (MkP p (WRecv m0) c true es m g s q) (MkP p (WClose (Some canceled)) c true es m g s q)
| w_meta p m0 d c k es m g s q : look m0 d = KMeta ->
    pstep (MkP p (WLook m0 d) c k es m g s q) (MkP p (WRecv (Some d)) c k es (Some d) g s q)
| w_skip p m0 d c k es m g s q : look m0 d = KSkip ->
    pstep (MkP p (WLook m0 d) c k es m g s q) (MkP p (WRecv m0) c k es m g s q)
| w_err p m0 d e c k es m g s q : look m0 d = KErr e ->
    pstep (MkP p (WLook m0 d) c k es m g s q) (MkP p (WClose (Some e)) c k es m g s q)
| w_chunk p m0 d x c k es m g s q : look m0 d = KChunk x ->
    pstep (MkP p (WLook m0 d) c k es m g s q) (MkP p (WSend m0 x) c k es m g s q)
| w_send p m0 x k es m g s q :              (* a rendezvous on pipe, and yield *)
    pstep (MkP p (WSend m0 x) CWait k es m g s q) (MkP p (WRecv m0) CBody k es m (g ++ [x]) s q)
| w_cancel2 p m0 x c es m g s q :
    pstep (MkP p (WSend m0 x) c true es m g s q) (MkP p (WClose None) c true es m g s q)
| w_close p e c k es m g s q : pstep (MkP p (WClose e) c k es m g s q) (MkP p (WPush e) c k es m g s q)
| w_push p e c k es m g s q : pstep (MkP p (WPush e) c k es m g s q) (MkP p WDone c k (es ++ opt e) m g s q)
| c_more p w k es m g s q : pstep (MkP p w CBody k es m g s q) (MkP p w CWait k es m g s q)
| c_stop p w k es m g s q : pstep (MkP p w CBody k es m g s q) (MkP p w CLeave k es m g true q)
| c_end p w k es m g s q : w_closed w = true -> pstep (MkP p w CWait k es m g s q) (MkP p w CLeave k es m g s q)
| c_cancel p w k es m g s q : pstep (MkP p w CLeave k es m g s q) (MkP p w CClose true es m g s q)
| c_snap p w k es m g s q : pstep (MkP p w CClose k es m g s q) (MkP p w CDone k es m g s es).

Inductive psteps : pstate -> pstate -> Prop :=
| ps_refl s : psteps s s
| ps_step s1 s2 s3 : psteps s1 s2 -> pstep s2 s3 -> psteps s1 s3.

Definition pinit (ds : list Doc) : pstate := MkP (PRead ds) (WRecv None) CWait false [] None [] false [].

End Pipe.
