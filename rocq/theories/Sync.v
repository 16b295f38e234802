(* x/ftdc: the synchronized and the buffered collector, around any collector. *)
Require Import ZArith List Bool Arith Lia.
From Verif Require Import Base Value Ftdc Collect Lin.
Import ListNotations.

(* ftdc.go:15-42 Collector.  C is the state of the collector (with the writer of the
   streaming ones), D what Add and SetMetadata are given; the calls are as in Ftdc.v and
   Collect.v. *)
Record collector (C D : Type) := MkCollector {
  k_add : C -> D -> C * go (option gerr);
  k_set_metadata : C -> D -> C * go (option gerr);
  k_resolve : C -> C * go (bytes + gerr);
  k_reset : C -> C;
  k_info : C -> Z * Z
}.
Arguments MkCollector {C D}. Arguments k_add {C D}. Arguments k_set_metadata {C D}.
Arguments k_resolve {C D}. Arguments k_reset {C D}. Arguments k_info {C D}.

Inductive cop (D : Type) := OpAdd (d : D) | OpMeta (d : D) | OpResolve | OpReset | OpInfo.
Arguments OpAdd {D}. Arguments OpMeta {D}. Arguments OpResolve {D}. Arguments OpReset {D}. Arguments OpInfo {D}.
Inductive cres := RAdd (r : go (option gerr)) | RMeta (r : go (option gerr)) | RBytes (r : go (bytes + gerr)) | RUnit | RInfo (i : Z * Z).

(* a call with no other one under way *)
Definition k_call {C D} (k : collector C D) (o : cop D) (s : C) : C * cres :=
  match o with
  | OpAdd d => let '(s, r) := k_add k s d in (s, RAdd r)
  | OpMeta d => let '(s, r) := k_set_metadata k s d in (s, RMeta r)
  | OpResolve => let '(s, r) := k_resolve k s in (s, RBytes r)
  | OpReset => (k_reset k s, RUnit)
  | OpInfo => (s, RInfo (k_info k s))
  end.

(* the collectors of Ftdc.v and Collect.v; a sample is a time and a document *)
Section Kinds.
Variable nan : Z -> Z -> Z.
Variable zip : bytes -> bytes.
Variable to_json : document -> go (bytes + gerr).
Variable fuel : nat.
Definition base_collector : collector better (Z * document) :=
  MkCollector (fun c d => b_add nan fuel (fst d) c (snd d)) (fun c d => (b_set_metadata c (snd d), Base.Ret None))
    (fun c => (c, b_resolve zip fuel c)) b_reset (fun c => (b_metrics c, b_samples c)).
Definition batch_collector : collector batch (Z * document) :=
  MkCollector (fun c d => bt_add nan fuel (fst d) c (snd d)) (fun c d => (bt_set_metadata c (snd d), Base.Ret None))
    (fun c => (c, bt_resolve zip fuel c)) bt_reset
    (fun c => (fold_right (fun b n => b_metrics b + n) 0 (bt_chunks c), bt_samples c)%Z).
Definition uncomp_collector : collector uncomp (Z * document) :=
  MkCollector (fun c d => let '(c, e) := u_add c (snd d) in (c, Base.Ret e)) (fun c d => (u_set_metadata c (snd d), Base.Ret None))
    (fun c => (c, u_resolve to_json fuel c)) u_reset (fun c => (u_metrics c, zlen (u_samples c))).
End Kinds.

(* -------------------------------------------------------------------- synchronized *)

(* collector_sync.go:21-53: Info takes RLock, the others Lock *)
Definition sync_rlock {D} (o : cop D) : bool := match o with OpInfo => true | _ => false end.

(* The steps of the collector inside: any.  Here a call that loads the state and another
   step that stores it and returns. *)
Inductive ls C D := LStart (o : cop D) | LLoaded (o : cop D) (s : C).
Arguments LStart {C D}. Arguments LLoaded {C D}.
Definition ls_step {C D} (k : collector C D) (l : ls C D) (s : C) : micro cres (ls C D) * C :=
  match l with
  | LStart o => (MRun (LLoaded o s), s)
  | LLoaded o s0 => (MDone (snd (k_call k o s0)), match o with OpInfo => s | _ => fst (k_call k o s0) end)
  end.

(* ------------------------------------------------------------------------ buffered *)

(* collector_buffered.go.  The goroutine of NewBufferedCollector (23-41) is at its select,
   in Collector.Add, in the loop over the closed channel, there in Collector.Add, or has
   returned; clients are in Add (45-52) or in Resolve (54-60) of the collector inside.
   catcher.Push drops nil.  A panic of Collector.Add ends the program. *)
Inductive consumer (D : Type) := Selecting | Adding (d : D) | Draining | DrainAdding (d : D) | Returned | Crashed.
Arguments Selecting {D}. Arguments Adding {D}. Arguments Draining {D}. Arguments DrainAdding {D}. Arguments Returned {D}. Arguments Crashed {D}.
Inductive client (D : Type) := CIdle | CAdding (d : D) | CResolving.
Arguments CIdle {D}. Arguments CAdding {D}. Arguments CResolving {D}.
Record buffered (C D : Type) := MkBuf {
  bf_cap : nat; bf_pipe : list D; bf_closed : bool; bf_cancelled : bool;
  bf_consumer : consumer D; bf_inner : C; bf_errs : list gerr; bf_panicked : bool;
  bf_clients : tid -> client D }.
Arguments MkBuf {C D}. Arguments bf_cap {C D}. Arguments bf_pipe {C D}. Arguments bf_closed {C D}.
Arguments bf_cancelled {C D}. Arguments bf_consumer {C D}. Arguments bf_inner {C D}. Arguments bf_errs {C D}.
Arguments bf_panicked {C D}. Arguments bf_clients {C D}.

Inductive bevent (D : Type) :=
| BCancel                                        (* the context ends *)
| BAdd (t : tid) (d : D)                         (* a call of Add *)
| BAddNil (t : tid) (d : D)                      (* the channel took the sample; nil *)
| BAddErr (t : tid)                              (* ctx.Err() *)
| BAddPanic (t : tid)                            (* send on closed channel *)
| BResolve (t : tid) | BResolved (t : tid) (r : go (bytes + gerr))
| BInner (d : D)                                 (* the collector inside took the sample *)
| BCrash                                         (* Add of the collector inside panics *)
| BTau.
Arguments BCancel {D}. Arguments BAdd {D}. Arguments BAddNil {D}. Arguments BAddErr {D}. Arguments BAddPanic {D}.
Arguments BResolve {D}. Arguments BResolved {D}. Arguments BInner {D}. Arguments BCrash {D}. Arguments BTau {D}.

(* collector_buffered.go:19-43 *)
Definition new_buffered {C D} (size : nat) (inner : C) : buffered C D :=
  MkBuf size [] false false Selecting inner [] false (fun _ => CIdle).
Definition bset {D} (f : tid -> client D) (t : tid) (x : client D) : tid -> client D := fun u => if Nat.eqb u t then x else f u.
Definition push (l : list gerr) (e : option gerr) : list gerr := match e with Some e => l ++ [e] | None => l end.
Definition e_catcher := EOther 80.

Section Buffered.
Context {C D : Type}.
Variable k : collector C D.

Inductive bstep : buffered C D -> bevent D -> buffered C D -> Prop :=
| bs_cancel cap p cl ca co i es pa f :
    bstep (MkBuf cap p cl ca co i es pa f) BCancel (MkBuf cap p cl true co i es pa f)
(* 45-52 Add: the select waits until the context is done, the channel has room or a
   receiver, or the channel is closed, and takes any of those *)
| bs_add cap p cl ca co i es pa f t d : f t = CIdle ->
    bstep (MkBuf cap p cl ca co i es pa f) (BAdd t d) (MkBuf cap p cl ca co i es pa (bset f t (CAdding d)))
| bs_send cap p ca co i es pa f t d : f t = CAdding d -> (length p < cap)%nat ->
    bstep (MkBuf cap p false ca co i es pa f) (BAddNil t d) (MkBuf cap (p ++ [d]) false ca co i es pa (bset f t CIdle))
| bs_hand p ca i es pa f t d : f t = CAdding d ->
    bstep (MkBuf 0 p false ca Selecting i es pa f) (BAddNil t d) (MkBuf 0 p false ca (Adding d) i es pa (bset f t CIdle))
| bs_done cap p cl co i es pa f t d : f t = CAdding d ->
    bstep (MkBuf cap p cl true co i es pa f) (BAddErr t) (MkBuf cap p cl true co i es pa (bset f t CIdle))
| bs_panic cap p ca co i es pa f t d : f t = CAdding d ->
    bstep (MkBuf cap p true ca co i es pa f) (BAddPanic t) (MkBuf cap p true ca co i es true (bset f t CIdle))
(* 54-60 Resolve; SetMetadata, Reset and Info are those of the collector inside *)
| bs_resolve cap p cl ca co i pa f t : f t = CIdle ->
    bstep (MkBuf cap p cl ca co i [] pa f) (BResolve t) (MkBuf cap p cl ca co i [] pa (bset f t CResolving))
| bs_resolve_err cap p cl ca co i e es pa f t : f t = CIdle ->
    bstep (MkBuf cap p cl ca co i (e :: es) pa f) (BResolved t (Base.Ret (inr e_catcher))) (MkBuf cap p cl ca co i (e :: es) pa f)
| bs_resolved cap p cl ca co i es pa f t i' r : f t = CResolving -> k_resolve k i = (i', r) ->
    bstep (MkBuf cap p cl ca co i es pa f) (BResolved t r) (MkBuf cap p cl ca co i' es pa (bset f t CIdle))
(* 23-41 the goroutine; Add of the collector inside changes its state at its end *)
| bs_recv cap d p cl ca i es pa f :
    bstep (MkBuf cap (d :: p) cl ca Selecting i es pa f) BTau (MkBuf cap p cl ca (Adding d) i es pa f)
| bs_added cap p cl ca d i es pa f i' e : k_add k i d = (i', Base.Ret e) ->
    bstep (MkBuf cap p cl ca (Adding d) i es pa f) (BInner d) (MkBuf cap p cl ca Selecting i' (push es e) pa f)
| bs_crash cap p cl ca co d i es pa f i' x : co = Adding d \/ co = DrainAdding d -> k_add k i d = (i', Panic x) ->
    bstep (MkBuf cap p cl ca co i es pa f) BCrash (MkBuf cap p cl ca Crashed i' es true f)
| bs_close cap p cl i es pa f :
    bstep (MkBuf cap p cl true Selecting i es pa f) BTau
          (MkBuf cap p true true (match p with [] => Returned | _ => Draining end) i es pa f)
| bs_range cap d p cl ca i es pa f :
    bstep (MkBuf cap (d :: p) cl ca Draining i es pa f) BTau (MkBuf cap p cl ca (DrainAdding d) i es pa f)
| bs_drained cap p cl ca d i es pa f i' e : k_add k i d = (i', Base.Ret e) ->
    bstep (MkBuf cap p cl ca (DrainAdding d) i es pa f) (BInner d) (MkBuf cap p cl ca Draining i' (push es e) pa f)
| bs_end cap cl ca i es pa f :
    bstep (MkBuf cap [] cl ca Draining i es pa f) BTau (MkBuf cap [] cl ca Returned i es pa f).

Inductive bsteps : buffered C D -> list (bevent D) -> buffered C D -> Prop :=
| bn_nil s : bsteps s [] s
| bn_snoc s es s1 e s2 : bsteps s es s1 -> bf_consumer s1 <> Crashed -> bstep s1 e s2 -> bsteps s (es ++ [e]) s2.
End Buffered.
