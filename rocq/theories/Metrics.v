(* x/ftdc/metrics: generation of a sample from the custom collectors, metrics.go:53-129.  The
   document of the runtime (golang, system and process information from outside /repo) is a
   parameter, and so are the documents of the collectors. *)
Require Import ZArith List Bool Lia String.
From Verif Require Import Base BSpec Value Codec Api Events.
Import List ListNotations.
Open Scope Z_scope.

(* metrics.go:46-51.  What Operation does: it gives a document or panics; nil documents are
   not modelled. *)
Record collector := MkColl { co_name : bytes; co_op : option document }.

(* metrics.go:76-91: no collectors, or one after the other.  p is what the panic shows. *)
Fixpoint run_all (p : pan) (cs : list collector) (doc : document) : go document :=
  match cs with
  | [] => Ret doc
  | c :: r =>
      match co_op c with
      | None => Panic p
      | Some d => e <- ec_subdocument (co_name c) d ;; run_all p r (doc ++ [Some e])
      end
  end.
Definition generate_sequential (p : pan) (docb : document) (cs : list collector) : go document :=
  match cs with
  | [] => Ret docb
  | _ => e <- ec_subdocument (str "runtime"%string) docb ;; run_all p cs [Some e]
  end.

(* metrics.go:93-129: the parallel mode, with at least one collector.  A worker is between two
   collectors, at work on one, about to send its element, or gone. *)
Inductive gworker := GNext | GWork (c : collector) | GSend (e : value) | GGone.
Inductive gmain := GWait | GRange (doc : document) | GReturned (doc : document).
Record gstate := MkG {
  gs_queue : list collector;     (* collectors, closed after it was filled *)
  gs_elems : list value;         (* elems, a channel of len(opts.Collectors) elements *)
  gs_closed : bool;              (* whether elems was closed *)
  gs_workers : list gworker;
  gs_panics : nat;
  gs_main : gmain }.
(* num is runtime.NumCPU(), at least 1 *)
Definition new_generate (cs : list collector) (num : nat) : gstate :=
  MkG cs [] false (repeat GNext (Nat.min num (length cs))) 0 GWait.
Definition is_gone (w : gworker) : bool := match w with GGone => true | _ => false end.

Section Parallel.
Variable cs : list collector.
Variable runtime : value.
Inductive gstep : gstate -> gstate -> Prop :=
(* 118: the next collector, or the end of the loop and wg.Done() *)
| gs_take s i c q : nth_error (gs_workers s) i = Some GNext -> gs_queue s = c :: q ->
    gstep s (MkG q (gs_elems s) (gs_closed s) (firstn i (gs_workers s) ++ GWork c :: skipn (S i) (gs_workers s)) (gs_panics s) (gs_main s))
| gs_end s i : nth_error (gs_workers s) i = Some GNext -> gs_queue s = [] ->
    gstep s (MkG [] (gs_elems s) (gs_closed s) (firstn i (gs_workers s) ++ GGone :: skipn (S i) (gs_workers s)) (gs_panics s) (gs_main s))
(* 119: the operation, which may panic (110-114), and EC.SubDocument, which does not here *)
| gs_work s i c d e : nth_error (gs_workers s) i = Some (GWork c) -> co_op c = Some d -> ec_subdocument (co_name c) d = Ret e ->
    gstep s (MkG (gs_queue s) (gs_elems s) (gs_closed s) (firstn i (gs_workers s) ++ GSend e :: skipn (S i) (gs_workers s)) (gs_panics s) (gs_main s))
| gs_panic s i c : nth_error (gs_workers s) i = Some (GWork c) ->
    co_op c = None \/ (exists d p, co_op c = Some d /\ ec_subdocument (co_name c) d = Panic p) ->
    gstep s (MkG (gs_queue s) (gs_elems s) (gs_closed s) (firstn i (gs_workers s) ++ GGone :: skipn (S i) (gs_workers s)) (S (gs_panics s)) (gs_main s))
(* 119: elems <- ..., which waits while the channel is full *)
| gs_send s i e : nth_error (gs_workers s) i = Some (GSend e) -> (length (gs_elems s) < length cs)%nat ->
    gstep s (MkG (gs_queue s) (gs_elems s ++ [e]) (gs_closed s) (firstn i (gs_workers s) ++ GNext :: skipn (S i) (gs_workers s)) (gs_panics s) (gs_main s))
(* 123: wg.Wait() *)
| gs_wait s : gs_main s = GWait -> forallb is_gone (gs_workers s) = true ->
    gstep s (MkG (gs_queue s) (gs_elems s) (gs_closed s) (gs_workers s) (gs_panics s) (GRange [Some runtime]))
(* 125-127: for elem := range elems, which ends when elems is closed *)
| gs_receive s doc e r : gs_main s = GRange doc -> gs_elems s = e :: r ->
    gstep s (MkG (gs_queue s) r (gs_closed s) (gs_workers s) (gs_panics s) (GRange (doc ++ [Some e])))
| gs_return s doc : gs_main s = GRange doc -> gs_elems s = [] -> gs_closed s = true ->
    gstep s (MkG (gs_queue s) [] (gs_closed s) (gs_workers s) (gs_panics s) (GReturned doc)).
Inductive gsteps : gstate -> gstate -> Prop :=
| gs_refl s : gsteps s s
| gs_more s s1 s2 : gsteps s s1 -> gstep s1 s2 -> gsteps s s2.
End Parallel.
