(* x/mrpc: scopes of messages, the operation registry and the dispatch loop of a service. *)
Require Import ZArith List Bool Lia ZifyBool ZifyNat.
From Verif Require Import Base BSpec Elements Value Codec Api Search Stream Wire Lin.
Import ListNotations.
Open Scope Z_scope.

(* mongowire/scope.go:9-14 OpScope.  Scopes are map keys: strings are compared by content,
   Payload (a pointer) by identity, here a number. *)
Record scope := MkScope { sc_type : Z; sc_context : bytes; sc_command : bytes; sc_payload : option nat }.
Definition scope_eqb (a b : scope) : bool :=
  (sc_type a =? sc_type b) && bytes_eqb (sc_context a) (sc_context b) && bytes_eqb (sc_command a) (sc_command b) &&
  match sc_payload a, sc_payload b with None, None => true | Some x, Some y => Nat.eqb x y | _, _ => false end.

Definition e_scope := EOther 90.
(* mongowire/scope.go:16-93 *)
Definition scope_validate (s : scope) : option gerr :=
  let ctx := negb (empty (sc_context s)) in
  let cmd := negb (empty (sc_command s)) in
  let t := sc_type s in
  if t =? 2010 then (if cmd then None else Some e_scope) else
  if (t =? 2006) || (t =? 2001) then (if negb ctx then Some e_scope else if cmd then Some e_scope else None) else
  if t =? 2007 then (if ctx then Some e_scope else if cmd then Some e_scope else None) else
  if (t =? 2004) || (t =? 2002) || (t =? 2005) then (if negb ctx then Some e_scope else if cmd then Some e_scope else None) else
  if t =? 2013 then (if cmd then None else Some e_scope) else
  Some e_scope.

(* wire_message.go:34-46 DB of a body section; x_document.go:106-114, 145-152 LookupErr *)
Definition body_db (d : document) : go bytes :=
  oe <- find_elem [36; 100; 98] d ;;
  match oe with
  | None => Ret []
  | Some v => os <- v_string_ok v ;; Ret (match os with Some s => s | None => [] end)
  end.
Fixpoint first_body (items : list section) : option (option document) :=
  match items with [] => None | Body d :: _ => Some d | Seq _ _ _ :: r => first_body r end.
(* the Scope methods: nil for the replies (wire_reply.go:27, wire_command_reply.go:24);
   wire_command.go:27-33, wire_delete.go:24-26, wire_get_more.go:23-28, wire_insert.go:26-28,
   wire_kill_cursors.go:23, wire_query.go:27, wire_update.go:25-27, wire_message.go:96-112; a nil
   document panics *)
Definition msg_scope (m : wmsg) : go (option scope) :=
  let t := h_op (msg_header m) in
  match m with
  | MReply _ _ _ _ _ _ | MCommandReply _ _ _ _ => Ret None
  | MCommand _ db cmd _ _ _ _ => Ret (Some (MkScope t db cmd None))
  | MUpdate _ _ _ ns _ _ | MInsert _ _ ns _ | MQuery _ _ _ _ ns _ _ | MGetMore _ _ _ _ ns | MDelete _ _ _ ns _ =>
      Ret (Some (MkScope t ns [] None))
  | MKill _ _ _ _ => Ret (Some (MkScope t [] [] None))
  | MOp _ _ _ items _ =>
      match first_body items with
      | None => Ret (Some (MkScope t [] [] None))
      | Some None => Panic PNil
      | Some (Some d) => cmd <- first_key d ;; db <- body_db d ;; Ret (Some (MkScope t db cmd None))
      end
  end.

(* ------------------------------------------------------------------------ registry *)

Section Registry.
(* the handlers *)
Variable H : Type.

(* registry.go:10-13 the map, as the list of its entries, newest first; service.go:32-37
   makes it empty *)
Definition registry := list (scope * H).
Fixpoint reg_find (r : registry) (s : scope) : option H :=
  match r with [] => None | (s', h) :: r => if scope_eqb s' s then Some h else reg_find r s end.

Inductive rop := RegAdd (s : scope) (h : option H) | RegGet (s : option scope).
Inductive rres := AddResult (e : option gerr) | GetResult (h : option H) | GetPanic.

(* The bodies under the lock, one step per access to the map.  registry.go:15-34 Add (a nil
   handler is None) and 36-50 Get (a nil scope is None). *)
Inductive rloc := LAdd (s : scope) (h : option H) | LPut (s : scope) (h : H) | LGet (s : option scope) | LGet2 (s : scope).
Definition reg_rlock (o : rop) : bool := match o with RegAdd _ _ => false | RegGet _ => true end.
Definition reg_start (o : rop) : rloc := match o with RegAdd s h => LAdd s h | RegGet s => LGet s end.
Definition no_context (s : scope) : scope := MkScope (sc_type s) [] (sc_command s) (sc_payload s).
Definition reg_step (l : rloc) (r : registry) : micro rres rloc * registry :=
  match l with
  | LAdd s h =>
      match scope_validate s with
      | Some e => (MDone (AddResult (Some e)), r)
      | None =>
          match h with
          | None => (MDone (AddResult (Some (EOther 91))), r)
          | Some h =>
              match reg_find r s with
              | Some _ => (MDone (AddResult (Some (EOther 92))), r)
              | None => (MRun (LPut s h), r)
              end
          end
      end
  | LPut s h => (MDone (AddResult None), (s, h) :: r)
  | LGet None => (MDone GetPanic, r)
  | LGet (Some s) => match reg_find r s with Some h => (MDone (GetResult (Some h)), r) | None => (MRun (LGet2 (no_context s)), r) end
  | LGet2 s => (MDone (GetResult (reg_find r s)), r)
  end.
(* Get with no other call under way *)
Definition reg_get (r : registry) (s : scope) : option H :=
  match reg_find r s with Some h => Some h | None => reg_find r (no_context s) end.

(* ------------------------------------------------------------------------ dispatch *)

(* service.go:81-125 dispatchRequest on a plain connection, with a context that is not
   cancelled and a registry that does not change: the handlers started, each with its
   message, in order; and whether handleError was called.  A panic in the loop is recovered
   and reported (83-86).  The handlers run on goroutines of their own. *)
Inductive ended := EndQuiet | EndError | EndOpen.
Fixpoint dispatch (turns fuel : nat) (r : registry) (s : stream) : list (H * wmsg) * ended :=
  match turns with
  | O => ([], EndOpen)
  | S turns =>
      match read_message fuel s with
      | (_, Ret (_, Some e)) => ([], match e with EEOF => EndQuiet | _ => EndError end)
      | (s', Ret (Some m, None)) =>
          match msg_scope m with
          | Ret (Some sc) =>
              match reg_get r sc with
              | Some h => let '(l, e) := dispatch turns fuel r s' in ((h, m) :: l, e)
              | None => ([], EndError)
              end
          | _ => ([], EndError)
          end
      | (_, _) => ([], EndError)
      end
  end.
End Registry.
Arguments RegAdd {H}. Arguments RegGet {H}. Arguments AddResult {H}. Arguments GetResult {H}. Arguments GetPanic {H}.
Arguments LAdd {H}. Arguments LPut {H}. Arguments LGet {H}. Arguments LGet2 {H}.
Arguments reg_rlock {H}. Arguments reg_start {H}. Arguments reg_step {H}. Arguments reg_find {H}. Arguments reg_get {H}.
Arguments dispatch {H}.
