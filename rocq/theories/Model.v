(* GetModel and HasResponse of the wire messages: the plain structures a handler works with
   and whether a message is answered. *)
Require Import ZArith List Bool Lia.
From Verif Require Import Base Value Codec Wire.
Import ListNotations.
Open Scope Z_scope.

(* x/mrpc/model/model.go:62-65 SequenceItem *)
Record seq_item := MkItem { si_name : bytes; si_docs : list document }.

(* x/mrpc/model/model.go:5-60.  The Database, Collection and Operation of a Message are copied
   from fields of OpMessage that nothing in the package sets (message.go:120-122), so they are
   the empty string; they are kept to say so.  GetMore (model.go:24-28) is built nowhere. *)
Inductive wmodel :=
| OCommand (db cmd : bytes) (args meta : option document) (inputs : list document) (converted : bool)
| ODelete (ns : bytes) (filter : option document)
| OInsert (ns : bytes) (docs : list document)
| OQuery (ns : bytes) (skip nret : Z) (query project : option document)
| OUpdate (ns : bytes) (filter update : option document) (upsert multi : bool)
| OReply (contents : list document) (cursor start : Z) (notfound failure : bool)
| OMessage (db coll operation : bytes) (more checksum : bool) (items : list seq_item).

(* wire_message.go:30-32, 65 Name; a nil document panics (document.go ElementAt) *)
Definition sec_name (s : section) : go bytes :=
  match s with
  | Body None => Panic PNil
  | Body (Some d) => first_key d
  | Seq _ ident _ => Ret ident
  end.
(* wire_message.go:48-50, 69 Documents *)
Definition sec_docs (s : section) : go (list document) :=
  match s with
  | Body None => Panic PNil
  | Body (Some d) => Ret [d]
  | Seq _ _ ds => Ret ds
  end.
(* message.go:155-160 the loop over the sections *)
Fixpoint model_items (l : list section) : go (list seq_item) :=
  match l with
  | [] => Ret []
  | s :: l =>
      n <- sec_name s ;;
      ds <- sec_docs s ;;
      r <- model_items l ;;
      Ret (MkItem n ds :: r)
  end.

(* message.go:144-153 the flags of OP_MSG: (MoreToCome, Checksum) *)
Definition op_flags (f : Z) : bool * bool :=
  if f =? 0 then (false, true) else if f =? 1 then (true, false) else if f =? 3 then (true, true) else (false, false).
(* message.go:188-196 the flags of an update: (Upsert, Multi) *)
Definition update_flags (f : Z) : bool * bool :=
  if f =? 1 then (true, false) else if f =? 2 then (false, true) else if f =? 3 then (true, true) else (false, false).
(* message.go:206-211 the flags of a reply: (CursorNotFound, QueryFailure) *)
Definition reply_flags (f : Z) : bool * bool :=
  if f =? 1 then (false, true) else if f =? 0 then (true, false) else (false, false).

(* message.go:128-217 GetModel: the structure, nil for the kinds without one, and the kind *)
Definition get_model (m : wmsg) : go (option wmodel * Z) :=
  match m with
  | MCommand _ db cmd args meta inputs up => Ret (Some (OCommand db cmd args meta inputs up), 2010)
  | MOp _ _ flags items _ =>
      its <- model_items items ;;
      Ret (Some (OMessage [] [] [] (fst (op_flags flags)) (snd (op_flags flags)) its), 2013)
  | MDelete _ _ _ ns filter => Ret (Some (ODelete ns filter), 2006)
  | MInsert _ _ ns docs => Ret (Some (OInsert ns docs), 2002)
  | MQuery _ _ skip nret ns query project => Ret (Some (OQuery ns skip nret query project), 2004)
  | MUpdate _ _ flags ns filter update =>
      Ret (Some (OUpdate ns filter update (fst (update_flags flags)) (snd (update_flags flags))), 2001)
  | MReply _ flags cursor start _ docs =>
      Ret (Some (OReply docs cursor start (fst (reply_flags flags)) (snd (reply_flags flags))), 1)
  | MGetMore _ _ _ _ _ | MKill _ _ _ _ | MCommandReply _ _ _ _ => Ret (None, 0)
  end.

(* the HasResponse methods: wire_update.go:23, wire_command_reply.go:22, wire_query.go:25,
   wire_delete.go:22, wire_reply.go:25, wire_insert.go:24, wire_get_more.go:20,
   wire_kill_cursors.go:21, wire_message.go:94, wire_command.go:24 *)
Definition has_response (m : wmsg) : bool :=
  match m with
  | MQuery _ _ _ _ _ _ _ | MGetMore _ _ _ _ _ | MCommand _ _ _ _ _ _ _ => true
  | MOp _ _ flags _ _ => 1 <? flags
  | MReply _ _ _ _ _ _ | MUpdate _ _ _ _ _ _ | MInsert _ _ _ _ | MDelete _ _ _ _ _ | MKill _ _ _ _
  | MCommandReply _ _ _ _ => false
  end.
