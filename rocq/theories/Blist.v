(* The linked-list document (x/blist/blist.go).  dt.List comes from outside the repository and is
   taken by what it promises: PushBack and PushFront add at the ends, Front, Next and Ok visit the
   elements in order, Set replaces and Remove takes out the element visited, whose value stays
   readable. *)
Require Import ZArith List Bool.
From Verif Require Import Base Value Codec Api DocOps.
Import ListNotations.
Open Scope Z_scope.

(* The list's elements: not nil, as none of the methods adds a nil one (Set with a nil element, and
   elements without a value, are left out). *)
Definition blist := list value.

(* blist.go:13 Len calls itself *)
Fixpoint bl_len (fuel : nat) (d : blist) : go Z :=
  match fuel with O => Fuel | S n => bl_len n d end.
(* blist.go:14-23 Append; a nil element panics, and those before it have been added *)
Fixpoint bl_append (d : blist) (l : list (option value)) : blist * go unit :=
  match l with
  | [] => (d, Ret tt)
  | None :: _ => (d, Panic (PErr ENilElement))
  | Some v :: r => bl_append (d ++ [v]) r
  end.
(* blist.go:24-32 AppendOmitEmpty *)
Fixpoint bl_append_omit (fuel : nat) (d : blist) (l : list (option value)) : blist * go unit :=
  match l with
  | [] => (d, Ret tt)
  | None :: r => bl_append_omit fuel d r
  | Some v :: r =>
      match v_is_empty fuel (Some v) with
      | Ret true => bl_append_omit fuel d r
      | Ret false => bl_append_omit fuel (d ++ [v]) r
      | Panic p => (d, Panic p)
      | Fuel => (d, Fuel)
      end
  end.
(* blist.go:33-41 Prepend *)
Fixpoint bl_prepend (d : blist) (l : list (option value)) : blist * go unit :=
  match l with
  | [] => (d, Ret tt)
  | None :: _ => (d, Panic (PErr ENilElement))
  | Some v :: r => bl_prepend (v :: d) r
  end.
(* blist.go:43-52 Set *)
Fixpoint bl_set (d : blist) (v : value) : go blist :=
  match d with
  | [] => Ret []
  | x :: r =>
      kx <- elem_key (Some x) ;; k <- elem_key (Some v) ;;
      if bytes_eqb kx k then Ret (v :: r) else r' <- bl_set r v ;; Ret (x :: r')
  end.
(* blist.go:54-64 Delete: the list afterwards and the element taken out, if any *)
Fixpoint bl_delete (d : blist) (k : bytes) : go (blist * option value) :=
  match d with
  | [] => Ret ([], None)
  | x :: r =>
      kx <- elem_key (Some x) ;;
      if bytes_eqb kx k then Ret (r, Some x) else '(r', o) <- bl_delete r k ;; Ret (x :: r', o)
  end.
(* blist.go:66-84 Validate, of a document that is not nil *)
Fixpoint bl_sizes (fuel : nat) (size : Z) (d : blist) : go (Z * option gerr) :=
  match d with
  | [] => Ret (size, None)
  | x :: r =>
      '(n, e) <- elem_validate fuel (Some x) ;;
      match e with Some e => Ret (0, Some e) | None => bl_sizes fuel (u32 (size + n)) r end
  end.
Definition bl_validate (fuel : nat) (d : blist) : go (Z * option gerr) := bl_sizes fuel 5 d.

(* calls on one document, one after the other, and what each answers *)
Inductive bl_op :=
| BAppend (l : list (option value)) | BAppendOmit (l : list (option value)) | BPrepend (l : list (option value))
| BSet (v : value) | BDelete (k : bytes) | BValidate.
Inductive bl_res := RDone | RElem (v : option value) | RSize (n : Z) (e : option gerr).
Definition bl_exec (fuel : nat) (d : blist) (o : bl_op) : blist * go bl_res :=
  match o with
  | BAppend l => let '(d', r) := bl_append d l in (d', _ <- r ;; Ret RDone)
  | BAppendOmit l => let '(d', r) := bl_append_omit fuel d l in (d', _ <- r ;; Ret RDone)
  | BPrepend l => let '(d', r) := bl_prepend d l in (d', _ <- r ;; Ret RDone)
  | BSet v => match bl_set d v with Ret d' => (d', Ret RDone) | Panic p => (d, Panic p) | Fuel => (d, Fuel) end
  | BDelete k =>
      match bl_delete d k with Ret (d', o) => (d', Ret (RElem o)) | Panic p => (d, Panic p) | Fuel => (d, Fuel) end
  | BValidate => (d, '(n, e) <- bl_validate fuel d ;; Ret (RSize n e))
  end.
Fixpoint bl_run (fuel : nat) (d : blist) (os : list bl_op) : blist * list (go bl_res) :=
  match os with
  | [] => (d, [])
  | o :: r => let '(d1, x) := bl_exec fuel d o in let '(d2, xs) := bl_run fuel d1 r in (d2, x :: xs)
  end.
