(* Copy of jsonx documents, arrays and values, with the objects they share.
   Documents, arrays and values live in a heap and are pointed to by their place in it.  An element has no method that
   changes it, so it is its key and its pointer here. *)
Require Import ZArith List Bool.
From Verif Require Import Base Json.
Import ListNotations.

(* jsonx/juniper.go:70-73 Value: a nested document or array by its pointer, anything else, which cannot be changed in place,
   as it is *)
Inductive payload := Plain (j : jval) | ToDoc (d : nat) | ToArr (a : nat).
(* 60-63 *Element: nil, or a key and a *Value, which can be nil *)
Definition pelem : Type := option (bytes * option nat).
(* 9-11 Document, 43-45 Array *)
Record heap := MkHeap { h_docs : list (list pelem); h_arrs : list (list (option nat)); h_vals : list payload }.

Fixpoint replace {A} (l : list A) (i : nat) (x : A) : list A :=
  match l, i with [], _ => [] | _ :: r, O => x :: r | y :: r, S i => y :: replace r i x end.

(* jsonx/juniper.go:13 Document.Append; a nil *Document panics *)
Definition d_append (h : heap) (d : nat) (es : list pelem) : go heap :=
  match nth_error (h_docs h) d with
  | None => Panic PNil
  | Some old => Ret (MkHeap (replace (h_docs h) d (old ++ es)) (h_arrs h) (h_vals h))
  end.
(* 47 Array.Append *)
Definition a_append (h : heap) (a : nat) (vs : list (option nat)) : go heap :=
  match nth_error (h_arrs h) a with
  | None => Panic PNil
  | Some old => Ret (MkHeap (h_docs h) (replace (h_arrs h) a (old ++ vs)) (h_vals h))
  end.
(* jsonx/unmarshal.go:62-76 Value.UnmarshalJSON of a text that is read as p: the value is overwritten *)
Definition v_set (h : heap) (v : nat) (p : payload) : go heap :=
  match nth_error (h_vals h) v with
  | None => Panic PNil
  | Some _ => Ret (MkHeap (h_docs h) (h_arrs h) (replace (h_vals h) v p))
  end.
(* constructor.go:127-: VC, DC.Make and AC.Make: a new value, document and array *)
Definition v_new (h : heap) (p : payload) : heap * nat :=
  (MkHeap (h_docs h) (h_arrs h) (h_vals h ++ [p]), length (h_vals h)).
Definition d_new (h : heap) : heap * nat := (MkHeap (h_docs h ++ [[]]) (h_arrs h) (h_vals h), length (h_docs h)).
Definition a_new (h : heap) : heap * nat := (MkHeap (h_docs h) (h_arrs h ++ [[]]) (h_vals h), length (h_arrs h)).

(* juniper.go:90-95 Value.Copy: a new value of the same type and content, the pointer if it holds one *)
Definition v_copy (h : heap) (v : option nat) : go (heap * nat) :=
  match v with
  | None => Panic PNil
  | Some v => match nth_error (h_vals h) v with None => Panic PNil | Some p => Ret (v_new h p) end
  end.
(* 68 Element.Copy *)
Definition e_copy (h : heap) (e : pelem) : go (heap * pelem) :=
  match e with
  | None => Panic PNil
  | Some (k, v) => '(h, v) <- v_copy h v ;; Ret (h, Some (k, Some v))
  end.
(* 17-24 Document.Copy *)
Fixpoint d_copy_loop (h : heap) (nd : nat) (es : list pelem) : go heap :=
  match es with
  | [] => Ret h
  | e :: r => '(h, e) <- e_copy h e ;; h <- d_append h nd [e] ;; d_copy_loop h nd r
  end.
Definition d_copy (h : heap) (d : nat) : go (heap * nat) :=
  match nth_error (h_docs h) d with
  | None => Panic PNil
  | Some es => let '(h, nd) := d_new h in h <- d_copy_loop h nd es ;; Ret (h, nd)
  end.
(* 51-58 Array.Copy *)
Fixpoint a_copy_loop (h : heap) (na : nat) (vs : list (option nat)) : go heap :=
  match vs with
  | [] => Ret h
  | v :: r => '(h, v) <- v_copy h v ;; h <- a_append h na [Some v] ;; a_copy_loop h na r
  end.
Definition a_copy (h : heap) (a : nat) : go (heap * nat) :=
  match nth_error (h_arrs h) a with
  | None => Panic PNil
  | Some vs => let '(h, na) := a_new h in h <- a_copy_loop h na vs ;; Ret (h, na)
  end.
