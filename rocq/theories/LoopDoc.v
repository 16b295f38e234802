(* Loops over a document or an array whose body uses the documents: for e := range
   d.Iterator() { ... }.  document.go:145 Iterator is irt.Slice(d.elems): the slice header is
   that of the moment of the call, and each element is read from its backing array when the
   loop reaches it (irt.Slice by contract: a range over the slice).  array.go:289-291 and
   iterator.go:138-140 do the same for arrays. *)
Require Import List Arith.
From Verif Require Import Base BSpec Elements Value Api DocOps.
Import ListNotations.

Section Loop.
Variable grow : nat -> nat.
Variable fuel : nat.
(* The body: given what was yielded so far, each with the documents as they were then, the
   last one being the current, it does some operations and says whether to go on. *)
Variable body : list (world * ptr) -> list op * bool.

Fixpoint loop (w : world) (a j n : nat) (seen : list (world * ptr)) : world * list (world * ptr) :=
  match n with
  | O => (w, seen)
  | S n =>
      let seen' := seen ++ [(w, nth j (h_arr (w_heap w) a) None)] in
      let '(os, more) := body seen' in
      let w' := fst (run grow fuel w os) in
      if more then loop w' a (S j) n seen' else (w', seen')
  end.
(* the loop over document i: the documents after it, and what it yielded *)
Definition range_over (w : world) (i : nat) : world * list (world * ptr) :=
  match nth_error (w_docs w) i with
  | None => (w, [])
  | Some d => loop w (d_arr d) 0 (d_len d) []
  end.
End Loop.
