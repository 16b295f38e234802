(* Reader.Iterator: ranging over the elements of a Reader, any number of times. *)
Require Import ZArith List Bool.
From Verif Require Import Base Elements Value.
Import ListNotations.
Open Scope Z_scope.

(* iterator.go:52-61 readerIterator: the position and the error; the bytes and the end stay *)
Record riter := MkIt { it_pos : Z; it_err : option gerr }.

(* iterator.go:86-122 Next; rd_step is its body *)
Definition it_next (r : bytes) (ende : Z) (it : riter) : go (option value * riter) :=
  st <- rd_step r (it_pos it) ende ;;
  Ret (match st with
       | RStop p e => (None, MkIt p (Some e))
       | RDone p => (None, MkIt p (it_err it))
       | RElem p v => (Some v, MkIt p (it_err it))
       end).

(* what the body of a loop over the iterator is given *)
Inductive yielded := YElem (v : value) | YErr (e : gerr).
(* the runtime's answer to a yield after the loop was left *)
Definition e_range := EOther 90.

(* reader.go:190-197 the function of Iterator.  leave: the turn in which the body leaves the
   loop (break or return), if it does, counted from 0. *)
Fixpoint it_range (fuel : nat) (r : bytes) (ende : Z) (it : riter) (leave : option nat) : go (list yielded * riter) :=
  match fuel with
  | O => Fuel
  | S k =>
      '(o, it) <- it_next r ende it ;;
      match o with
      | Some v =>
          match leave with
          | Some O =>
              match it_err it with
              | Some _ => Panic (PErr e_range)
              | None => Ret ([YElem v], it)
              end
          | _ =>
              '(ys, it) <- it_range k r ende it (option_map Nat.pred leave) ;;
              Ret (YElem v :: ys, it)
          end
      | None => Ret (match it_err it with Some e => [YErr e] | None => [] end, it)
      end
  end.

(* A sequence made by one call of Iterator, ranged over once for every entry of leaves.
   iterator.go:64-81 newReaderIterator; irt.Two(nil, err) is the sequence of one pair. *)
Fixpoint it_ranges (fuel : nat) (r : bytes) (ende : Z) (it : riter) (leaves : list (option nat)) : go (list (list yielded)) :=
  match leaves with
  | [] => Ret []
  | l :: ls =>
      '(ys, it) <- it_range fuel r ende it l ;;
      yss <- it_ranges fuel r ende it ls ;;
      Ret (ys :: yss)
  end.
Definition rd_ranges (fuel : nat) (r : bytes) (leaves : list (option nat)) : go (list (list yielded)) :=
  let fails e := Ret (map (fun _ => [YErr e]) leaves) in
  if zlen r <? 5 then fails ETooSmall else
  h <- goslice r 0 4 ;;
  l <- readi32 h ;;
  if zlen r <? l then fails EInvalidLength else
  it_ranges fuel r (u32 l) (MkIt 4 None) leaves.
