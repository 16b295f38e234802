(* Model of the mutating operations of Document and Array: document.go, array.go,
   x_document.go, unmarshal.go, with Go slices as windows on backing arrays.

   A document owns a slice header (backing array, length) and the key cache.  All slices the
   code stores start at index 0 of their backing array, so a header has no offset.  Two
   documents may share element pointers; elements are opaque here (Elements are never
   written by these operations).  Arrays wrap a document, so array operations act on the
   document the array wraps.
   Simplification: iterators (irt.Slice, an external helper ranging over a slice) are
   consumed before the next operation; LoopDoc.v has loops whose body edits. *)
Require Import ZArith List Bool Lia ZifyBool ZifyNat.
From Verif Require Import Base BSpec Elements Value Api.
Import ListNotations.
Open Scope Z_scope.

(* A *Element: None is nil, Some None is &Element{nil}. *)
Definition ptr := option elem.
(* A DocumentMap (unmarshal.go:9), keys distinct, in insertion order. *)
Definition dmap := list (bytes * elem).

(* document.go:25-30 type Document: elems is a slice header, then cache and cacheValid *)
Record doc := MkDoc { d_arr : nat; d_len : nat; d_cache : dmap; d_valid : bool }.
(* The heap of backing arrays (a backing array is as long as its capacity) and the
   documents allocated so far. *)
Record world := MkW { w_heap : list (list ptr); w_docs : list doc }.
Definition w0 : world := MkW [] [].

Fixpoint upd {A} (n : nat) (x : A) (l : list A) : list A :=
  match n, l with
  | O, _ :: r => x :: r
  | S n, y :: r => y :: upd n x r
  | _, [] => []
  end.

Definition h_arr (h : list (list ptr)) (a : nat) : list ptr := nth a h [].
Definition w_set (w : world) (i : nat) (d : doc) : world := MkW (w_heap w) (upd i d (w_docs w)).
(* d.elems as the list of the pointers in the window *)
Definition elems (w : world) (d : doc) : list ptr := firstn (d_len d) (h_arr (w_heap w) (d_arr d)).

(* Key of a pointer: element.go:102-108 accepts a nil receiver *)
Definition p_key (p : ptr) : go bytes := match p with None => Ret [] | Some e => elem_key e end.

(* e.value through a pointer *)
Definition p_value (p : ptr) : go elem := match p with None => Panic PNil | Some e => Ret e end.

Definition map_get (m : dmap) (k : bytes) : option elem :=
  match find (fun kv => bytes_eqb (fst kv) k) m with Some (_, e) => Some e | None => None end.
(* m[k] = e *)
Fixpoint map_put (m : dmap) (k : bytes) (e : elem) : dmap :=
  match m with
  | [] => [(k, e)]
  | (k', e') :: r => if bytes_eqb k' k then (k, e) :: r else (k', e') :: map_put r k e
  end.

(* What an operation returns. *)
Inductive res :=
| RUnit
| RDoc (i : nat)               (* a new document or array *)
| RLen (n : nat)
| RPtr (p : ptr)               (* a *Element *)
| RElemOK (r : option elem)    (* an element and true, or nil and false *)
| RVal (v : elem)              (* a *Value *)
| RValErr (r : elem + gerr)    (* a value or an error *)
| RList (l : list ptr)         (* what an iterator yields *)
| RErr (e : option gerr)
| RMap (m : dmap).

Inductive op :=
| ONew (cap : nat)                          (* DC.Make / MakeArray *)
| OCopy (d : nat)
| OAppend (d : nat) (ps : list ptr)
| OAppendOmitEmpty (d : nat) (ps : list ptr)
| OSet (d : nat) (p : ptr)
| ODelete (d : nat) (k : bytes)
| OExtend (d d2 : nat)                      (* Document.Extend, Array.Extend, ExtendFromDocument *)
| OReset (d : nat)
| OUnmarshalBSON (d : nat) (b : bytes)
| OUnmarshalDocument (d d2 : nat)
| OMap (d : nat)
| OLen (d : nat)
| OElementAt (d : nat) (i : Z)
| OElementAtOK (d : nat) (i : Z)
| OIterator (d : nat)
| OLookupElement (d : nat) (k : bytes)
| ONewArray (vs : list elem)
| OArrAppend (d : nat) (vs : list elem)
| OArrSet (d : nat) (i : Z) (v : elem)
| OArrDelete (d : nat) (i : Z)
| OArrLookup (d : nat) (i : Z)
| OArrIterator (d : nat).

(* the loops over d.elems that look for a key: document.go:101-106, 118-124, 189-196 *)
Fixpoint find_key (k : bytes) (ps : list ptr) (i : nat) : go (option nat) :=
  match ps with
  | [] => Ret None
  | p :: r => k' <- p_key p ;; if bytes_eqb k' k then Ret (Some i) else find_key k r (S i)
  end.

(* unmarshal.go:98-105 the loop of refreshCache *)
Fixpoint cache_loop (ps : list ptr) (m : dmap) : go dmap :=
  match ps with
  | [] => Ret m
  | p :: r =>
      k <- p_key p ;;
      match map_get m k with
      | Some _ => cache_loop r m
      | None => e <- (match p with None => Panic PNil | Some e => Ret e end) ;; cache_loop r (map_put m k e)
      end
  end.

(* value.go:133-191 IsEmpty; a double is 0.0 when its bits are those of 0 or -0 *)
Definition v_is_empty fuel (v : elem) : go bool :=
  match v with
  | None => Ret true
  | Some x =>
      let nilb (l : bytes) := match l with [] => true | _ => false end in
      t <- v_type x ;;
      if t =? 1 then b <- v_double v ;; Ret ((b =? 0) || (b =? 9223372036854775808)) else
      if t =? 2 then s <- v_string v ;; Ret (nilb s) else
      if t =? 3 then es <- v_mutable_document fuel v ;; Ret (match es with [] => true | _ => false end) else
      if t =? 4 then es <- v_mutable_array fuel v ;; Ret (match es with [] => true | _ => false end) else
      if t =? 5 then '(_, b) <- v_binary v ;; Ret (nilb b) else
      if t =? 6 then Ret true else
      if t =? 7 then Ret true else
      if t =? 8 then b <- v_boolean v ;; Ret (negb b) else
      if t =? 9 then i <- v_datetime v ;; Ret (i =? 0) else
      if t =? 10 then Ret false else
      if t =? 11 then '(p, _) <- v_regex v ;; Ret (nilb p) else
      if t =? 12 then '(p, _) <- v_dbpointer v ;; Ret (nilb p) else
      if t =? 13 then s <- v_javascript v ;; Ret (nilb s) else
      if t =? 14 then s <- v_symbol v ;; Ret (nilb s) else
      if t =? 15 then '(c, _) <- v_mutable_code fuel v ;; Ret (nilb c) else
      if t =? 16 then i <- v_int32 v ;; Ret (i =? 0) else
      if t =? 17 then '(t, i) <- v_timestamp v ;; Ret ((t =? 0) && (i =? 0)) else
      if t =? 18 then i <- v_int64 v ;; Ret (i =? 0) else
      if t =? 19 then '(h, l) <- v_decimal v ;; Ret ((h =? 0) && (l =? 0)) else
      Ret false
  end.

(* iterator.go:86-122 and document.go:288-302: the elements appended before the loop ended,
   with how it ended (iter_loop of Value.v keeps the elements only when it returns). *)
Fixpoint um_loop (fuel : nat) (r : bytes) (pos ende : Z) : list elem * go (option gerr) :=
  match fuel with
  | O => ([], Fuel)
  | S k =>
      match rd_step r pos ende with
      | Ret (RStop _ e) => ([], Ret (Some e))
      | Ret (RDone _) => ([], Ret None)
      | Ret (RElem p v) => let '(es, o) := um_loop k r p ende in (Some v :: es, o)
      | Panic p => ([], Panic p)
      | Fuel => ([], Fuel)
      end
  end.
(* iterator.go:64-81, reader.go:185-198 *)
Definition um_elems (fuel : nat) (r : bytes) : list elem * go (option gerr) :=
  if zlen r <? 5 then ([], Ret (Some ETooSmall)) else
  match (h <- goslice r 0 4 ;; readi32 h) with
  | Ret l => if zlen r <? l then ([], Ret (Some EInvalidLength)) else um_loop fuel r 4 (u32 l)
  | Panic p => ([], Panic p)
  | Fuel => ([], Fuel)
  end.

Section Run.
(* Spare capacity given by the run time when append reallocates: any function of the
   length. *)
Variable grow : nat -> nat.
Variable fuel : nat.

(* append(d.elems, p): in place while there is capacity, else a new backing array *)
Definition append1 (w : world) (d : doc) (p : ptr) : list (list ptr) * doc :=
  let a := h_arr (w_heap w) (d_arr d) in
  if (d_len d <? length a)%nat then
    (upd (d_arr d) (upd (d_len d) p a) (w_heap w),
     MkDoc (d_arr d) (S (d_len d)) (d_cache d) (d_valid d))
  else
    (w_heap w ++ [firstn (d_len d) a ++ p :: repeat None (grow (d_len d))],
     MkDoc (length (w_heap w)) (S (d_len d)) (d_cache d) (d_valid d)).

Definition with_doc_at {A} (w : world) (i : nat) (f : doc -> world * go A) : world * go A :=
  match nth_error (w_docs w) i with
  | None => (w, Panic PNil)
  | Some d => f d
  end.

(* d.elems = append(d.elems, p) for the document at i *)
Definition push (w : world) (i : nat) (p : ptr) : world :=
  match nth_error (w_docs w) i with
  | None => w
  | Some d => let '(h, d') := append1 w d p in MkW h (upd i d' (w_docs w))
  end.
Definition invalidate (w : world) (i : nat) : world :=
  match nth_error (w_docs w) i with
  | None => w
  | Some d => w_set w i (MkDoc (d_arr d) (d_len d) (d_cache d) false)
  end.

(* document.go:62-72 Append: a nil element panics after the earlier ones were added, and
   before the cache is invalidated *)
Fixpoint append_loop (w : world) (i : nat) (ps : list ptr) : world * go unit :=
  match ps with
  | [] => (w, Ret tt)
  | None :: _ => (w, Panic (PErr ENilElement))
  | Some e :: r => append_loop (push w i (Some e)) i r
  end.
Definition append_doc (w : world) (i : nat) (ps : list ptr) : world * go unit :=
  match append_loop w i ps with
  | (w', Ret _) => (invalidate w' i, Ret tt)
  | r => r
  end.

(* document.go:149: d.Append(d2.elems...), the range loop reading d2's backing array a2 as
   it goes *)
Fixpoint extend_loop (w : world) (i : nat) (a2 : nat) (j n : nat) : world * go unit :=
  match n with
  | O => (w, Ret tt)
  | S n =>
      match nth j (h_arr (w_heap w) a2) None with
      | None => (w, Panic (PErr ENilElement))
      | Some e => extend_loop (push w i (Some e)) i a2 (S j) n
      end
  end.

(* document.go:76-87 AppendOmitEmpty *)
Fixpoint omit_loop (w : world) (i : nat) (ps : list ptr) : world * go unit :=
  match ps with
  | [] => (w, Ret tt)
  | None :: r => omit_loop w i r
  | Some e :: r =>
      match v_is_empty fuel e with
      | Ret true => omit_loop w i r
      | Ret false =>
          match append_doc w i [Some e] with
          | (w', Ret _) => omit_loop w' i r
          | x => x
          end
      | Panic p => (w, Panic p)
      | Fuel => (w, Fuel)
      end
  end.

(* x_document.go:19-22 UnmarshalDocument: one Append per element, over the slice header
   taken before the first *)
Fixpoint each_append (w : world) (i : nat) (a2 : nat) (j n : nat) : world * go unit :=
  match n with
  | O => (w, Ret tt)
  | S n =>
      match append_doc w i [nth j (h_arr (w_heap w) a2) None] with
      | (w', Ret _) => each_append w' i a2 (S j) n
      | x => x
      end
  end.

(* DC.Make(n): x_constructor.go:34 *)
Definition alloc (w : world) (d_cap : list ptr) (n : nat) : world * nat :=
  (MkW (w_heap w ++ [d_cap]) (w_docs w ++ [MkDoc (length (w_heap w)) n [] false]), length (w_docs w)).

(* the elements a slice passed by value holds, each a new &Element{v} *)
Fixpoint arr_new_loop (w : world) (i : nat) (vs : list elem) : world :=
  match vs with
  | [] => w
  | v :: r => arr_new_loop (invalidate (push w i (Some v)) i) i r
  end.

(* one in-place store d.elems[n] = p *)
Definition store (w : world) (d : doc) (n : nat) (p : ptr) : world :=
  MkW (upd (d_arr d) (upd n p (h_arr (w_heap w) (d_arr d))) (w_heap w)) (w_docs w).

(* d.elems = append(d.elems[:n], d.elems[n+1:]...): moved down in place, the last slot keeps
   its old content *)
Definition remove (w : world) (i : nat) (d : doc) (n : nat) : world :=
  let a := h_arr (w_heap w) (d_arr d) in
  let a' := firstn n a ++ firstn (d_len d - S n) (skipn (S n) a) ++ skipn (d_len d - 1) a in
  MkW (upd (d_arr d) a' (w_heap w))
      (upd i (MkDoc (d_arr d) (d_len d - 1) (d_cache d) (d_valid d)) (w_docs w)).

Definition lift (x : world * go unit) (r : res) : world * go res :=
  match x with
  | (w, Ret _) => (w, Ret r)
  | (w, Panic p) => (w, Panic p)
  | (w, Fuel) => (w, Fuel)
  end.
Definition ret_of {A} (w : world) (x : go A) (f : A -> res) : world * go res :=
  match x with
  | Ret a => (w, Ret (f a))
  | Panic p => (w, Panic p)
  | Fuel => (w, Fuel)
  end.

Definition in_len (i : Z) (d : doc) : bool := i <? Z.of_nat (d_len d).
Definition at_idx (w : world) (d : doc) (i : Z) : ptr := nth (Z.to_nat i) (elems w d) None.

Definition exec (w : world) (o : op) : world * go res :=
  match o with
  | ONew n =>                                  (* x_constructor.go:34, array.go:40 *)
      let '(w', i) := alloc w (repeat None n) 0 in (w', Ret (RDoc i))
  | OCopy i =>                                 (* document.go:45-51: same length and capacity *)
      with_doc_at w i (fun d =>
        let a := h_arr (w_heap w) (d_arr d) in
        let '(w', j) := alloc w (firstn (d_len d) a ++ repeat None (length a - d_len d)) (d_len d) in
        (w', Ret (RDoc j)))
  | OAppend i ps => with_doc_at w i (fun _ => lift (append_doc w i ps) RUnit)
  | OAppendOmitEmpty i ps =>
      with_doc_at w i (fun _ =>
        match omit_loop w i ps with
        | (w', Ret _) => (invalidate w' i, Ret RUnit)
        | x => lift x RUnit
        end)
  | OSet i p =>                                (* document.go:96-112 *)
      with_doc_at w i (fun d =>
        match p with
        | None => (w, Panic (PErr ENilElement))
        | Some e =>
            match (k <- elem_key e ;; find_key k (elems w d) 0) with
            | Ret (Some n) => (store w d n p, Ret RUnit)
            | Ret None => (invalidate (push w i p) i, Ret RUnit)
            | Panic x => (w, Panic x)
            | Fuel => (w, Fuel)
            end
        end)
  | ODelete i k =>                             (* document.go:117-127 *)
      with_doc_at w i (fun d =>
        match find_key k (elems w d) 0 with
        | Ret (Some n) => (remove w i d n, Ret (RPtr (nth n (elems w d) None)))
        | Ret None => (invalidate w i, Ret (RPtr None))
        | Panic x => (w, Panic x)
        | Fuel => (w, Fuel)
        end)
  | OExtend i i2 =>
      with_doc_at w i (fun _ => with_doc_at w i2 (fun d2 =>
        match extend_loop w i (d_arr d2) 0 (d_len d2) with
        | (w', Ret _) => (invalidate w' i, Ret RUnit)
        | x => lift x RUnit
        end))
  | OReset i =>                                (* document.go:153-159 *)
      with_doc_at w i (fun d =>
        let a := h_arr (w_heap w) (d_arr d) in
        (MkW (upd (d_arr d) (repeat None (d_len d) ++ skipn (d_len d) a) (w_heap w))
             (upd i (MkDoc (d_arr d) 0 (d_cache d) false) (w_docs w)), Ret RUnit))
  | OUnmarshalBSON i b =>                      (* document.go:288-302: cacheValid is kept *)
      with_doc_at w i (fun d =>
        let '(es, o) := um_elems fuel b in
        let w' := MkW (w_heap w ++ [repeat None 128])
                      (upd i (MkDoc (length (w_heap w)) 0 (d_cache d) (d_valid d)) (w_docs w)) in
        ret_of (fst (append_loop w' i (map Some es))) o RErr)
  | OUnmarshalDocument i i2 =>
      with_doc_at w i2 (fun d2 =>
        match d_len d2 with
        | O => (w, Ret (RErr None))
        | _ => with_doc_at w i (fun _ => lift (each_append w i (d_arr d2) 0 (d_len d2)) (RErr None))
        end)
  | OMap i =>                                  (* unmarshal.go:88-109, 13-19 *)
      with_doc_at w i (fun d =>
        if d_valid d then (w, Ret (RMap (d_cache d))) else
        match cache_loop (elems w d) [] with
        | Ret m => (w_set w i (MkDoc (d_arr d) (d_len d) m true), Ret (RMap m))
        | Panic p => (w, Panic p)
        | Fuel => (w, Fuel)
        end)
  | OLen i => with_doc_at w i (fun d => (w, Ret (RLen (d_len d))))      (* document.go:54, array.go:43 *)
  | OElementAt i n =>                          (* document.go:131-133 *)
      with_doc_at w i (fun d =>
        if in_len n d then (w, Ret (RPtr (at_idx w d n))) else (w, Panic PIndex))
  | OElementAtOK i n =>                        (* document.go:136-142 *)
      with_doc_at w i (fun d =>
        if in_len n d then (w, Ret (RElemOK (at_idx w d n))) else (w, Ret (RElemOK None)))
  | OIterator i => with_doc_at w i (fun d => (w, Ret (RList (elems w d))))
  | OLookupElement i k =>                      (* x_document.go:106-114 *)
      with_doc_at w i (fun d =>
        ret_of w (find_key k (elems w d) 0)
          (fun r => RPtr (match r with Some n => nth n (elems w d) None | None => None end)))
  | ONewArray vs =>                            (* array.go:29-36 *)
      let '(w', i) := alloc w (repeat None (length vs)) 0 in
      (arr_new_loop w' i vs, Ret (RDoc i))
  | OArrAppend i vs =>                         (* array.go:162-166, element.go:313-325 *)
      with_doc_at w i (fun _ =>
        lift (append_doc w i (map (fun v => match v with None => None | Some x => Some (Some x) end) vs)) RUnit)
  | OArrSet i n v =>                           (* array.go:170-178 *)
      with_doc_at w i (fun d =>
        if in_len n d then (store w d (Z.to_nat n) (Some v), Ret RUnit)
        else (w, Panic (PErr EOutOfBounds)))
  | OArrDelete i n =>                          (* array.go:189-198 *)
      with_doc_at w i (fun d =>
        if in_len n d then
          match at_idx w d n with
          | None => (remove w i d (Z.to_nat n), Panic PNil)
          | Some e => (remove w i d (Z.to_nat n), Ret (RVal e))
          end
        else (w, Ret (RVal None)))
  | OArrLookup i n =>                          (* array.go:76-83 *)
      with_doc_at w i (fun d =>
        if in_len n d then ret_of w (p_value (at_idx w d n)) (fun e => RValErr (inl e))
        else (w, Ret (RValErr (inr EOutOfBounds))))
  | OArrIterator i =>                          (* array.go:289-291, iterator.go:136-138 *)
      with_doc_at w i (fun d => (w, Ret (RList (elems w d))))
  end.

(* A history: the world after it, and what each operation returned.  A panic is recovered
   by the caller and the history goes on. *)
Fixpoint run (w : world) (os : list op) : world * list (go res) :=
  match os with
  | [] => (w, [])
  | o :: r => let '(w1, x) := exec w o in let '(w2, xs) := run w1 r in (w2, x :: xs)
  end.
End Run.
