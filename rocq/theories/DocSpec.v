(* Specification of the document operations: documents are independent lists of elements.
   Besides its list, a document remembers the list its Map was computed from (memo), which
   is what the code caches; memo = None means the next Map is computed afresh. *)
Require Import ZArith List Bool Lia ZifyBool ZifyNat.
From Verif Require Import Base BSpec Elements Value Api DocOps.
Import ListNotations.
Open Scope Z_scope.

(* the key an element shows *)
Definition key (e : elem) : bytes := match elem_key e with Ret k => k | _ => [] end.
(* reading the key does not panic: true of every element constructed or read *)
Definition keyed (e : elem) : Prop := exists k, elem_key e = Ret k.

(* first element with key k *)
Fixpoint s_find (k : bytes) (l : list elem) : option elem :=
  match l with
  | [] => None
  | e :: r => if bytes_eqb (key e) k then Some e else s_find k r
  end.
(* replace the first element with the key of e, or add e at the end *)
Fixpoint s_set (e : elem) (l : list elem) : list elem :=
  match l with
  | [] => [e]
  | x :: r => if bytes_eqb (key x) (key e) then e :: r else x :: s_set e r
  end.
(* remove the first element with key k *)
Fixpoint s_delete (k : bytes) (l : list elem) : list elem :=
  match l with
  | [] => []
  | x :: r => if bytes_eqb (key x) k then r else x :: s_delete k r
  end.
Definition has (k : bytes) (l : list elem) : bool :=
  match s_find k l with Some _ => true | None => false end.
Definition is_nil {A} (l : list A) : bool := match l with [] => true | _ => false end.

(* the elements before the first nil *)
Fixpoint before_nil (ps : list ptr) : list elem :=
  match ps with Some e :: r => e :: before_nil r | _ => [] end.
Fixpoint any_nil (ps : list ptr) : bool :=
  match ps with [] => false | None :: _ => true | Some _ :: r => any_nil r end.
(* the elements AppendOmitEmpty adds, and how it ends *)
Fixpoint non_empty (fuel : nat) (ps : list ptr) : list elem * go unit :=
  match ps with
  | [] => ([], Ret tt)
  | None :: r => non_empty fuel r
  | Some e :: r =>
      match v_is_empty fuel e with
      | Ret true => non_empty fuel r
      | Ret false => let '(l, o) := non_empty fuel r in (e :: l, o)
      | Panic p => ([], Panic p)
      | Fuel => ([], Fuel)
      end
  end.
Definition replace_at {A} (n : nat) (x : A) (l : list A) : list A := firstn n l ++ x :: skipn (S n) l.
Definition delete_at {A} (n : nat) (l : list A) : list A := firstn n l ++ skipn (S n) l.

Record sdoc := MkS { s_elems : list elem; s_memo : option (list elem) }.
Definition sworld := list sdoc.

(* As res, but a map is given by the list it is the first-occurrence index of. *)
Inductive sres := SRes (r : res) | SMap (l : list elem).

Definition s_at (s : sworld) (i : nat) (f : sdoc -> sworld * go sres) : sworld * go sres :=
  match nth_error s i with None => (s, Panic PNil) | Some d => f d end.

Definition s_put (s : sworld) (i : nat) (l : list elem) (m : option (list elem)) : sworld :=
  replace_at i (MkS l m) s.

Definition s_append (s : sworld) (i : nat) (d : sdoc) (ps : list ptr) : sworld * go sres :=
  let l := s_elems d ++ before_nil ps in
  if any_nil ps then (s_put s i l (s_memo d), Panic (PErr ENilElement))
  else (s_put s i l None, Ret (SRes RUnit)).

Definition s_exec (fuel : nat) (s : sworld) (o : op) : sworld * go sres :=
  let ret x := Ret (SRes x) in
  let nth_ptr n (d : sdoc) := nth_error (s_elems d) (Z.to_nat n) in
  let inside n (d : sdoc) := n <? Z.of_nat (length (s_elems d)) in
  match o with
  | ONew _ => (s ++ [MkS [] None], ret (RDoc (length s)))
  | OCopy i => s_at s i (fun d => (s ++ [MkS (s_elems d) None], ret (RDoc (length s))))
  | OAppend i ps => s_at s i (fun d => s_append s i d ps)
  | OAppendOmitEmpty i ps => s_at s i (fun d =>
      let '(l, o) := non_empty fuel ps in
      let s' m := s_put s i (s_elems d ++ l) m in
      match o with
      | Ret _ => (s' None, ret RUnit)
      | Panic p => (s' (if is_nil l then s_memo d else None), Panic p)
      | Fuel => (s' (if is_nil l then s_memo d else None), Fuel)
      end)
  | OSet i None => s_at s i (fun _ => (s, Panic (PErr ENilElement)))
  | OSet i (Some e) => s_at s i (fun d =>
      (s_put s i (s_set e (s_elems d)) (if has (key e) (s_elems d) then s_memo d else None), ret RUnit))
  | ODelete i k => s_at s i (fun d =>
      (s_put s i (s_delete k (s_elems d)) (if has k (s_elems d) then s_memo d else None),
       ret (RPtr (s_find k (s_elems d)))))
  | OExtend i i2 => s_at s i (fun d => s_at s i2 (fun d2 =>
      (s_put s i (s_elems d ++ s_elems d2) None, ret RUnit)))
  | OReset i => s_at s i (fun d => (s_put s i [] None, ret RUnit))
  | OUnmarshalBSON i b => s_at s i (fun d =>
      let '(es, o) := um_elems fuel b in
      (s_put s i es (s_memo d), x <- o ;; ret (RErr x)))
  | OUnmarshalDocument i i2 => s_at s i2 (fun d2 =>
      if is_nil (s_elems d2) then (s, ret (RErr None)) else
      s_at s i (fun d => (s_put s i (s_elems d ++ s_elems d2) None, ret (RErr None))))
  | OMap i => s_at s i (fun d =>
      let l := match s_memo d with Some l => l | None => s_elems d end in
      (s_put s i (s_elems d) (Some l), Ret (SMap l)))
  | OLen i => s_at s i (fun d => (s, ret (RLen (length (s_elems d)))))
  | OElementAt i n => s_at s i (fun d =>
      (s, if inside n d then ret (RPtr (nth_ptr n d)) else Panic PIndex))
  | OElementAtOK i n => s_at s i (fun d =>
      (s, ret (RElemOK (if inside n d then nth_ptr n d else None))))
  | OIterator i | OArrIterator i => s_at s i (fun d => (s, ret (RList (map Some (s_elems d)))))
  | OLookupElement i k => s_at s i (fun d => (s, ret (RPtr (s_find k (s_elems d)))))
  | ONewArray vs => (s ++ [MkS vs None], ret (RDoc (length s)))
  | OArrAppend i vs => s_at s i (fun d =>
      s_append s i d (map (fun v => match v with None => None | Some x => Some (Some x) end) vs))
  | OArrSet i n v => s_at s i (fun d =>
      if inside n d then (s_put s i (replace_at (Z.to_nat n) v (s_elems d)) (s_memo d), ret RUnit)
      else (s, Panic (PErr EOutOfBounds)))
  | OArrDelete i n => s_at s i (fun d =>
      match inside n d, nth_ptr n d with
      | true, Some e => (s_put s i (delete_at (Z.to_nat n) (s_elems d)) (s_memo d), ret (RVal e))
      | _, _ => (s, ret (RVal None))
      end)
  | OArrLookup i n => s_at s i (fun d =>
      (s, ret (RValErr (match inside n d, nth_ptr n d with
                        | true, Some e => inl e | _, _ => inr EOutOfBounds end))))
  end.

Fixpoint s_run (fuel : nat) (s : sworld) (os : list op) : sworld * list (go sres) :=
  match os with
  | [] => (s, [])
  | o :: r => let '(s1, x) := s_exec fuel s o in
              let '(s2, xs) := s_run fuel s1 r in (s2, x :: xs)
  end.

(* m is the map from each key of l to its first element *)
Definition indexes (m : dmap) (l : list elem) : Prop :=
  NoDup (map fst m) /\ forall k, map_get m k = s_find k l.

(* A returned value is the specified one. *)
Definition agrees (x : go res) (y : go sres) : Prop :=
  match x, y with
  | Ret (RMap m), Ret (SMap l) => indexes m l
  | Ret r, Ret (SRes r') => r = r'
  | Panic p, Panic q => p = q
  | Fuel, Fuel => True
  | _, _ => False
  end.

(* The elements mentioned by an operation have keys, its indices are Go uints. *)
Definition op_ok (o : op) : Prop :=
  let okp := Forall (fun p : ptr => match p with None => True | Some e => keyed e end) in
  match o with
  | OAppend _ ps | OAppendOmitEmpty _ ps => okp ps
  | OSet _ p => okp [p]
  | ONewArray vs | OArrAppend _ vs => Forall keyed vs
  | OArrSet _ i v => 0 <= i /\ keyed v
  | OElementAt _ i | OElementAtOK _ i | OArrDelete _ i | OArrLookup _ i => 0 <= i
  | _ => True
  end.

(* what each document of a world shows through its iterator *)
Definition shown (w : world) : list (list ptr) := map (elems w) (w_docs w).
