(* The buffers of the package's pools (document.go:22 and x/ftdc/collector_better.go:23, both
   adt.DefaultBufferPool) as memory: which call holds which buffer, which buffers are handed to
   callers, and what is written where, for calls that run at the same time.
   The pool by contract: Get gives a buffer that was put back, or a new one, with length 0 and
   whatever capacity; what was put back may also be dropped; Put sets the length to 0.
   Slice.Grow by contract: it sets the length, moving the bytes to a new array if they do not
   fit; the bytes added are taken to be anything that was in the array. *)
Require Import ZArith List Arith.
From Verif Require Import Base.
Import ListNotations.
Open Scope nat_scope.

(* What a call does with buffers, over its own variables. *)
Inductive cmd :=
| CGet (x : nat)                          (* x := bufpool.Get() *)
| CMake (x n : nat)                       (* x := make([]byte, n) *)
| CGrow (x n : nat)                       (* x.Grow(n), x itself is replaced *)
| CWrite (x : nat) (bs : list Z)          (* bytes.NewBuffer(x).Write(bs): x stays what it was *)
| CStore (x off : nat) (bs : list Z)      (* x[off:] is filled with bs: copy, io.ReadFull *)
| CPut (x : nat)                          (* bufpool.Put(x) *)
| CRet (x : nat)                          (* x is handed to the caller *)
| CCopyOut (x : nat).                     (* a copy of the bytes is: buf.String() *)

(* a variable: the slice as it was got, the array the bytes are in now, their number *)
Record slice := MkSl { s_orig : nat; s_cur : nat; s_len : nat }.
Record thread := MkT { t_env : nat -> option slice; t_prog : list cmd }.
Record st := MkSt { heap : list (list Z); pool : list nat; threads : list thread; results : list (nat * nat) }.
Definition st0 : st := MkSt [] [] [] [].

(* The calls.  What they are given is a parameter: the bytes a stream still has, the bytes or
   the pieces of text that are written. *)
Inductive call :=
| ReadFrom (s : list Z)        (* Document.ReadFrom *)
| FromReader (s : list Z)      (* NewFromIOReader *)
| ArrMarshal (bs : list Z)     (* Array.MarshalBSON *)
| ArrString (ps : list (list Z)) (* Array.String *)
| Resolve (ps : list (list Z)).  (* Collector.Resolve, compressBuffer *)

Definition declared (s : list Z) : Z := match readi32 (firstn 4 s) with Ret n => n | _ => 0%Z end.
Definition program (c : call) : list cmd :=
  match c with
  | ReadFrom s =>                                    (* document.go:305-333 *)
      [CGet 0; CGrow 0 4; CStore 0 0 (firstn 4 s)] ++
      (if length s <? 4 then [CPut 0] else           (* io.ReadFull failed; defers run *)
       let n := Z.to_nat (declared s) in
       [CGet 1; CGrow 1 n] ++
       (if n <? 4 then [CPut 0] else                 (* b[4:] panics *)
        [CStore 1 0 (firstn 4 s); CStore 1 4 (firstn (n - 4) (skipn 4 s))] ++
        (if length s <? n then [CPut 0] else [CPut 0; CRet 1])))  (* d keeps b *)
  | FromReader s =>                                  (* reader.go:32-69 *)
      [CGet 0; CGrow 0 4; CStore 0 0 (firstn 4 s)] ++
      (if length s <? 4 then [CPut 0] else
       if (declared s <? 0)%Z then [CPut 0] else
       let n := Z.to_nat (declared s) in
       [CMake 1 n] ++
       (if n <? 4 then [CPut 0] else
        [CStore 1 0 (firstn 4 s); CStore 1 4 (firstn (n - 4) (skipn 4 s))] ++
        (if length s <? n then [CPut 0] else [CPut 0; CRet 1])))
  | ArrMarshal bs => [CGet 0; CGrow 0 (length bs); CStore 0 0 bs; CRet 0]          (* array.go:271-285 *)
  | ArrString ps => [CGet 0] ++ map (CWrite 0) ps ++ [CCopyOut 0; CPut 0]           (* array.go:201-219 *)
  | Resolve ps => [CGet 0] ++ map (CWrite 0) ps ++ [CRet 0]
      (* collector_dynamic.go:80-92, collector_better.go:123-176, collector_uncompressed.go:190-210,
         util.go:90-111 *)
  end.

Definition set {A} (e : nat -> option A) (x : nat) (v : option A) : nat -> option A :=
  fun y => if y =? x then v else e y.
Definition arr (h : list (list Z)) (i : nat) : list Z := nth i h [].
Definition upd {A} (l : list A) (i : nat) (x : A) : list A :=
  if i <? length l then firstn i l ++ x :: skipn (S i) l else l.
Definition over {A} (l : list A) (off : nat) (bs : list A) : list A := firstn off l ++ bs ++ skipn (off + length bs) l.
Definition without {A} (k : nat) (l : list A) : list A := firstn k l ++ skipn (S k) l.

(* One step of a call: pick says which buffer of the pool Get takes, if any; extra is the spare
   capacity of a new array.  The last component is true when a result was handed out. *)
Definition step_cmd (h : list (list Z)) (p : list nat) (rs : list (nat * nat)) (e : nat -> option slice)
    (c : cmd) (pick : option nat) (extra : nat) : option (list (list Z) * list nat * list (nat * nat) * (nat -> option slice) * bool) :=
  let new := length h in
  match c with
  | CGet x =>
      match pick with
      | Some k => match nth_error p k with
                  | Some i => Some (h, without k p, rs, set e x (Some (MkSl i i 0)), false)
                  | None => Some (h ++ [repeat 0%Z extra], p, rs, set e x (Some (MkSl new new 0)), false)
                  end
      | None => Some (h ++ [repeat 0%Z extra], p, rs, set e x (Some (MkSl new new 0)), false)
      end
  | CMake x n => Some (h ++ [repeat 0%Z n], p, rs, set e x (Some (MkSl new new n)), false)
  | CGrow x n =>
      match e x with
      | None => None
      | Some v =>
          if n <=? s_len v then Some (h, p, rs, e, false) else
          if n <=? length (arr h (s_cur v)) then Some (h, p, rs, set e x (Some (MkSl (s_orig v) (s_cur v) n)), false) else
          Some (h ++ [firstn (s_len v) (arr h (s_cur v)) ++ repeat 0%Z (n - s_len v + extra)], p, rs,
                set e x (Some (MkSl new new n)), false)
      end
  | CWrite x bs =>
      match e x with
      | None => None
      | Some v =>
          let a := arr h (s_cur v) in
          let n := s_len v + length bs in
          if n <=? length a then
            Some (upd h (s_cur v) (over a (s_len v) bs), p, rs, set e x (Some (MkSl (s_orig v) (s_cur v) n)), false)
          else
            Some (h ++ [firstn (s_len v) a ++ bs ++ repeat 0%Z extra], p, rs, set e x (Some (MkSl (s_orig v) new n)), false)
      end
  | CStore x off bs =>
      match e x with
      | None => None
      | Some v =>
          if off + length bs <=? s_len v
          then Some (upd h (s_cur v) (over (arr h (s_cur v)) off bs), p, rs, e, false)
          else None
      end
  | CPut x => match e x with None => None | Some v => Some (h, p ++ [s_orig v], rs, set e x None, false) end
  | CRet x => match e x with None => None | Some v => Some (h, p, rs ++ [(s_cur v, s_len v)], set e x None, true) end
  | CCopyOut x =>
      match e x with
      | None => None
      | Some v => Some (h ++ [firstn (s_len v) (arr h (s_cur v))], p, rs ++ [(new, s_len v)], e, true)
      end
  end.

Inductive event :=
| ECall (c : call)                                       (* a call begins *)
| EStep (t : nat) (pick : option nat) (extra : nat)      (* the t-th call does its next step *)
| EClient (r off : nat) (bs : list Z)                    (* a caller writes into the r-th result *)
| EDrop (k : nat).                                       (* the pool drops a buffer *)

(* the state afterwards, and the call that handed out a result *)
Definition step (s : st) (ev : event) : st * option nat :=
  match ev with
  | ECall c => (MkSt (heap s) (pool s) (threads s ++ [MkT (fun _ => None) (program c)]) (results s), None)
  | EStep t pick extra =>
      match nth_error (threads s) t with
      | Some (MkT e (c :: r)) =>
          match step_cmd (heap s) (pool s) (results s) e c pick extra with
          | Some (h, p, rs, e', out) => (MkSt h p (upd (threads s) t (MkT e' r)) rs, if out then Some t else None)
          | None => (s, None)                            (* stuck *)
          end
      | _ => (s, None)
      end
  | EClient r off bs =>
      match nth_error (results s) r with
      | Some (i, n) =>
          if off + length bs <=? n
          then (MkSt (upd (heap s) i (over (arr (heap s) i) off bs)) (pool s) (threads s) (results s), None)
          else (s, None)
      | None => (s, None)
      end
  | EDrop k => (MkSt (heap s) (without k (pool s)) (threads s) (results s), None)
  end.
Fixpoint steps (s : st) (evs : list event) : st * list (option nat) :=
  match evs with
  | [] => (s, [])
  | ev :: r => let '(s1, o) := step s ev in let '(s2, os) := steps s1 r in (s2, o :: os)
  end.
(* the bytes of the r-th result *)
Definition shows (s : st) (r : nat) : option (list Z) :=
  match nth_error (results s) r with Some (i, n) => Some (firstn n (arr (heap s) i)) | None => None end.
