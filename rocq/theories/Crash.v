(* Reading a file to its end with DC.ReadFrom, which says with nil that there is no more.
   What a crash leaves of a file is a prefix of it, see CrashProps.v. *)
Require Import ZArith List.
From Verif Require Import Base Value Codec Api Stream.
Import ListNotations.
Open Scope Z_scope.

(* x_constructor.go:63-74 DC.ReadFrom: nil (None) at io.EOF, a panic at any other error *)
Definition dc_read_from (fuel : nat) (s : stream) : stream * go (option (list elem)) :=
  let '(s', r) := dce_read_from fuel s in
  (s', match r with
       | Ret (inl es) => Ret (Some es)
       | Ret (inr EEOF) => Ret None
       | Ret (inr e) => Panic (PErr e)
       | Panic p => Panic p
       | Fuel => Fuel
       end).

(* A client's loop, for doc := DC.ReadFrom(r); doc != nil; doc = DC.ReadFrom(r): what it was
   given, and how it ended. *)
Fixpoint dc_docs (n fuel : nat) (s : stream) : list (list elem) * go unit :=
  match n with
  | O => ([], Fuel)
  | S k =>
      match dc_read_from fuel s with
      | (s', Ret (Some es)) => let '(l, e) := dc_docs k fuel s' in (es :: l, e)
      | (s', Ret None) => ([], Ret tt)
      | (s', Panic p) => ([], Panic p)
      | (s', Fuel) => ([], Fuel)
      end
  end.
