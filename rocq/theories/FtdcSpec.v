(* What a user of x/ftdc relies on, in terms of documents as trees. *)
Require Import ZArith List Bool.
From Verif Require Import Base BSpec.
Import ListNotations.
Open Scope Z_scope.

(* The metrics of a document: its numeric values, in order, at any depth. *)
Inductive leaf :=
| LBool (b : bool) | LDouble (bits : Z) | LInt32 (i : Z) | LInt64 (i : Z) | LDate (ms : Z)
| LSec (t : Z) | LInc (i : Z).
Fixpoint leaves (t : bval) : list leaf :=
  match t with
  | BDoc fs => (fix go fs := match fs with [] => [] | (_, v) :: r => leaves v ++ go r end) fs
  | BArray vs => (fix go vs := match vs with [] => [] | v :: r => leaves v ++ go r end) vs
  | BBool b => [LBool b]
  | BDouble b => [LDouble b]
  | BInt32 i => [LInt32 i]
  | BInt64 i => [LInt64 i]
  | BDateTime i => [LDate i]
  | BTimestamp t i => [LSec t; LInc i]
  | _ => []
  end.
Definition doc_leaves (fs : list (bytes * bval)) : list leaf := flat_map (fun f => leaves (snd f)) fs.

(* The BSON type of a metric, and the integer a sample of it stands for. *)
Definition leaf_type (l : leaf) : Z :=
  match l with
  | LBool _ => 8 | LDouble _ => 1 | LInt32 _ => 16 | LInt64 _ => 18 | LDate _ => 9 | LSec _ => 17 | LInc _ => 17
  end.
Definition leaf_int (l : leaf) : Z :=
  match l with
  | LBool b => if b then 1 else 0
  | LDouble b => if b <? 9223372036854775808 then b else b - 18446744073709551616
  | LInt32 i | LInt64 i | LDate i | LSec i | LInc i => i
  end.
Definition schema (fs : list (bytes * bval)) : list Z := map leaf_type (doc_leaves fs).

(* The document without what is not a metric; documents and arrays stay. *)
Fixpoint strip (t : bval) : option bval :=
  match t with
  | BDoc fs => Some (BDoc ((fix go fs := match fs with
      | [] => []
      | (k, v) :: r => match strip v with Some v => (k, v) :: go r | None => go r end
      end) fs))
  | BArray vs => Some (BArray ((fix go vs := match vs with
      | [] => []
      | v :: r => match strip v with Some v => v :: go r | None => go r end
      end) vs))
  | BBool _ | BDouble _ | BInt32 _ | BInt64 _ | BDateTime _ | BTimestamp _ _ => Some t
  | _ => None
  end.
Fixpoint strip_doc (fs : list (bytes * bval)) : list (bytes * bval) :=
  match fs with
  | [] => []
  | (k, v) :: r => match strip v with Some v => (k, v) :: strip_doc r | None => strip_doc r end
  end.
(* The keys and types of a document, without its numbers. *)
Fixpoint shape (t : bval) : bval :=
  match t with
  | BDoc fs => BDoc ((fix go fs := match fs with [] => [] | (k, v) :: r => (k, shape v) :: go r end) fs)
  | BArray vs => BArray ((fix go vs := match vs with [] => [] | v :: r => shape v :: go r end) vs)
  | BBool _ => BBool false | BDouble _ => BDouble 0 | BInt32 _ => BInt32 0 | BInt64 _ => BInt64 0
  | BDateTime _ => BDateTime 0 | BTimestamp _ _ => BTimestamp 0 0
  | t => t
  end.
Definition doc_shape (fs : list (bytes * bval)) := map (fun f => (fst f, shape (snd f))) fs.

(* The fully qualified name of each metric: the keys on the way to it, joined by dots. *)
Definition under (p k : bytes) : bytes := p ++ 46 :: k.
Fixpoint names (p : bytes) (t : bval) : list bytes :=
  match t with
  | BDoc fs => (fix go fs := match fs with [] => [] | (k, v) :: r => names (under p k) v ++ go r end) fs
  | BArray vs => (fix go i vs := match vs with
      | [] => [] | v :: r => names (under p (index_key i)) v ++ go (S i) r end) O vs
  | BBool _ | BDouble _ | BInt32 _ | BInt64 _ | BDateTime _ => [p]
  | BTimestamp _ _ => [p; p ++ [46; 105; 110; 99]]
  | _ => []
  end.
Definition doc_names (fs : list (bytes * bval)) : list bytes := flat_map (fun f => names (fst f) (snd f)) fs.

(* The keys of the documents on the way to each metric; the items of an array, and the
   increment of a timestamp, are named within the last key. *)
Fixpoint paths (key : bytes) (t : bval) : list (list bytes) :=
  match t with
  | BDoc fs => map (cons key) ((fix go fs := match fs with [] => [] | (k, v) :: r => paths k v ++ go r end) fs)
  | BArray vs => (fix go i vs := match vs with
      | [] => [] | v :: r => paths (under key (index_key i)) v ++ go (S i) r end) O vs
  | BBool _ | BDouble _ | BInt32 _ | BInt64 _ | BDateTime _ => [[key]]
  | BTimestamp _ _ => [[key]; [under key [105; 110; 99]]]
  | _ => []
  end.
Definition doc_paths (fs : list (bytes * bval)) : list (list bytes) := flat_map (fun f => paths (fst f) (snd f)) fs.
(* The fully qualified name has all of them; the name the reader gives has the first and
   the last. *)
Fixpoint full_name (p : list bytes) : bytes :=
  match p with [] => [] | [k] => k | k :: r => under k (full_name r) end.
Definition given_name (p : list bytes) : bytes :=
  match p with [] => [] | [k] => k | k :: r => under k (last r []) end.
Definition given_names (fs : list (bytes * bval)) : list bytes := map given_name (doc_paths fs).

(* What is assumed of compress/zlib: reading back what was written, and a modest growth. *)
Definition codec_ok (zip : bytes -> bytes) (unzip : bytes -> option bytes) : Prop :=
  forall b, bytes_ok b -> unzip (zip b) = Some b /\ bytes_ok (zip b) /\ zlen (zip b) <= 2 * zlen b + 100.
(* An upper bound on the size of a chunk of k samples that starts with fs. *)
Definition chunk_room (fs : list (bytes * bval)) (k : Z) : Z :=
  2 * (zlen (enc_doc fs) + 20 * (zlen (doc_leaves fs) * k)) + 300.

(* Metrics the format can carry exactly. *)
Definition exact (l : leaf) : Prop :=
  match l with
  | LDouble _ | LSec _ => False
  | LDate i => -9223372036854775808 <= i * 1000000 < 9223372036854775808
  | _ => True
  end.
(* The j-th metric of each sample. *)
Definition column (j : nat) (acc : list (list (bytes * bval))) : list (option leaf) :=
  map (fun d => nth_error (doc_leaves d) j) acc.

(* The base collector: what it does with the samples offered to it.  It takes the first,
   and then up to max more, refusing those that do not have the schema of the first. *)
Inductive outcome := Taken | Full | Mismatch.
Definition zs_eqb (a b : list Z) : bool := if list_eq_dec Z.eq_dec a b then true else false.
Definition s_take (max : Z) (acc : list (list (bytes * bval))) (d : list (bytes * bval)) : outcome :=
  match acc with
  | [] => Taken
  | d0 :: r => if max <=? zlen r then Full else if zs_eqb (schema d) (schema d0) then Taken else Mismatch
  end.
Fixpoint s_run (max : Z) (acc docs : list (list (bytes * bval))) : list (list (bytes * bval)) * list outcome :=
  match docs with
  | [] => (acc, [])
  | d :: r =>
      let o := s_take max acc d in
      let '(acc', os) := s_run max (match o with Taken => acc ++ [d] | _ => acc end) r in (acc', o :: os)
  end.

(* No document inside a document that is itself inside the top one. *)
Fixpoint no_doc (t : bval) : Prop :=
  match t with
  | BDoc _ => False
  | BArray vs => (fix go vs := match vs with [] => True | v :: r => no_doc v /\ go r end) vs
  | _ => True
  end.
Fixpoint two_deep (t : bval) : Prop :=
  match t with
  | BDoc fs => (fix go fs := match fs with [] => True | (_, v) :: r => no_doc v /\ go r end) fs
  | BArray vs => (fix go vs := match vs with [] => True | v :: r => two_deep v /\ go r end) vs
  | _ => True
  end.
(* The value a metric has in the flattened form. *)
Definition flat_val (l : leaf) : bval :=
  match l with
  | LBool b => BBool b | LDouble b => BDouble b | LInt32 i => BInt32 i | LInt64 i => BInt64 i
  | LDate i => BDateTime i | LSec t => BInt64 t | LInc i => BInt64 i
  end.
Definition flat_doc (names : list bytes) (d : list (bytes * bval)) : list (bytes * bval) :=
  combine names (map flat_val (doc_leaves d)).
