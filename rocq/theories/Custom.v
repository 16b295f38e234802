(* Custom points (x/ftdc/events/custom.go): named numbers that are marshaled as one document. *)
Require Import ZArith List Bool.
From Verif Require Import Base Value Codec Api Sort Iface.
Import ListNotations.
Open Scope Z_scope.

(* The value of a point.  Iface.v has one name, AOther, for the types no conversion knows; three of
   them matter here and are kept apart: []bool, []uint32 and []uint64. *)
Inductive pointv := PV (a : any) | PBools (l : list bool) | PUint32s (l : list Z) | PUint64s (l : list Z).
Definition pv_any (p : pointv) : any := match p with PV a => a | _ => AOther end.

(* custom.go:26-29, 38 CustomPoint, Custom *)
Definition point := (bytes * pointv)%type.

(* custom.go:45-57 Custom.Add, the cases of the switch *)
Definition custom_add (ps : list point) (key : bytes) (v : pointv) : list point * option gerr :=
  match v with
  | PV (AInt (GInt64 _)) | PV (AInt (GInt32 _)) | PV (AInt (GInt _)) | PV (ABool _) | PV (ATime _)
  | PV (AFloat64 _) | PV (AFloat32 _) | PV (AInt (GUint32 _)) | PV (AInt (GUint64 _)) => (ps ++ [(key, v)], None)
  | PV (AInt64s _) | PV (AInt32s _) | PV (AInts _) | PBools _ | PV (ATimes _)
  | PV (AFloat64s _) | PV (AFloat32s _) | PUint32s _ | PUint64s _ => (ps ++ [(key, v)], None)
  | _ => (ps, Some (EOther 620))
  end.
(* a series of calls *)
Fixpoint custom_adds (ps : list point) (calls : list point) : list point * list (option gerr) :=
  match calls with
  | [] => (ps, [])
  | (k, v) :: r => let '(ps1, e) := custom_add ps k v in let '(ps2, es) := custom_adds ps1 r in (ps2, e :: es)
  end.

(* custom.go:63 Less; strings compare bytewise *)
Definition custom_less (p q : point) : bool := bytes_ltb (fst p) (fst q).

(* custom.go:95-101, the loop of MarshalDocument: what is appended to the document so far *)
Fixpoint custom_append (fuel : nat) (ps : list point) (doc : document) : go (document + gerr) :=
  match ps with
  | [] => Ret (inl doc)
  | p :: r =>
      x <- ece_interface fuel (fst p) (pv_any (snd p)) ;;
      match x with
      | inr e => Ret (inr e)
      | inl de => custom_append fuel r (doc ++ [Some de])
      end
  end.
(* custom.go:90-104 Custom.MarshalDocument.  The sort is in place: the caller's slice, the first
   result, is sorted afterwards.  sort stands for sort.Stable (custom.go:70). *)
Definition custom_marshal_doc (sort : (point -> point -> bool) -> list point -> list point) (fuel : nat)
    (ps : list point) : list point * go (document + gerr) :=
  let ps' := sort custom_less ps in (ps', custom_append fuel ps' []).
(* custom.go:72 Custom.MarshalBSON by x_marshaler.go:30-42 *)
Definition custom_marshal sort (fuel : nat) (ps : list point) : list point * go (bytes + gerr) :=
  let '(ps', r) := custom_marshal_doc sort fuel ps in
  (ps', x <- r ;; match x with inr e => Ret (inr e) | inl es => doc_marshal fuel es end).

(* custom.go:80-85, the loop of UnmarshalBSON *)
Fixpoint custom_take (fuel : nat) (ps : list point) (es : document) : go (list point) :=
  match es with
  | [] => Ret ps
  | e :: r =>
      k <- elem_key e ;;
      match e with
      | None => Panic PNil
      | Some v => a <- v_interface fuel v ;; custom_take fuel (ps ++ [(k, PV a)]) r
      end
  end.
(* custom.go:74-88 Custom.UnmarshalBSON: the points after it, and the error *)
Definition custom_unmarshal (fuel : nat) (ps : list point) (b : bytes) : go (list point * option gerr) :=
  d <- read_document fuel b ;;
  match d with
  | inr e => Ret (ps, Some e)
  | inl es => ps' <- custom_take fuel ps es ;; Ret (ps', None)
  end.
