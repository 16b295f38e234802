(* Documents, elements and values as pointers: what is shared by copies, arrays, elements that
   are appended to several documents, and sub-documents that are edited in place.  A value
   holds its key and either its bytes, here the tree they encode (C01), or a document that
   was parsed from them or given by the caller.  Code with scope is taken as bytes, and nil
   elements are left out (C15). *)
Require Import ZArith List Bool Arith.
From Verif Require Import Base BSpec.
Import ListNotations.
Open Scope nat_scope.

Notation fields := (list (bytes * bval)).
(* value.go:27-41 the field d of Value: nil, or a document (for an array, its doc) *)
Inductive body := Raw (t : bval) | Sub (arr : bool) (d : nat).
Record vcell := MkV { vc_key : bytes; vc_body : body }.
(* document.go:18-21, element.go:26-28 *)
Record heap := MkHeap { h_docs : list (list nat); h_elems : list nat; h_vals : list vcell }.
Definition empty_heap : heap := MkHeap [] [] [].

Fixpoint upd {A} (l : list A) (i : nat) (x : A) : list A :=
  match l, i with
  | [], _ => []
  | _ :: r, O => x :: r
  | y :: r, S i => y :: upd r i x
  end.
Fixpoint mapO {A B} (f : A -> option B) (l : list A) : option (list B) :=
  match l with
  | [] => Some []
  | x :: r => match f x, mapO f r with Some y, Some ys => Some (y :: ys) | _, _ => None end
  end.

(* What a document holds, as MarshalBSON writes it: document.go:236-270, element.go:150-269
   (the field d if it is set, else the bytes).  None: not within n levels. *)
Definition show_val (rec : nat -> option fields) (h : heap) (v : nat) : option (bytes * bval) :=
  match nth_error (h_vals h) v with
  | None => None
  | Some c =>
      match vc_body c with
      | Raw t => Some (vc_key c, t)
      | Sub a d => option_map (fun fs => (vc_key c, if a then BArray (map snd fs) else BDoc fs)) (rec d)
      end
  end.
Definition show_elem (rec : nat -> option fields) (h : heap) (e : nat) : option (bytes * bval) :=
  match nth_error (h_elems h) e with None => None | Some v => show_val rec h v end.
Fixpoint show (n : nat) (h : heap) (d : nat) : option fields :=
  match n with
  | O => None
  | S k => match nth_error (h_docs h) d with None => None | Some es => mapO (show_elem (show k h) h) es end
  end.

(* document.go:34-43 ReadDocument: new elements, with new values *)
Definition load (h : heap) (fs : fields) : heap :=
  MkHeap (h_docs h ++ [seq (length (h_elems h)) (length fs)])
    (h_elems h ++ seq (length (h_vals h)) (length fs))
    (h_vals h ++ map (fun f => MkV (fst f) (Raw (snd f))) fs).
Fixpoint numbered (i : nat) (vs : list bval) : fields :=
  match vs with [] => [] | v :: r => (index_key i, v) :: numbered (S i) r end.
Definition inside (t : bval) : option (bool * fields) :=
  match t with BDoc fs => Some (false, fs) | BArray vs => Some (true, numbered 0 vs) | _ => None end.
(* value.go:605-626 MutableDocument and 662-684 MutableArray: the document is parsed once and
   kept.  None: another type, for which they panic. *)
Definition look (h : heap) (v : nat) : option (heap * nat) :=
  match nth_error (h_vals h) v with
  | None => None
  | Some c =>
      match vc_body c with
      | Sub _ d => Some (h, d)
      | Raw t =>
          match inside t with
          | None => None
          | Some (a, fs) =>
              let h1 := load h fs in
              Some (MkHeap (h_docs h1) (h_elems h1) (upd (h_vals h1) v (MkV (vc_key c) (Sub a (length (h_docs h))))), length (h_docs h))
          end
      end
  end.

Definition set_doc (h : heap) (d : nat) (es : list nat) : heap := MkHeap (upd (h_docs h) d es) (h_elems h) (h_vals h).
Definition new_val (h : heap) (c : vcell) : heap := MkHeap (h_docs h) (h_elems h) (h_vals h ++ [c]).
Definition new_elem (h : heap) (v : nat) : heap := MkHeap (h_docs h) (h_elems h ++ [v]) (h_vals h).
Definition new_doc (h : heap) (es : list nat) : heap := MkHeap (h_docs h ++ [es]) (h_elems h) (h_vals h).

Inductive op :=
| ORead (fs : fields)                    (* ReadDocument, or a document made of constants *)
| OLook (v : nat)                        (* v.MutableDocument() or v.MutableArray() *)
| OCopy (d : nat)                        (* document.go:45-51 d.Copy() *)
| OAppend (d e : nat)                    (* document.go:62-74 d.Append(e) *)
| OReplace (d i e : nat)                 (* document.go:96-113 d.Set(e), at the place i of its key *)
| ODelete (d i : nat)                    (* document.go:117-127 d.Delete, array.go:189-199 Delete *)
| OExtend (d d2 : nat)                   (* document.go:149 d.Extend(d2), array.go:182, 186 *)
| OReset (d : nat)                       (* document.go:153-159, array.go:48-50 *)
| OSetValue (e v : nat)                  (* x_element.go:4 e.SetValue(v) *)
| OValueCopy (v : nat)                   (* value.go:45-52 v.Copy() *)
| OElemCopy (e : nat)                    (* element.go:36-38 e.Copy() *)
| OValueSet (v w : nat)                  (* value.go:56-61 v.Set(w) *)
| OSub (k : bytes) (arr : bool) (d : nat) (* constructor.go:230-246, 279-293 EC.SubDocument(k, d), EC.Array(k, a) *)
| OWrap (d v : nat)                      (* array.go:162-166, element.go:313-325 a.Append(v) *)
| OArrSet (d i v : nat)                  (* array.go:170-178 a.Set(i, v) *)
| OConvert (k : bytes) (v : nat).        (* element.go:327-351 EC.Value(k, v) *)
Definition has {A} (l : list A) (i : nat) : bool := i <? length l.
Definition exec (h : heap) (o : op) : heap :=
  match o with
  | ORead fs => load h fs
  | OLook v => match look h v with Some (h', _) => h' | None => h end
  | OCopy d => match nth_error (h_docs h) d with Some es => new_doc h es | None => h end
  | OAppend d e => match nth_error (h_docs h) d with Some es => if has (h_elems h) e then set_doc h d (es ++ [e]) else h | None => h end
  | OReplace d i e => match nth_error (h_docs h) d with Some es => if has (h_elems h) e then set_doc h d (upd es i e) else h | None => h end
  | ODelete d i => match nth_error (h_docs h) d with Some es => set_doc h d (firstn i es ++ skipn (S i) es) | None => h end
  | OExtend d d2 =>
      match nth_error (h_docs h) d, nth_error (h_docs h) d2 with
      | Some es, Some es2 => set_doc h d (es ++ es2)
      | _, _ => h
      end
  | OReset d => if has (h_docs h) d then set_doc h d [] else h
  | OSetValue e v => if has (h_vals h) v then MkHeap (h_docs h) (upd (h_elems h) e v) (h_vals h) else h
  | OValueCopy v => match nth_error (h_vals h) v with Some c => new_val h c | None => h end
  | OElemCopy e =>
      match nth_error (h_elems h) e with
      | Some v => match nth_error (h_vals h) v with Some c => new_elem (new_val h c) (length (h_vals h)) | None => h end
      | None => h
      end
  | OValueSet v w => match nth_error (h_vals h) w with Some c => MkHeap (h_docs h) (h_elems h) (upd (h_vals h) v c) | None => h end
  | OSub k a d => if has (h_docs h) d then new_elem (new_val h (MkV k (Sub a d))) (length (h_vals h)) else h
  | OWrap d v =>
      match nth_error (h_docs h) d with
      | Some es => if has (h_vals h) v then set_doc (new_elem h v) d (es ++ [length (h_elems h)]) else h
      | None => h
      end
  | OArrSet d i v =>
      match nth_error (h_docs h) d with
      | Some es => if has (h_vals h) v && has es i then set_doc (new_elem h v) d (upd es i (length (h_elems h))) else h
      | None => h
      end
  | OConvert k v =>
      match nth_error (h_vals h) v with
      | Some c =>
          match vc_body c with
          | Raw t => new_elem (new_val h (MkV k (Raw t))) (length (h_vals h))
          | Sub a d =>
              match nth_error (h_docs h) d with
              | Some es => new_elem (new_val (new_doc h es) (MkV k (Sub a (length (h_docs h))))) (length (h_vals h))
              | None => h
              end
          end
      | None => h
      end
  end.
Definition run (h : heap) (os : list op) : heap := fold_left exec os h.
