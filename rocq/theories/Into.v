(* Document.Unmarshal (document.go:362-391): a document read into a map. *)
Require Import ZArith List Bool.
From Verif Require Import Base Value Codec Api Iface.
Import ListNotations.
Open Scope Z_scope.

(* m[k] = v on a Go map with string keys, a list of its entries; None is the nil map, which cannot
   be written to *)
Fixpoint put_entry {A} (k : bytes) (v : A) (m : list (bytes * A)) : list (bytes * A) :=
  match m with
  | [] => [(k, v)]
  | (k', v') :: r => if bytes_eqb k k' then (k, v) :: r else (k', v') :: put_entry k v r
  end.
Definition map_write {A} (k : bytes) (v : A) (m : option (list (bytes * A))) : go (option (list (bytes * A))) :=
  match m with Some l => Ret (Some (put_entry k v l)) | None => Panic PNil end.
(* m[k] = v on a map[any]any: the key written is a string, and keys of other types differ from it *)
Fixpoint put_any (k : bytes) (v : any) (m : list (any * any)) : list (any * any) :=
  match m with
  | [] => [(AString k, v)]
  | (AString k', v') :: r => if bytes_eqb k k' then (AString k, v) :: r else (AString k', v') :: put_any k v r
  | e :: r => e :: put_any k v r
  end.
Definition any_write (k : bytes) (v : any) (m : option (list (any * any))) : go (option (list (any * any))) :=
  match m with Some l => Ret (Some (put_any k v l)) | None => Panic PNil end.

(* What Unmarshal is given.  A DocumentUnmarshaler and an Unmarshaler are what they make of the
   document and of the bytes: the error they answer with. *)
Inductive target :=
| IntoDocument (f : document -> option gerr)
| IntoBytes (f : bytes -> option gerr)
| IntoStrings (m : option (list (bytes * bytes)))
| IntoMap (m : option (list (bytes * any)))
| IntoMapAny (m : option (list (any * any)))
| IntoOther.

(* document.go:372-376 *)
Fixpoint into_strings (es : document) (m : option (list (bytes * bytes))) : go (option (list (bytes * bytes))) :=
  match es with
  | [] => Ret m
  | None :: _ => Panic PNil
  | Some v :: r =>
      s <- v_string_ok (Some v) ;;
      match s with
      | Some s => k <- elem_key (Some v) ;; m' <- map_write k s m ;; into_strings r m'
      | None => into_strings r m
      end
  end.
(* document.go:378-380 *)
Fixpoint into_map (fuel : nat) (es : document) (m : option (list (bytes * any))) : go (option (list (bytes * any))) :=
  match es with
  | [] => Ret m
  | None :: _ => Panic PNil
  | Some v :: r => k <- elem_key (Some v) ;; a <- v_interface fuel v ;; m' <- map_write k a m ;; into_map fuel r m'
  end.
(* document.go:382-384 *)
Fixpoint into_map_any (fuel : nat) (es : document) (m : option (list (any * any))) : go (option (list (any * any))) :=
  match es with
  | [] => Ret m
  | None :: _ => Panic PNil
  | Some v :: r => k <- elem_key (Some v) ;; a <- v_interface fuel v ;; m' <- any_write k a m ;; into_map_any fuel r m'
  end.
(* document.go:362-391 Document.Unmarshal of a document that is not nil: the target afterwards, and
   the error.  EOther 630 is "cannot unmarshal into". *)
Definition doc_unmarshal_into (fuel : nat) (es : document) (t : target) : go (target * option gerr) :=
  match t with
  | IntoDocument f => Ret (t, f es)
  | IntoBytes f =>
      b <- doc_marshal fuel es ;;
      match b with inl b => Ret (t, f b) | inr e => Ret (t, Some e) end
  | IntoStrings m => m' <- into_strings es m ;; Ret (IntoStrings m', None)
  | IntoMap m => m' <- into_map fuel es m ;; Ret (IntoMap m', None)
  | IntoMapAny m => m' <- into_map_any fuel es m ;; Ret (IntoMapAny m', None)
  | IntoOther => Ret (t, Some (EOther 630))
  end.
