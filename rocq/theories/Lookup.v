(* Model of Document.LookupElement, Lookup, LookupErr and LookupElementErr. *)
Require Import ZArith List Bool.
From Verif Require Import Base Value Codec Api.
Import ListNotations.
Open Scope Z_scope.

(* x_document.go:106-114 LookupElement; None is nil.  Elements that are nil pointers panic in Key. *)
Fixpoint lookup_element (k : bytes) (es : document) : go (option elem) :=
  match es with
  | [] => Ret None
  | e :: r => k' <- elem_key e ;; if bytes_eqb k' k then Ret (Some e) else lookup_element k r
  end.

(* elem.value of an element that is not nil; elements with their value are one thing here *)
Definition elem_value (e : elem) : go (option value) := match e with None => Panic PNil | Some v => Ret (Some v) end.

(* x_document.go:119-126 Lookup *)
Definition lookup (k : bytes) (es : document) : go (option value) :=
  oe <- lookup_element k es ;;
  match oe with None => Ret None | Some e => elem_value e end.

(* x_document.go:132-139 LookupElementErr *)
Definition lookup_element_err (k : bytes) (es : document) : go (option elem * option gerr) :=
  oe <- lookup_element k es ;;
  match oe with None => Ret (None, Some ENotFound) | Some e => Ret (Some e, None) end.

(* x_document.go:145-152 LookupErr *)
Definition lookup_err (k : bytes) (es : document) : go (option value * option gerr) :=
  oe <- lookup_element k es ;;
  match oe with None => Ret (None, Some ENotFound) | Some e => v <- elem_value e ;; Ret (v, None) end.
