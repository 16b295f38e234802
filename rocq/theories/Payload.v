(* Model of Value.Reader.  ReaderDocument, ReaderArray, ReaderJavaScriptWithScope and getReader are
   in Api.v. *)
Require Import ZArith List Bool.
From Verif Require Import Base Value Codec Api.
Import ListNotations.
Open Scope Z_scope.

(* value.go:565-574 Value.Reader: getReader whatever the type.  value.data is cut from slices made with
   exactly their length (elements/elements.go), so slicing it past its end panics. *)
Definition v_reader (fuel : nat) (ov : option value) : go bytes :=
  match ov with
  | Some (MkValue _ off (Some data) d) =>
      if off =? 0 then Panic (PErr EUninitialized) else get_reader fuel off data d
  | _ => Panic (PErr EUninitialized)
  end.
