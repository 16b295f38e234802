(* The wire protocol messages as data and their byte format, written from the MongoDB wire
   protocol: independent of the code.  Documents are lists of fields (BSpec.v). *)
Require Import ZArith List Bool Lia ZifyBool ZifyNat.
From Verif Require Import Base BSpec.
Import ListNotations.
Open Scope Z_scope.

Notation fields := (list (bytes * bval)).

Inductive ssec :=
| SBody (d : fields)
| SSeq (ident : bytes) (docs : list fields).

Inductive smsg :=
| SReply (flags cursor start nret : Z) (docs : list fields)
| SUpdate (flags : Z) (ns : bytes) (filter update : fields)
| SInsert (flags : Z) (ns : bytes) (docs : list fields)
| SQuery (flags skip nret : Z) (ns : bytes) (query : fields) (project : option fields)
| SGetMore (nret cursor : Z) (ns : bytes)
| SDelete (flags : Z) (ns : bytes) (filter : fields)
| SKill (ids : list Z)
| SCommand (db cmd : bytes) (args meta : fields) (inputs : list fields)
| SCommandReply (reply meta : fields) (outs : list fields)
| SOp (flags : Z) (items : list ssec) (checksum : option Z).

Definition enc_docs (ds : list fields) : bytes := concat (map enc_doc ds).
Definition enc_opt (d : option fields) : bytes := match d with Some d => enc_doc d | None => [] end.
Definition cstring (s : bytes) : bytes := s ++ [0].

Definition sec_bytes (s : ssec) : bytes :=
  match s with
  | SBody d => 0 :: enc_doc d
  | SSeq ident docs =>
      let rest := cstring ident ++ enc_docs docs in
      1 :: le32 (5 + zlen rest) ++ rest
  end.

Definition op_of (s : smsg) : Z :=
  match s with
  | SReply _ _ _ _ _ => 1 | SUpdate _ _ _ _ => 2001 | SInsert _ _ _ => 2002
  | SQuery _ _ _ _ _ _ => 2004 | SGetMore _ _ _ => 2005 | SDelete _ _ _ => 2006
  | SKill _ => 2007 | SCommand _ _ _ _ _ => 2010 | SCommandReply _ _ _ => 2011 | SOp _ _ _ => 2013
  end.

Definition body_of (s : smsg) : bytes :=
  match s with
  | SReply flags cursor start nret docs =>
      le32 flags ++ le64 cursor ++ le32 start ++ le32 nret ++ enc_docs docs
  | SUpdate flags ns filter update =>
      le32 0 ++ cstring ns ++ le32 flags ++ enc_doc filter ++ enc_doc update
  | SInsert flags ns docs => le32 flags ++ cstring ns ++ enc_docs docs
  | SQuery flags skip nret ns query project =>
      le32 flags ++ cstring ns ++ le32 skip ++ le32 nret ++ enc_doc query ++ enc_opt project
  | SGetMore nret cursor ns => le32 0 ++ cstring ns ++ le32 nret ++ le64 cursor
  | SDelete flags ns filter => le32 0 ++ cstring ns ++ le32 flags ++ enc_doc filter
  | SKill ids => le32 0 ++ le32 (zlen ids) ++ concat (map le64 ids)
  | SCommand db cmd args meta inputs =>
      cstring db ++ cstring cmd ++ enc_doc args ++ enc_doc meta ++ enc_docs inputs
  | SCommandReply reply meta outs => enc_doc reply ++ enc_doc meta ++ enc_docs outs
  | SOp flags items checksum =>
      le32 flags ++ concat (map sec_bytes items) ++
      (match checksum with Some c => le32 c | None => [] end)
  end.

(* total length, request id, response to, op code, body *)
Definition wire (req resp : Z) (s : smsg) : bytes :=
  le32 (16 + zlen (body_of s)) ++ le32 req ++ le32 resp ++ le32 (op_of s) ++ body_of s.

Definition sec_ok (s : ssec) : Prop :=
  match s with
  | SBody d => wf_fields d
  | SSeq ident docs => nul_free ident /\ Forall wf_fields docs
  end.

(* integers in range, no NUL in names, well-formed documents, a length that fits the header *)
Definition smsg_ok (s : smsg) : Prop :=
  16 + zlen (body_of s) < 2147483648 /\
  match s with
  | SReply flags cursor start nret docs =>
      is_i32 flags /\ is_i64 cursor /\ is_i32 start /\ is_i32 nret /\ Forall wf_fields docs
  | SUpdate flags ns filter update => is_i32 flags /\ nul_free ns /\ wf_fields filter /\ wf_fields update
  | SInsert flags ns docs => is_i32 flags /\ nul_free ns /\ Forall wf_fields docs
  | SQuery flags skip nret ns query project =>
      is_i32 flags /\ is_i32 skip /\ is_i32 nret /\ nul_free ns /\ wf_fields query /\
      (match project with Some p => wf_fields p | None => True end)
  | SGetMore nret cursor ns => is_i32 nret /\ is_i64 cursor /\ nul_free ns
  | SDelete flags ns filter => is_i32 flags /\ nul_free ns /\ wf_fields filter
  | SKill ids => Forall is_i64 ids
  | SCommand db cmd args meta inputs =>
      nul_free db /\ nul_free cmd /\ wf_fields args /\ wf_fields meta /\ Forall wf_fields inputs
  | SCommandReply reply meta outs => wf_fields reply /\ wf_fields meta /\ Forall wf_fields outs
  | SOp flags items checksum =>
      is_u32 flags /\ Forall sec_ok items /\
      (match checksum with
       | Some c => is_i32 c /\ c <> 0 /\ Z.land flags 1 = 1
       | None => Z.land flags 1 = 0
       end)
  end.

(* A query on the pseudo collection of a database is a command: db "." "$" ... *)
Definition command_ns (ns : bytes) : Prop :=
  exists db rest, ns = db ++ 46 :: 36 :: rest /\ Forall (fun c => c <> 46) db.
