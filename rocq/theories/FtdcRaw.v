(* Reading an FTDC stream, on the elements as they lie in the bytes: only the fields the code
   looks at are looked at (Ftdc.v observes whole documents).  For bytes that are not well-formed
   documents. *)
Require Import ZArith List Bool Lia.
From Verif Require Import Base BSpec Value Codec Api Tree Search Stream DocOps Ftdc.
Import ListNotations.
Open Scope Z_scope.

(* bson_metric.go:14-22 metricForDocument: f for each element; a nil element has no value and
   Type panics *)
Definition raw_elems (f : bytes -> value -> go (list metric)) : document -> go (list metric) :=
  fix loop es :=
    match es with
    | [] => Ret []
    | None :: _ => Panic PNil
    | Some w :: r => k <- elem_key (Some w) ;; x <- f k w ;; xs <- loop r ;; Ret (x ++ xs)
    end.
(* bson_metric.go:24-38 metricForArray *)
Definition raw_items (f : bytes -> value -> go (list metric)) (key : bytes) : nat -> document -> go (list metric) :=
  fix loop i es :=
    match es with
    | [] => Ret []
    | None :: _ => Panic PNil
    | Some w :: r => x <- f (dotted key i) w ;; xs <- loop (S i) r ;; Ret (x ++ xs)
    end.
(* bson_metric.go:40-137 metricForType *)
Fixpoint raw_value (n : nat) (path : list bytes) (key : bytes) (v : value) {struct n} : go (list metric) :=
  match n with
  | O => Fuel
  | S m =>
      let e := Some v in
      t <- v_type v ;;
      let leaf z := [MkM path key z t []] in
      if t =? 4 then es <- v_mutable_array n e ;; raw_items (raw_value m path) key O es else
      if t =? 3 then
        es <- v_mutable_document n e ;;
        let path' := path ++ [key] in
        ms <- raw_elems (raw_value m path') es ;;
        Ret (map (fun ne => MkM path' (m_key ne) (m_start ne) (m_type ne) []) ms)
      else
      if t =? 8 then b <- v_boolean e ;; Ret (leaf (if b then 1 else 0)) else
      if t =? 1 then b <- v_double e ;; Ret (leaf (i64 b)) else
      if t =? 16 then i <- v_int32 e ;; Ret (leaf i) else
      if t =? 18 then i <- v_int64 e ;; Ret (leaf i) else
      if t =? 9 then i <- v_time e ;; Ret (leaf (epoch_ms i)) else
      if t =? 17 then '(s, i) <- v_timestamp e ;; Ret (leaf (i64 (s * 1000)) ++ [MkM path (key ++ s_inc) i 17 []]) else
      Ret []
  end.

(* util.go:117-132 isNum of the value of an element, for 0 and 1 *)
Definition raw_is_num (n : Z) (oe : option elem) : go bool :=
  match oe with
  | Some (Some v) =>
      t <- v_type v ;;
      if t =? 16 then i <- v_int32 (Some v) ;; Ret (is_num n (Some (BInt32 i))) else
      if t =? 18 then i <- v_int64 (Some v) ;; Ret (is_num n (Some (BInt64 i))) else
      if t =? 1 then b <- v_double (Some v) ;; Ret (is_num n (Some (BDouble b))) else
      Ret false
  | _ => Ret false
  end.

(* Chunk, ftdc.go:13-19, with the reference as it was read *)
Inductive rawdoc := WMeta | WSkip | WErr (e : gerr)
| WChunk (ms : list metric) (points : Z) (id : option Z) (meta : option document) (ref : document).

Section Unzip.
Variable unzip : bytes -> option bytes.

(* read.go:37-158, one document; LookupElement (x_document.go:106-114) finds the first element
   with the key; TimeOK of a missing element is not ok *)
Definition raw_chunk_doc (fuel : nat) (meta : option document) (es : document) : go rawdoc :=
  ty <- find_elem k_type es ;;
  z0 <- raw_is_num 0 ty ;;
  if (z0 : bool) then Ret WMeta else
  z1 <- raw_is_num 1 ty ;;
  if negb (z1 : bool) then Ret WSkip else
  oid <- find_elem k_id es ;;
  id <- (match oid with Some e => v_time_ok e | None => Ret None end) ;;
  od <- find_elem k_data es ;;
  match od with
  | None => Ret (WErr e_nodata)
  | Some e =>
      '(_, zb) <- v_binary e ;;
      z <- goslice zb 4 (zlen zb) ;;
      match unzip z with
      | None => Ret (WErr e_zlib)
      | Some buf =>
          let '(s', r) := doc_read_from fuel (MkStream buf [] EEOF false) in
          r <- r ;;
          match r with
          | (_, _, Some e) => Ret (WErr e_refdoc)
          | (_, oes, None) =>
              let ref := match oes with Some es => es | None => [] end in
              ms <- raw_elems (raw_value fuel []) ref ;;
              let rest := st_data s' in
              if zlen rest <? 8 then Ret (WErr (if zlen rest =? 0 then EEOF else EUnexpectedEOF)) else
              nm <- rdu32 (firstn 4 rest) ;; nd <- rdu32 (firstn 4 (skipn 4 rest)) ;;
              if negb (nm =? zlen ms) then Ret (WErr e_mismatch) else
              match get_metrics (Z.to_nat nd) 0 ms (skipn 8 rest) with
              | inr e => Ret (WErr e)
              | inl ms' => Ret (WChunk ms' (nd + 1) id meta ref)
              end
          end
      end
  end.

(* read.go:37-160 readChunks over the documents of the stream *)
Fixpoint raw_chunks_of (fuel : nat) (meta : option document) (docs : list document) : list rawdoc * go (option gerr) :=
  match docs with
  | [] => ([], Ret None)
  | es :: r =>
      match raw_chunk_doc fuel meta es with
      | Panic p => ([], Panic p)
      | Fuel => ([], Fuel)
      | Ret WMeta => raw_chunks_of fuel (Some es) r
      | Ret WSkip => raw_chunks_of fuel meta r
      | Ret (WErr e) => ([], Ret (Some e))
      | Ret c => let '(l, o) := raw_chunks_of fuel meta r in (c :: l, o)
      end
  end.
(* iterator_chunk.go:13-43 ReadChunks, as in Ftdc.v *)
Definition raw_read_chunks (n fuel : nat) (s : stream) : list rawdoc * go (option gerr) :=
  let '(docs, _, o) := read_docs n fuel s in
  let '(cs, r) := raw_chunks_of fuel None docs in
  (cs, e <- r ;; match e with
     | Some e => Ret (Some e)
     | None => o <- o ;; Ret (match o with Some EEOF => None | o => o end)
     end).
End Unzip.
