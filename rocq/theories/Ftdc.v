(* x/ftdc: extraction of metrics from documents, the delta codec, the base collector and
   the reading of chunks.

   A document is walked with the getters (Tree.obs_doc) and built with the constructors
   (Tree.build_doc); in between the code is modelled on the tree the getters show.
   Simplification: obs_doc also reads the strings, binaries and so on that the code skips,
   which matters only for values on which those getters panic.  Documents passed to a
   collector are assumed not to be changed afterwards by the caller (the code keeps the
   pointer). *)
Require Import ZArith List Bool Lia ZifyBool ZifyNat.
From Coq Require Import Floats.SpecFloat.
From Verif Require Import Base BSpec Elements Value Codec CodecRead Itoa CodecRep Api ApiProofs Tree
  GetterProofs ReaderOps CodecProps DocOps Stream.
Import ListNotations.
Open Scope Z_scope.

(* ------------------------------------------------------------- float64 values *)

(* IEEE 754 binary64 bit patterns as the numbers of Coq's SpecFloat *)
Definition f_of_bits (b : Z) : spec_float :=
  let s := 9223372036854775808 <=? b in
  let e := b / 4503599627370496 mod 2048 in
  let m := b mod 4503599627370496 in
  if e =? 0 then match m with Zpos p => S754_finite s p (-1074) | _ => S754_zero s end else
  if e =? 2047 then (if m =? 0 then S754_infinity s else S754_nan) else
  match m + 4503599627370496 with Zpos p => S754_finite s p (e - 1075) | _ => S754_nan end.
Definition sbit (s : bool) : Z := if s then 9223372036854775808 else 0.
Definition bits_of_f (nan : Z) (f : spec_float) : Z :=
  match f with
  | S754_zero s => sbit s
  | S754_infinity s => sbit s + 9218868437227405312
  | S754_nan => nan
  | S754_finite s m e =>
      if Zpos m <? 4503599627370496 then sbit s + Zpos m
      else sbit s + (e + 1075) * 4503599627370496 + (Zpos m - 4503599627370496)
  end.

Section Ftdc.
(* The bits of a NaN result depend on the processor: nan a b is the NaN of a - b. *)
Variable nan : Z -> Z -> Z.
(* compress/zlib: what a Writer produces for an input, and what a Reader makes of a stream
   (None: an error; errors in the middle of a stream are taken to be noticed at once). *)
Variables (zip : bytes -> bytes) (unzip : bytes -> option bytes).

Definition fsub (a b : Z) : Z := bits_of_f (nan a b) (SFsub 53 1024 (f_of_bits a) (f_of_bits b)).

(* -------------------------------------------------------- bson_extract.go, util.go *)

(* util.go:114 epochMs of an instant in nanoseconds since 1970: UnixNano wraps *)
Definition epoch_ms (ns : Z) : Z := Z.quot (i64 ns) 1000000.
(* util.go:115 timeEpocMs, and value.go:804-807 Time *)
Definition ms_time (ms : Z) : Z := Z.quot ms 1000 * 1000000000 + Z.rem ms 1000 * 1000000.
(* constructor.go:386-389 EC.Time: the milliseconds stored *)
Definition time_ms (ns : Z) : Z := i64 (i64 (ns / 1000000000 * 1000) + (ns mod 1000000000) / 1000000).

(* The values of extractedMetrics are Values of type Int64 or Double. *)
Inductive nval := NI (i : Z) | ND (bits : Z).

(* bson_extract.go:22-110: values and types side by side.  No error can arise, and ts is
   never set from the document, so it is the clock. *)
Fixpoint x_value (t : bval) : list (Z * nval) :=
  match t with
  | BArray vs => (fix loop vs := match vs with [] => [] | v :: r => x_value v ++ loop r end) vs
  | BDoc fs => (fix loop fs := match fs with [] => [] | (_, v) :: r => x_value v ++ loop r end) fs
  | BBool b => [(8, NI (if b then 1 else 0))]
  | BDouble b => [(1, ND b)]
  | BInt32 i => [(16, NI i)]
  | BInt64 i => [(18, NI i)]
  | BDateTime i => [(9, NI (epoch_ms (ms_time i)))]
  | BTimestamp t i => [(17, NI t); (17, NI i)]
  | _ => []
  end.
Fixpoint x_fields (fs : list (bytes * bval)) : list (Z * nval) :=
  match fs with [] => [] | (_, v) :: r => x_value v ++ x_fields r end.

(* bson_extract.go:112-121 extractDelta, with normalizeFloat (util.go:112) *)
Definition x_delta (current previous : nval) : go Z :=
  match current, previous with
  | ND a, ND b => Ret (i64 (fsub a b))
  | NI a, NI b => Ret (i64 (a - b))
  | ND _, NI _ => Panic (PErr (EElementType 18))
  | NI _, ND _ => Panic (PErr (EElementType 1))
  end.

(* ------------------------------------------------------------------ encoding *)

(* encoding/binary.PutUvarint, for the ten bytes of util.go:84-88 encodeValue *)
Fixpoint uv_put (n : nat) (x : Z) : bytes :=
  match n with
  | O => []
  | S k => if x <? 128 then [x] else (x mod 128 + 128) :: uv_put k (x / 128)
  end.
Definition encode_value (v : Z) : bytes := uv_put 10 (u64 v).
(* encoding/binary.ReadUvarint; x | b<<s is x + b<<s as x < 2^s *)
Fixpoint uv_read (i : Z) (x s : Z) (l : bytes) : (Z * bytes) + gerr :=
  match l with
  | [] => inr (if i =? 0 then EEOF else EUnexpectedEOF)
  | b :: r =>
      if i =? 10 then inr (EOther 60) else
      if b <? 128 then
        if (i =? 9) && (1 <? b) then inr (EOther 60) else inl (x + u64 (b * 2 ^ s), r)
      else uv_read (i + 1) (x + u64 ((b mod 128) * 2 ^ s)) (s + 7) r
  end.
Definition read_uvarint := uv_read 0 0 0.

(* collector_better.go:166-186: the deltas in the order the loops visit them *)
Fixpoint put_deltas (zeros : Z) (ds : list Z) : bytes :=
  match ds with
  | [] => if 0 <? zeros then encode_value 0 ++ encode_value (zeros - 1) else []
  | d :: r =>
      if d =? 0 then put_deltas (zeros + 1) r else
      (if 0 <? zeros then encode_value 0 ++ encode_value (zeros - 1) else []) ++ encode_value d ++ put_deltas 0 r
  end.

(* ---------------------------------------------------------- collector_better.go *)

(* betterCollector, collector_better.go:13-21; startedAt in nanoseconds *)
Record better := MkB {
  b_meta : option document; b_ref : option document; b_start : Z;
  b_last : option (list (Z * nval)); b_deltas : list Z; b_num : Z; b_max : Z }.
(* collector_better.go:29-33 NewBaseCollector *)
Definition new_base (max : Z) : better := MkB None None 0 None [] 0 max.

(* errors of this package *)
Definition e_schema := EOther 61.
Definition e_overfull := EOther 62.
Definition e_noref := EOther 63.

(* collector_better.go:35-43; the argument is a *Document, which readDocument returns *)
Definition b_set_metadata (c : better) (es : document) : better :=
  MkB (Some es) (b_ref c) (b_start c) (b_last c) (b_deltas c) (b_num c) (b_max c).
(* collector_better.go:45-50 *)
Definition b_reset (c : better) : better :=
  MkB (b_meta c) None (b_start c) None [] 0 (b_max c).
(* collector_better.go:52-68: SampleCount, MetricsCount *)
Definition b_samples (c : better) : Z := (match b_ref c with Some _ => 1 | None => 0 end) + b_num c.
Definition b_metrics (c : better) : Z := match b_last c with Some l => zlen l | None => 0 end.

(* c.deltas[i] = d *)
Definition store (l : list Z) (i d : Z) : go (list Z) :=
  if (i <? 0) || (zlen l <=? i) then Panic PIndex else Ret (put l i [d]).

(* collector_better.go:104-115: the array after the loop, and how it ended *)
Fixpoint fill (max num idx : Z) (cur prev : list (Z * nval)) (ds : list Z) : list Z * go (option gerr) :=
  match cur, prev with
  | (t, v) :: cur', (t', v') :: prev' =>
      if negb (t =? t') then (ds, Ret (Some e_schema)) else
      match x_delta v v' with
      | Panic p => (ds, Panic p)
      | Fuel => (ds, Fuel)
      | Ret d =>
          match store ds (idx * max + num) d with
          | Panic p => (ds, Panic p)
          | Fuel => (ds, Fuel)
          | Ret ds' => fill max num (idx + 1) cur' prev' ds'
          end
      end
  | _, _ => (ds, Ret None)
  end.

(* collector_better.go:70-121 Add of a document at clock now *)
Definition b_add (fuel : nat) (now : Z) (c : better) (es : document) : better * go (option gerr) :=
  match b_ref c with
  | None =>
      let c1 := MkB (b_meta c) (Some es) (b_start c) (b_last c) (b_deltas c) (b_num c) (b_max c) in
      match obs_doc fuel es with
      | Panic p => (c1, Panic p)
      | Fuel => (c1, Fuel)
      | Ret fs =>
          let m := x_fields fs in
          let c2 := MkB (b_meta c) (Some es) now (Some m) (b_deltas c) (b_num c) (b_max c) in
          if b_max c * zlen m <? 0 then (c2, Panic PMake) else
          (MkB (b_meta c) (Some es) now (Some m) (zeros (b_max c * zlen m)) (b_num c) (b_max c), Ret None)
      end
  | Some _ =>
      if b_max c <=? b_num c then (c, Ret (Some e_overfull)) else
      match obs_doc fuel es with
      | Panic p => (c, Panic p)
      | Fuel => (c, Fuel)
      | Ret fs =>
          let m := x_fields fs in
          match b_last c with
          | None => (c, Panic PNil)
          | Some l =>
              if negb (zlen m =? zlen l) then (c, Ret (Some e_schema)) else
              let '(ds, r) := fill (b_max c) (b_num c) 0 m l (b_deltas c) in
              let c1 := MkB (b_meta c) (b_ref c) (b_start c) (b_last c) ds (b_num c) (b_max c) in
              match r with
              | Ret None => (MkB (b_meta c) (b_ref c) (b_start c) (Some m) ds (b_num c + 1) (b_max c), Ret None)
              | r => (c1, r)
              end
          end
      end
  end.

(* a client that adds documents one after the other, at given times *)
Fixpoint add_all (fuel : nat) (c : better) (docs : list (Z * document)) : better * list (go (option gerr)) :=
  match docs with
  | [] => (c, [])
  | (now, es) :: r =>
      let '(c1, o) := b_add fuel now c es in
      let '(c2, os) := add_all fuel c1 r in (c2, o :: os)
  end.

(* the offsets (util.go:58 getOffset) the loops of getPayload visit *)
Definition offsets (max num n : Z) : list Z :=
  flat_map (fun i => map (fun j => Z.of_nat i * max + Z.of_nat j) (seq 0 (Z.to_nat num))) (seq 0 (Z.to_nat n)).

(* collector_better.go:155-193 getPayload with util.go:90-110 compressBuffer.  The model
   reads all the deltas before encoding them. *)
Definition payload (fuel : nat) (ref : document) (c : better) : go (bytes + gerr) :=
  r <- doc_marshal fuel ref ;;
  match r with
  | inr e => Ret (inr e)
  | inl b =>
      match b_last c with
      | None => Panic PNil
      | Some l =>
          ds <- mapM (goindex (b_deltas c)) (offsets (b_max c) (b_num c) (zlen l)) ;;
          Ret (inl (b ++ le32 (u32 (zlen l)) ++ le32 (u32 (b_num c)) ++ put_deltas 0 ds))
      end
  end.
Definition compress (b : bytes) : bytes := le32 (u32 (zlen b)) ++ zip b.

Definition k_id : bytes := [95; 105; 100].
Definition k_type : bytes := [116; 121; 112; 101].
Definition k_doc : bytes := [100; 111; 99].
Definition k_data : bytes := [100; 97; 116; 97].

(* collector_better.go:123-153 Resolve; writing to a bytes.Buffer cannot fail *)
Definition b_resolve (fuel : nat) (c : better) : go (bytes + gerr) :=
  match b_ref c with
  | None => Ret (inr e_noref)
  | Some ref =>
      p <- payload fuel ref c ;;
      match p with
      | inr e => Ret (inr e)
      | inl p =>
          m <- (match b_meta c with
            | None => Ret (inl [])
            | Some md =>
                id <- ec_time k_id (b_start c) ;; ty <- ec_int32 k_type 0 ;; d <- ec_subdocument k_doc md ;;
                doc_marshal fuel [Some id; Some ty; Some d]
            end) ;;
          match m with
          | inr e => Ret (inr e)
          | inl m =>
              id <- ec_time k_id (b_start c) ;; ty <- ec_int32 k_type 1 ;; d <- ec_binary k_data (compress p) ;;
              r <- doc_marshal fuel [Some id; Some ty; Some d] ;;
              match r with
              | inr e => Ret (inr e)
              | inl r => Ret (inl (m ++ r))
              end
          end
      end
  end.

(* ---------------------------------------------------------------- bson_metric.go *)

(* Metric, ftdc.go:80-104 *)
Record metric := MkM { m_path : list bytes; m_key : bytes; m_start : Z; m_type : Z; m_values : list Z }.

Definition dotted (k : bytes) (i : nat) : bytes := k ++ 46 :: itoa (Z.of_nat i).
Definition s_inc : bytes := [46; 105; 110; 99].

(* bson_metric.go:40-137 metricForType, with metricForDocument (14-22) and metricForArray
   (24-38) inlined.  The metrics of a nested document get the path of the document itself,
   which discards the deeper path the recursive call gave them.  Appending to path may
   share a backing array, but every such path is replaced by one of length 1. *)
Fixpoint m_value (key : bytes) (path : list bytes) (t : bval) : list metric :=
  let leaf z := MkM path key z (tag t) [] in
  match t with
  | BArray vs =>
      (fix loop i vs := match vs with
        | [] => []
        | v :: r => m_value (dotted key i) path v ++ loop (S i) r
        end) O vs
  | BDoc fs =>
      let path' := path ++ [key] in
      map (fun ne => MkM path' (m_key ne) (m_start ne) (m_type ne) [])
        ((fix loop fs := match fs with
          | [] => []
          | (k, v) :: r => m_value k path' v ++ loop r
          end) fs)
  | BBool b => [leaf (if b then 1 else 0)]
  | BDouble b => [leaf (i64 b)]
  | BInt32 i => [leaf i]
  | BInt64 i => [leaf i]
  | BDateTime i => [leaf (epoch_ms (ms_time i))]
  | BTimestamp t i => [leaf (i64 (t * 1000)); MkM path (key ++ s_inc) i 17 []]
  | _ => []
  end.
Fixpoint m_fields (path : list bytes) (fs : list (bytes * bval)) : list metric :=
  match fs with [] => [] | (k, v) :: r => m_value k path v ++ m_fields path r end.

(* ftdc.go:106-108 Key *)
Fixpoint join (l : list bytes) : bytes :=
  match l with [] => [] | [x] => x | x :: r => x ++ 46 :: join r end.
Definition m_name (m : metric) : bytes := join (m_path m ++ [m_key m]).

(* util.go:60-74 *)
Fixpoint undelta (v : Z) (ds : list Z) : list Z :=
  v :: match ds with [] => [] | d :: r => undelta (i64 (v + d)) r end.
Definition undelta_floats (v : Z) (ds : list Z) : list Z := v :: ds.

(* ----------------------------------------------------------------------- read.go *)

(* read.go:123-141: the next n deltas, the zeros left and the rest of the input *)
Fixpoint get_deltas (n : nat) (nz : Z) (l : bytes) : (list Z * Z * bytes) + gerr :=
  match n with
  | O => inl ([], nz, l)
  | S k =>
      let next d nz l :=
        match get_deltas k nz l with
        | inl (ds, nz', l') => inl (i64 d :: ds, nz', l')
        | inr e => inr e
        end in
      if negb (nz =? 0) then next 0 (nz - 1) l else
      match read_uvarint l with
      | inr e => inr (EOther 64)
      | inl (d, l1) =>
          if d =? 0 then
            match read_uvarint l1 with
            | inr e => inr e
            | inl (nz, l2) => next d nz l2
            end
          else next d 0 l1
      end
  end.

(* read.go:117-148 *)
Fixpoint get_metrics (n : nat) (nz : Z) (ms : list metric) (l : bytes) : list metric + gerr :=
  match ms with
  | [] => inl []
  | m :: r =>
      match get_deltas n nz l with
      | inr e => inr e
      | inl (ds, nz', l') =>
          match get_metrics n nz' r l' with
          | inr e => inr e
          | inl r' =>
              inl (MkM (m_path m) (m_key m) (m_start m) (m_type m)
                (if m_type m =? 1 then undelta_floats (m_start m) ds else undelta (m_start m) ds) :: r')
          end
      end
  end.

(* Chunk, ftdc.go:13-19; the reference as the getters show it, the id in nanoseconds *)
Record chunk := MkC { c_metrics : list metric; c_points : Z; c_id : option Z;
  c_meta : option document; c_ref : list (bytes * bval) }.

(* util.go:117-132 isNum, for 0 and 1 *)
Definition is_num (n : Z) (t : option bval) : bool :=
  match t with
  | Some (BInt32 i) => i =? n
  | Some (BInt64 i) => i =? n
  | Some (BDouble b) => if n =? 0 then (b =? 0) || (b =? 9223372036854775808) else b =? 4607182418800017408
  | _ => false
  end.

(* read.go:37-158, one document: a metadata document, one to skip, a chunk or an error.
   bufio over the zlib reader delivers the uncompressed bytes. *)
Inductive rdoc := RMeta | RSkip | RChunk (c : chunk) | RErr (e : gerr).
Definition e_nodata := EOther 65.
Definition e_zlib := EOther 66.
Definition e_mismatch := EOther 67.
Definition e_refdoc := EOther 68.
Definition read_chunk_doc (fuel : nat) (meta : option document) (es : document) : go rdoc :=
  fs <- obs_doc fuel es ;;
  let ty := first_key k_type fs in
  if is_num 0 ty then Ret RMeta else
  if negb (is_num 1 ty) then Ret RSkip else
  let id := match first_key k_id fs with Some (BDateTime i) => Some (ms_time i) | _ => None end in
  match first_key k_data fs with
  | None => Ret (RErr e_nodata)
  | Some (BBinary _ zb) =>
      z <- goslice zb 4 (zlen zb) ;;
      match unzip z with
      | None => Ret (RErr e_zlib)
      | Some buf =>
          let '(s', r) := doc_read_from fuel (MkStream buf [] EEOF false) in
          r <- r ;;
          match r with
          | (_, _, Some e) => Ret (RErr e_refdoc)
          | (_, oes, None) =>
              ref <- obs_doc fuel (match oes with Some es => es | None => [] end) ;;
              let ms := m_fields [] ref in
              let rest := st_data s' in
              if zlen rest <? 8 then Ret (RErr (if zlen rest =? 0 then EEOF else EUnexpectedEOF)) else
              nm <- rdu32 (firstn 4 rest) ;; nd <- rdu32 (firstn 4 (skipn 4 rest)) ;;
              if negb (nm =? zlen ms) then Ret (RErr e_mismatch) else
              match get_metrics (Z.to_nat nd) 0 ms (skipn 8 rest) with
              | inr e => Ret (RErr e)
              | inl ms' => Ret (RChunk (MkC ms' (nd + 1) id meta ref))
              end
          end
      end
  | Some t => Panic (PErr (EElementType (tag t)))
  end.

(* read.go:37-160 readChunks over the documents of the stream *)
Fixpoint chunks_of (fuel : nat) (meta : option document) (docs : list document) : list chunk * go (option gerr) :=
  match docs with
  | [] => ([], Ret None)
  | es :: r =>
      match read_chunk_doc fuel meta es with
      | Panic p => ([], Panic p)
      | Fuel => ([], Fuel)
      | Ret RMeta => chunks_of fuel (Some es) r
      | Ret RSkip => chunks_of fuel meta r
      | Ret (RErr e) => ([], Ret (Some e))
      | Ret (RChunk c) => let '(l, o) := chunks_of fuel meta r in (c :: l, o)
      end
  end.
(* iterator_chunk.go:13-43 ReadChunks with read.go:17-35 readDiagnostic: the chunks yielded
   and the error of the two goroutines, when the consumer takes every chunk.  The channels
   pass the documents and the chunks on in order; io.EOF ends the stream without error. *)
Definition read_chunks (n fuel : nat) (s : stream) : list chunk * go (option gerr) :=
  let '(docs, _, o) := read_docs n fuel s in
  let '(cs, r) := chunks_of fuel None docs in
  (cs, e <- r ;; match e with
     | Some e => Ret (Some e)
     | None => o <- o ;; Ret (match o with Some EEOF => None | o => o end)
     end).

(* --------------------------------------------------------------- bson_restore.go *)

(* bson_restore.go:36-85 restoreElement: the value restored, if any, and the next index.
   EC.Interface("", val) of an array item (66) is the same value under another key. *)
Fixpoint r_value (sample : Z) (ms : list metric) (idx : Z) (t : bval) : go (option bval * Z) :=
  let at_ i := m <- goindex ms i ;; goindex (m_values m) sample in
  match t with
  | BArray vs =>
      '(items, idx) <- (fix loop idx vs := match vs with
        | [] => Ret ([], idx)
        | v :: r =>
            '(x, idx) <- r_value sample ms idx v ;;
            '(xs, idx) <- loop idx r ;;
            Ret (match x with Some x => x :: xs | None => xs end, idx)
        end) idx vs ;;
      Ret (Some (BArray items), idx)
  | BDoc fs =>
      '(items, idx) <- (fix loop idx fs := match fs with
        | [] => Ret ([], idx)
        | (k, v) :: r =>
            '(x, idx) <- r_value sample ms idx v ;;
            '(xs, idx) <- loop idx r ;;
            Ret (match x with Some x => (k, x) :: xs | None => xs end, idx)
        end) idx fs ;;
      Ret (Some (BDoc items), idx)
  | BBool _ => v <- at_ idx ;; Ret (Some (BBool (negb (v =? 0))), idx + 1)
  | BDouble _ => v <- at_ idx ;; Ret (Some (BDouble (u64 v)), idx + 1)
  | BInt32 _ => v <- at_ idx ;; Ret (Some (BInt32 (i32 v)), idx + 1)
  | BInt64 _ => v <- at_ idx ;; Ret (Some (BInt64 v), idx + 1)
  | BDateTime _ => v <- at_ idx ;; Ret (Some (BDateTime (time_ms (ms_time v))), idx + 1)
  | BTimestamp _ _ => v <- at_ idx ;; w <- at_ (idx + 1) ;; Ret (Some (BTimestamp (u32 v) (u32 w)), idx + 2)
  | _ => Ret (None, idx)
  end.
(* bson_restore.go:15-34 restoreDocument of a non-nil reference *)
Fixpoint r_fields (sample : Z) (ms : list metric) (idx : Z) (fs : list (bytes * bval)) : go (list (bytes * bval) * Z) :=
  match fs with
  | [] => Ret ([], idx)
  | (k, v) :: r =>
      '(x, idx) <- r_value sample ms idx v ;;
      '(xs, idx) <- r_fields sample ms idx r ;;
      Ret (match x with Some x => (k, x) :: xs | None => xs end, idx)
  end.
(* iterator_chunk.go:45-54: the documents of Chunk.StructuredIterator *)
Definition c_structured (c : chunk) : go (list document) :=
  mapM (fun i => '(fs, _) <- r_fields (Z.of_nat i) (c_metrics c) 0 (c_ref c) ;; build_doc fs) (seq 0 (Z.to_nat (c_points c))).

(* bson_restore.go:87-103 restoreFlat *)
Definition r_flat (t v : Z) : bval :=
  if t =? 8 then BBool (negb (v =? 0)) else
  if t =? 1 then BDouble (u64 v) else
  if t =? 16 then BInt32 (i32 v) else
  if t =? 9 then BDateTime (time_ms (ms_time v)) else BInt64 v.
(* iterator_chunk.go:56-75: the documents of Chunk.Iterator *)
Definition c_flat (c : chunk) : go (list document) :=
  mapM (fun i =>
    fs <- mapM (fun m => v <- goindex (m_values m) (Z.of_nat i) ;; Ret (m_name m, r_flat (m_type m) v)) (c_metrics c) ;;
    build_doc fs) (seq 0 (Z.to_nat (c_points c))).

(* iterator.go:49-66 ReadStructuredMetrics and iterator.go:27-44 ReadMetrics, when every
   document is taken *)
Definition concatM {A} (l : list (go (list A))) : go (list A) :=
  fold_right (fun x acc => a <- x ;; r <- acc ;; Ret (a ++ r)) (Ret []) l.
Definition read_structured n fuel s : go (list document) * go (option gerr) :=
  let '(cs, e) := read_chunks n fuel s in (concatM (map c_structured cs), e).
Definition read_metrics n fuel s : go (list document) * go (option gerr) :=
  let '(cs, e) := read_chunks n fuel s in (concatM (map c_flat cs), e).

(* bson_matrix.go:12-53 rehydrateMatrix: the array of a metric, and how many it takes *)
Definition rehydrate (ms : list metric) (i : Z) : go ((bytes * bval) * Z + gerr) :=
  if zlen ms <=? i then Ret (inr EEOF) else
  m <- goindex ms i ;;
  let ok l k := Ret (inl ((m_name m, BArray l), i + k)) in
  if m_type m =? 8 then ok (map (fun p => BBool (negb (p =? 0))) (m_values m)) 1 else
  if m_type m =? 1 then ok (map (fun p => BDouble (u64 p)) (m_values m)) 1 else
  if m_type m =? 18 then ok (map BInt64 (m_values m)) 1 else
  if m_type m =? 16 then ok (map (fun p => BInt32 (i32 p)) (m_values m)) 1 else
  if m_type m =? 9 then ok (map (fun p => BDateTime (time_ms (ms_time p))) (m_values m)) 1 else
  if m_type m =? 17 then
    match m_values m with
    | [] => ok [] 2
    | _ => m2 <- goindex ms (i + 1) ;;
           vs <- mapM (fun j => p <- goindex (m_values m) (Z.of_nat j) ;; q <- goindex (m_values m2) (Z.of_nat j) ;;
             Ret (BTimestamp (u32 p) (u32 q))) (seq 0 (length (m_values m))) ;; ok vs 2
    end
  else Ret (inr (EOther 69)).
(* ftdc.go:57-77 export *)
Fixpoint export_loop (n : nat) (ms : list metric) (i : Z) : go (list (bytes * bval) + gerr) :=
  match n with
  | O => Ret (inl [])
  | S k =>
      r <- rehydrate ms i ;;
      match r with
      | inr EEOF => Ret (inl [])
      | inr e => Ret (inr e)
      | inl (f, i') => r <- export_loop k ms i' ;; Ret (match r with inl l => inl (f :: l) | inr e => inr e end)
      end
  end.
Definition c_matrix (c : chunk) : go (document + gerr) :=
  r <- export_loop (length (c_metrics c)) (c_metrics c) 0 ;;
  match r with inl fs => es <- build_doc fs ;; Ret (inl es) | inr e => Ret (inr e) end.

End Ftdc.
