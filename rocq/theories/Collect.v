(* x/ftdc: the uncompressed, batch, dynamic, streaming and sampling collectors.  Documents
   are passed as *birch.Document, which readDocument (util.go:17-57) returns as they are;
   nil is not passed.  The synchronized and buffered collectors are in Sync.v. *)
Require Import ZArith List Bool Lia ZifyBool ZifyNat.
From Verif Require Import Base BSpec Elements Value Codec CodecRead Itoa CodecRep Api ApiProofs Tree
  GetterProofs ReaderOps CodecProps DocOps Stream Ftdc.
Import ListNotations.
Open Scope Z_scope.

Section Collect.
(* see Ftdc.v *)
Variable nan : Z -> Z -> Z.
Variable zip : bytes -> bytes.
(* Document.MarshalJSON *)
Variable to_json : document -> go (bytes + gerr).

(* -------------------------------------------------- collector_uncompressed.go *)

(* collector_uncompressed.go:137-144 *)
Record uncomp := MkU { u_bson : bool; u_json : bool; u_size : Z; u_metrics : Z;
  u_meta : option document; u_samples : list document }.
(* collector_uncompressed.go:24-29, 44-49 *)
Definition new_uncomp (bson : bool) (max : Z) : uncomp := MkU bson (negb bson) max 0 None [].
(* collector_uncompressed.go:146-149 *)
Definition u_reset (c : uncomp) : uncomp := MkU (u_bson c) (u_json c) (u_size c) 0 (u_meta c) [].
(* collector_uncompressed.go:158-166 *)
Definition u_set_metadata (c : uncomp) (es : document) : uncomp :=
  MkU (u_bson c) (u_json c) (u_size c) (u_metrics c) (Some es) (u_samples c).
(* collector_uncompressed.go:168-188; document.go:54 Len *)
Definition u_add (c : uncomp) (es : document) : uncomp * option gerr :=
  let m := if u_metrics c =? 0 then zlen es else u_metrics c in
  let c1 := MkU (u_bson c) (u_json c) (u_size c) m (u_meta c) (u_samples c) in
  if negb (zlen es =? m) then (c1, Some e_schema) else
  if u_size c <=? zlen (u_samples c) then (c1, Some e_overfull) else
  (MkU (u_bson c) (u_json c) (u_size c) m (u_meta c) (u_samples c ++ [es]), None).
Definition e_format := EOther 70.
(* collector_uncompressed.go:212-236 marshalWrite to a bytes.Buffer *)
Definition u_write (fuel : nat) (c : uncomp) (es : document) : go (bytes + gerr) :=
  if Bool.eqb (u_bson c) (u_json c) then Ret (inr e_format) else
  if u_bson c then doc_marshal fuel es else
  r <- to_json es ;; Ret (match r with inl b => inl (b ++ [10]) | inr e => inr e end).
Fixpoint u_writes (fuel : nat) (c : uncomp) (l : list document) : go (bytes + gerr) :=
  match l with
  | [] => Ret (inl [])
  | es :: r =>
      a <- u_write fuel c es ;;
      match a with
      | inr e => Ret (inr e)
      | inl a => b <- u_writes fuel c r ;; Ret (match b with inl b => inl (a ++ b) | inr e => inr e end)
      end
  end.
(* collector_uncompressed.go:190-210 *)
Definition u_resolve (fuel : nat) (c : uncomp) : go (bytes + gerr) :=
  match u_samples c with
  | [] => Ret (inr e_noref)
  | l => u_writes fuel c ((match u_meta c with Some m => [m] | None => [] end) ++ l)
  end.

(* The Collector interface, collector.go:10-37, of the base and uncompressed collectors *)
Inductive coll := CB (c : better) | CU (c : uncomp).
Definition c_add (fuel : nat) (now : Z) (c : coll) (es : document) : coll * go (option gerr) :=
  match c with
  | CB c => let '(c, r) := b_add nan fuel now c es in (CB c, r)
  | CU c => let '(c, r) := u_add c es in (CU c, Ret r)
  end.
Definition c_reset (c : coll) : coll := match c with CB c => CB (b_reset c) | CU c => CU (u_reset c) end.
Definition c_resolve (fuel : nat) (c : coll) : go (bytes + gerr) :=
  match c with CB c => b_resolve zip fuel c | CU c => u_resolve fuel c end.
Definition c_set_metadata (c : coll) (es : document) : coll :=
  match c with CB c => CB (b_set_metadata c es) | CU c => CU (u_set_metadata c es) end.
(* Info: collector_better.go:52-68, collector_uncompressed.go:151-156 *)
Definition c_samples (c : coll) : Z := match c with CB c => b_samples c | CU c => zlen (u_samples c) end.
Definition c_count (c : coll) : Z := match c with CB c => b_metrics c | CU c => u_metrics c end.

(* ------------------------------------------------------------ collector_batch.go *)

(* batchCollector, collector_batch.go:7-10: maxSamples, the chunks before the last and the
   last (the code never has an empty list of chunks) *)
Record batch := MkBatch { bt_max : Z; bt_done : list better; bt_last : better }.
(* collector_batch.go:20-29 *)
Definition new_batch (max : Z) : batch := MkBatch max [] (new_base max).
(* collector_batch.go:41-43 *)
Definition bt_reset (c : batch) : batch := new_batch (bt_max c).
Definition bt_chunks (c : batch) : list better := bt_done c ++ [bt_last c].
(* collector_batch.go:31-39 Info: SampleCount *)
Definition bt_samples (c : batch) : Z := fold_right (fun b n => b_samples b + n) 0 (bt_chunks c).
(* collector_batch.go:45-47: the metadata of the first chunk *)
Definition bt_set_metadata (c : batch) (es : document) : batch :=
  match bt_done c with
  | [] => MkBatch (bt_max c) [] (b_set_metadata (bt_last c) es)
  | b :: r => MkBatch (bt_max c) (b_set_metadata b es :: r) (bt_last c)
  end.
(* collector_batch.go:49-62 *)
Definition bt_add (fuel : nat) (now : Z) (c : batch) (es : document) : batch * go (option gerr) :=
  if bt_max c <=? b_samples (bt_last c) then
    let '(l, r) := b_add nan fuel now (new_base (bt_max c)) es in
    (MkBatch (bt_max c) (bt_done c ++ [bt_last c]) l, r)
  else
    let '(l, r) := b_add nan fuel now (bt_last c) es in (MkBatch (bt_max c) (bt_done c) l, r).
Fixpoint resolve_all {A} (f : A -> go (bytes + gerr)) (l : list A) : go (bytes + gerr) :=
  match l with
  | [] => Ret (inl [])
  | c :: r =>
      a <- f c ;;
      match a with
      | inr e => Ret (inr e)
      | inl a => b <- resolve_all f r ;; Ret (match b with inl b => inl (a ++ b) | inr e => inr e end)
      end
  end.
(* collector_batch.go:64-77 *)
Definition bt_resolve (fuel : nat) (c : batch) : go (bytes + gerr) := resolve_all (b_resolve zip fuel) (bt_chunks c).

(* ---------------------------------------------------------------- bson_hash.go *)

(* bson_hash.go:18-67: the keys written to the checksum and how many metrics were seen *)
Fixpoint h_value (key : bytes) (t : bval) : bytes * Z :=
  match t with
  | BArray vs =>
      (fix loop i vs := match vs with
        | [] => ([], 0)
        | v :: r =>
            let '(a, n) := h_value (key ++ 46 :: itoa (Z.of_nat i)) v in
            let '(b, m) := loop (S i) r in (a ++ b, n + m)
        end) O vs
  | BDoc fs =>
      (fix loop fs := match fs with
        | [] => ([], 0)
        | (k, v) :: r =>
            let '(a, n) := h_value (key ++ 46 :: k) v in
            let '(b, m) := loop r in (a ++ b, n + m)
        end) fs
  | BBool _ | BDouble _ | BInt32 _ | BInt64 _ | BDateTime _ => (key, 1)
  | BTimestamp _ _ => (key, 2)
  | _ => ([], 0)
  end.
(* hash/fnv New64: FNV-1 *)
Definition fnv64 (b : bytes) : Z :=
  fold_left (fun h x => Z.lxor (u64 (h * 1099511628211)) x) b 14695981039346656037.
(* bson_hash.go:12-16; the hexadecimal text of the checksum stands for it *)
Definition key_hash (fs : list (bytes * bval)) : Z * Z :=
  let '(b, n) := h_value [] (BDoc fs) in (fnv64 b, n).

(* -------------------------------------------------------- collector_dynamic.go *)

(* dynamicCollector, collector_dynamic.go:8-13; an empty hash is None, and currentNum is
   never read *)
Record dynamic := MkDyn { dy_max : Z; dy_done : list batch; dy_last : batch; dy_hash : option Z }.
(* collector_dynamic.go:23-30 *)
Definition new_dynamic (max : Z) : dynamic := MkDyn max [] (new_batch max) None.
(* collector_dynamic.go:42-45 *)
Definition dy_reset (c : dynamic) : dynamic := new_dynamic (dy_max c).
Definition dy_chunks (c : dynamic) : list batch := dy_done c ++ [dy_last c].
(* collector_dynamic.go:32-40 Info: SampleCount *)
Definition dy_samples (c : dynamic) : Z := fold_right (fun b n => bt_samples b + n) 0 (dy_chunks c).
(* collector_dynamic.go:47-49 *)
Definition dy_set_metadata (c : dynamic) (es : document) : dynamic :=
  match dy_done c with
  | [] => MkDyn (dy_max c) [] (bt_set_metadata (dy_last c) es) (dy_hash c)
  | b :: r => MkDyn (dy_max c) (bt_set_metadata b es :: r) (dy_last c) (dy_hash c)
  end.
(* collector_dynamic.go:51-78; when the hash is empty there is only one chunk *)
Definition dy_add (fuel : nat) (now : Z) (c : dynamic) (es : document) : dynamic * go (option gerr) :=
  match obs_doc fuel es with
  | Panic p => (c, Panic p)
  | Fuel => (c, Fuel)
  | Ret fs =>
      let '(h, _) := key_hash fs in
      let same := let '(b, r) := bt_add fuel now (dy_last c) es in
        (MkDyn (dy_max c) (dy_done c) b (match dy_hash c with None => Some h | h => h end), r) in
      match dy_hash c with
      | None => same
      | Some h' =>
          if h' =? h then same else
          let '(b, r) := bt_add fuel now (new_batch (dy_max c)) es in
          (MkDyn (dy_max c) (dy_done c ++ [dy_last c]) b (dy_hash c), r)
      end
  end.
(* collector_dynamic.go:80-92 *)
Definition dy_resolve (fuel : nat) (c : dynamic) : go (bytes + gerr) := resolve_all (bt_resolve fuel) (dy_chunks c).

(* ------------------------------------------------------ collector_streaming.go *)

(* The io.Writer: what it has taken, and how many bytes the next calls take and the error
   they return; once that is used up it takes everything. *)
Record writer := MkW { w_out : bytes; w_plan : list (Z * option gerr) }.
Definition w_write (w : writer) (p : bytes) : writer * Z * option gerr :=
  match w_plan w with
  | [] => (MkW (w_out w ++ p) [], zlen p, None)
  | (n, e) :: r => (MkW (w_out w ++ firstn (Z.to_nat n) p) r, n, e)
  end.

(* streamingCollector, collector_streaming.go:10-15; the writer is passed along *)
Record streaming := MkStr { sc_max : Z; sc_count : Z; sc_inner : coll }.
(* collector_streaming.go:27-35 and collector_uncompressed.go:66-72, 89-95 *)
Definition new_streaming (max : Z) : streaming := MkStr max 0 (CB (new_base max)).
Definition new_streaming_uncomp (bson : bool) (max : Z) : streaming := MkStr max 0 (CU (new_uncomp bson max)).
(* collector_streaming.go:37 *)
Definition sc_reset (c : streaming) : streaming := MkStr (sc_max c) 0 (c_reset (sc_inner c)).
Definition sc_set_metadata (c : streaming) (es : document) : streaming :=
  MkStr (sc_max c) (sc_count c) (c_set_metadata (sc_inner c) es).

Definition e_flush := EOther 71.
(* collector_streaming.go:57-78 FlushCollector with a writer that is not nil: whether the
   collector is to be reset is the boolean *)
Definition flush_write (fuel : nat) (c : coll) (w : writer) : writer * bool * go (option gerr) :=
  if c_samples c =? 0 then (w, false, Ret None) else
  match c_resolve fuel c with
  | Panic p => (w, false, Panic p)
  | Fuel => (w, false, Fuel)
  | Ret (inr e) => (w, false, Ret (Some e))
  | Ret (inl p) =>
      let '(w', n, e) := w_write w p in
      match e with
      | Some e => (w', false, Ret (Some e))
      | None => if negb (n =? zlen p) then (w', false, Ret (Some e_flush)) else (w', true, Ret None)
      end
  end.
Definition sc_flush (fuel : nat) (c : streaming) (w : writer) : streaming * writer * go (option gerr) :=
  let '(w', b, r) := flush_write fuel (sc_inner c) w in ((if b then sc_reset c else c), w', r).
(* collector_streaming.go:38-51 *)
Definition sc_add (fuel : nat) (now : Z) (c : streaming) (w : writer) (es : document)
    : streaming * writer * go (option gerr) :=
  let '(c, w, r) := if sc_max c <=? sc_count c - 1 then sc_flush fuel c w else (c, w, Ret None) in
  match r with
  | Ret None =>
      let '(i, r) := c_add fuel now (sc_inner c) es in
      match r with
      | Ret None => (MkStr (sc_max c) (sc_count c + 1) i, w, Ret None)
      | r => (MkStr (sc_max c) (sc_count c) i, w, r)
      end
  | r => (c, w, r)
  end.

(* streamingDynamicCollector, collector_streaming.go:80-85 *)
Record sdynamic := MkSD { sd_hash : option Z; sd_num : Z; sd_str : streaming }.
(* collector_streaming.go:91-96, collector_uncompressed.go:110-115, 130-135 *)
Definition new_sdynamic (max : Z) : sdynamic := MkSD None 0 (new_streaming max).
Definition new_sdynamic_uncomp (bson : bool) (max : Z) : sdynamic := MkSD None 0 (new_streaming_uncomp bson max).
(* collector_streaming.go:98-102: always a base collector, without the metadata *)
Definition sd_reset (c : sdynamic) : sdynamic := new_sdynamic (sc_max (sd_str c)).
Definition sd_flush (fuel : nat) (c : sdynamic) (w : writer) : sdynamic * writer * go (option gerr) :=
  let '(w', b, r) := flush_write fuel (sc_inner (sd_str c)) w in ((if b then sd_reset c else c), w', r).
(* collector_streaming.go:104-129 *)
Definition sd_add (fuel : nat) (now : Z) (c : sdynamic) (w : writer) (es : document)
    : sdynamic * writer * go (option gerr) :=
  match obs_doc fuel es with
  | Panic p => (c, w, Panic p)
  | Fuel => (c, w, Fuel)
  | Ret fs =>
      let '(h, n) := key_hash fs in
      let '(c, w, r) :=
        match sd_hash c with
        | None =>
            let c := MkSD (Some h) n (sd_str c) in
            if 0 <? sc_count (sd_str c) then sd_flush fuel c w else (c, w, Ret None)
        | Some h' => if negb (sd_num c =? n) || negb (h' =? h) then sd_flush fuel c w else (c, w, Ret None)
        end in
      match r with
      | Ret None =>
          let '(s, w, r) := sc_add fuel now (sd_str c) w es in (MkSD (sd_hash c) (sd_num c) s, w, r)
      | r => (c, w, r)
      end
  end.

(* -------------------------------------------------------------------- writer.go *)

(* writer.go:25-34 writerCollector.Write: the count and the error *)
Definition wc_write (fuel : nat) (now : Z) (c : sdynamic) (w : writer) (b : bytes)
    : sdynamic * writer * go (Z * option gerr) :=
  match read_document fuel b with
  | Panic p => (c, w, Panic p)
  | Fuel => (c, w, Fuel)
  | Ret (inr e) => (c, w, Ret (0, Some e))
  | Ret (inl es) =>
      let '(c, w, r) := sd_add fuel now c w es in
      (c, w, e <- r ;; Ret (match e with None => (zlen b, None) | Some e => (0, Some e) end))
  end.
(* writer.go:36-45 Close: whether the writer underneath was closed, and the error *)
Definition wc_close (fuel : nat) (c : sdynamic) (w : writer) (close : option gerr)
    : sdynamic * writer * bool * go (option gerr) :=
  let '(c, w, r) := sd_flush fuel c w in
  match r with
  | Ret None => (c, w, true, Ret close)
  | r => (c, w, false, r)
  end.

End Collect.

(* ----------------------------------------------------------- collector_sample.go *)

Section Sampling.
(* the collector underneath: its Add *)
Context {C D : Type}.
Variable add : C -> D -> C * go (option gerr).
(* samplingCollector, collector_sample.go:7-11: lastCollection is None until set.  Times
   are nanoseconds of the monotonic clock. *)
Record sampling := MkSa { sa_min : Z; sa_last : option Z; sa_inner : C }.
(* time.Since saturates at the largest Duration; since the zero time it is that *)
Definition since (now : Z) (last : option Z) : Z :=
  match last with
  | None => 9223372036854775807
  | Some t => Z.max (-9223372036854775808) (Z.min 9223372036854775807 (now - t))
  end.
(* collector_sample.go:24-32; the clock is read twice *)
Definition sa_add (t1 t2 : Z) (c : sampling) (d : D) : sampling * go (option gerr) :=
  if since t1 (sa_last c) <? sa_min c then (c, Ret None) else
  let '(i, r) := add (sa_inner c) d in (MkSa (sa_min c) (Some t2) i, r).
End Sampling.
