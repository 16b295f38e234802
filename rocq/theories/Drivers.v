(* x/ftdc/metrics: the two programs that fill files with samples, CollectJSONStream (json.go)
   and CollectRuntime (metrics.go:176-246).  The select of the main loop is resolved by a list
   of events, the clock and the answers of the file system are given. *)
Require Import ZArith List Bool Lia.
From Verif Require Import Base BSpec Value Api Ftdc Collect Json ExtJson.
Import ListNotations.
Open Scope Z_scope.

(* ---------------------------------------------------------------- lines of the input *)

(* bufio.MaxScanTokenSize *)
Definition max_token : Z := 65536.
(* bufio dropCR *)
Definition drop_cr (l : bytes) : bytes :=
  match rev l with c :: r => if c =? 13 then rev r else l | [] => [] end.
(* bufio.Scanner with ScanLines over all that the reader gives: the tokens, and whether it
   stopped with ErrTooLong, which is when the buffer is full and has no newline.  acc is the
   line so far. *)
Fixpoint scan_lines (acc b : bytes) : list bytes * bool :=
  match b with
  | [] => ((match acc with [] => [] | _ => [drop_cr acc] end), false)
  | c :: r =>
      if c =? 10 then let '(ls, long) := scan_lines [] r in (drop_cr acc :: ls, long)
      else if max_token <=? zlen acc + 1 then ([], true)
      else scan_lines (acc ++ [c]) r
  end.

(* json.go:241-261, the scanner of follow.  Each event of the watcher that is a write comes
   with the bytes appended to the file since the one before (with the first: all of them).  A
   call of Scan reads if the scanner has no error yet; the end of the file is an error that it
   keeps (bufio.Scanner.Scan).  Read errors, the errors of the watcher and of the handler are
   not modelled here. *)
Record scanner := MkScan { sn_unread : bytes; sn_eof : bool }.
Definition scan_all (s : scanner) : list bytes * scanner :=
  if sn_eof s then ([], s)
  else (fst (scan_lines [] (sn_unread s)), MkScan [] true).
Fixpoint follow_lines (s : scanner) (evs : list bytes) : list bytes :=
  match evs with
  | [] => []
  | b :: r => let '(ls, s) := scan_all (MkScan (sn_unread s ++ b) (sn_eof s)) in ls ++ follow_lines s r
  end.
Definition new_scanner : scanner := MkScan [] false.

(* ------------------------------------------------------------------------ the source *)

(* json.go:50-111: a reader, with what it gives and the error at its end (nil for io.EOF); a
   file, with the error of a read, and of Close; a file that Open refuses. *)
Inductive source :=
| SReader (data : bytes) (rerr : option gerr)
| SFile (data : bytes) (rerr cerr : option gerr)
| SNoFile (e : gerr).
(* What the goroutine does after its last document: it sends an error (or nil) or closes
   the channel, which is the same to the receiver; or it panics.  The recovering function
   sends on errs after close(errs) ran (53-58, 79-84), which panics again: the process ends. *)
Inductive ending := EndWith (e : option gerr) | EndCrash.

Section Json.
Variable parse_time : bytes -> option Z.
Variable pf : bytes -> Z * bool.
Variable ff : Z -> bytes.
(* 63-72, 94-104: jsonx.DCE.Bytes and birch.DCE.JSONX *)
Definition line_doc (l : bytes) : go (document + gerr) :=
  x <- doc_bytes pf ff l ;;
  match x with inr e => Ret (inr e) | inl es => doc_jsonx parse_time es end.
(* The documents sent and the ending.  A Fuel result does not occur for doc_bytes as the model
   has it; it is shown as a crash. *)
Fixpoint feed (ls : list bytes) (e : option gerr) : list document * ending :=
  match ls with
  | [] => ([], EndWith e)
  | l :: r =>
      match line_doc l with
      | Ret (inl d) => let '(ds, x) := feed r e in (d :: ds, x)
      | Ret (inr e) => ([], EndWith (Some e))
      | _ => ([], EndCrash)
      end
  end.
(* stream.Err() is not consulted: neither a line that is too long nor a read error shows *)
Definition source_docs (s : source) : list document * ending :=
  match s with
  | SReader data _ => feed (fst (scan_lines [] data)) None
  | SFile data _ cerr => feed (fst (scan_lines [] data)) cerr
  | SNoFile e => ([], EndWith (Some e))
  end.
(* 106-109: with a file, the sender gives up a document when the context is cancelled *)
Definition drops (s : source) : bool := match s with SFile _ _ _ => true | _ => false end.

(* -------------------------------------------------------------------- CollectJSONStream *)

(* What happens: the next item of docs or errs is received (at a time), the flush timer fires,
   the context is cancelled, the main loop sees that, the sender drops a document. *)
Inductive jevent := JNext (now : Z) | JTick | JCancel | JAbort | JDrop.
(* the error returned: the source's, Add's, the flusher's, "operation aborted" *)
Inductive jerror := JSource (e : gerr) | JAdd (e : gerr) | JFlush (e : gerr) | JAborted.
(* running, returned, or ended by a panic (or not determined by the model) *)
Inductive jresult := JRun | JRet (e : option jerror) | JCrash | JUnknown.
Record jstate := MkJ {
  j_coll : dynamic;
  j_files : list bytes;              (* the files prefix.0, prefix.1, ... written so far *)
  j_plan : list (option gerr);       (* the answers of the next calls of WriteFile; then nil *)
  j_docs : list document;            (* the documents the source has yet to send *)
  j_end : ending;
  j_drops : bool;
  j_cancelled : bool;
  j_result : jresult }.
Definition with_result (s : jstate) (r : jresult) : jstate :=
  MkJ (j_coll s) (j_files s) (j_plan s) (j_docs s) (j_end s) (j_drops s) (j_cancelled s) r.

Variable nan : Z -> Z -> Z.
Variable zip : bytes -> bytes.
Variable fuel : nat.
(* 170-194 flusher; after an error of WriteFile the file is not counted *)
Definition j_flush (s : jstate) : jstate * go (option gerr) :=
  if dy_samples (j_coll s) =? 0 then (s, Ret None) else
  match dy_resolve zip fuel (j_coll s) with
  | Panic p => (s, Panic p)
  | Fuel => (s, Fuel)
  | Ret (inr e) => (s, Ret (Some e))
  | Ret (inl out) =>
      let '(e, plan) := match j_plan s with [] => (None, []) | e :: r => (e, r) end in
      match e with
      | Some e => (MkJ (j_coll s) (j_files s) plan (j_docs s) (j_end s) (j_drops s) (j_cancelled s) (j_result s), Ret (Some e))
      | None => (MkJ (dy_reset (j_coll s)) (j_files s ++ [out]) plan (j_docs s) (j_end s) (j_drops s) (j_cancelled s) (j_result s), Ret None)
      end
  end.
(* 198-218.  errors.Is(err, io.EOF) of a source's error: EEOF *)
Definition j_step (s : jstate) (v : jevent) : jstate :=
  match j_result s with
  | JRun =>
      match v with
      | JCancel => MkJ (j_coll s) (j_files s) (j_plan s) (j_docs s) (j_end s) (j_drops s) true JRun
      | JAbort => if j_cancelled s then with_result s (JRet (Some JAborted)) else s
      | JDrop =>
          if j_cancelled s && j_drops s
          then MkJ (j_coll s) (j_files s) (j_plan s) (tl (j_docs s)) (j_end s) (j_drops s) (j_cancelled s) JRun else s
      | JTick =>
          match j_flush s with
          | (s, Ret None) => s
          | (s, Ret (Some e)) => with_result s (JRet (Some (JFlush e)))
          | (s, Panic _) => with_result s JCrash
          | (s, Fuel) => with_result s JUnknown
          end
      | JNext now =>
          match j_docs s with
          | d :: r =>
              let '(c, x) := dy_add nan fuel now (j_coll s) d in
              let s := MkJ c (j_files s) (j_plan s) r (j_end s) (j_drops s) (j_cancelled s) JRun in
              match x with
              | Ret None => s
              | Ret (Some e) => with_result s (JRet (Some (JAdd e)))
              | Panic _ => with_result s JCrash
              | Fuel => with_result s JUnknown
              end
          | [] =>
              match j_end s with
              | EndCrash => with_result s JCrash
              | EndWith (Some e) =>
                  match e with
                  | EEOF =>
                      match j_flush s with
                      | (s, Ret None) => with_result s (JRet (Some (JSource e)))
                      | (s, Ret (Some e)) => with_result s (JRet (Some (JFlush e)))
                      | (s, Panic _) => with_result s JCrash
                      | (s, Fuel) => with_result s JUnknown
                      end
                  | _ => with_result s (JRet (Some (JSource e)))
                  end
              | EndWith None =>
                  match j_flush s with
                  | (s, Ret None) => with_result s (JRet None)
                  | (s, Ret (Some e)) => with_result s (JRet (Some (JFlush e)))
                  | (s, Panic _) => with_result s JCrash
                  | (s, Fuel) => with_result s JUnknown
                  end
              end
          end
      end
  | _ => s
  end.
Definition j_run (s : jstate) (vs : list jevent) : jstate := fold_left j_step vs s.
(* 159-196; the options are valid *)
Definition collect_json (max : Z) (src : source) (plan : list (option gerr)) : jstate :=
  let '(ds, e) := source_docs src in
  MkJ (new_dynamic max) [] plan ds e (drops src) false JRun.
End Json.

(* ------------------------------------------------------------------------ CollectRuntime *)

(* What happens: the collection timer fires and generate gives a document or an error, the
   flush timer fires, the main loop sees that the context is cancelled. *)
Inductive revent := RSample (now : Z) (g : document + gerr) | RTick | RDone.
Inductive rerror := RGen (e : gerr) | RAdd (e : gerr) | RFlush (e : gerr) | RClose (e : gerr) | RCreate (e : gerr).
Inductive rresult := RRun | RRet (e : option rerror) | RCrash | RUnknown.
Record rstate := MkR {
  r_coll : streaming;
  r_done : list bytes;               (* the files that were closed *)
  r_file : writer;                   (* the file that is open *)
  r_closes : list (option gerr);     (* the answers of the next calls of Close; then nil *)
  r_creates : list (option gerr);    (* of Create *)
  r_wplans : list (list (Z * option gerr));  (* the answers of Write for the next files; then all is taken *)
  r_result : rresult }.
Definition r_with (s : rstate) (r : rresult) : rstate :=
  MkR (r_coll s) (r_done s) (r_file s) (r_closes s) (r_creates s) (r_wplans s) r.
(* the contents of the files, in order *)
Definition r_files (s : rstate) : list bytes := r_done s ++ [w_out (r_file s)].

Section Runtime.
Variable nan : Z -> Z -> Z.
Variable zip : bytes -> bytes.
Variable to_json : document -> go (bytes + gerr).
Variable fuel : nat.
Variable max : Z.
Definition answer {A} (d : A) (l : list A) : A * list A := match l with [] => (d, []) | x :: r => (x, r) end.
(* 198-221 flusher *)
Definition r_flush (s : rstate) : rstate * go (option rerror) :=
  if c_samples (sc_inner (r_coll s)) =? 0 then (s, Ret None) else
  let '(c, w, r) := sc_flush zip to_json fuel (r_coll s) (r_file s) in
  let s := MkR c (r_done s) w (r_closes s) (r_creates s) (r_wplans s) (r_result s) in
  match r with
  | Panic p => (s, Panic p)
  | Fuel => (s, Fuel)
  | Ret (Some e) => (s, Ret (Some (RFlush e)))
  | Ret None =>
      let '(e, closes) := answer None (r_closes s) in
      let s := MkR c (r_done s) w closes (r_creates s) (r_wplans s) (r_result s) in
      match e with
      | Some e => (s, Ret (Some (RClose e)))
      | None =>
          let '(e, creates) := answer None (r_creates s) in
          let s := MkR c (r_done s) w closes creates (r_wplans s) (r_result s) in
          match e with
          | Some e => (s, Ret (Some (RCreate e)))
          | None =>
              let '(p, wplans) := answer [] (r_wplans s) in
              (MkR (new_streaming max) (r_done s ++ [w_out w]) (MkW [] p) closes creates wplans (r_result s), Ret None)
          end
      end
  end.
(* 223-245 *)
Definition r_step (s : rstate) (v : revent) : rstate :=
  match r_result s with
  | RRun =>
      match v with
      | RSample now (inr e) => r_with s (RRet (Some (RGen e)))
      | RSample now (inl es) =>
          let '(c, w, x) := sc_add nan zip to_json fuel now (r_coll s) (r_file s) es in
          let s := MkR c (r_done s) w (r_closes s) (r_creates s) (r_wplans s) RRun in
          match x with
          | Ret None => s
          | Ret (Some e) => r_with s (RRet (Some (RAdd e)))
          | Panic _ => r_with s RCrash
          | Fuel => r_with s RUnknown
          end
      | RTick =>
          match r_flush s with
          | (s, Ret None) => s
          | (s, Ret (Some e)) => r_with s (RRet (Some e))
          | (s, Panic _) => r_with s RCrash
          | (s, Fuel) => r_with s RUnknown
          end
      | RDone =>
          match r_flush s with
          | (s, Ret e) => r_with s (RRet e)
          | (s, Panic _) => r_with s RCrash
          | (s, Fuel) => r_with s RUnknown
          end
      end
  | _ => s
  end.
Definition r_run (s : rstate) (vs : list revent) : rstate := fold_left r_step vs s.
(* 179-196, after the first file was created *)
Definition collect_runtime (wplans : list (list (Z * option gerr))) (closes creates : list (option gerr)) : rstate :=
  let '(p, wplans) := answer [] wplans in
  MkR (new_streaming max) [] (MkW [] p) closes creates wplans RRun.
End Runtime.
