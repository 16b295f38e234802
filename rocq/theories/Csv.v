(* Conversion between FTDC and CSV: model of x/ftdc/csv.go.
   encoding/csv is modelled by the records: a csv.Writer is the list of the records it has
   taken, a csv.Reader the records of its text, and the end: io.EOF or another error. *)
Require Import ZArith List Bool Lia ZifyBool ZifyNat.
From Verif Require Import Base BSpec Elements Value Codec Api Tree Dec128 Ftdc Collect Json.
Import ListNotations.
Open Scope Z_scope.

Definition row := list bytes.

(* ------------------------------------------------------------------ writing *)

Section Write.
(* time.Unix(s, 0).Format(time.RFC3339) *)
Variable fmt_secs : Z -> bytes.

(* csv.go:18-24 getFieldNames *)
Definition field_names (c : chunk) : row := map m_name (c_metrics c).
(* csv.go:30-34 *)
Definition cell (t v : Z) : bytes :=
  if (t =? 1) || (t =? 16) || (t =? 18) || (t =? 8) || (t =? 17) then itoa_signed v else
  if t =? 9 then fmt_secs (Z.quot v 1000) else [].
(* csv.go:26-38 getRecord *)
Definition get_record (c : chunk) (i : Z) : go row :=
  mapM (fun m => v <- goindex (m_values m) i ;; Ret (cell (m_type m) v)) (c_metrics c).

(* The operations on files answer with the elements of a plan, and with nil once it is used
   up.  The files, oldest first, are the records they have taken. *)
Record disk := MkDisk { d_files : list (list row); d_plan : list (option gerr) }.
Definition answer (d : disk) : disk * option gerr :=
  match d_plan d with [] => (d, None) | a :: r => (MkDisk (d_files d) r, a) end.
(* csv.Writer.Write to the last file.  The bytes of a failed write may still get there, but
   every caller gives up then. *)
Definition put (d : disk) (r : row) : disk * option gerr :=
  let '(d, e) := answer d in
  match e with
  | Some e => (d, Some e)
  | None =>
      match rev (d_files d) with
      | [] => (MkDisk [[r]] (d_plan d), None)
      | f :: fs => (MkDisk (rev fs ++ [f ++ [r]]) (d_plan d), None)
      end
  end.
(* csv.go:58-63, 132-137 the loop over the samples, from sample i on *)
Fixpoint put_points (n : nat) (i : Z) (c : chunk) (d : disk) : disk * go (option gerr) :=
  match n with
  | O => (d, Ret None)
  | S n =>
      match get_record c i with
      | Panic p => (d, Panic p)
      | Fuel => (d, Fuel)
      | Ret r => match put d r with
                 | (d, None) => put_points n (i + 1) c d
                 | (d, Some e) => (d, Ret (Some e))
                 end
      end
  end.
(* csv.go:58-67, 132-141: the samples, and Flush *)
Definition put_chunk (c : chunk) (d : disk) : disk * go (option gerr) :=
  match put_points (Z.to_nat (c_points c)) 0 c d with
  | (d, Ret None) => let '(d, e) := answer d in (d, Ret e)
  | r => r
  end.

Definition e_change : gerr := EOther 330.  (* unexpected schema change detected *)
(* csv.go:43-70 WriteCSV, to the last file; num is numFields *)
Fixpoint write_csv (num : Z) (cs : list chunk) (d : disk) : disk * go (option gerr) :=
  match cs with
  | [] => (d, Ret None)
  | c :: cs =>
      let '(d, e, num) :=
        if num =? 0 then let '(d, e) := put d (field_names c) in (d, e, zlen (c_metrics c))
        else (d, (if num =? zlen (c_metrics c) then None else Some e_change), num) in
      match e with
      | Some e => (d, Ret (Some e))
      | None => match put_chunk c d with (d, Ret None) => write_csv num cs d | r => r end
      end
  end.

(* csv.go:72-79 getCSVFile: a new file, which is empty *)
Definition create (d : disk) : disk * option gerr :=
  let '(d, e) := answer d in
  match e with Some e => (d, Some e) | None => (MkDisk (d_files d ++ [[]]) (d_plan d), None) end.
(* csv.go:87-150 DumpCSV; op is whether writer is set.  Closing a file keeps what it has. *)
Fixpoint dump_csv (op : bool) (num : Z) (cs : list chunk) (d : disk) : disk * go (option gerr) :=
  match cs with
  | [] => if op then let '(d, e) := answer d in (d, Ret e) else (d, Ret None)
  | c :: cs =>
      let '(d, e) := if op then (d, None) else create d in
      match e with
      | Some e => (d, Ret (Some e))
      | None =>
          let '(d, e, num) :=
            if num =? 0 then let '(d, e) := put d (field_names c) in (d, e, zlen (c_metrics c))
            else if num =? zlen (c_metrics c) then (d, None, num) else
              let '(d, e) := answer d in
              match e with
              | Some e => (d, Some e, num)
              | None =>
                  match create d with
                  | (d, Some e) => (d, Some e, num)
                  | (d, None) => let '(d, e) := put d (field_names c) in (d, e, zlen (c_metrics c))
                  end
              end in
          match e with
          | Some e => (d, Ret (Some e))
          | None => match put_chunk c d with (d, Ret None) => dump_csv true num cs d | r => r end
          end
      end
  end.
End Write.

(* ------------------------------------------------------------------ reading *)

Section Convert.
Variable nan : Z -> Z -> Z.
Variable zip : bytes -> bytes.
Variable to_json : document -> go (bytes + gerr).

Definition e_fields : gerr := EOther 331.  (* unexpected field count change *)
(* csv.go:194-202: the elements of the cells that are numbers.  strconv.Atoi is parse_int. *)
Fixpoint row_elems (header r : row) : go document :=
  match header, r with
  | _, [] => Ret []
  | [], c :: r => match parse_int c with None => row_elems [] r | Some _ => Panic PIndex end
  | k :: header, c :: r =>
      match parse_int c with
      | None => row_elems header r
      | Some v => e <- ec_int64 k v ;; es <- row_elems header r ;; Ret (Some e :: es)
      end
  end.

(* csv.go:174-207 the loop; n is the number of fields of the first record, which the Reader
   expects of all (FieldsPerRecord is 0 at first).  A row comes with the time at which it is
   added.  The wrapping of errors is left out; fin is None for io.EOF. *)
Fixpoint convert_rows (fuel : nat) (n : Z) (fin : option gerr) (header : row) (rows : list (Z * row))
    (c : sdynamic) (w : writer) : sdynamic * writer * go (option gerr) :=
  match rows with
  | [] => (c, w, Ret fin)
  | (now, r) :: rows =>
      if negb (zlen r =? n) then convert_rows fuel n fin r rows c w else
      if negb (zlen r =? zlen header) then (c, w, Ret (Some e_fields)) else
      match row_elems header r with
      | Panic p => (c, w, Panic p)
      | Fuel => (c, w, Fuel)
      | Ret es =>
          match sd_add nan zip to_json fuel now c w es with
          | (c, w, Ret None) => convert_rows fuel n fin header rows c w
          | r => r
          end
      end
  end.
(* csv.go:153-208 ConvertFromCSV.  The function has no named result: what the deferred
   function assigns to err, with it the error of the final flush, is lost. *)
Definition convert_csv (fuel : nat) (max : Z) (rows : list (Z * row)) (fin : option gerr) (w : writer)
    : writer * go (option gerr) :=
  match rows with
  | [] => (w, Ret (Some (match fin with None => EEOF | Some e => e end)))
  | (_, h) :: rows =>
      let '(c, w, r) := convert_rows fuel (zlen h) fin h rows (new_sdynamic max) w in
      let '(c, w, f) := sd_flush zip to_json fuel c w in
      (w, match r, f with Ret r, Ret _ => Ret r | Ret _, Panic p => Panic p | Ret _, Fuel => Fuel | r, _ => r end)
  end.
End Convert.
