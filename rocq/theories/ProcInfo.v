(* Reports on a process: x/ftdc/metrics/process_info.go:135-239 and platform_linux.go.  What the
   operating system says (gopsutil, not in /repo) is a parameter, as in SysInfo.v. *)
Require Import ZArith List Bool String.
From Verif Require Import Base BSpec Value Codec Api Events Tree DocOps SysInfo.
Import List ListNotations.
Open Scope Z_scope.

(* process_info.go:19-32 ProcessInfo *)
Record procinfo := MkPI { pi_pid : Z; pi_parent : Z; pi_threads : Z; pi_command : bytes; pi_cpu : fields; pi_io : fields;
  pi_net : list netstat; pi_mem : fields; pi_memx : fields; pi_errors : list bytes }.

(* What is said about one process.  Three calls give a value beside an error. *)
Record proc := MkProc { pr_pid : Z; pr_parent : Z + bytes; pr_mem : option fields + bytes; pr_memx : option fields + bytes;
  pr_threads : Z * option bytes; pr_net : list netstat * option bytes; pr_cmd : bytes * option bytes;
  pr_times : option fields + bytes; pr_io : option fields + bytes }.

Section Make.
(* int64(x * cpuTicks), system_info.go:44-57 convertCPUTimes *)
Variable ticks : Z -> Z.

(* the struct a pointer without error points to *)
Definition got (r : option fields + bytes) : fields := match r with inl (Some v) => v | _ => zeros end.
(* process_info.go:188-233 populate, of an empty ProcessInfo; saveError (235-239) is save *)
Definition populate (p : proc) : procinfo :=
  let errs := save "parent_pid" (err_of (pr_parent p)) [] in
  let errs := save "meminfo" (err_of (pr_mem p)) errs in
  let errs := save "meminfo_extended" (err_of (pr_memx p)) errs in
  let errs := save "num_threads" (snd (pr_threads p)) errs in
  let errs := save "netstat" (snd (pr_net p)) errs in
  let errs := save "cmd args" (snd (pr_cmd p)) errs in
  let errs := save "cpu_times" (err_of (pr_times p)) errs in
  let errs := save "iostat" (err_of (pr_io p)) errs in
  MkPI (pr_pid p) (match pr_parent p with inl n => n | inr _ => 0 end) (fst (pr_threads p)) (fst (pr_cmd p))
    (match pr_times p with inl (Some t) => fun f => ticks (t f) | _ => zeros end) (got (pr_io p))
    (fst (pr_net p)) (got (pr_mem p)) (got (pr_memx p)) errs.
(* process_info.go:135-146 MakeProcessInfo; r is what process.NewProcess(pid) says *)
Definition make_process_info (r : proc + bytes) : procinfo :=
  match r with
  | inr e => MkPI 0 0 0 [] zeros zeros [] zeros zeros (save "process" (Some e) [])
  | inl p => populate p
  end.
End Make.

(* process_info.go:155-159 *)
Definition pio_map : list (string * string) :=
  [("readCount", "ReadCount"); ("writeCount", "WriteCount"); ("readBytes", "ReadBytes"); ("writeBytes", "WriteBytes")]%string.
(* process_info.go:160-167 *)
Definition mem_map : list (string * string) :=
  [("rss", "RSS"); ("vms", "VMS"); ("hwm", "HWM"); ("data", "Data"); ("stack", "Stack"); ("locked", "Locked"); ("swap", "Swap")]%string.
(* platform_linux.go:11-23 marshalMemExtra; its argument is never nil *)
Definition memx_map : list (string * string) :=
  [("rss", "RSS"); ("vms", "VMS"); ("shared", "Shared"); ("text", "Text"); ("lib", "Lib"); ("data", "Data"); ("dirty", "Dirty")]%string.

(* process_info.go:148-180 MarshalDocument.  AppendOmitEmpty (document.go:76-87) leaves out an
   empty value. *)
Definition proc_document (fuel : nat) (p : procinfo) : go document :=
  e1 <- ec_int32 (str "pid") (pi_pid p) ;;
  e2 <- ec_int32 (str "parentPid") (pi_parent p) ;;
  e3 <- ec_int (str "threads") (pi_threads p) ;;
  e4 <- ec_string (str "command") (pi_command p) ;;
  d5 <- ec_int64s (at_fields (pi_cpu p) cpu_map) ;;
  e5 <- ec_subdocument (str "cpu") d5 ;;
  d6 <- ec_int64s (at_fields (pi_io p) pio_map) ;;
  e6 <- ec_subdocument (str "io") d6 ;;
  d7 <- ec_int64s (at_fields (pi_mem p) mem_map) ;;
  e7 <- ec_subdocument (str "mem") d7 ;;
  d8 <- ec_int64s (at_fields (pi_memx p) memx_map) ;;
  e8 <- ec_subdocument (str "memExtra") d8 ;;
  empty <- v_is_empty fuel (Some e8) ;;
  d9 <- ec_all net_document (pi_net p) ;;
  e9 <- ec_array (str "net") d9 ;;
  Ret (map Some ([e1; e2; e3; e4; e5; e6; e7] ++ (if empty then [] else [e8]) ++ [e9])).
