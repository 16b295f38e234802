(* Reports on the machine: x/ftdc/metrics/system_info.go and birch_builders.go.  What the
   operating system says (gopsutil, not in /repo) is a parameter. *)
Require Import ZArith List Bool String.
From Verif Require Import Base BSpec Value Codec Api Events Tree.
Import List ListNotations.
Open Scope Z_scope.

(* the uint64 fields of a gopsutil struct, by their names *)
Definition fields := string -> Z.
Record usage := MkU { u_path : bytes; u_fstype : bytes; u_num : fields; u_pct : Z; u_ipct : Z }.   (* disk.UsageStat; floats as bits *)
Record iostat := MkIO { io_name : bytes; io_serial : bytes; io_label : bytes; io_num : fields }.   (* disk.IOCountersStat *)
Record part := MkP { p_device : bytes; p_mount : bytes; p_fstype : bytes; p_opts : bytes }.   (* disk.PartitionStat *)
Record netstat := MkN { n_name : bytes; n_num : fields }.                                          (* net.IOCountersStat *)
(* system_info.go:17-27 SystemInfo.  CPU (31-42) is a struct of int64s; the percentage of VMStat is
   among its fields as the integer that MarshalDocument makes of it. *)
Record sysinfo := MkSI { si_cpu : fields; si_pct : Z; si_cpus : Z; si_vm : fields; si_net : netstat;
  si_parts : list part; si_usage : list usage; si_io : list iostat; si_errors : list bytes }.

(* What one collection is told; an error is its text.  The times of CPUs are floats, as bits. *)
Record os := MkOS { o_cpus : Z; o_times : list fields + bytes; o_percent : list Z + bytes; o_vm : option fields + bytes;
  o_net : list netstat + bytes; o_parts : list part + bytes; o_usage : bytes -> usage + bytes;
  o_io : list iostat; o_ioerr : option bytes }.   (* the values of the map of IOCounters *)

Section Make.
(* int64(x * cpuTicks), system_info.go:44-57 convertCPUTimes *)
Variable ticks : Z -> Z.

Definition zeros : fields := fun _ => 0.
Definition err_of {A} (r : A + bytes) : option bytes := match r with inl _ => None | inr e => Some e end.
(* system_info.go:128-132 saveError with 228-231 shouldSaveError; fmt.Sprintf("%s: %v") *)
Definition save (stat : string) (e : option bytes) (errs : list bytes) : list bytes :=
  match e with
  | None => errs
  | Some t => if bytes_eqb t (str "not implemented yet") then errs else errs ++ [str stat ++ str ": " ++ t]
  end.
(* system_info.go:103-116: the loop over partitions *)
Fixpoint usages (o : os) (ps : list part) (us : list usage) (errs : list bytes) : list usage * list bytes :=
  match ps with
  | [] => (us, errs)
  | p :: r =>
      match o_usage o (p_mount p) with
      | inr e => usages o r us (save "partition" (Some e) errs)
      | inl u => usages o r (us ++ [MkU (u_path u) (u_fstype u) (u_num u) 0 0]) errs
      end
  end.
(* system_info.go:67-126 MakeSystemInfo.  order is the order in which the loop over the map of
   IOCounters gives its values. *)
Definition make_system_info (o : os) (order : list iostat) : go sysinfo :=
  let errs := save "cpu_times" (err_of (o_times o)) [] in
  let cpu := match o_times o with inl (t :: _) => fun f => ticks (t f) | _ => zeros end in
  pct <- match o_percent o with inl l => goindex l 0 | inr _ => Ret 0 end ;;          (* percent[0] *)
  let errs := save "cpu_times" (err_of (o_percent o)) errs in
  let errs := save "vmstat" (err_of (o_vm o)) errs in
  let vm := match o_vm o with inl (Some v) => fun f => if String.eqb f "UsedPercent" then 0 else v f | _ => zeros end in
  let errs := save "netstat" (err_of (o_net o)) errs in
  let net := match o_net o with inl (n :: _) => n | _ => MkN [] zeros end in
  let errs := save "disk_part" (err_of (o_parts o)) errs in
  let '(us, errs) := match o_parts o with inl ps => usages o ps [] errs | inr _ => ([], errs) end in
  let parts := match o_parts o with inl ps => ps | inr _ => [] end in
  let errs := save "iostat" (o_ioerr o) errs in
  Ret (MkSI cpu pct (o_cpus o) vm net parts us order errs).
End Make.

(* elements of int64(x), in order *)
Fixpoint ec_int64s (l : list (string * Z)) : go document :=
  match l with
  | [] => Ret []
  | (k, v) :: r => x <- ec_int64 (str k) (i64 v) ;; xs <- ec_int64s r ;; Ret (Some x :: xs)
  end.
Definition at_fields (s : fields) (l : list (string * string)) : list (string * Z) := map (fun kf => (fst kf, s (snd kf))) l.
(* birch_builders.go:23-35 marshalCPU: keys and fields *)
Definition cpu_map : list (string * string) :=
  [("user", "User"); ("system", "System"); ("idle", "Idle"); ("nice", "Nice"); ("iowait", "Iowait"); ("irq", "Irq");
   ("softirq", "Softirq"); ("steal", "Steal"); ("guest", "Guest"); ("guestNice", "GuestNice")]%string.
(* birch_builders.go:8-21 marshalNetStat, after the name *)
Definition net_map : list (string * string) :=
  [("bytesSent", "BytesSent"); ("bytesRecv", "BytesRecv"); ("packetsSent", "PacketsSent"); ("packetsRecv", "PacketsRecv");
   ("errin", "Errin"); ("errout", "Errout"); ("dropin", "Dropin"); ("dropout", "Dropout"); ("fifoin", "Fifoin"); ("fifoout", "Fifoout")]%string.
(* system_info.go:139-174 *)
Definition vm_map : list (string * string) :=
  [("total", "Total"); ("available", "Available"); ("used", "Used"); ("usedPercent", "UsedPercent"); ("free", "Free");
   ("active", "Active"); ("inactive", "Inactive"); ("wired", "Wired"); ("laundry", "Laundry"); ("buffers", "Buffers");
   ("cached", "Cached"); ("writeback", "Writeback"); ("dirty", "Dirty"); ("writebacktmp", "WritebackTmp"); ("shared", "Shared");
   ("slab", "Slab"); ("sreclaimable", "SReclaimable"); ("sunreclaim", "SUnreclaim"); ("pagetables", "PageTables");
   ("swapcached", "SwapCached"); ("commitlimit", "CommitLimit"); ("commitedas", "CommittedAS"); ("hightotal", "HighTotal");
   ("highfree", "HighFree"); ("lowtotal", "LowTotal"); ("lowfree", "LowFree"); ("swaptotal", "SwapTotal"); ("swapfree", "SwapFree");
   ("mapped", "Mapped"); ("vmalloctotal", "VMallocTotal"); ("vmallocused", "VMallocUsed"); ("vmallocchunk", "VMallocChunk");
   ("hugepagestotal", "HugePagesTotal"); ("hugepagesfree", "HugePagesFree"); ("hugepagessize", "HugePageSize")]%string.
(* system_info.go:198-208 *)
Definition io_map : list (string * string) :=
  [("readCount", "ReadCount"); ("mergedReadCount", "MergedReadCount"); ("writeCount", "WriteCount");
   ("mergedWriteCount", "MergedWriteCount"); ("readBytes", "ReadBytes"); ("writeBytes", "WriteBytes"); ("readTime", "ReadTime");
   ("writeTime", "WriteTime"); ("iopsInProgress", "IopsInProgress"); ("ioTime", "IoTime"); ("weightedIO", "WeightedIO")]%string.

(* VC.DocumentFromElements and Append to an array: a value whose key is empty *)
Fixpoint ec_all {A} (f : A -> go document) (l : list A) : go document :=
  match l with
  | [] => Ret []
  | x :: r => d <- f x ;; v <- ec_subdocument [] d ;; vs <- ec_all f r ;; Ret (Some v :: vs)
  end.
(* system_info.go:179-188 *)
Definition usage_document (u : usage) : go document :=
  e1 <- ec_string (str "path") (u_path u) ;;
  e2 <- ec_string (str "fstype") (u_fstype u) ;;
  es <- ec_int64s (at_fields (u_num u) [("total", "Total"); ("free", "Free"); ("used", "Used")]%string) ;;
  e3 <- ec_double (str "usedPercent") (u_pct u) ;;
  es' <- ec_int64s (at_fields (u_num u) [("inodesTotal", "InodesTotal"); ("inodesFree", "InodesFree")]%string) ;;
  e4 <- ec_double (str "inodesUsedPercent") (u_ipct u) ;;
  Ret ([Some e1; Some e2] ++ es ++ [Some e3] ++ es' ++ [Some e4]).
(* system_info.go:194-209 *)
Definition io_document (i : iostat) : go document :=
  e1 <- ec_string (str "name") (io_name i) ;;
  e2 <- ec_string (str "serialNumber") (io_serial i) ;;
  e3 <- ec_string (str "label") (io_label i) ;;
  es <- ec_int64s (at_fields (io_num i) io_map) ;;
  Ret ([Some e1; Some e2; Some e3] ++ es).
(* system_info.go:216-221 *)
Definition part_document (p : part) : go document :=
  e1 <- ec_string (str "device") (p_device p) ;;
  e2 <- ec_string (str "mountpoint") (p_mount p) ;;
  e3 <- ec_string (str "fstype") (p_fstype p) ;;
  e4 <- ec_string (str "opts") (p_opts p) ;;
  Ret [Some e1; Some e2; Some e3; Some e4].
(* birch_builders.go:8-21 *)
Definition net_document (n : netstat) : go document :=
  e <- ec_string (str "name") (n_name n) ;; es <- ec_int64s (at_fields (n_num n) net_map) ;; Ret (Some e :: es).
(* system_info.go:134-226 MarshalDocument *)
Definition sys_document (s : sysinfo) : go document :=
  e1 <- ec_int (str "num_cpu") (si_cpus s) ;;
  e2 <- ec_double (str "cpu_percent") (si_pct s) ;;
  d3 <- ec_int64s (at_fields (si_cpu s) cpu_map) ;;
  e3 <- ec_subdocument (str "cpu") d3 ;;
  d4 <- ec_int64s (at_fields (si_vm s) vm_map) ;;
  e4 <- ec_subdocument (str "vmstat") d4 ;;
  d5 <- net_document (si_net s) ;;
  e5 <- ec_subdocument (str "netstat") d5 ;;
  d6 <- ec_all usage_document (si_usage s) ;;
  e6 <- ec_array (str "usage") d6 ;;
  d7 <- ec_all io_document (si_io s) ;;
  e7 <- ec_array (str "iostat") d7 ;;
  d8 <- ec_all part_document (si_parts s) ;;
  e8 <- ec_array (str "partitions") d8 ;;
  Ret (map Some [e1; e2; e3; e4; e5; e6; e7; e8]).
