(* C111: reports on the machine and the series they make. *)
Require Import ZArith List Bool String Ascii Lia ZifyBool Permutation.
From Verif Require Import Base BSpec Value Codec CodecRep Api ApiProofs Events EventsProps Tree Itoa Ftdc SysInfo.
Import List ListNotations.
Open Scope Z_scope.

(* ------------------------------------------------------------- specification *)

(* an unsigned number as a signed one *)
Definition signed (v : Z) : Z := if v <? 9223372036854775808 then v else v - 18446744073709551616.
Definition num_ok (s : fields) : Prop := forall f, - 9223372036854775808 <= s f < 18446744073709551616.
Definition nums (s : fields) (l : list (string * string)) : list (bytes * bval) :=
  map (fun kf => (str (fst kf), BInt64 (signed (s (snd kf))))) l.
(* A key is the name gopsutil gives the number, with its first letter in lower case; with all
   letters in lower case for memory, three keys apart. *)
Definition low (c : ascii) : ascii := let n := nat_of_ascii c in if (65 <=? n)%nat && (n <=? 90)%nat then ascii_of_nat (n + 32) else c.
Definition low1 (s : string) : string := match s with EmptyString => s | String c r => String (low c) r end.
Fixpoint lows (s : string) : string := match s with EmptyString => s | String c r => String (low c) (lows r) end.
Definition cpu_keys : list (string * string) := map (fun f => (low1 f, f))
  ["User"; "System"; "Idle"; "Nice"; "Iowait"; "Irq"; "Softirq"; "Steal"; "Guest"; "GuestNice"]%string.
Definition net_keys : list (string * string) := map (fun f => (low1 f, f))
  ["BytesSent"; "BytesRecv"; "PacketsSent"; "PacketsRecv"; "Errin"; "Errout"; "Dropin"; "Dropout"; "Fifoin"; "Fifoout"]%string.
Definition io_keys : list (string * string) := map (fun f => (low1 f, f))
  ["ReadCount"; "MergedReadCount"; "WriteCount"; "MergedWriteCount"; "ReadBytes"; "WriteBytes"; "ReadTime"; "WriteTime";
   "IopsInProgress"; "IoTime"; "WeightedIO"]%string.
Definition vm_key (f : string) : string :=
  if String.eqb f "UsedPercent" then "usedPercent" else if String.eqb f "CommittedAS" then "commitedas" else
  if String.eqb f "HugePageSize" then "hugepagessize" else lows f.
Definition vm_keys : list (string * string) := map (fun f => (vm_key f, f))
  ["Total"; "Available"; "Used"; "UsedPercent"; "Free"; "Active"; "Inactive"; "Wired"; "Laundry"; "Buffers"; "Cached"; "Writeback";
   "Dirty"; "WritebackTmp"; "Shared"; "Slab"; "SReclaimable"; "SUnreclaim"; "PageTables"; "SwapCached"; "CommitLimit"; "CommittedAS";
   "HighTotal"; "HighFree"; "LowTotal"; "LowFree"; "SwapTotal"; "SwapFree"; "Mapped"; "VMallocTotal"; "VMallocUsed"; "VMallocChunk";
   "HugePagesTotal"; "HugePagesFree"; "HugePageSize"]%string.
Lemma tables : cpu_map = cpu_keys /\ net_map = net_keys /\ io_map = io_keys /\ vm_map = vm_keys.
Proof. repeat split; reflexivity. Qed.
Definition usage_fields (u : usage) : list (bytes * bval) :=
  [(str "path", BString (u_path u)); (str "fstype", BString (u_fstype u));
   (str "total", BInt64 (signed (u_num u "Total"%string))); (str "free", BInt64 (signed (u_num u "Free"%string)));
   (str "used", BInt64 (signed (u_num u "Used"%string))); (str "usedPercent", BDouble (u_pct u));
   (str "inodesTotal", BInt64 (signed (u_num u "InodesTotal"%string))); (str "inodesFree", BInt64 (signed (u_num u "InodesFree"%string)));
   (str "inodesUsedPercent", BDouble (u_ipct u))].
Definition io_fields (i : iostat) : list (bytes * bval) :=
  [(str "name", BString (io_name i)); (str "serialNumber", BString (io_serial i)); (str "label", BString (io_label i))] ++ nums (io_num i) io_keys.
Definition part_fields (p : part) : list (bytes * bval) :=
  [(str "device", BString (p_device p)); (str "mountpoint", BString (p_mount p)); (str "fstype", BString (p_fstype p)); (str "opts", BString (p_opts p))].
Definition sys_fields (s : sysinfo) : list (bytes * bval) :=
  [(str "num_cpu", BInt32 (si_cpus s)); (str "cpu_percent", BDouble (si_pct s));
   (str "cpu", BDoc (nums (si_cpu s) cpu_keys)); (str "vmstat", BDoc (nums (si_vm s) vm_keys));
   (str "netstat", BDoc ((str "name", BString (n_name (si_net s))) :: nums (n_num (si_net s)) net_keys));
   (str "usage", BArray (map (fun u => BDoc (usage_fields u)) (si_usage s)));
   (str "iostat", BArray (map (fun i => BDoc (io_fields i)) (si_io s)));
   (str "partitions", BArray (map (fun p => BDoc (part_fields p)) (si_parts s)))].
Definition sys_ok (s : sysinfo) : Prop :=
  0 <= si_cpus s < 2147483647 /\ num_ok (si_cpu s) /\ num_ok (si_vm s) /\ num_ok (n_num (si_net s)) /\
  Forall (fun u => num_ok (u_num u)) (si_usage s) /\ Forall (fun i => num_ok (io_num i)) (si_io s).

(* ----------------------------------------------------------------- the document *)

Lemma signed_i64 v : - 9223372036854775808 <= v < 18446744073709551616 -> i64 v = signed v.
Proof. intros H. unfold signed, i64. destruct (v <? 9223372036854775808) eqn:E; Z.div_mod_to_equations; lia. Qed.
Lemma bind_bind {A B C} (m : go A) (f : A -> go B) (g : B -> go C) : (y <- (x <- m ;; f x) ;; g y) = (x <- m ;; y <- f x ;; g y).
Proof. destruct m; reflexivity. Qed.
Lemma bind_ext {A B} (m : go A) (f g : A -> go B) : (forall x, f x = g x) -> bind m f = bind m g.
Proof. intros H. destruct m; cbn; auto. Qed.
Lemma build_app a : forall b, build_doc (a ++ b) = (xs <- build_doc a ;; ys <- build_doc b ;; Ret (xs ++ ys)).
Proof.
  induction a as [|[k v] a IH]; intros b; cbn [app build_doc bind].
  - destruct (build_doc b); reflexivity.
  - rewrite IH. rewrite bind_bind. apply bind_ext. intros x. rewrite !bind_bind. apply bind_ext. intros xs. cbn [bind].
    rewrite bind_bind. apply bind_ext. intros ys. reflexivity.
Qed.
Lemma int64s_build s l : num_ok s -> ec_int64s (at_fields s l) = build_doc (nums s l).
Proof.
  intros Ok. induction l as [|[k f] l IH]; [reflexivity|]. cbn [at_fields map fst snd ec_int64s nums build_doc build].
  rewrite signed_i64 by apply Ok. apply bind_ext. intros x. unfold at_fields, nums in IH. now rewrite IH.
Qed.
Lemma all_build {A} (f : A -> go document) (g : A -> list (bytes * bval)) l : Forall (fun x => f x = build_doc (g x)) l ->
  ec_all f l = build_arr (map (fun x => BDoc (g x)) l).
Proof.
  induction 1 as [|x l E _ IH]; [reflexivity|]. cbn [ec_all map build_arr]. rewrite build_BDoc, E, bind_bind, IH. reflexivity.
Qed.
Lemma usage_build u : num_ok (u_num u) -> usage_document u = build_doc (usage_fields u).
Proof.
  intros Ok. unfold usage_document, usage_fields, at_fields. cbn [map fst snd ec_int64s build_doc build].
  rewrite !signed_i64 by apply Ok.
  repeat (first [rewrite bind_bind | apply bind_ext; intros ? | progress cbn [bind app]]). reflexivity.
Qed.
Lemma io_build i : num_ok (io_num i) -> io_document i = build_doc (io_fields i).
Proof.
  intros Ok. unfold io_document, io_fields. rewrite int64s_build by auto. rewrite build_app. cbn [build_doc build].
  repeat (first [rewrite bind_bind | apply bind_ext; intros ? | progress cbn [bind app]]). reflexivity.
Qed.
Lemma part_build p : part_document p = build_doc (part_fields p).
Proof.
  unfold part_document, part_fields. cbn [build_doc build].
  repeat (first [rewrite bind_bind | apply bind_ext; intros ? | progress cbn [bind app]]). reflexivity.
Qed.
Lemma net_build n : num_ok (n_num n) -> net_document n = build_doc ((str "name", BString (n_name n)) :: nums (n_num n) net_keys).
Proof. intros Ok. unfold net_document. rewrite int64s_build by auto. reflexivity. Qed.
Lemma sys_build s : sys_ok s -> sys_document s = build_doc (sys_fields s).
Proof.
  intros (C & O1 & O2 & O3 & O4 & O5). unfold sys_document, sys_fields. cbn [build_doc].
  rewrite !build_BDoc, !build_BArray. cbn [build].
  rewrite !int64s_build, net_build by auto. rewrite (all_build usage_document usage_fields), (all_build io_document io_fields), (all_build part_document part_fields).
  - unfold ec_int. replace (si_cpus s <? 2147483647) with true by lia. rewrite i32_id by (unfold is_i32; lia).
    repeat (first [rewrite bind_bind | apply bind_ext; intros ? | progress cbn [bind app]]). reflexivity.
  - apply Forall_forall. intros p _. apply part_build.
  - eapply Forall_impl; [|exact O5]. intros. now apply io_build.
  - eapply Forall_impl; [|exact O4]. intros. now apply usage_build.
Qed.

(* ------------------------------------------------------------------- the series *)

(* the numbers of one device, under the index it has *)
Definition dev_metrics (i : nat) (d : iostat) : list metric :=
  map (fun kf => MkM [dotted (str "iostat") i] (str (fst kf)) (signed (io_num d (snd kf))) 18 []) io_keys.
Fixpoint devs_metrics (i : nat) (ds : list iostat) : list metric :=
  match ds with [] => [] | d :: r => dev_metrics i d ++ devs_metrics (S i) r end.

Lemma m_array key path vs : m_value key path (BArray vs) =
  (fix loop i vs := match vs with [] => [] | v :: r => m_value (dotted key i) path v ++ loop (S i) r end) O vs.
Proof. reflexivity. Qed.
Lemma m_nums path s l : m_fields path (nums s l) = map (fun kf => MkM path (str (fst kf)) (signed (s (snd kf))) 18 []) l.
Proof. induction l as [|[k f] l IH]; [reflexivity|]. cbn [nums map m_fields m_value app fst snd tag]. unfold nums in IH. now rewrite IH. Qed.
Lemma m_doc key path fs : m_value key path (BDoc fs) =
  map (fun ne => MkM (path ++ [key]) (m_key ne) (m_start ne) (m_type ne) []) (m_fields (path ++ [key]) fs).
Proof. cbn [m_value]. f_equal. generalize (path ++ [key]). intros p. induction fs as [|[k v] fs IH]; [reflexivity|]. cbn [m_fields]. now rewrite IH. Qed.
Lemma m_dev i d : m_value (dotted (str "iostat") i) [] (BDoc (io_fields d)) = dev_metrics i d.
Proof.
  rewrite m_doc. unfold io_fields. cbn [app m_fields m_value]. rewrite m_nums, map_map. reflexivity.
Qed.
Lemma m_devs ds : m_value (str "iostat") [] (BArray (map (fun i => BDoc (io_fields i)) ds)) = devs_metrics 0 ds.
Proof.
  rewrite m_array. generalize 0%nat. induction ds as [|d ds IH]; intros i; [reflexivity|]. cbn [map devs_metrics]. rewrite <- m_dev. now rewrite <- IH.
Qed.
Lemma m_parts ps : m_value (str "partitions") [] (BArray (map (fun p => BDoc (part_fields p)) ps)) = [].
Proof.
  rewrite m_array. generalize 0%nat. induction ps as [|p ps IH]; intros i; [reflexivity|]. cbn [map]. rewrite IH. reflexivity.
Qed.
Definition rest_of (s : sysinfo) : sysinfo := MkSI (si_cpu s) (si_pct s) (si_cpus s) (si_vm s) (si_net s) (si_parts s) (si_usage s) [] [].
Lemma m_sys s : m_fields [] (sys_fields s) = m_fields [] (sys_fields (rest_of s)) ++ devs_metrics 0 (si_io s).
Proof.
  unfold sys_fields. cbn [m_fields rest_of si_cpu si_pct si_cpus si_vm si_net si_parts si_usage si_io]. rewrite !m_devs, !m_parts.
  cbn [devs_metrics]. rewrite !app_nil_r. now rewrite <- !app_assoc.
Qed.
Lemma dev_at ds : forall i j d, nth_error ds j = Some d -> exists a b, devs_metrics i ds = a ++ dev_metrics (i + j) d ++ b /\ length a = (j * 11)%nat.
Proof.
  induction ds as [|e ds IH]; intros i [|j] d E; try discriminate; cbn [nth_error] in E.
  - injection E as ->. exists [], (devs_metrics (S i) ds). rewrite Nat.add_0_r. auto.
  - destruct (IH (S i) j d E) as (a & b & E' & L). exists (dev_metrics i e ++ a), b. cbn [devs_metrics]. rewrite E', <- app_assoc.
    replace (S i + j)%nat with (i + S j)%nat by lia. split; [reflexivity|]. rewrite app_length, L. unfold dev_metrics. rewrite map_length. reflexivity.
Qed.
Lemma devs_shape ds : forall i ds', length ds = length ds' ->
  map (fun m => (m_name m, m_type m)) (devs_metrics i ds) = map (fun m => (m_name m, m_type m)) (devs_metrics i ds').
Proof.
  induction ds as [|d ds IH]; intros i [|d' ds'] L; try discriminate; [reflexivity|]. cbn [devs_metrics]. rewrite !map_app.
  f_equal. apply IH. now injection L.
Qed.

(* --------------------------------------------------------------------- theorems *)

(* what gopsutil gives as names are bytes, and its floats have 64 bits *)
Definition sys_types (s : sysinfo) : Prop :=
  is_u64 (si_pct s) /\ bytes_ok (n_name (si_net s)) /\
  Forall (fun u => bytes_ok (u_path u) /\ bytes_ok (u_fstype u) /\ is_u64 (u_pct u) /\ is_u64 (u_ipct u)) (si_usage s) /\
  Forall (fun i => bytes_ok (io_name i) /\ bytes_ok (io_serial i) /\ bytes_ok (io_label i)) (si_io s) /\
  Forall (fun p => bytes_ok (p_device p) /\ bytes_ok (p_mount p) /\ bytes_ok (p_fstype p) /\ bytes_ok (p_opts p)) (si_parts s).
Lemma key_ok k : forallb (fun b => (0 <? b) && (b <? 256)) k = true -> cstr_ok k.
Proof.
  intros H. rewrite forallb_forall in H. split; apply Forall_forall; intros b I; specialize (H b I); unfold is_u8; lia.
Qed.
Lemma signed_is v : - 9223372036854775808 <= v < 18446744073709551616 -> is_i64 (signed v).
Proof. intros H. unfold signed, is_i64. destruct (v <? 9223372036854775808) eqn:E; lia. Qed.
Lemma nums_wf s l : num_ok s -> forallb (fun kf => forallb (fun b => (0 <? b) && (b <? 256)) (str (fst kf))) l = true -> wf_fields (nums s l).
Proof.
  intros N H. rewrite forallb_forall in H. apply Forall_forall. intros x I. apply in_map_iff in I as (kf & <- & I). split; [now apply key_ok, (H kf)|].
  cbn. now apply signed_is.
Qed.
Ltac keys := repeat (apply Forall_cons; [split; [apply key_ok; reflexivity|cbn [snd wf]; auto using signed_is]|]); try apply Forall_nil.
Lemma sys_wf s : sys_ok s -> sys_types s -> wf_fields (sys_fields s).
Proof.
  intros (C & N1 & N2 & N3 & N4 & N5) (P & Nn & Us & Is & Ps). unfold sys_fields, wf_fields.
  apply Forall_cons; [split; [apply key_ok; reflexivity|cbn; unfold is_i32; lia]|].
  apply Forall_cons; [split; [apply key_ok; reflexivity|exact P]|].
  apply Forall_cons; [split; [apply key_ok; reflexivity|cbn [snd]; apply wf_doc, nums_wf; [auto|reflexivity]]|].
  apply Forall_cons; [split; [apply key_ok; reflexivity|cbn [snd]; apply wf_doc, nums_wf; [auto|reflexivity]]|].
  apply Forall_cons; [split; [apply key_ok; reflexivity|cbn [snd]; apply wf_doc; apply Forall_cons]|].
  { split; [apply key_ok; reflexivity|exact Nn]. }
  { apply nums_wf; [auto|reflexivity]. }
  apply Forall_cons; [split; [apply key_ok; reflexivity|cbn [snd]; apply wf_array, Forall_map]|].
  { rewrite Forall_forall in *. intros u I. apply wf_doc. specialize (Us u I). specialize (N4 u I). destruct Us as (A1 & A2 & A3 & A4). unfold usage_fields, wf_fields. keys. }
  apply Forall_cons; [split; [apply key_ok; reflexivity|cbn [snd]; apply wf_array, Forall_map]|].
  { rewrite Forall_forall in *. intros u I. apply wf_doc. specialize (Is u I). specialize (N5 u I). destruct Is as (A1 & A2 & A3). unfold io_fields, wf_fields.
    apply Forall_app. split; [keys|apply nums_wf; [auto|reflexivity]]. }
  apply Forall_cons; [split; [apply key_ok; reflexivity|cbn [snd]; apply wf_array, Forall_map]|constructor].
  rewrite Forall_forall in *. intros u I. apply wf_doc. specialize (Ps u I). destruct Ps as (A1 & A2 & A3 & A4). unfold part_fields, wf_fields. keys.
Qed.
(* C111.  The document has every number the machine gave, under its key, and every device,
   partition and usage in the order of the report. *)
Theorem C111_document : forall s fuel, sys_ok s -> sys_types s -> small (sys_fields s) ->
  zlen (enc_doc (sys_fields s)) < Z.of_nat fuel ->
  exists d, sys_document s = Ret d /\ doc_marshal fuel d = Ret (inl (enc_doc (sys_fields s))).
Proof.
  intros s fuel Ok T S F. pose proof (sys_wf s Ok T) as W. destruct (CodecProps.C04_marshal_is_the_bson_encoding _ fuel W S F) as (d & B & M).
  exists d. rewrite sys_build by auto. auto.
Qed.
Print Assumptions C111_document.

(* A source that fails leaves what the others report as it is: each part depends on its own
   source alone. *)
Theorem C111_isolated : forall ticks o o' l l' s s', make_system_info ticks o l = Ret s -> make_system_info ticks o' l' = Ret s' ->
  (o_cpus o = o_cpus o' -> si_cpus s = si_cpus s') /\
  (o_times o = o_times o' -> si_cpu s = si_cpu s') /\
  (o_percent o = o_percent o' -> si_pct s = si_pct s') /\
  (o_vm o = o_vm o' -> si_vm s = si_vm s') /\
  (o_net o = o_net o' -> si_net s = si_net s') /\
  (o_parts o = o_parts o' -> si_parts s = si_parts s' /\ (o_usage o = o_usage o' -> si_usage s = si_usage s')) /\
  (l = l' -> si_io s = si_io s').
Proof.
  assert (U : forall o o' ps us e e', o_usage o = o_usage o' -> fst (usages o ps us e) = fst (usages o' ps us e')).
  { intros o o' ps. induction ps as [|p ps IH]; intros us e e' E; [reflexivity|]. cbn [usages]. rewrite <- E.
    destruct (o_usage o (p_mount p)); now apply IH. }
  intros ticks o o' l l' s s' M M'. unfold make_system_info in M, M'.
  destruct (match o_percent o with inl l => goindex l 0 | inr _ => Ret 0 end) as [pc| |] eqn:P; cbn [bind] in M; try discriminate.
  destruct (match o_percent o' with inl l => goindex l 0 | inr _ => Ret 0 end) as [pc'| |] eqn:P'; cbn [bind] in M'; try discriminate.
  match type of M with (let '(_, _) := ?a in _) = _ => destruct a as [us er] eqn:Eu end.
  match type of M' with (let '(_, _) := ?a in _) = _ => destruct a as [us' er'] eqn:Eu' end.
  injection M as <-. injection M' as <-. cbn [si_cpu si_pct si_cpus si_vm si_net si_parts si_usage si_io].
  split; [now intros ->|]. split; [now intros ->|]. split; [intros E; rewrite E in P; congruence|]. split; [now intros ->|].
  split; [now intros ->|]. split; [|now intros ->]. intros E. split; [now rewrite E|]. intros EU.
  rewrite <- E in Eu'. destruct (o_parts o) as [ps|]; [|congruence].
  apply (f_equal fst) in Eu. apply (f_equal fst) in Eu'. cbn [fst] in *. rewrite <- Eu, <- Eu'. now apply U.
Qed.
Print Assumptions C111_isolated.

(* What a report has is what the sources said: of CPU times and network numbers the first entry,
   percentages of use as zero. *)
Theorem C111_reports : forall ticks o l s, make_system_info ticks o l = Ret s ->
  si_cpus s = o_cpus o /\
  (forall t ts f, o_times o = inl (t :: ts) -> si_cpu s f = ticks (t f)) /\
  (forall p ps, o_percent o = inl (p :: ps) -> si_pct s = p) /\
  (forall v f, o_vm o = inl (Some v) -> si_vm s f = if String.eqb f "UsedPercent" then 0 else v f) /\
  (forall n ns, o_net o = inl (n :: ns) -> si_net s = n) /\
  Forall (fun u => u_pct u = 0 /\ u_ipct u = 0) (si_usage s) /\ si_io s = l.
Proof.
  assert (U : forall o ps us e, Forall (fun u => u_pct u = 0 /\ u_ipct u = 0) us -> Forall (fun u => u_pct u = 0 /\ u_ipct u = 0) (fst (usages o ps us e))).
  { intros o ps. induction ps as [|p ps IH]; intros us e H; [exact H|]. cbn [usages].
    destruct (o_usage o (p_mount p)); apply IH; [|exact H]. apply Forall_app. split; [exact H|]. constructor; [split; reflexivity|constructor]. }
  intros ticks o l s M. unfold make_system_info in M.
  destruct (match o_percent o with inl l => goindex l 0 | inr _ => Ret 0 end) as [pc| |] eqn:P; cbn [bind] in M; try discriminate.
  match type of M with (let '(_, _) := ?a in _) = _ => assert (Hu : Forall (fun u => u_pct u = 0 /\ u_ipct u = 0) (fst a));
    [destruct (o_parts o); [apply U; constructor|constructor]|destruct a as [us er]] end.
  injection M as <-. cbn [si_cpu si_pct si_cpus si_vm si_net si_parts si_usage si_io fst] in *.
  split; [reflexivity|]. split; [intros t ts f ->; reflexivity|]. split; [|split; [intros v f ->; reflexivity|]].
  - intros p ps E. rewrite E in P. destruct (goindex_ok (p :: ps) 0) as (x & E' & N); [unfold zlen; cbn [length]; lia|]. change (Some p = Some x) in N. congruence.
  - split; [intros n ns ->; reflexivity|]. auto.
Qed.
Print Assumptions C111_reports.

(* The errors of a report are those of the sources, in the order they are asked, each with the
   name of its source; what is not implemented on the platform is left out. *)
Definition texts {A} (r : A + bytes) : list bytes := match r with inl _ => [] | inr e => [e] end.
Definition named (stat : string) (l : list bytes) : list bytes :=
  map (fun t => str stat ++ str ": " ++ t) (filter (fun t => negb (bytes_eqb t (str "not implemented yet"))) l).
Theorem C111_errors : forall ticks o l s, make_system_info ticks o l = Ret s ->
  si_errors s = named "cpu_times" (texts (o_times o)) ++ named "cpu_times" (texts (o_percent o)) ++ named "vmstat" (texts (o_vm o)) ++
    named "netstat" (texts (o_net o)) ++ named "disk_part" (texts (o_parts o)) ++
    named "partition" (match o_parts o with inl ps => flat_map (fun p => texts (o_usage o (p_mount p))) ps | inr _ => [] end) ++
    named "iostat" (match o_ioerr o with Some e => [e] | None => [] end).
Proof.
  assert (Sv : forall A st (r : A + bytes) e, save st (err_of r) e = e ++ named st (texts r)).
  { intros A st [x|t] e; cbn [err_of save texts]; unfold named; cbn [filter map]; [now rewrite app_nil_r|].
    destruct (bytes_eqb t (str "not implemented yet")); cbn [negb map]; [now rewrite app_nil_r|reflexivity]. }
  assert (Na : forall st a b, named st (a ++ b) = named st a ++ named st b).
  { intros st a b. unfold named. now rewrite filter_app, map_app. }
  assert (U : forall o ps us e, snd (usages o ps us e) = e ++ named "partition" (flat_map (fun p => texts (o_usage o (p_mount p))) ps)).
  { intros o ps. induction ps as [|p ps IH]; intros us e; cbn [usages flat_map]; [cbn; now rewrite app_nil_r|].
    rewrite Na, app_assoc, <- (Sv usage "partition"%string (o_usage o (p_mount p)) e). destruct (o_usage o (p_mount p)) as [u|t]; rewrite IH; reflexivity. }
  intros ticks o l s M. unfold make_system_info in M.
  destruct (match o_percent o with inl l => goindex l 0 | inr _ => Ret 0 end) as [pc| |] eqn:P; cbn [bind] in M; try discriminate.
  rewrite !Sv in M. cbn [app] in M.
  match type of M with (let '(_, _) := ?a in _) = _ => assert (Hu : snd a = (((named "cpu_times" (texts (o_times o)) ++ named "cpu_times" (texts (o_percent o))) ++ named "vmstat" (texts (o_vm o))) ++
    named "netstat" (texts (o_net o))) ++ named "disk_part" (texts (o_parts o)) ++
    named "partition" (match o_parts o with inl ps => flat_map (fun p => texts (o_usage o (p_mount p))) ps | inr _ => [] end));
    [destruct (o_parts o); [rewrite U; now rewrite <- app_assoc|cbn [snd]; now rewrite app_nil_r]|destruct a as [us er]] end.
  injection M as <-. cbn [si_errors snd] in *. rewrite Hu.
  assert (Si : forall e, save "iostat" (o_ioerr o) e = e ++ named "iostat" (match o_ioerr o with Some e => [e] | None => [] end)).
  { intros e. destruct (o_ioerr o) as [t|]; [exact (Sv unit "iostat"%string (inr t) e)|exact (Sv unit "iostat"%string (inl tt) e)]. }
  rewrite Si, <- !app_assoc. reflexivity.
Qed.
Print Assumptions C111_errors.

(* Usages are those of the partitions that could be asked, in their order. *)
Theorem C111_usage : forall ticks o l s ps, make_system_info ticks o l = Ret s -> o_parts o = inl ps ->
  si_parts s = ps /\
  map (fun u => (u_path u, u_num u)) (si_usage s) =
    flat_map (fun p => match o_usage o (p_mount p) with inl u => [(u_path u, u_num u)] | inr _ => [] end) ps.
Proof.
  assert (U : forall o ps us e, map (fun u => (u_path u, u_num u)) (fst (usages o ps us e)) = map (fun u => (u_path u, u_num u)) us ++
    flat_map (fun p => match o_usage o (p_mount p) with inl u => [(u_path u, u_num u)] | inr _ => [] end) ps).
  { intros o ps. induction ps as [|p ps IH]; intros us e; cbn [usages flat_map]; [now rewrite app_nil_r|].
    destruct (o_usage o (p_mount p)); rewrite IH; [|reflexivity]. now rewrite map_app, <- app_assoc. }
  intros ticks o l s ps M E. unfold make_system_info in M.
  destruct (match o_percent o with inl l => goindex l 0 | inr _ => Ret 0 end) as [pc| |] eqn:P; cbn [bind] in M; try discriminate.
  rewrite E in M. match type of M with (let '(_, _) := usages ?a ?b ?c ?d in _) = _ => pose proof (U a b c d) as H; destruct (usages a b c d) as [us er] end.
  injection M as <-. cbn [si_parts si_usage]. auto.
Qed.
Print Assumptions C111_usage.

(* Of the numbers of devices, each device's are together under one index, in the order the map
   was gone through. *)
Theorem C111_devices : forall ticks o l s i d k f, make_system_info ticks o l = Ret s -> nth_error l i = Some d -> In (k, f) io_keys ->
  exists m, In m (m_fields [] (sys_fields s)) /\ m_start m = signed (io_num d f) /\
    m_name m = str "iostat." ++ itoa (Z.of_nat i) ++ 46 :: str k.
Proof.
  intros ticks o l s i d k f M E I. rewrite m_sys. assert (L : si_io s = l).
  { unfold make_system_info in M. destruct (match o_percent o with inl l => goindex l 0 | inr _ => Ret 0 end); cbn [bind] in M; try discriminate.
    match type of M with (let '(_, _) := ?a in _) = _ => destruct a end. now injection M as <-. }
  rewrite L. destruct (dev_at l 0 i d E) as (a & b & E' & _). rewrite E'. cbn [Nat.add].
  exists (MkM [dotted (str "iostat") i] (str k) (signed (io_num d f)) 18 []). split; [|split; [reflexivity|]].
  - rewrite !in_app_iff. right. right. left. unfold dev_metrics. apply in_map_iff. exists (k, f). auto.
  - unfold m_name, dotted. cbn [m_path m_key app join]. change (str "iostat.") with (str "iostat" ++ [46]). rewrite <- !app_assoc. reflexivity.
Qed.
Print Assumptions C111_devices.

(* The order is not that of the last time: with two devices that differ in a number, two reports
   of a machine that did not change can differ there, at one place and under one name, with all
   names and types the same, so that the two devices end up in one series. *)
Theorem C111_series_refuted : forall ticks o s a b k f, make_system_info ticks o (o_io o) = Ret s ->
  In a (o_io o) -> In b (o_io o) -> In (k, f) io_keys -> signed (io_num a f) <> signed (io_num b f) ->
  exists l l' s1 s2 j m1 m2, Permutation (o_io o) l /\ Permutation (o_io o) l' /\
    make_system_info ticks o l = Ret s1 /\ make_system_info ticks o l' = Ret s2 /\
    let ms1 := m_fields [] (sys_fields s1) in let ms2 := m_fields [] (sys_fields s2) in
    map (fun m => (m_name m, m_type m)) ms1 = map (fun m => (m_name m, m_type m)) ms2 /\
    nth_error ms1 j = Some m1 /\ nth_error ms2 j = Some m2 /\ m_start m1 = signed (io_num a f) /\ m_start m2 = signed (io_num b f).
Proof.
  intros ticks o s a b k f M Ia Ib Ik N.
  assert (Any : forall l, exists s', make_system_info ticks o l = Ret s' /\ rest_of s' = rest_of s /\ si_io s' = l).
  { intros l. unfold make_system_info in *. destruct (match o_percent o with inl l => goindex l 0 | inr _ => Ret 0 end); cbn [bind] in *; try discriminate.
    match type of M with (let '(_, _) := ?a in _) = _ => destruct a end. injection M as <-. eexists. split; [reflexivity|]. split; reflexivity. }
  assert (First : forall x, In x (o_io o) -> exists r, Permutation (o_io o) (x :: r)).
  { intros x I. apply in_split in I as (u & v & ->). exists (u ++ v). symmetry. apply Permutation_middle. }
  destruct (First a Ia) as (ra & Pa). destruct (First b Ib) as (rb & Pb).
  destruct (Any (a :: ra)) as (s1 & M1 & R1 & L1). destruct (Any (b :: rb)) as (s2 & M2 & R2 & L2).
  apply In_nth_error in Ik as (q & Eq).
  assert (At : forall d, nth_error (dev_metrics 0 d) q = Some (MkM [dotted (str "iostat") 0] (str k) (signed (io_num d f)) 18 [])).
  { intros d. unfold dev_metrics. rewrite nth_error_map, Eq. reflexivity. }
  assert (Lq : (q < 11)%nat) by (change 11%nat with (length io_keys); apply nth_error_Some; congruence).
  exists (a :: ra), (b :: rb), s1, s2, (length (m_fields [] (sys_fields (rest_of s))) + q)%nat. do 2 eexists.
  split; [exact Pa|]. split; [exact Pb|]. split; [exact M1|]. split; [exact M2|]. cbv zeta.
  rewrite (m_sys s1), (m_sys s2), R1, R2, L1, L2. split; [|split; [|split; [|split]]].
  - rewrite !map_app. f_equal. apply devs_shape. apply Permutation_length in Pa. apply Permutation_length in Pb. congruence.
  - rewrite nth_error_app2 by lia. replace (_ + q - _)%nat with q by lia. cbn [devs_metrics]. rewrite nth_error_app1 by exact Lq. apply At.
  - rewrite nth_error_app2 by lia. replace (_ + q - _)%nat with q by lia. cbn [devs_metrics]. rewrite nth_error_app1 by exact Lq. apply At.
  - reflexivity.
  - reflexivity.
Qed.
Print Assumptions C111_series_refuted.

(* A failure is not in the document: it cannot be told from a machine whose numbers are zero. *)
Theorem C111_failure_refuted : forall ticks o l e s, o_vm o = inr e -> make_system_info ticks o l = Ret s ->
  exists s', make_system_info ticks (MkOS (o_cpus o) (o_times o) (o_percent o) (inl (Some zeros)) (o_net o) (o_parts o) (o_usage o) (o_io o) (o_ioerr o)) l = Ret s' /\
    sys_document s' = sys_document s.
Proof.
  intros ticks o l e s V M. unfold make_system_info in *. cbn [o_cpus o_times o_percent o_vm o_net o_parts o_usage o_io o_ioerr]. rewrite V in M.
  destruct (match o_percent o with inl l => goindex l 0 | inr _ => Ret 0 end); cbn [bind] in *; try discriminate.
  cbn [err_of] in *. set (e1 := save "cpu_times" _ _) in *.
  destruct (o_parts o) as [ps|pe].
  - assert (U : forall o' ps us e e', o_usage o' = o_usage o -> fst (usages o' ps us e) = fst (usages o ps us e')).
    { intros o' ps0. induction ps0 as [|p ps0 IH]; intros us0 e0 e' E; [reflexivity|]. cbn [usages]. rewrite E.
      destruct (o_usage o (p_mount p)); now apply IH. }
    match type of M with (let '(_, _) := usages _ _ _ ?y in _) = _ => destruct (usages o ps [] y) as [us er] eqn:Eu end.
    injection M as <-.
    match goal with |- exists s', (let '(_, _) := usages ?o2 _ _ ?y in _) = _ /\ _ =>
      match type of Eu with usages _ _ _ ?z = _ => pose proof (U o2 ps [] y z eq_refl) as H end;
      rewrite Eu in H; destruct (usages o2 ps [] y) as [us' er'] end.
    cbn [fst] in H. subst us'. eexists. split; [reflexivity|]. unfold sys_document, at_fields. cbn. reflexivity.
  - injection M as <-. eexists. split; [reflexivity|]. unfold sys_document, at_fields. cbn. reflexivity.
Qed.
Print Assumptions C111_failure_refuted.

(* cpu.Percent giving no numbers and no error makes it panic. *)
Theorem C111_percent_refuted : forall ticks o l, o_percent o = inl [] -> make_system_info ticks o l = Panic PIndex.
Proof. intros ticks o l E. unfold make_system_info. now rewrite E. Qed.
Print Assumptions C111_percent_refuted.
(* Otherwise it returns. *)
Theorem C111_returns_partial : forall ticks o l, o_percent o <> inl [] -> exists s, make_system_info ticks o l = Ret s.
Proof.
  intros ticks o l N. unfold make_system_info.
  assert (exists pc, match o_percent o with inl l => goindex l 0 | inr _ => Ret 0 end = Ret pc) as (pc & ->).
  { destruct (o_percent o) as [[|p ps]|e]; [congruence| |eauto]. destruct (goindex_ok (p :: ps) 0) as (x & E & _); [unfold zlen; cbn [length]; lia|eauto]. }
  cbn [bind]. match goal with |- exists s, (let '(_, _) := ?a in _) = _ => destruct a end. eauto.
Qed.
Print Assumptions C111_returns_partial.

Local Definition ex_os (io : list iostat) : os := MkOS 4 (inl [fun _ => 7]) (inl [0]) (inr (str "x")) (inl [MkN (str "all") (fun _ => 2^64 - 1)])
  (inl [MkP (str "sda1") (str "/") (str "ext4") (str "rw"); MkP (str "sdb1") (str "/m") (str "ext4") (str "rw")])
  (fun m => if bytes_eqb m (str "/") then inl (MkU m (str "ext4") (fun _ => 9) 5 5) else inr (str "gone")) io None.
Local Definition ex_dev (n : Z) : iostat := MkIO (str "sd") [] [] (fun _ => n).
Example C111_nonvacuous : exists s, make_system_info (fun x => x) (ex_os [ex_dev 1; ex_dev 2]) [ex_dev 1; ex_dev 2] = Ret s /\
  sys_ok s /\ sys_types s /\ small (sys_fields s) /\ zlen (si_usage s) = 1 /\ zlen (si_parts s) = 2 /\
  si_errors s = [str "vmstat: x"; str "partition: gone"] /\ n_num (si_net s) "BytesSent"%string = 2^64 - 1 /\ signed (2^64 - 1) = -1 /\
  signed (io_num (ex_dev 1) "ReadCount"%string) <> signed (io_num (ex_dev 2) "ReadCount"%string).
Proof.
  eexists. split; [reflexivity|].
  split; [|split; [|split; [|repeat split; discriminate]]].
  - cbv [sys_ok]. cbn. repeat apply conj; try lia; repeat first [apply Forall_cons|apply Forall_nil]; try intros f; (vm_compute; split; [discriminate|reflexivity]).
  - cbv [sys_types]. cbn. repeat apply conj; try (unfold is_u64; lia); repeat first [apply Forall_cons|apply Forall_nil|apply conj|discriminate|reflexivity].
  - vm_compute. reflexivity.
Qed.
