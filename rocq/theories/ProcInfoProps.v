(* C113: reports on a process and the series they make. *)
Require Import ZArith List Bool String Lia ZifyBool ZifyNat.
From Verif Require Import Base BSpec Elements Value Codec CodecRead CodecRep Api ApiProofs Events EventsProps Tree Itoa GetterProofs ReadSafe CodecProps Ftdc FtdcSpec DocOps EmptyProps SysInfo SysInfoProps ProcInfo.
Import List ListNotations.
Open Scope Z_scope.

(* ------------------------------------------------------------- specification *)

Definition pio_keys : list (string * string) := map (fun f => (low1 f, f)) ["ReadCount"; "WriteCount"; "ReadBytes"; "WriteBytes"]%string.
Definition mem_keys : list (string * string) := map (fun f => (lows f, f)) ["RSS"; "VMS"; "HWM"; "Data"; "Stack"; "Locked"; "Swap"]%string.
Definition memx_keys : list (string * string) := map (fun f => (lows f, f)) ["RSS"; "VMS"; "Shared"; "Text"; "Lib"; "Data"; "Dirty"]%string.
Lemma ptables : pio_map = pio_keys /\ mem_map = mem_keys /\ memx_map = memx_keys.
Proof. repeat split; reflexivity. Qed.
Definition net_fields (n : netstat) : list (bytes * bval) := (str "name", BString (n_name n)) :: nums (n_num n) net_keys.
Definition proc_fields (p : procinfo) : list (bytes * bval) :=
  [(str "pid", BInt32 (pi_pid p)); (str "parentPid", BInt32 (pi_parent p)); (str "threads", BInt32 (pi_threads p));
   (str "command", BString (pi_command p)); (str "cpu", BDoc (nums (pi_cpu p) cpu_keys)); (str "io", BDoc (nums (pi_io p) pio_keys));
   (str "mem", BDoc (nums (pi_mem p) mem_keys)); (str "memExtra", BDoc (nums (pi_memx p) memx_keys));
   (str "net", BArray (map (fun n => BDoc (net_fields n)) (pi_net p)))].
(* the ranges of the Go types; the number of threads is below the largest int32 *)
Definition proc_ok (p : procinfo) : Prop :=
  is_i32 (pi_pid p) /\ is_i32 (pi_parent p) /\ 0 <= pi_threads p < 2147483647 /\ bytes_ok (pi_command p) /\
  num_ok (pi_cpu p) /\ num_ok (pi_io p) /\ num_ok (pi_mem p) /\ num_ok (pi_memx p) /\
  Forall (fun n => num_ok (n_num n) /\ bytes_ok (n_name n)) (pi_net p).

(* ----------------------------------------------------------------- the document *)

Lemma proc_wf p : proc_ok p -> wf_fields (proc_fields p).
Proof.
  intros (A1 & A2 & A3 & A4 & A5 & A6 & A7 & A8 & A9). unfold proc_fields, wf_fields.
  repeat (apply Forall_cons; [split; [apply key_ok; reflexivity|cbn [snd];
    first [exact A1|exact A2|cbn; unfold is_i32; lia|exact A4|apply wf_doc, nums_wf; [assumption|reflexivity]|apply wf_array, Forall_map]]|]); try constructor.
  rewrite Forall_forall in *. intros n I. destruct (A9 n I) as [N B]. apply wf_doc. unfold net_fields, wf_fields.
  apply Forall_cons; [split; [apply key_ok; reflexivity|exact B]|]. apply nums_wf; [exact N|reflexivity].
Qed.
Lemma elem_size k v fs : In (k, v) fs -> zlen (enc_elem k v) <= zlen (enc_doc fs).
Proof.
  intros I. apply in_split in I as (a & b & ->). unfold enc_doc, enc_frame. rewrite !zlen_app.
  assert (E : forall a b, enc_elems (a ++ (k, v) :: b) = enc_elems a ++ enc_elem k v ++ enc_elems b).
  { clear. induction a as [|[x y] a IH]; intros b; [reflexivity|]. cbn [app enc_elems]. now rewrite IH, <- app_assoc. }
  rewrite E, !zlen_app. repeat match goal with |- context[zlen ?x] => lazymatch x with enc_elem _ _ => fail | _ => idtac end; pose proof (zlen_nonneg x); generalize dependent (zlen x); intros end. lia.
Qed.
Lemma proc_build p fuel : proc_ok p -> small (proc_fields p) -> enough fuel (zlen (enc_doc (proc_fields p))) ->
  proc_document fuel p = build_doc (proc_fields p).
Proof.
  intros Ok S F. pose proof (proc_wf p Ok) as W. destruct Ok as (A1 & A2 & A3 & A4 & A5 & A6 & A7 & A8 & A9).
  set (t := BDoc (nums (pi_memx p) memx_keys)) in *.
  assert (I : In (str "memExtra", t) (proc_fields p)) by (cbn; tauto). apply elem_size in I.
  assert (Wt : wf t) by (apply wf_doc, nums_wf; [assumption|reflexivity]).
  unfold small in S.
  destruct (build_rep t (str "memExtra")) as (v8 & B8 & R8); [apply key_ok; reflexivity|exact Wt|unfold efits; lia|].
  assert (E8 : v_is_empty fuel (Some v8) = Ret false).
  { rewrite (is_empty_rep fuel (str "memExtra") v8 t R8 Wt); [reflexivity|lia|]. unfold enough in *. rewrite zlen_enc_elem in I.
    pose proof (zlen_nonneg (str "memExtra")). lia. }
  unfold proc_document, proc_fields. destruct ptables as (-> & -> & ->). destruct tables as (-> & _).
  rewrite !int64s_build by assumption.
  rewrite (all_build net_document net_fields) by (eapply Forall_impl; [|exact A9]; cbn; intros n [N _]; now apply net_build).
  cbn [build_doc]. rewrite !build_BDoc, !build_BArray. unfold t in B8. rewrite build_BDoc in B8.
  cbn [build]. unfold ec_int. replace (pi_threads p <? 2147483647) with true by lia. rewrite i32_id by (unfold is_i32; lia).
  destruct (build_doc (nums (pi_memx p) memx_keys)) as [d8| |]; try discriminate. cbn [bind] in B8 |- *. rewrite B8. cbn [bind]. rewrite E8.
  repeat (first [rewrite bind_bind | apply bind_ext; intros ? | progress cbn [bind app map]]). reflexivity.
Qed.

(* C113.  The document of a report has its numbers, each under its key, and every network
   interface in order. *)
Theorem C113_document : forall p fuel, proc_ok p -> small (proc_fields p) -> enough fuel (zlen (enc_doc (proc_fields p))) ->
  exists d, proc_document fuel p = Ret d /\ doc_marshal fuel d = Ret (inl (enc_doc (proc_fields p))).
Proof.
  intros p fuel Ok S F. destruct (CodecProps.C04_marshal_is_the_bson_encoding _ fuel (proc_wf p Ok) S F) as (d & B & M).
  exists d. rewrite (proc_build p fuel Ok S F). auto.
Qed.
Print Assumptions C113_document.

(* What a report has is what was said about the process: a source that fails changes nothing
   else, and leaves zeros. *)
Theorem C113_reports : forall ticks q, let p := make_process_info ticks (inl q) in
  pi_pid p = pr_pid q /\
  (forall n, pr_parent q = inl n -> pi_parent p = n) /\ (forall e, pr_parent q = inr e -> pi_parent p = 0) /\
  (forall v f, pr_mem q = inl (Some v) -> pi_mem p f = v f) /\ (forall e f, pr_mem q = inr e -> pi_mem p f = 0) /\
  (forall v f, pr_memx q = inl (Some v) -> pi_memx p f = v f) /\ (forall e f, pr_memx q = inr e -> pi_memx p f = 0) /\
  (forall v f, pr_times q = inl (Some v) -> pi_cpu p f = ticks (v f)) /\ (forall e f, pr_times q = inr e -> pi_cpu p f = 0) /\
  (forall v f, pr_io q = inl (Some v) -> pi_io p f = v f) /\ (forall e f, pr_io q = inr e -> pi_io p f = 0) /\
  pi_threads p = fst (pr_threads q) /\ pi_command p = fst (pr_cmd q) /\ pi_net p = fst (pr_net q).
Proof.
  intros ticks q p. subst p. unfold make_process_info, populate, got. cbn [pi_pid pi_parent pi_mem pi_memx pi_cpu pi_io pi_threads pi_command pi_net].
  repeat match goal with |- _ /\ _ => split end; try reflexivity; intros; match goal with H : _ = _ |- _ => rewrite H end; reflexivity.
Qed.
Print Assumptions C113_reports.

(* Errors are recorded in the order the sources are asked, with their names. *)
Definition opt (e : option bytes) : list bytes := match e with Some t => [t] | None => [] end.
Theorem C113_errors : forall ticks q, pi_errors (make_process_info ticks (inl q)) =
  named "parent_pid" (texts (pr_parent q)) ++ named "meminfo" (texts (pr_mem q)) ++ named "meminfo_extended" (texts (pr_memx q)) ++
  named "num_threads" (opt (snd (pr_threads q))) ++ named "netstat" (opt (snd (pr_net q))) ++ named "cmd args" (opt (snd (pr_cmd q))) ++
  named "cpu_times" (texts (pr_times q)) ++ named "iostat" (texts (pr_io q)).
Proof.
  assert (So : forall st e l, save st e l = l ++ named st (opt e)).
  { intros st [t|] l; cbn [save opt]; unfold named; cbn [filter map]; [|now rewrite app_nil_r].
    destruct (bytes_eqb t (str "not implemented yet")); cbn [negb map]; [now rewrite app_nil_r|reflexivity]. }
  assert (Se : forall A (r : A + bytes), opt (err_of r) = texts r) by (intros A [x|t]; reflexivity).
  intros ticks q. cbn [make_process_info populate pi_errors]. unfold populate. cbn [pi_errors]. rewrite !So, !Se. cbn [app]. now rewrite <- !app_assoc.
Qed.
Print Assumptions C113_errors.

(* ------------------------------------------------------------------- the series *)

Definition shape (ms : list metric) : list (bytes * Z) := map (fun m => (m_name m, m_type m)) ms.
Lemma nums_shape path s s' l : shape (m_fields path (nums s l)) = shape (m_fields path (nums s' l)).
Proof. unfold shape. rewrite !m_nums, !map_map. reflexivity. Qed.
Lemma doc_shape key path fs fs' : map (fun m => (m_key m, m_type m)) (m_fields (path ++ [key]) fs) = map (fun m => (m_key m, m_type m)) (m_fields (path ++ [key]) fs') ->
  shape (m_value key path (BDoc fs)) = shape (m_value key path (BDoc fs')).
Proof.
  intros H. rewrite !m_doc. unfold shape. rewrite !map_map. cbn [m_type].
  revert H. generalize (m_fields (path ++ [key]) fs') as b. generalize (m_fields (path ++ [key]) fs) as a.
  induction a as [|x a IH]; intros [|y b] H; try discriminate; [reflexivity|]. cbn [map] in *. injection H as H1 H2 H3. unfold m_name at 1 3. cbn [m_path m_key].
  rewrite H1, H2. f_equal. now apply IH.
Qed.
Lemma nums_doc_shape key path s s' l : shape (m_value key path (BDoc (nums s l))) = shape (m_value key path (BDoc (nums s' l))).
Proof. apply doc_shape. rewrite !m_nums, !map_map. reflexivity. Qed.
Lemma nets_shape : forall ns ns' i, length ns = length ns' ->
  shape ((fix loop i vs := match vs with [] => [] | v :: r => m_value (dotted (str "net") i) [] v ++ loop (S i) r end) i (map (fun n => BDoc (net_fields n)) ns)) =
  shape ((fix loop i vs := match vs with [] => [] | v :: r => m_value (dotted (str "net") i) [] v ++ loop (S i) r end) i (map (fun n => BDoc (net_fields n)) ns')).
Proof.
  induction ns as [|n ns IH]; intros [|n' ns'] i L; try discriminate; [reflexivity|]. injection L as L. cbn [map].
  unfold shape in *. rewrite !map_app, (IH ns' (S i) L). reflexivity.
Qed.

(* C113.  Two reports with the same number of network interfaces have the same series: the same
   names and types in the same order, whatever the numbers are and whatever failed. *)
Theorem C113_series_partial : forall p p', length (pi_net p) = length (pi_net p') ->
  shape (m_fields [] (proc_fields p)) = shape (m_fields [] (proc_fields p')).
Proof.
  intros p p' L. unfold proc_fields. cbn [m_fields]. unfold shape. rewrite !map_app.
  repeat match goal with |- map _ (m_value ?k ?path (BDoc (nums ?a ?l))) ++ _ = map _ (m_value ?k ?path (BDoc (nums ?b ?l))) ++ _ =>
    rewrite (nums_doc_shape k path a b l : map _ _ = map _ _); f_equal
  | |- map _ (m_value _ _ (BInt32 _)) ++ _ = _ => apply (f_equal2 (@app _)); [reflexivity|]
  | |- map _ (m_value _ _ (BString _)) ++ _ = _ => apply (f_equal2 (@app _)); [reflexivity|] end.
  rewrite !m_array. f_equal. now apply nets_shape.
Qed.
Print Assumptions C113_series_partial.

(* But the number of interfaces is not fixed: it is what NetIOCounters gave, and nothing when it
   fails.  A report then has fewer series than the one before, so that a collector of samples
   with one schema refuses it. *)
Lemma nums_leaves s l : length (doc_leaves (nums s l)) = length l.
Proof. induction l as [|[k f] l IH]; [reflexivity|]. cbn. unfold doc_leaves, nums in IH. now rewrite IH. Qed.
Lemma doc_leaves_of fs : leaves (BDoc fs) = doc_leaves fs.
Proof. cbn [leaves]. unfold doc_leaves. induction fs as [|[k v] fs IH]; [reflexivity|]. cbn [flat_map snd]. now rewrite <- IH. Qed.
Lemma schema_size p : length (schema (proc_fields p)) = (31 + 10 * length (pi_net p))%nat.
Proof.
  unfold schema. rewrite map_length. unfold proc_fields. cbn [doc_leaves flat_map snd]. rewrite !doc_leaves_of, !app_length, !nums_leaves.
  cbn [leaves length app Nat.add cpu_keys pio_keys mem_keys memx_keys map].
  induction (pi_net p) as [|n ns IH]; [reflexivity|]. cbn [map]. change (leaves (BDoc (net_fields n))) with (doc_leaves (nums (n_num n) net_keys)).
  rewrite app_length, nums_leaves. cbn [length]. change (length net_keys) with 10%nat. cbn [length] in IH. lia.
Qed.
Theorem C113_series_refuted : forall ticks q e, fst (pr_net q) <> [] ->
  let q' := MkProc (pr_pid q) (pr_parent q) (pr_mem q) (pr_memx q) (pr_threads q) ([], Some e) (pr_cmd q) (pr_times q) (pr_io q) in
  (length (schema (proc_fields (make_process_info ticks (inl q')))) < length (schema (proc_fields (make_process_info ticks (inl q)))))%nat.
Proof.
  intros ticks q e N q'. rewrite !schema_size. cbn [make_process_info populate pi_net pr_net q' fst]. unfold populate. cbn [pi_net].
  destruct (fst (pr_net q)); [congruence|]. cbn [length]. lia.
Qed.
Print Assumptions C113_series_refuted.

(* A failure is not in the document: it looks like zeros. *)
Theorem C113_failure_refuted : forall ticks q e fuel,
  let with_mem m := MkProc (pr_pid q) (pr_parent q) m (pr_memx q) (pr_threads q) (pr_net q) (pr_cmd q) (pr_times q) (pr_io q) in
  proc_document fuel (make_process_info ticks (inl (with_mem (inr e)))) = proc_document fuel (make_process_info ticks (inl (with_mem (inl (Some zeros))))).
Proof. intros. reflexivity. Qed.
Print Assumptions C113_failure_refuted.

(* And a report on a process that is not there does not say which process it is about. *)
Theorem C113_gone_refuted : forall ticks e fuel p, p = make_process_info ticks (inr e) -> enough fuel (zlen (enc_doc (proc_fields p))) ->
  exists d, proc_document fuel p = Ret d /\ doc_marshal fuel d = Ret (inl (enc_doc (proc_fields p))) /\
    nth_error (proc_fields p) 0 = Some (str "pid", BInt32 0).
Proof.
  intros ticks e fuel p -> F.
  assert (Nz : num_ok zeros) by (intros f; unfold zeros; lia).
  destruct (C113_document (make_process_info ticks (inr e)) fuel) as (d & D & M); [|vm_compute; reflexivity|exact F|].
  - unfold proc_ok. cbn. repeat match goal with |- _ /\ _ => split end; try (unfold is_i32; lia); try exact Nz; constructor.
  - exists d. auto.
Qed.
Print Assumptions C113_gone_refuted.

Local Definition ex_proc : proc := MkProc 42 (inl 1) (inr (str "x")) (inl (Some (fun _ => 2^64 - 1))) (3, None)
  ([MkN (str "lo") (fun _ => 5); MkN (str "eth0") (fun _ => 6)], None) ([], Some (str "not implemented yet")) (inl (Some (fun _ => 7))) (inl None).
Example C113_nonvacuous : let p := make_process_info (fun x => x) (inl ex_proc) in
  proc_ok p /\ small (proc_fields p) /\ enough 3000 (zlen (enc_doc (proc_fields p))) /\ pi_errors p = [str "meminfo: x"] /\
  fst (pr_net ex_proc) <> [] /\ length (schema (proc_fields p)) = 51%nat /\ signed (pi_memx p "RSS"%string) = -1.
Proof.
  intros p. subst p. split; [|split; [vm_compute; reflexivity|split; [vm_compute; reflexivity|repeat split; try discriminate; reflexivity]]].
  unfold proc_ok. cbn [make_process_info populate]. unfold populate, ex_proc. cbn.
  repeat match goal with |- _ /\ _ => split end; try (unfold is_i32; lia); try (intros f; cbn; unfold zeros; lia); repeat first [apply Forall_cons|apply Forall_nil|apply conj|discriminate|reflexivity|(intros f; cbn; lia)].
Qed.
