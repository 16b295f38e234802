(* Proofs about x/ftdc: restoring documents, whole runs and whole streams. *)
Require Import ZArith List Bool Lia ZifyBool ZifyNat.
From Verif Require Import Base BSpec Elements Value Codec CodecRead Itoa CodecRep Api ApiProofs Tree
  GetterProofs ReaderOps CodecProps DocOps Stream Search FtdcSpec Ftdc FtdcProofs.
Import ListNotations.
Open Scope Z_scope.

(* ---------------------------------------------------------- restoring documents *)

Fixpoint monly (t : bval) : Prop :=
  match t with
  | BDoc fs => (fix go fs := match fs with [] => True | (_, v) :: r => monly v /\ go r end) fs
  | BArray vs => (fix go vs := match vs with [] => True | v :: r => monly v /\ go r end) vs
  | BBool _ | BDouble _ | BInt32 _ | BInt64 _ | BDateTime _ | BTimestamp _ _ => True
  | _ => False
  end.
Lemma strip_monly t : forall t', strip t = Some t' -> monly t'.
Proof.
  induction t using bval_ind'; intros t' E; cbn [strip] in E; try discriminate; try (injection E as <-; exact I).
  - injection E as <-. cbn [monly]. induction H as [|[k v] r Hv Hr IH]; [exact I|]. cbn [snd] in Hv.
    destruct (strip v) as [v'|] eqn:Ev; [|exact IH]. split; [now apply Hv|exact IH].
  - injection E as <-. cbn [monly]. induction H as [|v r Hv Hr IH]; [exact I|].
    destruct (strip v) as [v'|] eqn:Ev; [|exact IH]. split; [now apply Hv|exact IH].
Qed.

Lemma r_value_strip s ms t : forall idx,
  r_value s ms idx t = match strip t with None => Ret (None, idx) | Some t' => r_value s ms idx t' end.
Proof.
  induction t using bval_ind'; intros idx; cbn [strip]; try reflexivity.
  - cbn [r_value]. match goal with |- bind ?a _ = bind ?b _ => assert (a = b) as ->; [|reflexivity] end.
    revert idx. induction H as [|[k v] r Hv Hr IH]; intros idx; [reflexivity|]. cbn [snd] in Hv. rewrite Hv.
    destruct (strip v) as [v'|].
    + destruct (r_value s ms idx v') as [[x i]| |]; cbn [bind]; try reflexivity. now rewrite IH.
    + cbn [bind]. rewrite IH.
      destruct ((fix loop idx fs {struct fs} := match fs with [] => _ | _ => _ end) idx _) as [[xs i]| |]; reflexivity.
  - cbn [r_value]. match goal with |- bind ?a _ = bind ?b _ => assert (a = b) as ->; [|reflexivity] end.
    revert idx. induction H as [|v r Hv Hr IH]; intros idx; [reflexivity|]. rewrite Hv.
    destruct (strip v) as [v'|].
    + destruct (r_value s ms idx v') as [[x i]| |]; cbn [bind]; try reflexivity. now rewrite IH.
    + cbn [bind]. rewrite IH.
      destruct ((fix loop idx vs {struct vs} := match vs with [] => _ | _ => _ end) idx _) as [[xs i]| |]; reflexivity.
Qed.
Lemma r_fields_strip s ms fs : forall idx, r_fields s ms idx fs = r_fields s ms idx (strip_doc fs).
Proof.
  induction fs as [|[k v] r IH]; intros idx; [reflexivity|]. cbn [r_fields strip_doc]. rewrite r_value_strip.
  destruct (strip v) as [v'|].
  - cbn [r_fields]. destruct (r_value s ms idx v') as [[x i]| |]; cbn [bind]; try reflexivity. now rewrite IH.
  - cbn [bind]. rewrite IH. destruct (r_fields s ms idx (strip_doc r)) as [[xs i]| |]; reflexivity.
Qed.
Lemma r_fields_doc s ms idx fs : r_value s ms idx (BDoc fs) =
  ('(items, i) <- r_fields s ms idx fs ;; Ret (Some (BDoc items), i)).
Proof.
  cbn [r_value]. match goal with |- bind ?a _ = bind ?b _ => assert (a = b) as ->; [|reflexivity] end.
  revert idx. induction fs as [|[k v] r IH]; intros idx; [reflexivity|]. cbn [r_fields].
  destruct (r_value s ms idx v) as [[x i]| |]; cbn [bind]; try reflexivity. now rewrite IH.
Qed.

(* the metrics from idx on hold, for the sample s, the metrics ls *)
Definition holds (s : Z) (ms : list metric) (idx : Z) (ls : list leaf) : Prop :=
  forall j l, nth_error ls j = Some l ->
    exists m, goindex ms (idx + Z.of_nat j) = Ret m /\ goindex (m_values m) s = Ret (leaf_int l).
Lemma holds_app s ms idx a b : holds s ms idx (a ++ b) -> holds s ms idx a /\ holds s ms (idx + zlen a) b.
Proof.
  intros H. split; intros j l E.
  - apply H. rewrite nth_error_app1; auto. apply nth_error_Some. congruence.
  - destruct (H (length a + j)%nat l) as (m & G & V).
    + rewrite nth_error_app2 by lia. now replace (length a + j - length a)%nat with j by lia.
    + exists m. split; [|exact V]. unfold zlen. rewrite <- G. f_equal. lia.
Qed.

Lemma i32_of i : is_i32 i -> i32 i = i.
Proof. unfold is_i32, i32. intros. rewrite Z.mod_small by lia. lia. Qed.

Lemma restore_value s ms t0 : forall u idx, shape t0 = shape u -> monly t0 -> monly u -> wf u -> Forall exact (leaves u) ->
  holds s ms idx (leaves u) -> r_value s ms idx t0 = Ret (Some u, idx + zlen (leaves u)).
Proof.
  assert (L1 : forall idx l, holds s ms idx [l] -> (m <- goindex ms idx ;; goindex (m_values m) s) = Ret (leaf_int l)).
  { intros idx l H. destruct (H O l eq_refl) as (m & G & V). rewrite Z.add_0_r in G. now rewrite G. }
  induction t0 using bval_ind'; intros u idx Es M0 M W E H'; cbn [monly] in M0; try contradiction;
    destruct u; cbn [shape] in Es; try discriminate; cbn [monly] in M; try contradiction;
    try (cbn [leaves] in *; cbn [r_value]; rewrite (L1 _ _ H'); cbn [bind leaf_int]; zlens; cbn [leaf_int wf] in *).
  - apply Forall_inv in E. contradiction E.
  - rewrite r_fields_doc. injection Es as Es.
    assert (G : r_fields s ms idx fs = Ret (fs0, idx + zlen (leaves (BDoc fs0)))); [|rewrite G; reflexivity].
    rewrite leaves_doc in *. apply wf_doc in W. revert fs0 idx Es M W E H'.
    induction H as [|[k v] r Hv Hr IH]; intros [|[k' v'] r'] idx Es M W E H'; try discriminate.
    + unfold doc_leaves; cbn [r_fields flat_map]; zlens; now rewrite Z.add_0_r.
    + injection Es as Ek Ev Er. subst k'. cbn [snd] in Hv. destruct M0 as [M01 M02], M as [M1 M2].
      inversion_clear W as [|? ? [_ Wv] Wr]. cbn [snd] in Wv. unfold doc_leaves in *. cbn [flat_map snd] in *.
      apply Forall_app in E as [E1 E2]. apply holds_app in H' as [H1 H2].
      cbn [r_fields]. rewrite (Hv v') by auto. cbn [bind]. rewrite (IH M02 r' _) by auto. cbn [bind].
      do 2 f_equal. zlens. lia.
  - injection Es as Es. cbn [r_value].
    match goal with |- bind ?a _ = _ => assert (G : a = Ret (vs0, idx + zlen (leaves (BArray vs0)))); [|rewrite G; reflexivity] end.
    rewrite leaves_array in *. apply wf_array in W. revert vs0 idx Es M W E H'.
    induction H as [|v r Hv Hr IH]; intros [|v' r'] idx Es M W E H'; try discriminate.
    + unfold doc_leaves; cbn [r_fields flat_map]; zlens; now rewrite Z.add_0_r.
    + injection Es as Ev Er. destruct M0 as [M01 M02], M as [M1 M2].
      inversion_clear W as [|? ? Wv Wr]. cbn [flat_map] in *.
      apply Forall_app in E as [E1 E2]. apply holds_app in H' as [H1 H2].
      rewrite (Hv v') by auto. cbn [bind]. rewrite (IH M02 r' _) by auto. cbn [bind].
      do 2 f_equal. zlens. lia.
  - now destruct b0.
  - rewrite time_ms_time by exact W. reflexivity.
  - rewrite i32_of by exact W. reflexivity.
  - apply Forall_inv in E. contradiction E.
  - reflexivity.
Qed.

Lemma strip_BDoc fs : strip (BDoc fs) = Some (BDoc (strip_doc fs)).
Proof.
  reflexivity.
Qed.
Lemma shape_BDoc fs : shape (BDoc fs) = BDoc (doc_shape fs).
Proof. cbn [shape]. f_equal. unfold doc_shape. induction fs as [|[k v] r IH]; [reflexivity|]. cbn. now rewrite IH. Qed.
Lemma leaves_strip t : leaves t = match strip t with Some t' => leaves t' | None => [] end.
Proof.
  induction t using bval_ind'; cbn [strip]; try reflexivity; cbn [leaves].
  - induction H as [|[k v] r Hv Hr IH]; [reflexivity|]. cbn [snd] in Hv. rewrite Hv, IH. now destruct (strip v).
  - induction H as [|v r Hv Hr IH]; [reflexivity|]. rewrite Hv, IH. now destruct (strip v).
Qed.
Lemma doc_leaves_strip fs : doc_leaves (strip_doc fs) = doc_leaves fs.
Proof. pose proof (leaves_strip (BDoc fs)) as H. rewrite strip_BDoc, !leaves_doc in H. auto. Qed.
Lemma strip_wf t : forall t', strip t = Some t' -> wf t -> wf t'.
Proof.
  induction t using bval_ind'; intros t' E W; cbn [strip] in E; try discriminate; try (injection E as <-; exact W).
  - injection E as <-. cbn [wf] in *. induction H as [|[k v] r Hv Hr IH]; [exact I|]. cbn [snd] in Hv.
    destruct W as (Wk & Wv & Wr). destruct (strip v) as [v'|] eqn:Ev; [|exact (IH Wr)]. split; [exact Wk|]. split; [auto|exact (IH Wr)].
  - injection E as <-. cbn [wf] in *. induction H as [|v r Hv Hr IH]; [exact I|].
    destruct W as (Wv & Wr). destruct (strip v) as [v'|] eqn:Ev; [|exact (IH Wr)]. split; [auto|exact (IH Wr)].
Qed.
Lemma strip_doc_wf fs : wf_fields fs -> wf_fields (strip_doc fs).
Proof. intros W. apply wf_doc. eapply strip_wf; [apply strip_BDoc|]. now apply wf_doc. Qed.

Lemma restore_fields s ms fs0 fs : doc_shape (strip_doc fs0) = doc_shape (strip_doc fs) -> wf_fields fs ->
  Forall exact (doc_leaves fs) -> holds s ms 0 (doc_leaves fs) ->
  exists i, r_fields s ms 0 fs0 = Ret (strip_doc fs, i).
Proof.
  intros E W X H. 
  assert (R : r_value s ms 0 (BDoc (strip_doc fs0)) = Ret (Some (BDoc (strip_doc fs)), 0 + zlen (leaves (BDoc (strip_doc fs))))).
  { apply restore_value; rewrite ?leaves_doc, ?doc_leaves_strip; auto.
    - now rewrite !shape_BDoc, E.
    - eapply strip_monly. apply strip_BDoc.
    - eapply strip_monly. apply strip_BDoc.
    - apply wf_doc. now apply strip_doc_wf. }
  rewrite r_fields_doc, <- r_fields_strip in R. destruct (r_fields s ms 0 fs0) as [[l i]| |]; try discriminate.
  cbn [bind] in R. injection R as -> _. eauto.
Qed.

(* the stripped document is not larger *)
Lemma little_succ_digits d : (Decimal.nb_digits d <= Decimal.nb_digits (Decimal.Little.succ d))%nat.
Proof. induction d; cbn; lia. Qed.
Lemma to_little_succ n : forall acc, Nat.to_little_uint n (Decimal.Little.succ acc) = Decimal.Little.succ (Nat.to_little_uint n acc).
Proof. induction n as [|n IH]; intros acc; cbn; auto. Qed.
Lemma revapp_digits d : forall e, Decimal.nb_digits (Decimal.revapp d e) = (Decimal.nb_digits d + Decimal.nb_digits e)%nat.
Proof. induction d; intros e; cbn; rewrite ?IHd; cbn; lia. Qed.
Lemma uint_bytes_length d : length (uint_bytes d) = Decimal.nb_digits d.
Proof. induction d; cbn; auto. Qed.
Lemma index_key_succ i : zlen (index_key i) <= zlen (index_key (S i)).
Proof.
  unfold index_key, zlen. rewrite !uint_bytes_length. unfold Nat.to_uint, Decimal.rev. rewrite !revapp_digits.
  cbn [Nat.to_little_uint]. rewrite to_little_succ. pose proof (little_succ_digits (Nat.to_little_uint i Decimal.zero)). lia.
Qed.
Lemma index_key_le i j : (i <= j)%nat -> zlen (index_key i) <= zlen (index_key j).
Proof. induction 1; [lia|]. pose proof (index_key_succ m). lia. Qed.

Lemma strip_array vs : strip (BArray vs) = Some (BArray ((fix go vs := match vs with
      | [] => []
      | v :: r => match strip v with Some v => v :: go r | None => go r end
      end) vs)).
Proof. reflexivity. Qed.
Lemma strip_size t : forall t', strip t = Some t' -> zlen (enc_body t') <= zlen (enc_body t).
Proof.
  induction t using bval_ind'; intros t' E; try (cbn [strip] in E; try discriminate; injection E as <-; lia).
  - rewrite strip_BDoc in E. injection E as <-. rewrite !enc_body_doc. unfold enc_doc. zlens.
    assert (zlen (enc_elems (strip_doc fs)) <= zlen (enc_elems fs)); [|lia].
    induction H as [|[k v] r Hv Hr IH]; [cbn; lia|]. cbn [strip_doc enc_elems snd] in *. destruct (strip v) as [v'|] eqn:Ev.
    + specialize (Hv v' eq_refl). cbn [enc_elems]. zlens. rewrite !zlen_enc_elem. lia.
    + zlens. posl. lia.
  - rewrite strip_array in E. injection E as <-. rewrite !enc_body_array. unfold enc_array. zlens.
    match goal with |- zlen (enc_items _ (?f vs)) + _ <= _ => set (go := f) end.
    assert (forall i j, (i <= j)%nat -> zlen (enc_items i (go vs)) <= zlen (enc_items j vs)) as A; [|specialize (A O O ltac:(lia)); lia].
    induction H as [|v r Hv Hr IH]; intros i j Hij; [cbn; lia|].
    assert (Eg : go (v :: r) = match strip v with Some v => v :: go r | None => go r end) by reflexivity. rewrite Eg.
    pose proof (index_key_le i j Hij). destruct (strip v) as [v'|] eqn:Ev.
    + specialize (Hv v' eq_refl). cbn [enc_items]. zlens. rewrite !zlen_enc_elem. specialize (IH (S i) (S j) ltac:(lia)). lia.
    + specialize (IH i (S j) ltac:(lia)). cbn [enc_items]. zlens. posl. lia.
Qed.
Lemma strip_doc_size fs : zlen (enc_doc (strip_doc fs)) <= zlen (enc_doc fs).
Proof. rewrite <- !enc_body_doc. eapply strip_size. apply strip_BDoc. Qed.

(* ------------------------------------------------------------- runs of Add calls *)

(* a document obtained by the client, holding fs *)
Definition sample (fuel : nat) (es : document) (fs : list (bytes * bval)) : Prop :=
  wf_fields fs /\ small fs /\ enough fuel (zlen (enc_doc fs)) /\ exists N, doc_obtained fs es N.
Lemma sample_rep fuel es fs : sample fuel es fs -> rep_doc es fs.
Proof. intros (W & S & F & N & O). destruct (doc_obtained_good fuel N fs es W S F O) as (R & _). exact R. Qed.
Lemma sample_obs fuel es fs : sample fuel es fs -> obs_doc fuel es = Ret (swapf fs).
Proof. intros H. pose proof (sample_rep _ _ _ H). destruct H as (W & S & F & _). now apply obs_doc_rep. Qed.

Definition err_of (o : outcome) : option gerr :=
  match o with Taken => None | Full => Some e_overfull | Mismatch => Some e_schema end.

Section Runs.
Variable nan : Z -> Z -> Z.
Notation samples acc := (map x_fields acc).

Definition cstate (c : better) (md : option document) (max : Z) (acc : list (list (bytes * bval))) : Prop :=
  b_max c = max /\ b_meta c = md /\ Forall wf_fields acc /\
  match acc with
  | [] => b_ref c = None /\ b_num c = 0
  | fs :: _ => exists ref start, binv nan c md ref start (samples acc) /\ rep_doc ref fs
  end.

Lemma zs_eqb_eq a b : zs_eqb a b = if list_eq_dec Z.eq_dec a b then true else false.
Proof. reflexivity. Qed.

Lemma binv_meta c md ref start xs : binv nan c md ref start xs -> b_meta c = md.
Proof. destruct xs; [contradiction|]. intros (H & _). exact H. Qed.

Lemma add_step fuel now c md max acc es fs : cstate c md max acc -> sample fuel es fs -> 0 <= max ->
  exists c', b_add nan fuel now c es = (c', Ret (err_of (s_take max acc fs))) /\
    cstate c' md max (match s_take max acc fs with Taken => acc ++ [fs] | _ => acc end).
Proof.
  intros (Cm & Cd & Cw & Ca) Sa M. pose proof (sample_obs _ _ _ Sa) as O. pose proof (sample_rep _ _ _ Sa) as R.
  destruct acc as [|d0 acc].
  - destruct Ca as [Cr Cn]. destruct (b_add_first nan fuel now c es (swapf fs) Cr Cn ltac:(lia) O) as (c' & E & Mx & I).
    exists c'. cbn [s_take err_of]. split; [exact E|]. rewrite x_fields_swap in I. pose proof (binv_meta _ _ _ _ _ I).
    repeat split; try congruence; auto.
    + constructor; [apply Sa|constructor].
    + exists es, now. rewrite <- Cd. auto.
  - destruct Ca as (ref & start & I & Rr).
    destruct (b_add_next nan fuel now c md ref start _ es (swapf fs) I O) as (c' & Mx & E).
    exists c'. rewrite x_fields_swap, !schema_x, Cm in E. cbn [map hd] in E. rewrite schema_x in E. rewrite zlen_cons, zlen_map in E.
    replace (1 + zlen acc - 1) with (zlen acc) in E by lia.
    cbn [s_take]. destruct (max <=? zlen acc); [|unfold zs_eqb; destruct (list_eq_dec Z.eq_dec (schema fs) (schema d0))].
    + destruct E as [E I']. split; [exact E|]. pose proof (binv_meta _ _ _ _ _ I'). repeat split; try congruence; auto. eauto.
    + destruct E as [E I']. split; [exact E|]. pose proof (binv_meta _ _ _ _ _ I'). repeat split; try congruence.
      * apply Forall_app. split; [exact Cw|]. constructor; [apply Sa|constructor].
      * exists ref, start. split; [|exact Rr]. rewrite map_app. exact I'.
    + destruct E as [E I']. split; [exact E|]. pose proof (binv_meta _ _ _ _ _ I'). repeat split; try congruence; auto. eauto.
Qed.

Lemma run_spec fuel max md : 0 <= max -> forall docs dfs c acc, cstate c md max acc ->
  Forall2 (fun d fs => sample fuel (snd d) fs) docs dfs ->
  exists c', add_all nan fuel c docs = (c', map (fun o => Ret (err_of o)) (snd (s_run max acc dfs))) /\
    cstate c' md max (fst (s_run max acc dfs)).
Proof.
  intros M. induction docs as [|[now es] docs IH]; intros dfs c acc C F; inversion F as [|? fs ? dfs' Sa F' Q1 Q2]; subst.
  - exists c. cbn. auto.
  - cbn [snd] in Sa. destruct (add_step fuel now c md max acc es fs C Sa M) as (c1 & E1 & C1).
    destruct (IH dfs' c1 _ C1 F') as (c2 & E2 & C2). exists c2. cbn [add_all s_run]. rewrite E1, E2.
    destruct (s_run max _ dfs') as [acc' os] eqn:Er. cbn in *. split; [reflexivity|exact C2].
Qed.

Lemma cstate_new max : cstate (new_base max) None max [].
Proof. repeat split; auto. Qed.
Lemma cstate_count c md max acc : cstate c md max acc -> b_samples c = zlen acc.
Proof.
  intros (_ & _ & _ & H). unfold b_samples. destruct acc as [|d acc].
  - destruct H as [-> ->]. reflexivity.
  - destruct H as (ref & start & I & _). destruct I as (_ & -> & _ & _ & -> & _). rewrite zlen_map. zlens. lia.
Qed.
Lemma cstate_metrics c md max acc : cstate c md max acc -> acc <> [] -> b_metrics c = zlen (doc_leaves (hd [] acc)).
Proof.
  intros (_ & _ & _ & H) N. unfold b_metrics. destruct acc as [|d acc]; [congruence|].
  destruct H as (ref & start & I & _). cbn [map] in I. destruct I as (_ & _ & _ & -> & _ & _ & _ & F & _).
  assert (Iy : In (last (x_fields d :: samples acc) []) (x_fields d :: samples acc)).
  { rewrite (app_removelast_last (l := x_fields d :: samples acc) []) at 2 by discriminate. apply in_or_app. right. now left. }
  rewrite Forall_forall in F. destruct (F _ Iy) as (T & _). cbn [hd].
  unfold zlen. rewrite <- (map_length fst), T, map_length, x_fields_leaves, map_length. reflexivity.
Qed.

(* ------------------------------------------------------------------- streams *)

Lemma read_docs_rep fuel : forall docs n s, (length docs < n)%nat ->
  Forall (fun fs => wf_fields fs /\ small fs /\ enough fuel (zlen (enc_doc fs))) docs ->
  st_data s = concat (map enc_doc docs) -> st_err s = EEOF ->
  exists s' ess, read_docs n fuel s = (ess, s', Ret (Some EEOF)) /\ Forall2 rep_doc ess docs.
Proof.
  induction docs as [|fs docs IH]; intros n s L A D E; (destruct n as [|n]; [cbn in L; lia|]).
  - cbn in D. destruct (doc_read_from_end fuel s D) as (s' & H & _). exists s', []. cbn [read_docs].
    unfold dce_read_from. rewrite H, E. split; [reflexivity|constructor].
  - inversion A as [|? ? (W & S & F) A']; subst. cbn [map concat] in D. cbn [length] in L.
    destruct (doc_read_from_wf fuel s fs _ W S F D) as (s1 & es & H & R & D1 & E1). rewrite E in E1.
    destruct (IH n s1 ltac:(lia) A' D1 E1) as (s2 & ess & H2 & Fa).
    exists s2, (es :: ess). cbn [read_docs]. unfold dce_read_from. rewrite H, H2. split; [reflexivity|].
    constructor; [|exact Fa].
    destruct (read_document_wf fs [] fuel W) as (es' & Rd' & Rr); rewrite ?app_nil_r; auto.
    rewrite app_nil_r in Rd'. congruence.
Qed.

Variables (zip : bytes -> bytes) (unzip : bytes -> option bytes).
Hypothesis codec : codec_ok zip unzip.

(* what one resolved collector wrote: metadata, start time, samples *)
Definition seg : Type := (option (list (bytes * bval)) * Z * list (list (bytes * bval)))%type.
Definition seg_docs (g : seg) : list (list (bytes * bval)) :=
  let '(md, start, acc) := g in out_docs nan zip md start (hd [] acc) (samples acc).
Definition seg_bytes (g : seg) : bytes := concat (map enc_doc (seg_docs g)).
Definition seg_ok (fuel : nat) (g : seg) : Prop :=
  let '(md, start, acc) := g in
  acc <> [] /\ Forall wf_fields acc /\ zlen acc <= 4294967296 /\
  chunk_room (hd [] acc) (zlen acc) < 2147483648 /\ enough fuel (chunk_room (hd [] acc) (zlen acc)) /\
  meta_fits fuel start md /\ match md with Some m => wf_fields m | None => True end.
(* the metadata document in force after the segments *)
Definition meta_after (m : option (list (bytes * bval))) (g : seg) : option (list (bytes * bval)) :=
  let '(md, start, _) := g in match md with Some d => Some (meta_fields start d) | None => m end.
Definition shows_meta (o : option document) (m : option (list (bytes * bval))) : Prop :=
  match o, m with None, None => True | Some es, Some fs => rep_doc es fs | _, _ => False end.
Definition chunk_is (m : option (list (bytes * bval))) (c : chunk) (g : seg) : Prop :=
  let '(_, start, acc) := g in
  c_metrics c = decoded nan (hd [] acc) (samples acc) /\ c_points c = zlen acc /\ c_ref c = swapf (hd [] acc) /\
  c_id c = Some (ms_time (time_ms start)) /\ shows_meta (c_meta c) m.
Fixpoint chunks_are (m : option (list (bytes * bval))) (cs : list chunk) (gs : list seg) : Prop :=
  match cs, gs with
  | [], [] => True
  | c :: cs, g :: gs => chunk_is (meta_after m g) c g /\ chunks_are (meta_after m g) cs gs
  | _, _ => False
  end.

Lemma seg_docs_ok fuel g : seg_ok fuel g ->
  Forall (fun fs => wf_fields fs /\ small fs /\ enough fuel (zlen (enc_doc fs))) (seg_docs g).
Proof.
  destruct g as [[md start] acc]. intros (N & W & K & Rm & Fu & Mf & Mw). unfold seg_docs, out_docs.
  destruct acc as [|d acc]; [congruence|]. cbn [hd] in *. inversion_clear W as [|? ? Wd Wr].
  apply Forall_app. split.
  - destruct md as [m|]; constructor; [|constructor]. destruct Mf. repeat split; auto. now apply meta_fields_wf.
  - constructor; [|constructor].
    pose proof (chunk_fields_size nan zip unzip codec start d (samples (d :: acc)) Wd eq_refl ltac:(discriminate)) as Cs.
    rewrite zlen_map in Cs. repeat split.
    + now apply (chunk_fields_wf nan zip unzip codec).
    + unfold small. lia.
    + unfold enough in *. lia.
Qed.

Lemma chunks_of_segs fuel : forall gs ess om m, Forall (seg_ok fuel) gs -> shows_meta om m ->
  Forall2 rep_doc ess (concat (map seg_docs gs)) ->
  exists cs, chunks_of unzip fuel om ess = (cs, Ret None) /\ chunks_are m cs gs.
Proof.
  induction gs as [|g gs IH]; intros ess om m A Sm F.
  - inversion F. exists []. cbn. auto.
  - inversion_clear A as [|? ? Ag A']. cbn [map concat] in F. destruct g as [[md start] acc].
    pose proof Ag as (N & W & K & Rm & Fu & Mf & Mw).
    destruct acc as [|d acc]; [congruence|]. cbn [hd] in *. inversion_clear W as [|? ? Wd Wr].
    assert (Ch : forall es om, rep_doc es (chunk_fields zip start (payload_of nan d (samples (d :: acc)))) ->
      read_chunk_doc unzip fuel om es = Ret (RChunk (MkC (decoded nan d (samples (d :: acc))) (zlen (d :: acc))
        (Some (ms_time (time_ms start))) om (swapf d)))).
    { intros es om' R. rewrite (read_chunk_spec nan zip unzip codec fuel om' es start d (samples (d :: acc)));
        rewrite ?zlen_map; auto; try discriminate. }
    unfold seg_docs, out_docs in F. cbn [hd] in F. destruct md as [mf|]; cbn [app] in F.
    + inversion F as [|em ? ess1 ? Rm1 F1 Q1 Q2]; subst. inversion F1 as [|ec ? ess2 ? Rc F2 Q1 Q2]; subst.
      destruct (IH ess2 (Some em) (Some (meta_fields start mf)) A' Rm1 F2) as (cs & E & Cs).
      cbn [chunks_of]. rewrite (read_meta_spec nan unzip fuel om em start mf Rm1 Mw Mf). cbn [chunks_of]. rewrite (Ch ec _ Rc), E.
      eexists. split; [reflexivity|]. cbn [chunks_are chunk_is meta_after hd]. repeat split; auto.
    + inversion F as [|ec ? ess2 ? Rc F2 Q1 Q2]; subst.
      destruct (IH ess2 om m A' Sm F2) as (cs & E & Cs).
      cbn [chunks_of]. rewrite (Ch ec _ Rc), E.
      eexists. split; [reflexivity|]. cbn [chunks_are chunk_is meta_after hd]. repeat split; auto.
Qed.

Theorem read_segs fuel n gs s : Forall (seg_ok fuel) gs -> st_data s = concat (map seg_bytes gs) -> st_err s = EEOF ->
  (2 * length gs < n)%nat ->
  exists cs, read_chunks unzip n fuel s = (cs, Ret None) /\ chunks_are None cs gs.
Proof.
  intros A D E L.
  destruct (read_docs_rep fuel (concat (map seg_docs gs)) n s) as (s' & ess & R & F); auto.
  - assert (length (concat (map seg_docs gs)) <= 2 * length gs)%nat; [|lia]. clear.
    induction gs as [|[[md start] acc] gs IH]; cbn; [lia|]. rewrite app_length. unfold out_docs. destruct md; cbn [app length]; lia.
  - clear -A codec. induction A; cbn; [constructor|]. apply Forall_app. split; auto. now apply seg_docs_ok.
  - rewrite D. unfold seg_bytes. clear. induction gs as [|g gs IH]; [reflexivity|]. cbn. now rewrite map_app, concat_app, IH.
  - destruct (chunks_of_segs fuel gs ess None None A I F) as (cs & Ec & Cs). exists cs. split; [|exact Cs].
    unfold read_chunks. now rewrite R, Ec.
Qed.

(* resolving a collector writes a segment *)
Lemma resolve_seg fuel c md mfs max acc : cstate c md max acc -> acc <> [] -> meta_is md mfs ->
  (forall start, meta_fits fuel start mfs) -> max < 4294967296 ->
  chunk_room (hd [] acc) (zlen acc) < 2147483648 -> enough fuel (chunk_room (hd [] acc) (zlen acc)) ->
  exists start, b_resolve zip fuel c = Ret (inl (seg_bytes (mfs, start, acc))) /\ seg_ok fuel (mfs, start, acc).
Proof.
  intros (Cm & Cd & Cw & Ca) N Mi Mf Mx Rm Fu. destruct acc as [|d acc]; [congruence|].
  destruct Ca as (ref & start & I & Rr). exists start. cbn [hd] in *. inversion Cw as [|? ? Wd Wr]; subst. split.
  - erewrite (b_resolve_spec nan zip unzip codec fuel c (b_meta c) mfs ref start d (samples (d :: acc)));
      rewrite ?zlen_map; auto.
  - assert (zlen (d :: acc) <= 4294967296).
    { cbn [map] in I. destruct I as (_ & _ & _ & _ & In_ & Ib & _). rewrite zlen_cons, zlen_map in In_. zlens. lia. }
    repeat split; auto; try discriminate. unfold meta_is in Mi.
    destruct (b_meta c), mfs; try contradiction; auto. apply Mi.
Qed.
End Runs.
