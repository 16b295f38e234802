(* Properties of x/ftdc: what is read back from what the base collector wrote (C35-C37). *)
Require Import ZArith List Bool Lia ZifyBool ZifyNat.
From Verif Require Import Base BSpec Elements Value Codec CodecRead Itoa CodecRep Api ApiProofs Tree
  GetterProofs ReaderOps CodecProps DocOps Stream Search FtdcSpec Ftdc FtdcProofs FtdcRestore.
Import ListNotations.
Open Scope Z_scope.

(* A chunk restores the integer metrics of the samples acc. *)
Definition restores_ints (c : chunk) (acc : list (list (bytes * bval))) : Prop :=
  c_points c = zlen acc /\ zlen (c_metrics c) = zlen (doc_leaves (hd [] acc)) /\
  forall j l ls, column j acc = map Some (l :: ls) -> Forall exact (l :: ls) ->
    exists m, nth_error (c_metrics c) j = Some m /\ m_type m = leaf_type l /\ m_values m = map leaf_int (l :: ls).
(* It restores the doubles but for this: from the second sample on they are differences. *)
Definition restores_doubles (nan : Z -> Z -> Z) (c : chunk) (acc : list (list (bytes * bval))) : Prop :=
  forall j b bs, column j acc = map (fun b => Some (LDouble b)) (b :: bs) ->
    exists m, nth_error (c_metrics c) j = Some m /\ m_type m = 1 /\
      map u64 (m_values m) = b :: map (fun p => u64 (fsub nan (fst p) (snd p))) (combine bs (b :: bs)).
(* It restores the samples as documents without their other fields. *)
Definition restores_docs (c : chunk) (acc : list (list (bytes * bval))) : Prop :=
  (forall d, In d acc -> doc_shape (strip_doc d) = doc_shape (strip_doc (hd [] acc)) /\ Forall exact (doc_leaves d)) ->
  exists ess, c_structured c = Ret ess /\
    Forall2 (fun es d => doc_obtained (strip_doc d) es (zlen (enc_doc (strip_doc d)))) ess acc.

Lemma shape_leaf_type t : forall u, shape t = shape u -> map leaf_type (leaves t) = map leaf_type (leaves u).
Proof.
  assert (A : forall t, map leaf_type (leaves (shape t)) = map leaf_type (leaves t)).
  { clear. induction t using bval_ind'; try reflexivity.
    - rewrite shape_BDoc, !leaves_doc. unfold doc_leaves, doc_shape.
      induction H as [|[k v] r Hv Hr IH]; [reflexivity|]. cbn in *. now rewrite !map_app, Hv, IH.
    - cbn [shape]. cbn [leaves]. induction H as [|v r Hv Hr IH]; [reflexivity|]. now rewrite !map_app, Hv, IH. }
  intros u E. rewrite <- A, E. apply A.
Qed.

Lemma goindex_nat {A} (l : list A) i x : nth_error l i = Some x -> goindex l (Z.of_nat i) = Ret x.
Proof.
  intros H. assert (i < length l)%nat by (apply nth_error_Some; congruence). unfold goindex, zlen.
  replace ((0 <=? Z.of_nat i) && (Z.of_nat i <? Z.of_nat (length l))) with true by lia. now rewrite Nat2Z.id, H.
Qed.
Lemma mapM_seq {A B} (f : nat -> go B) (P : B -> A -> Prop) l : forall k,
  (forall i x, nth_error l i = Some x -> exists y, f (k + i)%nat = Ret y /\ P y x) ->
  exists ys, mapM f (seq k (length l)) = Ret ys /\ Forall2 P ys l.
Proof.
  induction l as [|x l IH]; intros k H.
  - exists []. split; [reflexivity|constructor].
  - destruct (H O x eq_refl) as (y & E & Py). rewrite Nat.add_0_r in E.
    destruct (IH (S k)) as (ys & Es & Ps).
    { intros i z Hz. destruct (H (S i) z Hz) as (w & Ew & Pw). exists w. split; [|exact Pw]. now rewrite <- Nat.add_succ_comm in Ew. }
    exists (y :: ys). cbn [length seq]. split; [|now constructor].
    change (mapM f (k :: seq (S k) (length l))) with (b <- f k ;; bs <- mapM f (seq (S k) (length l)) ;; Ret (b :: bs)).
    now rewrite E, Es.
Qed.
Lemma strip_swap t : strip (swapd t) = strip t.
Proof.
  induction t using bval_ind'; try reflexivity.
  - rewrite swapd_doc, !strip_BDoc. do 2 f_equal. unfold swapf.
    induction H as [|[k v] r Hv Hr IH]; [reflexivity|]. cbn [map strip_doc fst snd] in *. now rewrite Hv, IH.
  - rewrite swapd_array, !strip_array. do 2 f_equal.
    induction H as [|v r Hv Hr IH]; [reflexivity|]. cbn [map] in *. now rewrite Hv, IH.
Qed.
Lemma strip_doc_swap fs : strip_doc (swapf fs) = strip_doc fs.
Proof. pose proof (strip_swap (BDoc fs)) as H. rewrite swapd_doc, !strip_BDoc in H. congruence. Qed.

Section Chunks.
Variable nan : Z -> Z -> Z.

Lemma column_types j acc ls : column j acc = map Some ls -> length acc = length ls.
Proof. intros H. apply (f_equal (@length _)) in H. unfold column in H. now rewrite !map_length in H. Qed.

Lemma chunk_restores_ints m c md start acc : chunk_is nan m c (md, start, acc) -> acc <> [] -> Forall wf_fields acc ->
  restores_ints c acc.
Proof.
  intros (E1 & E2 & E3 & _) N W. split; [exact E2|]. destruct acc as [|d acc]; [congruence|]. cbn [hd] in *. split.
  - rewrite E1. unfold decoded, zlen. rewrite map_length, combine_length, m_fields_length, columns_length.
    cbn [map hd]. rewrite x_fields_leaves, map_length. lia.
  - intros j l ls H X. rewrite E1. now apply decoded_ints.
Qed.

Lemma diffs_doubles bs : forall b, diffs nan (map xleaf (map LDouble (b :: bs))) =
  map (fun p => i64 (fsub nan (fst p) (snd p))) (combine bs (b :: bs)).
Proof.
  induction bs as [|a bs IH]; intros b; [reflexivity|].
  change (diffs nan (map xleaf (map LDouble (b :: a :: bs)))) with
    (dl nan (xleaf (LDouble a)) (xleaf (LDouble b)) :: diffs nan (map xleaf (map LDouble (a :: bs)))).
  rewrite IH. reflexivity.
Qed.
Lemma chunk_restores_doubles m c md start acc : chunk_is nan m c (md, start, acc) -> acc <> [] -> Forall wf_fields acc ->
  restores_doubles nan c acc.
Proof.
  intros (E1 & E2 & E3 & _) N W j b bs H. destruct acc as [|d acc]; [congruence|]. cbn [hd] in *. inversion_clear W as [|? ? Wd Wr].
  assert (Hb : is_u64 b).
  { pose proof H as H0. cbn [column map] in H0. injection H0 as H0 _.
    pose proof (doc_leaves_ok d Wd) as F. rewrite Forall_forall in F. apply (F (LDouble b)). eapply nth_error_In; eauto. }
  rewrite <- map_map with (f := LDouble) (g := Some) in H.
  destruct (decoded_nth nan d acc j (LDouble b) (map LDouble bs) H) as (m0 & Em & Et & Es & Ed).
  eexists. rewrite E1. split; [exact Ed|]. unfold with_deltas. cbn [m_type m_values]. rewrite Et. cbn [leaf_type Z.eqb Pos.eqb].
  split; [reflexivity|]. change (LDouble b :: map LDouble bs) with (map LDouble (b :: bs)). rewrite diffs_doubles, Es.
  unfold undelta_floats. cbn [map start_of]. rewrite u64_i64, u64_id by auto. f_equal. rewrite map_map.
  apply map_ext. intros p. apply u64_i64.
Qed.

Lemma chunk_restores_docs m c md start acc : chunk_is nan m c (md, start, acc) -> acc <> [] -> Forall wf_fields acc ->
  Forall small acc -> restores_docs c acc.
Proof.
  intros C N W S H. pose proof (chunk_restores_ints _ _ _ _ _ C N W) as (Ep & El & Ei).
  destruct C as (E1 & E2 & E3 & _).
  assert (Hl : forall d, In d acc -> length (doc_leaves d) = length (doc_leaves (hd [] acc))).
  { intros d Hd. destruct (H d Hd) as [Hs _]. rewrite <- (doc_leaves_strip d), <- (doc_leaves_strip (hd [] acc)).
    rewrite <- !(map_length leaf_type), <- !leaves_doc. f_equal. apply shape_leaf_type. now rewrite !shape_BDoc, Hs. }
  assert (G : forall i d, nth_error acc i = Some d ->
    exists k, r_fields (Z.of_nat i) (c_metrics c) 0 (c_ref c) = Ret (strip_doc d, k)).
  { intros i d Hd. assert (Id : In d acc) by (eapply nth_error_In; eauto). destruct (H d Id) as [Hs Hx].
    rewrite E3. rewrite r_fields_strip.
    assert (Q : exists k, r_fields (Z.of_nat i) (c_metrics c) 0 (hd [] acc) = Ret (strip_doc d, k)).
    { apply restore_fields; auto.
      - rewrite Forall_forall in W. auto.
      - intros j l Hj.
        assert (Hcol : exists l0 ls, column j acc = map Some (l0 :: ls) /\ Forall exact (l0 :: ls) /\ nth_error (l0 :: ls) i = Some l).
        { assert (Lj : (j < length (doc_leaves (hd [] acc)))%nat) by (rewrite <- (Hl d Id); apply nth_error_Some; congruence).
          assert (K : forall d, In d acc -> exists l, nth_error (doc_leaves d) j = Some l /\ exact l).
          { intros e He. destruct (nth_error (doc_leaves e) j) as [le|] eqn:Ee.
            - exists le. split; [reflexivity|]. destruct (H e He) as [_ X]. rewrite Forall_forall in X. apply X. eapply nth_error_In; eauto.
            - apply nth_error_None in Ee. rewrite (Hl e He) in Ee. lia. }
          assert (K2 : exists ls, column j acc = map Some ls /\ Forall exact ls /\ nth_error ls i = Some l).
          { clear -K Hd Hj. unfold column. revert i Hd. induction acc as [|e acc IH]; intros [|i] Hd; try discriminate.
            - injection Hd as <-. destruct (K e (or_introl eq_refl)) as (le & Ee & Xe).
              assert (R : exists ls, map (fun d => nth_error (doc_leaves d) j) acc = map Some ls /\ Forall exact ls).
              { clear -K. assert (K' : forall d, In d acc -> exists l, nth_error (doc_leaves d) j = Some l /\ exact l) by (intros; apply K; now right).
                clear K. induction acc as [|f acc IH]; [exists []; split; [reflexivity|constructor]|].
                destruct (K' f (or_introl eq_refl)) as (lf & Ef & Xf). destruct IH as (ls & El & Xl); [intros; apply K'; now right|].
                exists (lf :: ls). cbn. rewrite Ef, El. split; [reflexivity|]. now constructor. }
              destruct R as (ls & El & Xl). exists (le :: ls). cbn. rewrite Ee, El. repeat split; [now constructor|congruence].
            - destruct (K e (or_introl eq_refl)) as (le & Ee & Xe). cbn in Hd.
              destruct (IH (fun d Hd => K d (or_intror Hd)) i Hd) as (ls & El & Xl & Nl).
              exists (le :: ls). cbn. rewrite Ee, El. repeat split; [now constructor|exact Nl]. }
          destruct K2 as ([|l0 ls] & A1 & A2 & A3); [now destruct i|]. exists l0, ls. auto. }
        destruct Hcol as (l0 & ls & A1 & A2 & A3). destruct (Ei j l0 ls A1 A2) as (m0 & Em & _ & Ev).
        exists m0. rewrite Z.add_0_l. split.
        + now apply goindex_nat.
        + rewrite Ev. apply goindex_nat. now apply map_nth_error. }
    destruct Q as (k & Q). exists k. rewrite r_fields_strip in Q. now rewrite strip_doc_swap. }
  unfold c_structured. rewrite E2, to_nat_zlen. apply (mapM_seq _ _ acc O). intros i d Hd.
  destruct (G i d Hd) as (k & Gi). cbn [Nat.add]. rewrite Gi. cbn [bind].
  assert (Id : In d acc) by (eapply nth_error_In; eauto). rewrite Forall_forall in W, S.
  destruct (build_doc_rep (strip_doc d)) as (es & B & _).
  - apply strip_doc_wf. auto.
  - specialize (S d Id). pose proof (strip_doc_size d). unfold small in *. lia.
  - exists es. split; [exact B|]. now constructor.
Qed.
End Chunks.

(* The seconds of timestamps: only the first is scaled by a thousand. *)
Definition restores_seconds (c : chunk) (acc : list (list (bytes * bval))) : Prop :=
  forall j t ts, column j acc = map (fun t => Some (LSec t)) (t :: ts) ->
    exists m, nth_error (c_metrics c) j = Some m /\ m_type m = 17 /\
      m_values m = map (fun u => t * 1000 + (u - t)) (t :: ts).
(* Dates: what is left of them after passing through nanoseconds in 64 bits. *)
Definition restores_dates (c : chunk) (acc : list (list (bytes * bval))) : Prop :=
  forall j t ts, column j acc = map (fun t => Some (LDate t)) (t :: ts) ->
    exists m, nth_error (c_metrics c) j = Some m /\ m_type m = 9 /\
      m_values m = map (fun u => Z.quot (i64 (u * 1000000)) 1000000) (t :: ts).

Section Chunks2.
Variable nan : Z -> Z -> Z.

Lemma decoded_gen fs acc j l ls : column j (fs :: acc) = map Some (l :: ls) -> is_i64 (start_of l) -> leaf_type l <> 1 ->
  Forall (fun l => match l with LDouble _ => False | _ => True end) (l :: ls) ->
  exists m, nth_error (decoded nan fs (map x_fields (fs :: acc))) j = Some m /\ m_type m = leaf_type l /\
    m_values m = map (fun x => i64 (start_of l + (nint (xleaf x) - nint (xleaf l)))) (l :: ls).
Proof.
  intros H I T F. destruct (decoded_nth nan fs acc j l ls H) as (m & Em & Et & Es & Ed).
  exists (with_deltas m (diffs nan (map xleaf (l :: ls)))). repeat split; auto.
  unfold with_deltas. cbn [m_values]. rewrite Et, Es. replace (leaf_type l =? 1) with false by lia.
  cbn [map]. rewrite undelta_diffs; auto.
  - change (xleaf l :: map xleaf ls) with (map xleaf (l :: ls)). rewrite map_map. reflexivity.
  - change (xleaf l :: map xleaf ls) with (map xleaf (l :: ls)). rewrite Forall_forall in *. intros x Hx.
    apply in_map_iff in Hx as (y & <- & Hy). specialize (F y Hy). destruct y; try contradiction; exact Logic.I.
Qed.

Lemma column_leaf_ok j acc ls : column j acc = map Some ls -> Forall wf_fields acc -> Forall leaf_ok ls.
Proof.
  revert ls. induction acc as [|d acc IH]; intros [|l ls] H W; cbn [map column] in H; try discriminate; [constructor|].
  injection H as H1 H2. inversion_clear W as [|? ? Wd Wr]. constructor; [|eapply IH; eauto].
  pose proof (doc_leaves_ok d Wd) as F. rewrite Forall_forall in F. apply F. eapply nth_error_In; eauto.
Qed.

Lemma chunk_restores_seconds m c md start acc : chunk_is nan m c (md, start, acc) -> acc <> [] -> Forall wf_fields acc ->
  restores_seconds c acc.
Proof.
  intros (E1 & E2 & E3 & _) N W j t ts H. destruct acc as [|d acc]; [congruence|]. cbn [hd] in *. 
  rewrite <- map_map with (f := LSec) (g := Some) in H. pose proof (column_leaf_ok _ _ _ H W) as O.
  assert (Ht : is_u32 t) by (inversion O; auto).
  destruct (decoded_gen d acc j (LSec t) (map LSec ts) H) as (m0 & Em & Et & Ev).
  - cbn. apply is_i64_i64.
  - discriminate.
  - change (LSec t :: map LSec ts) with (map LSec (t :: ts)). apply Forall_forall. intros x Hx. apply in_map_iff in Hx as (? & <- & _). exact I.
  - exists m0. rewrite E1. split; [exact Em|]. split; [exact Et|]. rewrite Ev.
    change (LSec t :: map LSec ts) with (map LSec (t :: ts)). rewrite map_map. apply map_ext_in. intros u Hu.
    change (map LSec (t :: ts)) with (map LSec (t :: ts)) in O. rewrite Forall_forall in O.
    assert (Hu' : is_u32 u) by (apply (O (LSec u)); change (LSec t :: map LSec ts) with (map LSec (t :: ts)); now apply in_map).
    unfold nint. cbn [xleaf snd leaf_int start_of]. unfold is_u32 in *.
    rewrite i64_i64_add. apply i64_id. unfold is_i64. lia.
Qed.
Lemma chunk_restores_dates m c md start acc : chunk_is nan m c (md, start, acc) -> acc <> [] -> Forall wf_fields acc ->
  restores_dates c acc.
Proof.
  intros (E1 & E2 & E3 & _) N W j t ts H. destruct acc as [|d acc]; [congruence|]. cbn [hd] in *. 
  rewrite <- map_map with (f := LDate) (g := Some) in H.
  assert (R : forall i, is_i64 (epoch_ms (ms_time i)) /\ epoch_ms (ms_time i) = Z.quot (i64 (i * 1000000)) 1000000).
  { intros i. unfold epoch_ms, ms_time. pose proof (Z.quot_rem' i 1000) as Q.
    replace (Z.quot i 1000 * 1000000000 + Z.rem i 1000 * 1000000) with (i * 1000000) by lia. split; [|reflexivity].
    pose proof (is_i64_i64 (i * 1000000)) as B. unfold is_i64 in *. set (z := i64 (i * 1000000)) in *.
    pose proof (Z.quot_rem' z 1000000). pose proof (Z.rem_bound_abs z 1000000 ltac:(lia)). lia. }
  destruct (decoded_gen d acc j (LDate t) (map LDate ts) H) as (m0 & Em & Et & Ev).
  - cbn. apply R.
  - discriminate.
  - change (LDate t :: map LDate ts) with (map LDate (t :: ts)). apply Forall_forall. intros x Hx. apply in_map_iff in Hx as (? & <- & _). exact I.
  - exists m0. rewrite E1. split; [exact Em|]. split; [exact Et|]. rewrite Ev.
    change (LDate t :: map LDate ts) with (map LDate (t :: ts)). rewrite map_map. apply map_ext_in. intros u Hu.
    unfold nint. cbn [xleaf snd leaf_int start_of]. destruct (R u) as [Iu <-].
    replace (epoch_ms (ms_time t) + (epoch_ms (ms_time u) - epoch_ms (ms_time t))) with (epoch_ms (ms_time u)) by lia.
    now apply i64_id.
Qed.
End Chunks2.

(* ---------------------------------------------------- the base collector, C35-C37 *)

(* A collector from NewBaseCollector(max), on which SetMetadata may have been called. *)
Definition base_with (max : Z) (md : option document) : better :=
  match md with None => new_base max | Some es => b_set_metadata (new_base max) es end.
Definition meta_ok (fuel : nat) (md : option document) (mfs : option (list (bytes * bval))) : Prop :=
  match md, mfs with
  | None, None => True
  | Some es, Some m => sample fuel es m /\ zlen (enc_doc m) + 100 < 2147483648 /\ enough fuel (zlen (enc_doc m) + 100)
  | _, _ => False
  end.
Lemma meta_ok_fits fuel md mfs : meta_ok fuel md mfs -> meta_is md mfs /\ forall start, meta_fits fuel start mfs.
Proof.
  unfold meta_ok, meta_is, meta_fits. destruct md as [es|], mfs as [m|]; try contradiction; [|auto].
  intros (Sa & L & F). split; [split; [eapply sample_rep; eauto|apply Sa]|].
  intros start. assert (E : zlen (enc_doc (meta_fields start m)) < zlen (enc_doc m) + 100).
  { unfold meta_fields. unfold enc_doc at 1. cbn [enc_elems]. zlens. rewrite !zlen_enc_elem, enc_body_doc. cbn [enc_body].
    change (zlen k_id) with 3. change (zlen k_type) with 4. change (zlen k_doc) with 3. zlens. lia. }
  unfold small, enough in *. lia.
Qed.
Lemma base_with_state nan max md : cstate nan (base_with max md) md max [].
Proof. destruct md; repeat split; auto. Qed.
Lemma s_run_wf max dfs : forall acc, Forall wf_fields acc -> Forall wf_fields dfs -> Forall wf_fields (fst (s_run max acc dfs)).
Proof.
  induction dfs as [|d r IH]; intros acc Wa W; [exact Wa|]. inversion_clear W as [|? ? Wd Wr]. cbn [s_run].
  specialize (IH (match s_take max acc d with Taken => acc ++ [d] | _ => acc end)).
  destruct (s_run max _ r) as [acc' os]. cbn in *. apply IH; auto. destruct (s_take max acc d); auto. apply Forall_app; auto.
Qed.
Lemma s_run_in max dfs : forall acc d, In d (fst (s_run max acc dfs)) -> In d acc \/ In d dfs.
Proof.
  induction dfs as [|e r IH]; intros acc d H; [left; exact H|]. cbn [s_run] in H.
  specialize (IH (match s_take max acc e with Taken => acc ++ [e] | _ => acc end) d).
  destruct (s_run max _ r) as [acc' os]. cbn in *. destruct (IH H) as [Q|Q]; [|auto].
  destruct (s_take max acc e); auto. apply in_app_or in Q as [Q|[<-|[]]]; auto.
Qed.
Lemma s_run_hd max dfs : forall a acc, exists r, fst (s_run max (a :: acc) dfs) = a :: r.
Proof.
  induction dfs as [|e r IH]; intros a acc; [exists acc; reflexivity|]. cbn [s_run].
  assert (Q : exists acc', match s_take max (a :: acc) e with Taken => (a :: acc) ++ [e] | _ => a :: acc end = a :: acc').
  { destruct (s_take max (a :: acc) e); eauto. cbn. eauto. }
  destruct Q as (acc' & Q). rewrite Q. specialize (IH a acc'). destruct (s_run max (a :: acc') r). exact IH.
Qed.

(* What the base collector accepts, resolved and read again with any sizes of Read calls,
   is one chunk. *)
Theorem base_round_trip : forall nan zip unzip fuel max md mfs docs d0 dfs c rs,
  codec_ok zip unzip -> 0 <= max < 4294967296 -> meta_ok fuel md mfs ->
  Forall2 (fun d fs => sample fuel (snd d) fs) docs (d0 :: dfs) ->
  add_all nan fuel (base_with max md) docs = (c, rs) ->
  let acc := fst (s_run max [] (d0 :: dfs)) in
  chunk_room d0 (zlen acc) < 2147483648 -> enough fuel (chunk_room d0 (zlen acc)) ->
  rs = map (fun o => Ret (err_of o)) (snd (s_run max [] (d0 :: dfs))) /\
  Forall wf_fields acc /\ Forall small acc /\ hd [] acc = d0 /\ acc <> [] /\
  exists out start, b_resolve zip fuel c = Ret (inl out) /\
    forall s n, st_data s = out -> st_err s = EEOF -> (2 < n)%nat ->
      exists ch, read_chunks unzip n fuel s = ([ch], Ret None) /\
        chunk_is nan (meta_after None (mfs, start, acc)) ch (mfs, start, acc).
Proof.
  intros nan zip unzip fuel max md mfs docs d0 dfs c rs Cz Mx Mo Sa Run acc Room Fu.
  destruct (meta_ok_fits _ _ _ Mo) as [Mi Mf].
  destruct (run_spec nan fuel max md ltac:(lia) docs (d0 :: dfs) (base_with max md) [] (base_with_state nan max md) Sa) as (c' & E & C).
  rewrite E in Run. injection Run as <- <-. fold acc in C. split; [reflexivity|].
  assert (Wd : Forall wf_fields (d0 :: dfs) /\ Forall small (d0 :: dfs)).
  { clear -Sa. induction Sa as [|? ? ? ? H F IH]; [split; constructor|]. destruct IH, H as (? & ? & _). split; constructor; auto. }
  destruct Wd as [Wd Sd].
  assert (Ha : exists r, acc = d0 :: r).
  { destruct (s_run_hd max dfs d0 []) as (r & Er). exists r. rewrite <- Er. unfold acc. cbn [s_run s_take app].
    destruct (s_run max [d0] dfs). reflexivity. }
  destruct Ha as (r & Ha).
  assert (Wa : Forall wf_fields acc) by (apply s_run_wf; [constructor|exact Wd]).
  assert (Sma : Forall small acc).
  { rewrite Forall_forall in *. intros d Hd. destruct (s_run_in max _ [] d Hd) as [[]|Q]. auto. }
  assert (Hh : hd [] acc = d0) by (now rewrite Ha). assert (Na : acc <> []) by (rewrite Ha; discriminate).
  repeat (split; [assumption|]).
  destruct (resolve_seg nan zip unzip Cz fuel c' md mfs max acc C Na Mi Mf ltac:(lia)) as (start & Er & Ok); try (now rewrite Hh).
  exists (seg_bytes nan zip (mfs, start, acc)), start. split; [exact Er|].
  intros s n D Ee Ln. destruct (read_segs nan zip unzip Cz fuel n [(mfs, start, acc)] s) as (cs & R & K); auto.
  - rewrite D. cbn [map concat]. now rewrite app_nil_r.
  - destruct cs as [|ch [|ch2 cs]]; cbn [chunks_are] in K; try contradiction; [|destruct K as [_ []]].
    destruct K as [K _]. eauto.
Qed.

(* C35.  Every integer metric of every accepted sample is restored exactly; the exceptions
   (doubles, seconds of timestamps, dates outside 1678-2262) are in the definition of
   exact.  Missing: those. *)
Theorem C35_integers_restored_partial : forall nan zip unzip fuel max md mfs docs d0 dfs c rs,
  codec_ok zip unzip -> 0 <= max < 4294967296 -> meta_ok fuel md mfs ->
  Forall2 (fun d fs => sample fuel (snd d) fs) docs (d0 :: dfs) ->
  add_all nan fuel (base_with max md) docs = (c, rs) ->
  let acc := fst (s_run max [] (d0 :: dfs)) in
  chunk_room d0 (zlen acc) < 2147483648 -> enough fuel (chunk_room d0 (zlen acc)) ->
  rs = map (fun o => Ret (err_of o)) (snd (s_run max [] (d0 :: dfs))) /\
  exists out, b_resolve zip fuel c = Ret (inl out) /\
    forall s n, st_data s = out -> st_err s = EEOF -> (2 < n)%nat ->
      exists ch, read_chunks unzip n fuel s = ([ch], Ret None) /\
        restores_ints ch acc /\ restores_seconds ch acc /\ restores_dates ch acc.
Proof.
  intros nan zip unzip fuel max md mfs docs d0 dfs c rs Cz Mx Mo Sa Run acc Room Fu.
  destruct (base_round_trip _ _ _ _ _ _ _ _ _ _ _ _ Cz Mx Mo Sa Run Room Fu) as (Er & Wa & _ & _ & Na & out & start & Eo & Rd).
  split; [exact Er|]. exists out. split; [exact Eo|]. intros s n D Ee Ln. destruct (Rd s n D Ee Ln) as (ch & Ec & K).
  exists ch. split; [exact Ec|]. fold acc in K. 
  split; [|split]; [eapply chunk_restores_ints|eapply chunk_restores_seconds|eapply chunk_restores_dates]; eauto.
Qed.
Print Assumptions C35_integers_restored_partial.

(* C36.  The first sample of a double metric is restored; the others come back as the
   differences between consecutive samples. *)
Theorem C36_doubles_partial : forall nan zip unzip fuel max md mfs docs d0 dfs c rs,
  codec_ok zip unzip -> 0 <= max < 4294967296 -> meta_ok fuel md mfs ->
  Forall2 (fun d fs => sample fuel (snd d) fs) docs (d0 :: dfs) ->
  add_all nan fuel (base_with max md) docs = (c, rs) ->
  let acc := fst (s_run max [] (d0 :: dfs)) in
  chunk_room d0 (zlen acc) < 2147483648 -> enough fuel (chunk_room d0 (zlen acc)) ->
  exists out, b_resolve zip fuel c = Ret (inl out) /\
    forall s n, st_data s = out -> st_err s = EEOF -> (2 < n)%nat ->
      exists ch, read_chunks unzip n fuel s = ([ch], Ret None) /\ restores_doubles nan ch acc.
Proof.
  intros nan zip unzip fuel max md mfs docs d0 dfs c rs Cz Mx Mo Sa Run acc Room Fu.
  destruct (base_round_trip _ _ _ _ _ _ _ _ _ _ _ _ Cz Mx Mo Sa Run Room Fu) as (Er & Wa & _ & _ & Na & out & start & Eo & Rd).
  exists out. split; [exact Eo|]. intros s n D Ee Ln. destruct (Rd s n D Ee Ln) as (ch & Ec & K).
  exists ch. split; [exact Ec|]. fold acc in K. eapply chunk_restores_doubles; eauto.
Qed.
Print Assumptions C36_doubles_partial.

(* C37.  ReadStructuredMetrics gives back the accepted documents without their other
   fields, in order, when they have the same keys and types and every metric is exact. *)
Theorem C37_structured_partial : forall nan zip unzip fuel max md mfs docs d0 dfs c rs,
  codec_ok zip unzip -> 0 <= max < 4294967296 -> meta_ok fuel md mfs ->
  Forall2 (fun d fs => sample fuel (snd d) fs) docs (d0 :: dfs) ->
  add_all nan fuel (base_with max md) docs = (c, rs) ->
  let acc := fst (s_run max [] (d0 :: dfs)) in
  chunk_room d0 (zlen acc) < 2147483648 -> enough fuel (chunk_room d0 (zlen acc)) ->
  (forall d, In d acc -> doc_shape (strip_doc d) = doc_shape (strip_doc d0) /\ Forall exact (doc_leaves d)) ->
  exists out, b_resolve zip fuel c = Ret (inl out) /\
    forall s n, st_data s = out -> st_err s = EEOF -> (2 < n)%nat ->
      exists ess, read_structured unzip n fuel s = (Ret ess, Ret None) /\
        Forall2 (fun es d => doc_obtained (strip_doc d) es (zlen (enc_doc (strip_doc d)))) ess acc.
Proof.
  intros nan zip unzip fuel max md mfs docs d0 dfs c rs Cz Mx Mo Sa Run acc Room Fu Hs.
  destruct (base_round_trip _ _ _ _ _ _ _ _ _ _ _ _ Cz Mx Mo Sa Run Room Fu) as (Er & Wa & Sma & Hh & Na & out & start & Eo & Rd).
  exists out. split; [exact Eo|]. intros s n D Ee Ln. destruct (Rd s n D Ee Ln) as (ch & Ec & K). fold acc in K, Hh.
  pose proof (chunk_restores_docs _ _ _ _ _ _ K Na Wa Sma) as R. unfold restores_docs in R. fold acc in R. rewrite Hh in R.
  destruct (R Hs) as (ess & Es & F). exists ess. split; [|exact F].
  unfold read_structured. rewrite Ec. cbn [map concatM fold_right]. rewrite Es. cbn [bind]. now rewrite app_nil_r.
Qed.
Print Assumptions C37_structured_partial.

Lemma sample_built fuel fs es : build_doc fs = Ret es -> wf_fields fs -> small fs -> enough fuel (zlen (enc_doc fs)) -> sample fuel es fs.
Proof. intros B W S F. repeat split; auto. eexists. apply do_built. exact B. Qed.

(* two or more samples of one metric called "a" *)
Definition k_a : bytes := [97].
Definition one (v : bval) : list (bytes * bval) := [(k_a, v)].
Definition tiny (v : bval) : Prop := wf v /\ zlen (enc_body v) < 40.
Lemma one_sample v : tiny v -> exists es, build_doc (one v) = Ret es /\ sample 2000 es (one v).
Proof.
  intros [W L].
  assert (W' : wf_fields (one v)) by (constructor; [split; [now apply key_ok|exact W]|constructor]).
  assert (L' : zlen (enc_doc (one v)) < 50).
  { unfold one, enc_doc. cbn [enc_elems]. zlens. rewrite zlen_enc_elem. change (zlen k_a) with 1. lia. }
  destruct (build_doc_rep (one v) W') as (es & B & _); [unfold small; lia|].
  exists es. split; [exact B|]. apply sample_built; auto; unfold small, enough; lia.
Qed.

(* the chunk a base collector of size 5 makes of samples of one metric *)
Lemma one_chunk nan zip unzip vs v0 : codec_ok zip unzip -> Forall tiny (v0 :: vs) -> (length vs <= 5)%nat ->
  Forall (fun v => schema (one v) = schema (one v0)) vs -> zlen (leaves v0) <= 2 ->
  exists docs c rs out, mapM (fun v => build_doc (one v)) (v0 :: vs) = Ret docs /\
    add_all nan 2000 (new_base 5) (map (fun es => (0, es)) docs) = (c, rs) /\ Forall (fun r => r = Ret None) rs /\
    b_resolve zip 2000 c = Ret (inl out) /\
    forall s n, st_data s = out -> st_err s = EEOF -> (2 < n)%nat ->
      exists ch, read_chunks unzip n 2000 s = ([ch], Ret None) /\
        c_metrics ch = decoded nan (one v0) (map x_fields (map one (v0 :: vs))) /\
        c_points ch = zlen (v0 :: vs) /\ c_ref ch = swapf (one v0).
Proof.
  intros Cz T L Sc L2.
  assert (D : exists docs, mapM (fun v => build_doc (one v)) (v0 :: vs) = Ret docs /\
    Forall2 (fun d fs => sample 2000 (snd d) fs) (map (fun es => (0, es)) docs) (map one (v0 :: vs))).
  { clear -T. induction T as [|v l Hv Hl IH]; [exists []; split; [reflexivity|constructor]|].
    destruct (one_sample v Hv) as (es & B & Sa), IH as (docs & E & F). exists (es :: docs).
    split; [|constructor; assumption].
    change (mapM (fun v => build_doc (one v)) (v :: l)) with (b <- build_doc (one v) ;; bs <- mapM (fun v => build_doc (one v)) l ;; Ret (b :: bs)).
    now rewrite B, E. }
  destruct D as (docs & D & F). exists docs.
  destruct (add_all nan 2000 (new_base 5) (map (fun es => (0, es)) docs)) as [c rs] eqn:R. exists c, rs. cbn [map] in F.
  assert (Ea : forall l acc, Forall (fun v => schema (one v) = schema (one v0)) l -> (length acc + length l <= 5)%nat ->
    s_run 5 (one v0 :: acc) (map one l) = (one v0 :: acc ++ map one l, map (fun _ => Taken) l)).
  { clear. induction l as [|v l IH]; intros acc F B; cbn [map s_run]; [now rewrite app_nil_r|].
    inversion_clear F as [|? ? Fv Fl]. cbn [length] in B.
    assert (s_take 5 (one v0 :: acc) (one v) = Taken) as ->.
    { unfold s_take. replace (5 <=? zlen acc) with false by (unfold zlen; lia). unfold zs_eqb. rewrite Fv.
      destruct (list_eq_dec Z.eq_dec (schema (one v0)) (schema (one v0))); congruence. }
    cbn [app]. rewrite IH by (rewrite ?app_length; cbn [length]; auto; lia). rewrite <- app_assoc. reflexivity. }
  assert (Er : s_run 5 [] (one v0 :: map one vs) = (map one (v0 :: vs), map (fun _ => Taken) (v0 :: vs))).
  { cbn [s_run s_take app]. rewrite (Ea vs []); auto. }
  assert (Room : chunk_room (one v0) (zlen (fst (s_run 5 [] (one v0 :: map one vs)))) < 1000).
  { rewrite Er. cbn [fst]. rewrite zlen_map. unfold chunk_room. inversion_clear T as [|? ? [W0 B0] _].
    assert (zlen (enc_doc (one v0)) < 50).
    { unfold one, enc_doc. cbn [enc_elems]. zlens. rewrite zlen_enc_elem. change (zlen k_a) with 1. lia. }
    assert (doc_leaves (one v0) = leaves v0) as -> by (unfold doc_leaves, one; cbn; now rewrite app_nil_r).
    assert (1 <= zlen (v0 :: vs) <= 6) by (unfold zlen; cbn [length]; lia). posl. nia. }
  destruct (base_round_trip nan zip unzip 2000 5 None None _ (one v0) (map one vs) c rs Cz ltac:(lia) I F R) as (Es & _ & _ & _ & _ & out & start & Eo & Rd).
  - lia.
  - unfold enough. lia.
  - exists out. split; [exact D|]. split; [reflexivity|]. split.
    + rewrite Es, Er. cbn [snd]. apply Forall_forall. intros r Hr. apply in_map_iff in Hr as (o & <- & Ho).
      apply in_map_iff in Ho as (? & <- & _). reflexivity.
    + split; [exact Eo|]. intros s n E1 E2 E3. destruct (Rd s n E1 E2 E3) as (ch & Ec & K). rewrite Er in K. cbn [fst] in K.
      destruct K as (K1 & K2 & K3 & _). exists ch. rewrite zlen_map in K2. auto.
Qed.

Ltac tinies := repeat (first [apply Forall_nil | apply Forall_cons]); try (split; [cbn; unfold is_u64, is_u32, is_i64, is_i32; lia|reflexivity]); try reflexivity.

(* Finding: with every zlib, two samples {a: 1.0}, {a: 1.0} come back as 1.0 and 0.0. *)
Theorem C36_refuted : forall nan zip unzip, codec_ok zip unzip ->
  exists docs c rs out, mapM (fun v => build_doc (one v)) [BDouble 4607182418800017408; BDouble 4607182418800017408] = Ret docs /\
    add_all nan 2000 (new_base 5) (map (fun es => (0, es)) docs) = (c, rs) /\ Forall (fun r => r = Ret None) rs /\
    b_resolve zip 2000 c = Ret (inl out) /\
    forall s n, st_data s = out -> st_err s = EEOF -> (2 < n)%nat ->
      exists ch, read_chunks unzip n 2000 s = ([ch], Ret None) /\
        map (fun m => (m_type m, m_values m)) (c_metrics ch) = [(1, [4607182418800017408; 0])].
Proof.
  intros nan zip unzip Cz.
  destruct (one_chunk nan zip unzip [BDouble 4607182418800017408] (BDouble 4607182418800017408) Cz) as (docs & c & rs & out & D & R & Ok & Eo & Rd);
    [tinies|cbn; lia|tinies|vm_compute; discriminate|].
  exists docs, c, rs, out. repeat (split; [assumption|]). intros s n E1 E2 E3. destruct (Rd s n E1 E2 E3) as (ch & Ec & K & _).
  exists ch. split; [exact Ec|]. rewrite K. vm_compute. reflexivity.
Qed.
Print Assumptions C36_refuted.

(* Finding: timestamps (1, 1) and (2, 1) come back with the seconds 1000 and 1001. *)
Theorem C35_timestamp_refuted : forall nan zip unzip, codec_ok zip unzip ->
  exists docs c rs out, mapM (fun v => build_doc (one v)) [BTimestamp 1 1; BTimestamp 2 1] = Ret docs /\
    add_all nan 2000 (new_base 5) (map (fun es => (0, es)) docs) = (c, rs) /\ Forall (fun r => r = Ret None) rs /\
    b_resolve zip 2000 c = Ret (inl out) /\
    forall s n, st_data s = out -> st_err s = EEOF -> (2 < n)%nat ->
      exists ch, read_chunks unzip n 2000 s = ([ch], Ret None) /\
        map (fun m => (m_type m, m_values m)) (c_metrics ch) = [(17, [1000; 1001]); (17, [1; 1])].
Proof.
  intros nan zip unzip Cz.
  destruct (one_chunk nan zip unzip [BTimestamp 2 1] (BTimestamp 1 1) Cz) as (docs & c & rs & out & D & R & Ok & Eo & Rd);
    [tinies|cbn; lia|tinies|vm_compute; discriminate|].
  exists docs, c, rs, out. repeat (split; [assumption|]). intros s n E1 E2 E3. destruct (Rd s n E1 E2 E3) as (ch & Ec & K & _).
  exists ch. split; [exact Ec|]. rewrite K. vm_compute. reflexivity.
Qed.
Print Assumptions C35_timestamp_refuted.

(* Finding: a date in the year 2286 comes back as one in 1702. *)
Theorem C35_date_refuted : forall nan zip unzip, codec_ok zip unzip ->
  exists docs c rs out, mapM (fun v => build_doc (one v)) [BDateTime 10000000000000] = Ret docs /\
    add_all nan 2000 (new_base 5) (map (fun es => (0, es)) docs) = (c, rs) /\ Forall (fun r => r = Ret None) rs /\
    b_resolve zip 2000 c = Ret (inl out) /\
    forall s n, st_data s = out -> st_err s = EEOF -> (2 < n)%nat ->
      exists ch, read_chunks unzip n 2000 s = ([ch], Ret None) /\
        map (fun m => (m_type m, m_values m)) (c_metrics ch) = [(9, [-8446744073709])].
Proof.
  intros nan zip unzip Cz.
  destruct (one_chunk nan zip unzip [] (BDateTime 10000000000000) Cz) as (docs & c & rs & out & D & R & Ok & Eo & Rd);
    [tinies|cbn; lia|tinies|vm_compute; discriminate|].
  exists docs, c, rs, out. repeat (split; [assumption|]). intros s n E1 E2 E3. destruct (Rd s n E1 E2 E3) as (ch & Ec & K & _).
  exists ch. split; [exact Ec|]. rewrite K. vm_compute. reflexivity.
Qed.
Print Assumptions C35_date_refuted.

(* Finding: so the documents restored are wrong too, here a timestamp (1, 5) and two 1.0. *)
Theorem C37_refuted : forall nan zip unzip, codec_ok zip unzip -> forall vs ws,
  (vs, ws) = ([BTimestamp 1 5], [BTimestamp 1000 5]) \/
  (vs, ws) = ([BDouble 4607182418800017408; BDouble 4607182418800017408], [BDouble 4607182418800017408; BDouble 0]) ->
  exists docs c rs out, mapM (fun v => build_doc (one v)) vs = Ret docs /\
    add_all nan 2000 (new_base 5) (map (fun es => (0, es)) docs) = (c, rs) /\ Forall (fun r => r = Ret None) rs /\
    b_resolve zip 2000 c = Ret (inl out) /\
    forall s n, st_data s = out -> st_err s = EEOF -> (2 < n)%nat ->
      exists ess, read_structured unzip n 2000 s = (Ret ess, Ret None) /\ mapM (fun v => build_doc (one v)) ws = Ret ess.
Proof.
  assert (G : forall nan zip unzip v0 vs ws ess, codec_ok zip unzip -> Forall tiny (v0 :: vs) -> (length vs <= 5)%nat ->
    Forall (fun v => schema (one v) = schema (one v0)) vs -> zlen (leaves v0) <= 2 ->
    c_structured (MkC (decoded nan (one v0) (map x_fields (map one (v0 :: vs)))) (zlen (v0 :: vs)) None None (swapf (one v0))) = Ret ess ->
    mapM (fun v => build_doc (one v)) ws = Ret ess ->
    exists docs c rs out, mapM (fun v => build_doc (one v)) (v0 :: vs) = Ret docs /\
      add_all nan 2000 (new_base 5) (map (fun es => (0, es)) docs) = (c, rs) /\ Forall (fun r => r = Ret None) rs /\
      b_resolve zip 2000 c = Ret (inl out) /\
      forall s n, st_data s = out -> st_err s = EEOF -> (2 < n)%nat ->
        exists ess, read_structured unzip n 2000 s = (Ret ess, Ret None) /\ mapM (fun v => build_doc (one v)) ws = Ret ess).
  { intros nan zip unzip v0 vs ws ess Cz T L Sc L2 St Sw.
    destruct (one_chunk nan zip unzip vs v0 Cz T L Sc L2) as (docs & c & rs & out & D & R & Ok & Eo & Rd).
    exists docs, c, rs, out. repeat (split; [assumption|]). intros s n E1 E2 E3. destruct (Rd s n E1 E2 E3) as (ch & Ec & K1 & K2 & K3).
    exists ess. split; [|exact Sw]. unfold read_structured. rewrite Ec. cbn [map concatM fold_right].
    unfold c_structured in *. cbn [c_metrics c_points c_ref] in St. rewrite K1, K2, K3, St. cbn [bind]. now rewrite app_nil_r. }
  intros nan zip unzip Cz vs ws [E|E]; injection E as -> ->.
  - eapply G; [exact Cz|tinies|cbn; lia|tinies|vm_compute; discriminate|vm_compute; reflexivity|vm_compute; reflexivity].
  - eapply G; [exact Cz|tinies|cbn; lia|tinies|vm_compute; discriminate|vm_compute; reflexivity|vm_compute; reflexivity].
Qed.
Print Assumptions C37_refuted.

(* The hypotheses of C35, C36 and C37 are met by samples with nested documents and arrays,
   wrap-around differences, runs of zeros, a refused sample and metadata. *)
Definition k_b : bytes := [98].
Definition nv_doc (i d : Z) (b : bool) : list (bytes * bval) :=
  [(k_a, BInt64 i); (k_b, BDoc [(k_a, BArray [BInt32 7; BString [120]; BDateTime d]); (k_b, BBool b)])].
Definition nv_docs : list (list (bytes * bval)) :=
  [nv_doc 9223372036854775807 (-5) true; nv_doc (-9223372036854775808) (-5) true; one (BInt32 1); nv_doc 3 9223372036854 false].
Example C35_nonvacuous : exists ess md c rs,
  mapM build_doc nv_docs = Ret ess /\ build_doc (one (BInt32 3)) = Ret md /\
  meta_ok 3000 (Some md) (Some (one (BInt32 3))) /\
  Forall2 (fun d fs => sample 3000 (snd d) fs) (map (fun es => (17, es)) ess) nv_docs /\
  add_all (fun _ _ => 0) 3000 (base_with 4 (Some md)) (map (fun es => (17, es)) ess) = (c, rs) /\
  fst (s_run 4 [] nv_docs) = [nth 0 nv_docs []; nth 1 nv_docs []; nth 3 nv_docs []] /\
  snd (s_run 4 [] nv_docs) = [Taken; Taken; Mismatch; Taken] /\
  (let acc := fst (s_run 4 [] nv_docs) in
   chunk_room (hd [] acc) (zlen acc) < 2147483648 /\ enough 3000 (chunk_room (hd [] acc) (zlen acc)) /\
   forall d, In d acc -> doc_shape (strip_doc d) = doc_shape (strip_doc (hd [] acc)) /\ Forall exact (doc_leaves d)).
Proof.
  assert (B : exists ess, mapM build_doc nv_docs = Ret ess) by (eexists; vm_compute; reflexivity). destruct B as (ess & B).
  assert (B1 : exists md, build_doc (one (BInt32 3)) = Ret md) by (eexists; vm_compute; reflexivity). destruct B1 as (md & B1).
  destruct (add_all (fun _ _ => 0) 3000 (base_with 4 (Some md)) (map (fun es => (17, es)) ess)) as [c rs] eqn:R.
  exists ess, md, c, rs. split; [exact B|]. split; [exact B1|].
  assert (Sm : forall v, tiny v -> forall es, build_doc (one v) = Ret es -> sample 3000 es (one v)).
  { intros v T es E. destruct (one_sample v T) as (es' & E' & (W & S & F & N)). assert (es' = es) by congruence. subst.
    split; [exact W|]. split; [exact S|]. split; [unfold enough in *; lia|exact N]. }
  assert (Wn : forall i d b, is_i64 i -> is_i64 d -> wf_fields (nv_doc i d b)).
  { intros i d b Hi Hd. apply wf_doc. cbn. assert (cstr_ok k_a /\ cstr_ok k_b /\ bytes_ok [120]) as (? & ? & ?).
    { split; [now apply key_ok|]. split; [now apply key_ok|]. constructor; [unfold is_u8; lia|constructor]. }
    assert (is_i32 7) by (unfold is_i32; lia). tauto. }
  split; [|split; [|split; [exact R|split; [vm_compute; reflexivity|split; [vm_compute; reflexivity|]]]]].
  - split; [|split].
    + apply (Sm (BInt32 3)); [split; [cbn; unfold is_i32; lia|reflexivity]|exact B1].
    + vm_compute. reflexivity.
    + unfold enough. vm_compute. reflexivity.
  - assert (Sn : forall i d b es, is_i64 i -> is_i64 d -> build_doc (nv_doc i d b) = Ret es -> sample 3000 es (nv_doc i d b)).
    { intros i d b es Hi Hd E. assert (L : zlen (enc_doc (nv_doc i d b)) < 200) by (destruct b; vm_compute; reflexivity).
      apply sample_built; auto; unfold small, enough; lia. }
    unfold nv_docs in *. cbn [mapM] in B.
    destruct (build_doc (nv_doc 9223372036854775807 (-5) true)) as [e1| |] eqn:E1; try discriminate. cbn [bind] in B.
    destruct (build_doc (nv_doc (-9223372036854775808) (-5) true)) as [e2| |] eqn:E2; try discriminate. cbn [bind] in B.
    destruct (build_doc (one (BInt32 1))) as [e3| |] eqn:E3; try discriminate. cbn [bind] in B.
    destruct (build_doc (nv_doc 3 9223372036854 false)) as [e4| |] eqn:E4; try discriminate. cbn [bind] in B.
    injection B as <-. cbn [map].
    constructor; [apply Sn; auto; unfold is_i64; lia|]. constructor; [apply Sn; auto; unfold is_i64; lia|].
    constructor; [apply (Sm (BInt32 1)); [split; [cbn; unfold is_i32; lia|reflexivity]|exact E3]|].
    constructor; [apply Sn; auto; unfold is_i64; lia|]. constructor.
  - assert (E : fst (s_run 4 [] nv_docs) = [nth 0 nv_docs []; nth 1 nv_docs []; nth 3 nv_docs []]) by (vm_compute; reflexivity).
    cbv zeta. rewrite E. split; [vm_compute; reflexivity|]. split; [unfold enough; vm_compute; reflexivity|].
    intros d [<-|[<-|[<-|[]]]]; (split; [vm_compute; reflexivity|]); repeat constructor; cbn; lia.
Qed.
