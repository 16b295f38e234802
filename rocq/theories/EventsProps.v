(* Properties of performance points, collectors of events and recorders: C44, C45, C73 to C75. *)
Require Import ZArith List Bool Lia ZifyBool ZifyNat String.
From Verif Require Import Base BSpec Elements Value Codec CodecRead CodecRep Api ApiProofs Tree GetterProofs ReaderOps CodecProps
  Search EmptyProps Events.
Import List ListNotations.
Open Scope Z_scope.

(* ----------------------------------------------------------------- C44: documents *)

Definition counters_ok (c : counters) : Prop := is_i64 (c_number c) /\ is_i64 (c_ops c) /\ is_i64 (c_size c) /\ is_i64 (c_errors c).
Definition perf_ok (p : perf) : Prop :=
  is_i64 (p_ts p / 1000000) /\ is_i64 (p_id p) /\ counters_ok (p_c p) /\ is_i64 (t_dur (p_t p)) /\ is_i64 (t_total (p_t p)) /\
  is_i64 (g_state (p_g p)) /\ is_i64 (g_workers (p_g p)).
(* the document of a point, as its struct tags announce it; times have milliseconds *)
Definition perf_fields (p : perf) : list (bytes * bval) :=
  [(str "ts", BDateTime (p_ts p / 1000000));
   (str "id", BInt64 (p_id p));
   (str "counters", BDoc [(str "n", BInt64 (c_number (p_c p))); (str "ops", BInt64 (c_ops (p_c p)));
                          (str "size", BInt64 (c_size (p_c p))); (str "errors", BInt64 (c_errors (p_c p)))]);
   (str "timers", BDoc [(str "dur", BInt64 (t_dur (p_t p))); (str "total", BInt64 (t_total (p_t p)))]);
   (str "gauges", BDoc [(str "state", BInt64 (g_state (p_g p))); (str "workers", BInt64 (g_workers (p_g p)));
                        (str "failed", BBool (g_failed (p_g p)))])].

Lemma str_ok s : (forall c, In c (list_ascii_of_string s) -> c <> Ascii.zero) -> cstr_ok (str s).
Proof.
  intros H. unfold str, cstr_ok, bytes_ok, nul_free. rewrite !Forall_forall. split; intros x I; apply in_map_iff in I as (c & <- & Ic);
    pose proof (Ascii.nat_ascii_bounded c); unfold is_u8; [lia|]. specialize (H c Ic).
  intros E. apply H. rewrite <- (Ascii.ascii_nat_embedding c). replace (Ascii.nat_of_ascii c) with 0%nat by lia. reflexivity.
Qed.
Lemma perf_fields_ok p : perf_ok p -> wf_fields (perf_fields p) /\ zlen (enc_doc (perf_fields p)) = 193.
Proof.
  intros (H1 & H2 & (H3 & H4 & H5 & H6) & H7 & H8 & H9 & H10). split.
  - unfold perf_fields, wf_fields, wf_field.
    repeat (apply Forall_cons; cbn [fst snd]); try apply Forall_nil; (split; [apply str_ok; cbn; intuition (subst; discriminate)|]);
    try (cbn [wf]; assumption); apply wf_doc; unfold wf_fields, wf_field.
    all: repeat (apply Forall_cons; cbn [fst snd]); try apply Forall_nil; (split; [apply str_ok; cbn; intuition (subst; discriminate)|]);
    try (cbn [wf]; assumption); try exact I.
  - reflexivity.
Qed.
Theorem C44_document p : perf_ok p -> exists d, perf_document p = Ret d /\ build_doc (perf_fields p) = Ret d.
Proof.
  intros Ok. destruct (perf_fields_ok p Ok) as [W L].
  destruct (build_doc_rep (perf_fields p) W ltac:(unfold small; lia)) as (d & B & _). exists d. split; [|exact B].
  rewrite <- B. destruct Ok as (H1 & _). unfold perf_document, perf_fields, ec_duration. cbn [build_doc]. rewrite !build_BDoc. cbn [build_doc].
  unfold ec_time.
  assert (E : i64 (i64 (p_ts p / 1000000000 * 1000) + p_ts p mod 1000000000 / 1000000) = p_ts p / 1000000).
  { assert (A : p_ts p / 1000000000 * 1000 + p_ts p mod 1000000000 / 1000000 = p_ts p / 1000000) by lia.
    unfold is_i64, i64 in *. lia. }
  rewrite E. cbn [build].
  repeat match goal with |- (x <- ?a ;; _) = _ => destruct a; cbn [bind]; try reflexivity end.
Qed.
Print Assumptions C44_document.

Lemma int64_rep k v i : rep k v (BInt64 i) -> is_i64 i -> v_int64 (Some v) = Ret i.
Proof.
  intros R W. destruct (rep_scalar _ _ _ R) as (p & q & -> & F); try discriminate. now apply v_int64_lz.
Qed.
Lemma bool_rep k v b : rep k v (BBool b) -> v_boolean (Some v) = Ret b.
Proof.
  intros R. destruct (rep_scalar _ _ _ R) as (p & q & -> & F); try discriminate. now apply v_boolean_lz.
Qed.
Lemma time_rep k v i : rep k v (BDateTime i) -> is_i64 i -> v_time (Some v) = Ret (i * 1000000).
Proof.
  intros R W. destruct (rep_scalar _ _ _ R) as (p & q & -> & F); try discriminate. unfold v_time. rewrite v_datetime_lz by auto.
  cbn [bind]. f_equal. pose proof (Z.quot_rem' i 1000). lia.
Qed.

Lemma each_rep {P} (f : bytes -> elem -> P -> go P) k v t es p : rep k v t ->
  each f (Some v :: es) p = (p' <- f k (Some v) p ;; each f es p').
Proof. intros R. cbn [each]. rewrite (elem_key_rep _ _ _ R). reflexivity. Qed.
Ltac keys := repeat match goal with |- context [bytes_eqb (str ?a) (str ?b)] =>
  let r := eval vm_compute in (bytes_eqb (str a) (str b)) in change (bytes_eqb (str a) (str b)) with r end; cbv beta iota.
Ltac next R := rewrite (each_rep _ _ _ _ _ _ R); keys.

(* C44.  What is restored from the document of a point, whether it was just made or read from
   its bytes: all but the id and the number of operations, and the time to the millisecond. *)
Theorem C44_unmarshal_partial fuel p d N p0 : perf_ok p -> doc_obtained (perf_fields p) d N -> (200 <= fuel)%nat ->
  perf_unmarshal fuel d p0 = Ret (MkPerf (p_ts p / 1000000 * 1000000) (p_id p0)
    (MkCnt (c_number (p_c p)) (c_ops (p_c p0)) (c_size (p_c p)) (c_errors (p_c p))) (p_t p) (p_g p)).
Proof.
  intros Ok D F. destruct (perf_fields_ok p Ok) as [W L].
  assert (F' : enough fuel (zlen (enc_doc (perf_fields p)))) by (unfold enough; lia).
  destruct (doc_obtained_good fuel N _ _ W ltac:(unfold small; lia) F' D) as (R & _).
  destruct Ok as (H1 & H2 & (H3 & H4 & H5 & H6) & H7 & H8 & H9 & H10).
  unfold perf_fields in *.
  destruct d as [|[e1|] [|[e2|] [|[e3|] [|[e4|] [|[e5|] [|[?|] ?]]]]]]; cbn [rep_doc] in R; try (exfalso; tauto).
  destruct R as (R1 & R2 & R3 & R4 & R5 & _).
  unfold wf_fields in W. rewrite Forall_forall in W.
  assert (Wd : forall k fs, In (k, BDoc fs) (perf_fields p) -> wf_fields fs).
  { intros k fs I. apply wf_doc. apply (W _ I). }
  pose proof (Wd _ _ (or_intror (or_intror (or_introl eq_refl)))) as W3.
  pose proof (Wd _ _ (or_intror (or_intror (or_intror (or_introl eq_refl))))) as W4.
  pose proof (Wd _ _ (or_intror (or_intror (or_intror (or_intror (or_introl eq_refl)))))) as W5.
  destruct (v_mutable_document_rep fuel _ _ _ R3 W3) as (d3 & E3 & Q3 & _); [reflexivity|change (59 < Z.of_nat fuel); lia|].
  destruct (v_mutable_document_rep fuel _ _ _ R4 W4) as (d4 & E4 & Q4 & _); [reflexivity|change (33 < Z.of_nat fuel); lia|].
  destruct (v_mutable_document_rep fuel _ _ _ R5 W5) as (d5 & E5 & Q5 & _); [reflexivity|change (46 < Z.of_nat fuel); lia|].
  unfold perf_unmarshal.
  next R1. rewrite (time_rep _ _ _ R1 H1). cbn [bind]. next R2. cbn [bind]. next R3. rewrite E3. cbn [bind].
  assert (C3 : forall c, counters_unmarshal d3 c = Ret (MkCnt (c_number (p_c p)) (c_ops c) (c_size (p_c p)) (c_errors (p_c p)))).
  { intros c. destruct d3 as [|[a1|] [|[a2|] [|[a3|] [|[a4|] [|[?|] ?]]]]]; cbn [rep_doc] in Q3; try (exfalso; tauto).
    destruct Q3 as (A1 & A2 & A3 & A4 & _). unfold counters_unmarshal.
    next A1. rewrite (int64_rep _ _ _ A1 H3). cbn [bind]. next A2. cbn [bind]. next A3. rewrite (int64_rep _ _ _ A3 H5). cbn [bind].
    next A4. rewrite (int64_rep _ _ _ A4 H6). reflexivity. }
  rewrite C3. cbn [bind]. next R4. rewrite E4. cbn [bind].
  assert (C4 : forall c, timers_unmarshal d4 c = Ret (p_t p)).
  { intros c. destruct d4 as [|[a1|] [|[a2|] [|[?|] ?]]]; cbn [rep_doc] in Q4; try (exfalso; tauto).
    destruct Q4 as (A1 & A2 & _). unfold timers_unmarshal.
    next A1. rewrite (int64_rep _ _ _ A1 H7). cbn [bind]. next A2. rewrite (int64_rep _ _ _ A2 H8). destruct (p_t p). reflexivity. }
  rewrite C4. cbn [bind]. next R5. rewrite E5. cbn [bind].
  assert (C5 : forall c, gauges_unmarshal d5 c = Ret (p_g p)).
  { intros c. destruct d5 as [|[a1|] [|[a2|] [|[a3|] [|[?|] ?]]]]; cbn [rep_doc] in Q5; try (exfalso; tauto).
    destruct Q5 as (A1 & A2 & A3 & _). unfold gauges_unmarshal.
    next A1. rewrite (int64_rep _ _ _ A1 H9). cbn [bind]. next A2. rewrite (int64_rep _ _ _ A2 H10). cbn [bind].
    next A3. rewrite (bool_rep _ _ _ A3). destruct (p_g p). reflexivity. }
  rewrite C5. reflexivity.
Qed.
Print Assumptions C44_unmarshal_partial.

(* C44.  So no point with an id, a number of operations or a time that is not a whole number
   of milliseconds comes back, whatever it is read into with those at zero. *)
Theorem C44_round_trip_refuted fuel p p0 : perf_ok p -> (200 <= fuel)%nat -> p_id p0 = 0 -> c_ops (p_c p0) = 0 ->
  p_id p <> 0 \/ c_ops (p_c p) <> 0 \/ p_ts p mod 1000000 <> 0 ->
  exists d p', perf_document p = Ret d /\ perf_unmarshal fuel d p0 = Ret p' /\ p' <> p.
Proof.
  intros Ok F Z1 Z2 H. destruct (C44_document p Ok) as (d & E & B). exists d. eexists. split; [exact E|].
  split; [apply C44_unmarshal_partial with (N := zlen (enc_doc (perf_fields p))); [exact Ok|now constructor|exact F]|].
  intros Q. destruct p as [ts id [a b c e] t g]. cbn in *. injection Q as Q1 Q2 Q3. pose proof (Z.div_mod ts 1000000). lia.
Qed.
Print Assumptions C44_round_trip_refuted.
Definition a_point : perf := MkPerf 1500000000123456789 7 (MkCnt 1 2 3 4) (MkTmr 5 6) (MkGau 7 8 true).
Example C44_document_nonvacuous : perf_ok a_point /\ exists d, perf_document a_point = Ret d /\
  perf_unmarshal 200 d (fresh_point no_gauges) = Ret (MkPerf 1500000000123000000 0 (MkCnt 1 0 3 4) (MkTmr 5 6) (MkGau 7 8 true)).
Proof.
  assert (Ok : perf_ok a_point) by (unfold perf_ok, counters_ok, is_i64; cbn; lia).
  split; [exact Ok|]. destruct (C44_document _ Ok) as (d & E & B). exists d. split; [exact E|].
  exact (C44_unmarshal_partial _ _ _ _ _ Ok (do_built _ _ B) (le_n _)).
Qed.

(* ----------------------------------------------------- C44: collectors of events *)

(* A history of a collector of events: what each AddEvent drew and read from the clock, and
   the point it was given, by value, with the outcomes.  Every call gets a point of its own,
   which the caller fills at will before and leaves alone after. *)
Definition aevent : Type := Z * Z * Z * option perf.
Inductive ehist (k : kind) : list aevent -> list nat -> memory -> events -> list outcome -> Prop :=
| eh_nil m : ehist k [] [] m new_events []
| eh_write h ps m c outs a p : ehist k h ps m c outs -> ~ In a ps -> ehist k h ps (store m a p) c outs
| eh_none h ps m c outs rnd t1 t2 m' c' o : ehist k h ps m c outs ->
    add_event k rnd t1 t2 None m c = Ret (m', c', o) -> ehist k (h ++ [(rnd, t1, t2, None)]) ps m' c' (outs ++ [o])
| eh_add h ps m c outs rnd t1 t2 i m' c' o : ehist k h ps m c outs -> ~ In i ps ->
    add_event k rnd t1 t2 (Some i) m c = Ret (m', c', o) ->
    ehist k (h ++ [(rnd, t1, t2, Some (m i))]) (ps ++ [i]) m' c' (outs ++ [o]).
Definition points (h : list aevent) : list perf := flat_map (fun e => match snd e with Some p => [p] | None => [] end) h.

(* The point that stands for all of vs: the sums, wrapped to 64 bits, and the time and gauges
   of the last; points without an id are numbered on. *)
Definition total (f : perf -> Z) (vs : list perf) : Z := i64 (fold_right Z.add 0 (map f vs)).
Definition numbered (vs : list perf) : Z :=
  match vs with
  | [] => 0
  | v :: r => fold_left (fun id w => if p_id w =? 0 then i64 (id + 1) else p_id w) r (p_id v)
  end.
Definition sums (vs : list perf) (p : perf) : Prop :=
  (exists before last, vs = before ++ [last] /\ p_ts p = p_ts last /\ p_g p = p_g last) /\ p_id p = numbered vs /\
  c_number (p_c p) = total (fun v => c_number (p_c v)) vs /\ c_ops (p_c p) = total (fun v => c_ops (p_c v)) vs /\
  c_size (p_c p) = total (fun v => c_size (p_c v)) vs /\ c_errors (p_c p) = total (fun v => c_errors (p_c v)) vs /\
  t_dur (p_t p) = total (fun v => t_dur (p_t v)) vs /\ t_total (p_t p) = total (fun v => t_total (p_t v)) vs.
Definition fields_ok (p : perf) : Prop := counters_ok (p_c p) /\ is_i64 (t_dur (p_t p)) /\ is_i64 (t_total (p_t p)).

Lemma i64_add a b : i64 (i64 a + b) = i64 (a + b).
Proof. unfold i64. lia. Qed.
Lemma total_snoc f vs v : total f (vs ++ [v]) = i64 (total f vs + f v).
Proof.
  unfold total. rewrite map_app, fold_right_app. cbn [map fold_right]. rewrite i64_add. f_equal. rewrite Z.add_0_r.
  induction vs as [|w vs IH]; cbn [map fold_right]; [lia|]. rewrite IH. lia.
Qed.
Lemma numbered_snoc vs v : vs <> [] -> numbered (vs ++ [v]) = if p_id v =? 0 then i64 (numbered vs + 1) else p_id v.
Proof. destruct vs as [|w vs]; [easy|]. intros _. cbn [app numbered]. rewrite fold_left_app. reflexivity. Qed.
Lemma sums_one v : fields_ok v -> sums [v] v.
Proof.
  intros ((H1 & H2 & H3 & H4) & H5 & H6). split; [exists [], v; auto|]. split; [reflexivity|].
  assert (A : forall x, is_i64 x -> x = i64 (x + 0)) by (intros x; unfold is_i64, i64; lia).
  unfold total. cbn [map fold_right]. auto 8.
Qed.
Lemma sums_snoc vs p v : vs <> [] -> sums vs p -> sums (vs ++ [v]) (perf_add p v).
Proof.
  intros N (_ & Hi & H1 & H2 & H3 & H4 & H5 & H6). split; [exists vs, v; auto|].
  rewrite !total_snoc, numbered_snoc by exact N. cbn. unfold next_id. rewrite Hi, H1, H2, H3, H4, H5, H6. auto 8.
Qed.
(* the id given to the point added is the one the sum gets *)
Lemma perf_add_with_id p v : perf_add p (with_id v (next_id p v)) = perf_add p v.
Proof.
  unfold perf_add, next_id, with_id. cbn. destruct (p_id v =? 0) eqn:E; [|now rewrite E].
  destruct (i64 (p_id p + 1) =? 0) eqn:E'; reflexivity.
Qed.
Lemma points_snoc h e : points (h ++ [e]) = points h ++ match snd e with Some p => [p] | None => [] end.
Proof. unfold points. rewrite flat_map_app. cbn. now rewrite app_nil_r. Qed.

Lemma ehist_inv k h ps m c outs : ehist k h ps m c outs -> Forall fields_ok (points h) ->
  ev_current c = hd_error ps /\ length ps = length (points h) /\ length outs = length h /\
  forall i, hd_error ps = Some i -> sums (points h) (m i).
Proof.
  induction 1 as [m|h ps m c outs a p H IH Na|h ps m c outs rnd t1 t2 m' c' o H IH E|h ps m c outs rnd t1 t2 i m' c' o H IH Ni E]; intros F.
  - easy.
  - destruct (IH F) as (I1 & I2 & I3 & I4). refine (conj I1 (conj I2 (conj I3 _))). intros i Hi. unfold store.
    destruct (Nat.eqb_spec i a) as [->|]; [|now apply I4]. destruct ps; [easy|]. injection Hi as ->. elim Na. now left.
  - rewrite points_snoc in F. cbn [snd] in F. rewrite app_nil_r in F. destruct (IH F) as (I1 & I2 & I3 & I4).
    cbn in E. injection E as <- <- <-. rewrite points_snoc. cbn [snd]. rewrite app_nil_r, !app_length. cbn. refine (conj I1 (conj I2 (conj _ I4))). lia.
  - rewrite points_snoc in *. cbn [snd] in *. apply Forall_app in F as [F1 F2]. destruct (IH F1) as (I1 & I2 & I3 & I4).
    apply Forall_inv in F2. rewrite !app_length. cbn [length].
    assert (G : ev_current c' = hd_error (ps ++ [i]) /\ forall j, hd_error (ps ++ [i]) = Some j -> sums (points h ++ [m i]) (m' j)).
    { unfold add_event in E. rewrite I1 in E. destruct ps as [|j ps]; cbn [hd_error app] in *.
      - destruct (points h); [|cbn in I2; lia]. cbn [app].
        assert (E' : m' = m /\ ev_current c' = Some i).
        { destruct k; [|destruct (n =? 0); [discriminate|]| |]; injection E as <- <- _; auto. }
        destruct E' as [-> ->]. split; [reflexivity|]. intros j [= <-]. now apply sums_one.
      - assert (E' : m' = mem_add m j i /\ ev_current c' = Some j).
        { destruct k; [|destruct (n =? 0); [discriminate|]| |destruct (dur <=? since t1 (ev_last c))]; injection E as <- <- _; auto. }
        destruct E' as [-> ->]. split; [reflexivity|]. intros j' [= <-].
        unfold mem_add, store. rewrite !Nat.eqb_refl. destruct (Nat.eqb_spec j i) as [->|]; [elim Ni; now left|].
        rewrite perf_add_with_id. apply sums_snoc; [|now apply I4]. destruct (points h); [cbn in I2; lia|easy]. }
    destruct G as [G1 G2]. refine (conj G1 (conj _ (conj _ G2))); lia.
Qed.
Lemma firstn_snoc {A} n (l : list A) x : (n <= length l)%nat -> firstn n (l ++ [x]) = firstn n l.
Proof. intros H. rewrite firstn_app. replace (n - length l)%nat with 0%nat by lia. cbn. apply app_nil_r. Qed.
Lemma nth_snoc {A} (l : list A) x n y : nth_error (l ++ [x]) n = Some y ->
  nth_error l n = Some y \/ n = length l /\ y = x.
Proof.
  intros H. destruct (Nat.lt_ge_cases n (length l)) as [L|L]; [left; now rewrite nth_error_app1 in H|right].
  rewrite nth_error_app2 in H by exact L. destruct (n - length l)%nat eqn:D; cbn in H; [injection H as ->; split; [lia|easy]|].
  now destruct n0.
Qed.

(* C44.  Whatever the collector: a point it passes on stands for all the points added so far. *)
Theorem C44_running_sums k h ps m c outs n p : ehist k h ps m c outs -> Forall fields_ok (points h) ->
  nth_error outs n = Some (Forwarded p) -> sums (points (firstn (S n) h)) p.
Proof.
  intros H. revert n p. induction H as [m|h ps m c outs a q H IH Na|h ps m c outs rnd t1 t2 m' c' o H IH E|h ps m c outs rnd t1 t2 i m' c' o H IH Ni E]; intros n p F N.
  - now destruct n.
  - now apply IH.
  - rewrite points_snoc in F. cbn [snd] in F. rewrite app_nil_r in F. pose proof (ehist_inv _ _ _ _ _ _ H F) as (_ & _ & L & _).
    apply nth_snoc in N as [N|[-> N]].
    + assert (n < length outs)%nat by (apply nth_error_Some; congruence). rewrite firstn_snoc by lia. now apply IH.
    + cbn in E. injection E as _ _ <-. discriminate.
  - pose proof (eh_add _ _ _ _ _ _ _ _ _ _ _ _ _ H Ni E) as H'. pose proof (ehist_inv _ _ _ _ _ _ H' F) as (I1 & I2 & L & I4).
    rewrite !app_length in L. cbn in L. rewrite points_snoc in F. apply Forall_app in F as [F _].
    apply nth_snoc in N as [N|[-> N]].
    + assert (n < length outs)%nat by (apply nth_error_Some; congruence). rewrite firstn_snoc by lia. now apply IH.
    + replace (S (length outs)) with (length (h ++ [(rnd, t1, t2, Some (m i))])) by (rewrite app_length; cbn; lia).
      rewrite firstn_all.
      assert (exists j, hd_error (ps ++ [i]) = Some j) as [j Hj] by (destruct ps; eexists; reflexivity).
      replace p with (m' j); [now apply I4|]. rewrite Hj in I1.
      unfold add_event in E. destruct (ev_current c) as [cur|].
      * destruct k; [|destruct (n =? 0); [discriminate|]| |destruct (dur <=? since t1 (ev_last c))]; injection E as <- <- O; cbn in I1; injection I1 as ->.
        -- congruence.
        -- destruct (Z.rem (ev_count c) n =? 0); congruence.
        -- destruct (should_collect percent rnd); congruence.
        -- congruence.
        -- congruence.
      * destruct k; [|destruct (n =? 0); [discriminate|]| |]; injection E as <- <- O; cbn in I1; injection I1 as ->.
        -- congruence.
        -- destruct (Z.rem (ev_count c) n =? 0); congruence.
        -- destruct (should_collect percent rnd); congruence.
        -- congruence.
Qed.
Print Assumptions C44_running_sums.

Definition is_forwarded (o : outcome) : Prop := match o with Forwarded _ => True | _ => False end.
(* Which points are to be passed on, given how many came before and the number drawn. *)
Definition passes (k : kind) (before : nat) (rnd : Z) : Prop :=
  match k with
  | Basic => True
  | Sampling n => (n | Z.of_nat before)
  | Random percent => 100 < percent \/ 0 < percent /\ rnd < percent
  | Interval _ => True
  end.
Definition timed (k : kind) : Prop := match k with Interval _ => True | _ => False end.
Definition usable (k : kind) : Prop := match k with Sampling n => n <> 0 | _ => True end.

Ltac zl := unfold zlen in *; cbn [length] in *; lia.
Lemma ehist_len k h ps m c outs : ehist k h ps m c outs -> length outs = length h /\ length (points h) = length ps /\
  (match k with Sampling _ => zlen h < 9223372036854775808 -> ev_count c = zlen (points h) | _ => True end) /\
  (ev_current c = None <-> ps = []).
Proof.
  induction 1 as [m|h ps m c outs a p H IH Na|h ps m c outs rnd t1 t2 m' c' o H IH E|h ps m c outs rnd t1 t2 i m' c' o H IH Ni E].
  - cbn. destruct k; easy.
  - exact IH.
  - destruct IH as (I1 & I2 & I3 & I4). cbn in E. injection E as <- <- <-. rewrite points_snoc. cbn [snd]. rewrite app_nil_r, !app_length.
    cbn [length]. refine (conj _ (conj I2 (conj _ I4))); [lia|]. destruct k; auto. rewrite zlen_app. intros L. apply I3. zl.
  - destruct IH as (I1 & I2 & I3 & I4). rewrite points_snoc. cbn [snd]. rewrite !app_length. cbn [length].
    refine (conj _ (conj _ _)); [lia|lia|]. split.
    + destruct k; auto. rewrite !zlen_app. intros L. specialize (I3 ltac:(zl)).
      assert (C : ev_count c' = i64 (ev_count c + 1)).
      { unfold add_event in E. destruct (ev_current c); destruct (n =? 0); try discriminate; now injection E as _ <- _. }
      rewrite C, I3. apply i64_id.
      assert (zlen (points h) <= zlen h).
      { clear. unfold zlen. assert (length (points h) <= length h)%nat; [|lia]. unfold points. induction h as [|[? [q|]] h IH]; cbn [flat_map snd app length] in *; lia. }
      unfold is_i64. zl.
    + assert (ev_current c' <> None).
      { unfold add_event in E. destruct (ev_current c); destruct k as [|s|s|s]; cbv zeta beta iota in E;
        try (destruct (s =? 0); [discriminate E|]); try destruct (s <=? since t1 (ev_last c)); injection E as _ <- _; cbn; discriminate. }
      split; [easy|]. destruct ps; discriminate.
Qed.

(* C44.  Which points are passed on by the collectors that do not look at the clock: all; one
   in n, from the first; those the draw selects.  A nil point is refused. *)
Theorem C44_which k h ps m c outs n rnd t1 t2 o : ehist k h ps m c outs -> ~ timed k -> zlen h < 9223372036854775808 ->
  nth_error h n = Some (rnd, t1, t2, o) ->
  exists out, nth_error outs n = Some out /\
    match o with None => out = Refused | Some _ => out <> Refused /\ (is_forwarded out <-> passes k (length (points (firstn n h))) rnd) end.
Proof.
  intros H. induction H as [m|h ps m c outs a q H IH Na|h ps m c outs rnd' t1' t2' m' c' o' H IH E|h ps m c outs rnd' t1' t2' i m' c' o' H IH Ni E]; intros T L N.
  - now destruct n.
  - now apply IH.
  - pose proof (ehist_len _ _ _ _ _ _ H) as (LL & _). rewrite zlen_app in L.
    apply nth_snoc in N as [N|[-> N]].
    + assert (n < length h)%nat by (apply nth_error_Some; congruence). rewrite firstn_snoc by lia. rewrite nth_error_app1 by lia. apply IH; auto. zl.
    + injection N as -> -> -> ->. exists o'. rewrite <- LL, nth_error_app2, Nat.sub_diag by lia. split; [reflexivity|].
      cbn in E. now injection E as _ _ <-.
  - pose proof (ehist_len _ _ _ _ _ _ H) as (LL & _ & LC & _). rewrite zlen_app in L.
    assert (L' : zlen h < 9223372036854775808) by zl.
    apply nth_snoc in N as [N|[-> N]].
    + assert (n < length h)%nat by (apply nth_error_Some; congruence). rewrite firstn_snoc by lia. rewrite nth_error_app1 by lia. now apply IH.
    + injection N as -> -> -> ->. exists o'. rewrite <- LL, nth_error_app2, Nat.sub_diag by lia. split; [reflexivity|].
      rewrite LL, firstn_snoc, firstn_all by lia.
      unfold add_event in E. destruct (match ev_current c with Some cur => _ | None => _ end) as [[m1 cur] new].
      destruct k as [|s|pc|]; cbn [passes timed] in *; [|destruct (Z.eqb_spec s 0); [discriminate|]| |easy]; injection E as _ _ <-.
      * cbn. intuition discriminate.
      * rewrite LC by exact L'. fold (zlen (points h)). destruct (Z.rem (zlen (points h)) s =? 0) eqn:D; cbn; (split; [discriminate|]).
        -- split; auto. intros _. apply Z.rem_divide; lia.
        -- split; [easy|]. intros D'. apply Z.rem_divide in D'; lia.
      * unfold should_collect. destruct (100 <? pc) eqn:D1; [cbn; intuition (discriminate || lia)|].
        destruct (pc <=? 0) eqn:D2; [cbn; intuition (discriminate || lia)|]. destruct (rnd' <? pc) eqn:D3; cbn; intuition (discriminate || lia).
Qed.
Print Assumptions C44_which.

Lemma interval_last dur h ps m c outs : ehist (Interval dur) h ps m c outs ->
  (ps = [] -> forall n o, nth_error outs n = Some o -> ~ is_forwarded o) /\
  (ps <> [] -> exists a o rnd t1 v, nth_error outs a = Some o /\ is_forwarded o /\ nth_error h a = Some (rnd, t1, ev_last c, Some v) /\
     forall b o', (a < b)%nat -> nth_error outs b = Some o' -> ~ is_forwarded o').
Proof.
  induction 1 as [m|h ps m c outs a p H IH Na|h ps m c outs rnd t1 t2 m' c' o H IH E|h ps m c outs rnd t1 t2 i m' c' o H IH Ni E].
  - split; [|easy]. intros _ [|n]; discriminate.
  - exact IH.
  - destruct IH as [I1 I2]. cbn in E. injection E as <- <- <-. split.
    + intros P n o N. apply nth_snoc in N as [N|[_ ->]]; [now apply (I1 P n)|easy].
    + intros P. destruct (I2 P) as (a & o & r & t & v & A1 & A2 & A3 & A4). exists a, o, r, t, v.
      rewrite !nth_error_app1 by (apply nth_error_Some; congruence). repeat (split; [assumption|]). intros b o' L B.
      apply nth_snoc in B as [B|[_ ->]]; [now apply (A4 b)|easy].
  - destruct IH as [I1 I2]. pose proof (ehist_len _ _ _ _ _ _ H) as (LL & _ & _ & LC). split; [intros P; now destruct ps|]. intros _.
    assert (N : nth_error (outs ++ [o]) (length h) = Some o) by (rewrite <- LL, nth_error_app2, Nat.sub_diag by lia; reflexivity).
    assert (N' : nth_error (h ++ [(rnd, t1, t2, Some (m i))]) (length h) = Some (rnd, t1, t2, Some (m i)))
      by (rewrite nth_error_app2, Nat.sub_diag by lia; reflexivity).
    assert (N2 : forall b o', (length h < b)%nat -> nth_error (outs ++ [o]) b = Some o' -> ~ is_forwarded o').
    { intros b o' L B. assert (b < length (outs ++ [o]))%nat by (apply nth_error_Some; congruence). rewrite app_length in *. cbn in *. lia. }
    assert (O : is_forwarded o /\ ev_last c' = t2 \/ ps <> [] /\ ~ is_forwarded o /\ ev_last c' = ev_last c).
    { unfold add_event in E. destruct (ev_current c) eqn:D.
      - destruct (dur <=? since t1 (ev_last c)); injection E as _ <- <-; cbn; [auto|right].
        split; [|tauto]. intros Z. now apply LC in Z.
      - injection E as _ <- <-. cbn. auto. }
    destruct O as [[O1 O2]|(O1 & O2 & O3)].
    + exists (length h), o, rnd, t1, (m i). rewrite O2. auto.
    + destruct (I2 O1) as (a & o1 & r & t & v & A1 & A2 & A3 & A4). exists a, o1, r, t, v. rewrite O3.
      rewrite !nth_error_app1 by (apply nth_error_Some; congruence). repeat (split; [assumption|]). intros b o' L B.
      apply nth_snoc in B as [B|[_ ->]]; [now apply (A4 b)|easy].
Qed.
Lemma ehist_last k h e ps m c outs : ehist k h ps m c outs -> forall h0 outs0 o, h = h0 ++ [e] -> outs = outs0 ++ [o] ->
  exists ps0 m0 c0 m1 c1 i, ehist k h0 ps0 m0 c0 outs0 /\ snd e = option_map m0 i /\
    (let '(rnd, t1, t2, _) := e in add_event k rnd t1 t2 i m0 c0 = Ret (m1, c1, o)).
Proof.
  induction 1 as [m|h ps m c outs a q H IH Na|h ps m c outs rnd t1 t2 m' c' o H IH E|h ps m c outs rnd t1 t2 i m' c' o H IH Ni E];
    intros h0 outs0 o0 Eh Eo.
  - now destruct h0.
  - now apply IH.
  - apply app_inj_tail in Eh as [-> <-]. apply app_inj_tail in Eo as [-> ->]. exists ps, m, c, m', c', None. auto.
  - apply app_inj_tail in Eh as [-> <-]. apply app_inj_tail in Eo as [-> ->]. exists ps, m, c, m', c', (Some i). auto.
Qed.
(* C44.  The interval collector passes a point on just if it is the first or the interval has
   passed since the last one it passed on. *)
Theorem C44_interval dur h rnd t1 t2 v outs o ps m c :
  ehist (Interval dur) (h ++ [(rnd, t1, t2, Some v)]) ps m c (outs ++ [o]) ->
  o <> Refused /\
  (is_forwarded o <->
     points h = [] \/
     exists a o' rnd' t1' last v', nth_error outs a = Some o' /\ is_forwarded o' /\ nth_error h a = Some (rnd', t1', last, Some v') /\
       (forall b o', (a < b)%nat -> nth_error outs b = Some o' -> ~ is_forwarded o') /\ dur <= since t1 last).
Proof.
  intros H. destruct (ehist_last _ _ _ _ _ _ _ H _ _ _ eq_refl eq_refl) as (ps0 & m0 & c0 & m1 & c1 & i & H0 & Ei & E).
  destruct i as [i|]; [|discriminate]. clear Ei H.
  pose proof (ehist_len _ _ _ _ _ _ H0) as (LL & LP & _ & LC). pose proof (interval_last _ _ _ _ _ _ H0) as [I1 I2].
  unfold add_event in E. destruct (ev_current c0) as [cur|] eqn:D.
  - assert (P : ps0 <> []) by (intros Z; now apply LC in Z). specialize (I2 P) as (a & o' & r & t & v' & A1 & A2 & A3 & A4).
    assert (Q : points h <> []) by (intros Z; rewrite Z in LP; now destruct ps0).
    destruct (dur <=? since t1 (ev_last c0)) eqn:S; injection E as _ _ <-; (split; [discriminate|]); cbn [is_forwarded].
    + split; auto. intros _. right. exists a, o', r, t, (ev_last c0), v'. repeat (split; [assumption|]). lia.
    + split; [easy|]. intros [Z|(b & o2 & r2 & t2' & last & v2 & B1 & B2 & B3 & B4 & B5)]; [now elim Q|].
      destruct (Nat.lt_trichotomy a b) as [X|[X|X]].
      * now apply (A4 _ _ X B1).
      * rewrite <- X in B3. pose proof (eq_trans (eq_sym A3) B3) as Y. injection Y as _ _ <- _. lia.
      * now apply (B4 _ _ X A1).
  - assert (P : ps0 = []) by now apply LC. injection E as _ _ <-. split; [discriminate|]. cbn. split; auto. intros _. left.
    destruct (points h); [easy|subst ps0; discriminate].
Qed.
Print Assumptions C44_interval.
(* C44.  AddEvent always returns, but for a sampling collector made with n = 0: every point
   makes it panic. *)
Theorem C44_returns k rnd t1 t2 i m c : usable k -> exists m' c' o, add_event k rnd t1 t2 i m c = Ret (m', c', o).
Proof.
  intros U. unfold add_event. destruct i as [i|]; [|eauto].
  destruct (match ev_current c with Some cur => _ | None => _ end) as [[m1 cur] new]. destruct k as [|n| |dur]; eauto.
  - cbn in U. destruct (Z.eqb_spec n 0); [easy|eauto].
  - destruct new; [eauto|]. destruct (dur <=? since t1 (ev_last c)); eauto.
Qed.
Print Assumptions C44_returns.
Theorem C44_sampling_zero_refuted rnd t1 t2 i m c : add_event (Sampling 0) rnd t1 t2 (Some i) m c = Panic PIndex.
Proof. unfold add_event. destruct (ev_current c); reflexivity. Qed.

(* C44.  A caller that fills the same point again for the second event gets twice the second
   instead of the sum; one that keeps its first point finds it changed by the second event. *)
Theorem C44_reused_point_refuted k r1 r2 t1 t2 t3 t4 m i v m1 c1 o1 m2 c2 o2 :
  add_event k r1 t1 t2 (Some i) m new_events = Ret (m1, c1, o1) ->
  add_event k r2 t3 t4 (Some i) (store m1 i v) c1 = Ret (m2, c2, o2) ->
  c_number (p_c (m2 i)) = i64 (2 * c_number (p_c v)) /\ t_total (p_t (m2 i)) = i64 (2 * t_total (p_t v)) /\
  (k = Basic -> o2 = Forwarded (m2 i)).
Proof.
  intros E1 E2.
  assert (C : ev_current c1 = Some i).
  { unfold add_event in E1. cbn in E1. destruct k as [|s|s|s]; try (destruct (s =? 0); [discriminate E1|]); now injection E1 as _ <- _. }
  assert (M : m2 = mem_add (store m1 i v) i i).
  { unfold add_event in E2. rewrite C in E2. destruct k as [|s|s|s]; try (destruct (s =? 0); [discriminate E2|]);
    try destruct (s <=? since t3 (ev_last c1)); now injection E2 as <- _ _. }
  assert (F : k = Basic -> o2 = Forwarded (m2 i)).
  { intros ->. unfold add_event in E2. rewrite C in E2. now injection E2 as <- _ <-. }
  refine (conj _ (conj _ F)); rewrite M; unfold mem_add, store; rewrite !Nat.eqb_refl; cbn; f_equal; lia.
Qed.
Print Assumptions C44_reused_point_refuted.
Theorem C44_first_point_changes_refuted k r1 r2 t1 t2 t3 t4 m i j m1 c1 o1 m2 c2 o2 : i <> j ->
  add_event k r1 t1 t2 (Some i) m new_events = Ret (m1, c1, o1) ->
  add_event k r2 t3 t4 (Some j) m1 c1 = Ret (m2, c2, o2) -> m1 i = m i /\ m2 i = perf_add (m i) (m j).
Proof.
  intros N E1 E2.
  assert (C : ev_current c1 = Some i /\ m1 = m).
  { unfold add_event in E1. cbn in E1. destruct k as [|s|s|s]; try (destruct (s =? 0); [discriminate E1|]); now injection E1 as <- <- _. }
  destruct C as [C ->]. split; [reflexivity|].
  assert (M : m2 = mem_add m i j).
  { unfold add_event in E2. rewrite C in E2. destruct k as [|s|s|s]; try (destruct (s =? 0); [discriminate E2|]);
    try destruct (s <=? since t3 (ev_last c1)); now injection E2 as <- _ _. }
  rewrite M. unfold mem_add, store. rewrite !Nat.eqb_refl. destruct (Nat.eqb_spec i j); [easy|]. apply perf_add_with_id.
Qed.
Print Assumptions C44_first_point_changes_refuted.

(* a second point of three operations, added to a_point by a collector of every other event *)
Example C44_events_nonvacuous :
  let q := MkPerf 1500000001000000000 0 (MkCnt 1 3 30 0) (MkTmr 50 60) (MkGau 1 1 false) in
  exists ps m c p1 p3, ehist (Sampling 2) [(0, 0, 0, Some a_point); (0, 0, 0, None); (0, 0, 0, Some q); (0, 0, 0, Some q)] ps m c
    [Forwarded p1; Refused; Skipped; Forwarded p3] /\ c_ops (p_c p3) = 8 /\ p_id p3 = 9.
Proof.
  intros q. pose (m0 := fun a : nat => match a with 0%nat => a_point | _ => q end).
  assert (H : exists m c p1 p3, ehist (Sampling 2) ([] ++ [(0, 0, 0, Some (m0 0%nat))] ++ [(0, 0, 0, None)] ++ [(0, 0, 0, Some q)] ++ [(0, 0, 0, Some q)])
    [0; 1; 2]%nat m c [Forwarded p1; Refused; Skipped; Forwarded p3] /\ c_ops (p_c p3) = 8 /\ p_id p3 = 9).
  { pose proof (eh_add (Sampling 2) [] [] m0 new_events [] 0 0 0 0%nat _ _ _ (eh_nil _ m0) (fun x => x) eq_refl) as H1.
    pose proof (eh_none _ _ _ _ _ _ 0 0 0 _ _ _ H1 eq_refl) as H2.
    pose proof (eh_add _ _ _ _ _ _ 0 0 0 1%nat _ _ _ H2 ltac:(cbn; intuition discriminate) eq_refl) as H3.
    pose proof (eh_add _ _ _ _ _ _ 0 0 0 2%nat _ _ _ H3 ltac:(cbn; intuition discriminate) eq_refl) as H4.
    do 4 eexists. split; [exact H4|]. split; reflexivity. }
  destruct H as (m & c & p1 & p3 & H). exists [0; 1; 2]%nat, m, c, p1, p3. exact H.
Qed.

(* ------------------------------------------------------ C45: the interval recorder blocks *)

(* The lock is with a worker that is gone. *)
Definition dead (s : istate) : Prop := exists w, i_lock s = Some (OWorker w) /\ i_workers s w = IWGone.

(* what holds in every reachable state *)
Record iinv (s : istate) : Prop := MkInv {
  iv_oc : forall t, i_lock s = Some (OClient t) -> exists c, i_clients s t = ICHold c;
  iv_co : forall t c, i_clients s t = ICHold c -> i_lock s = Some (OClient t);
  iv_ow : forall w, i_lock s = Some (OWorker w) -> i_workers s w = IWHold \/ i_workers s w = IWGone;
  iv_wo : forall w, i_workers s w = IWHold -> i_lock s = Some (OWorker w);
  iv_gone : forall w, i_workers s w = IWGone -> done s w = true;
  iv_new : forall w, (i_next s <= w)%nat -> i_workers s w = IWNone /\ i_cancelled s w = false;
  iv_can : forall w, i_canceler s = Some w -> i_cancelled s w = false /\ (w < i_next s)%nat;
  iv_some : forall w, (w < i_next s)%nat -> i_workers s w <> IWNone }.

Lemma iinv_new : iinv new_interval.
Proof. constructor; cbn; intros; try discriminate; auto; lia. Qed.
Lemma upd_eq {A} (f : nat -> A) n x : upd f n x n = x.
Proof. unfold upd. now rewrite Nat.eqb_refl. Qed.
Lemma upd_ne {A} (f : nat -> A) n x m : m <> n -> upd f n x m = f m.
Proof. unfold upd. now destruct (Nat.eqb_spec m n). Qed.
Ltac updates := unfold upd, done in *; cbn in *;
  repeat match goal with
  | |- context [Nat.eqb ?a ?b] => destruct (Nat.eqb_spec a b); subst
  | H : context [Nat.eqb ?a ?b] |- _ => destruct (Nat.eqb_spec a b); subst
  end; cbn in *.
Ltac isat A2 A4 A6 := repeat match goal with
  | H : i_workers _ _ = IWHold |- _ => pose proof (A4 _ H); revert H
  | H : i_clients _ _ = ICHold _ |- _ => pose proof (A2 _ _ H); revert H
  | H : (i_next _ <= ?w)%nat |- _ => pose proof (A6 _ H); revert H
  end; intros; repeat match goal with H : _ /\ _ |- _ => destruct H end.
Ltac iclose A2 A3 A4 A6 := constructor; cbn; auto; intros; updates; try congruence; eauto; isat A2 A4 A6; try congruence;
  match goal with H : i_lock _ = Some (OWorker _) |- _ => destruct (A3 _ H); congruence end.
Lemma iinv_step ans s e s' : iinv s -> istep ans s e s' -> iinv s'.
Proof.
  intros [A1 A2 A3 A4 A5 A6 A7 A8] S. destruct S; subst.
  - constructor; auto.
  - constructor; cbn; auto; intros; updates; try congruence; eauto.
    destruct (A1 _ H0) as [c' C]. congruence.
  - constructor; cbn; auto; intros; updates; try congruence; eauto; isat A2 A4 A6; congruence.
  - pose proof (A2 _ _ H) as L.
    assert (B : iinv (MkI r None (i_canceler s) (i_root s) (i_cancelled s) (i_workers s) (i_next s) (upd (i_clients s) t ICIdle) (i_out s ++ out))).
    { constructor; cbn; auto; intros; updates; try congruence; eauto; isat A2 A4 A6; congruence. }
    destruct B as [B1 B2 B3 B4 B5 B6 B7 B8]. cbn in *.
    assert (C : iinv (MkI r None (i_canceler s) (i_root s) (i_cancelled s) (i_workers s) (i_next s) (upd (i_clients s) t ICIdle) (i_out s ++ out)))
      by now constructor.
    destruct c; try exact C; unfold start_worker, stop_worker; destruct (i_canceler s) as [w0|] eqn:K; cbn; try rewrite K; try exact C; clear C.
    + constructor; cbn; auto; intros; updates; try congruence; eauto; try lia.
      * apply B6. lia.
      * injection H1 as <-. split; [apply A6; lia|lia].
      * apply A8. lia.
    + destruct (A7 _ eq_refl). constructor; cbn; auto; intros; updates; try congruence; eauto; try lia; now rewrite orb_true_r.
    + destruct (A7 _ eq_refl). constructor; cbn; auto; intros; updates; try congruence; eauto; try lia; now rewrite orb_true_r.
  - iclose A2 A3 A4 A6.
  - iclose A2 A3 A4 A6.
  - iclose A2 A3 A4 A6.
  - iclose A2 A3 A4 A6.
  - iclose A2 A3 A4 A6.
Qed.
Lemma iinv_steps ans s es s' : iinv s -> isteps ans s es s' -> iinv s'.
Proof. intros V H. induction H as [|s es s1 e s2 H IH S]; [exact V|]. exact (iinv_step _ _ _ _ (IH V) S). Qed.

Lemma dead_step ans s e s' : iinv s -> dead s -> istep ans s e s' ->
  dead s' /\ (forall t c, i_clients s t = ICWant c -> i_clients s' t = ICWant c) /\
  (forall t c errs, e <> IEReturn t c errs) /\ (forall w p, e <> IEPersist w p) /\ i_out s' = i_out s.
Proof.
  intros [A1 A2 A3 A4 A5 A6 A7 A8] (w & L & G) S. unfold dead. destruct S; subst; cbn.
  - refine (conj (ex_intro _ w (conj L G)) (conj _ (conj _ (conj _ eq_refl)))); auto; discriminate.
  - refine (conj (ex_intro _ w (conj L G)) (conj _ (conj _ (conj _ eq_refl)))); try discriminate.
    intros t' c' H'. rewrite upd_ne; [exact H'|congruence].
  - congruence.
  - apply A2 in H. congruence.
  - refine (conj (ex_intro _ w (conj L _)) (conj _ (conj _ (conj _ eq_refl)))); auto; try discriminate.
    rewrite upd_ne; [exact G|congruence].
  - refine (conj (ex_intro _ w (conj L _)) (conj _ (conj _ (conj _ eq_refl)))); auto; try discriminate.
    rewrite upd_ne; [exact G|congruence].
  - congruence.
  - apply A4 in H as H'. congruence.
  - apply A4 in H as H'. congruence.
Qed.

(* C45.  Once a worker has left with the lock, no call ever returns and no point is ever
   persisted again, whatever happens. *)
Theorem C45_dead_for_ever ans es s es' s' : isteps ans new_interval es s -> dead s -> isteps ans s es' s' ->
  dead s' /\ i_out s' = i_out s /\ (forall t c, i_clients s t = ICWant c -> i_clients s' t = ICWant c) /\
  Forall (fun e => match e with IEReturn _ _ _ | IEPersist _ _ => False | _ => True end) es'.
Proof.
  intros R D H. pose proof (iinv_steps _ _ _ _ iinv_new R) as V. clear R.
  induction H as [s|s es1 s1 e s2 H IH S]; [repeat split; auto|]. destruct (IH D V) as (I1 & I2 & I3 & I4).
  pose proof (iinv_steps _ _ _ _ V H) as V1. destruct (dead_step _ _ _ _ V1 I1 S) as (J1 & J2 & J3 & J4 & J5).
  refine (conj J1 (conj _ (conj _ _))); [congruence|auto|]. apply Forall_app. split; [exact I4|]. constructor; [|constructor].
  destruct e; auto; [now apply (J3 t c errs)|now apply (J4 w p)].
Qed.
Print Assumptions C45_dead_for_ever.

Lemma isteps_one ans s e s' : istep ans s e s' -> isteps ans s [e] s'.
Proof. intros H. exact (ist_snoc ans s [] s e s' (ist_nil ans s) H). Qed.
Lemma isteps_app ans s es1 s1 es2 s2 : isteps ans s es1 s1 -> isteps ans s1 es2 s2 -> isteps ans s (es1 ++ es2) s2.
Proof.
  intros H1 H2. induction H2 as [|s' es s1' e s2 H2 IH S]; [now rewrite app_nil_r|]. rewrite app_assoc. eapply ist_snoc; eauto.
Qed.

(* C45.  That can happen at every EndTest of a recorder whose worker runs: from any reachable
   state where nobody holds the lock, a tick, one EndTest and nothing else lead to it, and
   every later call waits for ever. *)
Theorem C45_refuted ans es s w t : isteps ans new_interval es s -> i_canceler s = Some w -> i_root s = false ->
  i_lock s = None -> i_clients s t = ICIdle ->
  exists es' s' errs, isteps ans s es' s' /\ dead s' /\ i_clients s' t = ICIdle /\ In (IEReturn t EndTest errs) es' /\
    forall c s1 es2 s2, istep ans s' (IECall t c) s1 -> isteps ans s1 es2 s2 -> i_clients s2 t = ICWant c.
Proof.
  intros R C Rt L Id. pose proof (iinv_steps _ _ _ _ iinv_new R) as V.
  assert (P : exists e1 s1, isteps ans s e1 s1 /\ i_canceler s1 = Some w /\ i_lock s1 = None /\ i_clients s1 t = ICIdle /\
    i_workers s1 w = IWWant).
  { destruct V as [A1 A2 A3 A4 A5 A6 A7 A8]. destruct (A7 _ C) as [C1 C2]. destruct (i_workers s w) eqn:W.
    - now elim (A8 _ C2).
    - do 2 eexists. split; [apply isteps_one; apply (is_tick ans s w W)|]. cbn. rewrite upd_eq. auto.
    - exists [], s. split; [constructor|auto].
    - apply A4 in W. congruence.
    - apply A5 in W. unfold done in W. rewrite Rt, C1 in W. discriminate. }
  destruct P as (e1 & s1 & H1 & Cc & Ll & Ii & Ww).
  pose proof (is_call ans s1 t EndTest Ii) as S2.
  match type of S2 with istep _ _ _ ?x => set (s2 := x) in * end.
  assert (S3 := is_lock ans s2 t EndTest (upd_eq _ _ _) Ll).
  match type of S3 with istep _ _ _ ?x => set (s3 := x) in * end.
  destruct (interval_call ans 0 EndTest (i_rec s3)) as [[r out] errs] eqn:B.
  assert (S4 := is_body ans s3 t EndTest 0 r out errs _ (upd_eq _ _ _) B eq_refl).
  match type of S4 with istep _ _ _ ?x => set (s4 := x) in * end.
  assert (E4 : i_workers s4 w = IWWant /\ i_lock s4 = None /\ done s4 w = true /\ i_clients s4 t = ICIdle).
  { unfold s4, stop_worker, start_worker, s3, s2, done. cbn. rewrite Cc. cbn. rewrite !upd_eq, orb_true_r. auto. }
  destruct E4 as (W4 & L4 & D4 & I4).
  assert (S5 := is_wlock ans s4 w W4 L4).
  match type of S5 with istep _ _ _ ?x => set (s5 := x) in * end.
  assert (S6 := is_leave ans s5 w (upd_eq _ _ _) D4).
  match type of S6 with istep _ _ _ ?x => set (s6 := x) in * end.
  assert (H6 : isteps ans s (((((e1 ++ [IECall t EndTest]) ++ [IETau]) ++ [IEReturn t EndTest errs]) ++ [IETau]) ++ [IETau]) s6)
    by (eapply ist_snoc; [|exact S6]; eapply ist_snoc; [|exact S5]; eapply ist_snoc; [|exact S4]; eapply ist_snoc; [|exact S3]; eapply ist_snoc; eauto).
  assert (D6 : dead s6) by (exists w; cbn; rewrite upd_eq; auto).
  do 3 eexists. refine (conj H6 (conj D6 (conj I4 (conj _ _)))).
  - rewrite !in_app_iff. cbn. auto.
  - intros c s7 es2 s8 S7 H8.
    assert (R7 : isteps ans new_interval _ s7) by (eapply ist_snoc; [eapply isteps_app; [exact R|exact H6]|exact S7]).
    assert (D7 : dead s7).
    { eapply dead_step; [|exact D6|exact S7]. eapply iinv_steps; [exact iinv_new|]. eapply isteps_app; [exact R|exact H6]. }
    apply (C45_dead_for_ever _ _ _ _ _ R7 D7 H8). inversion S7; subst. cbn. apply upd_eq.
Qed.
Print Assumptions C45_refuted.

(* nothing cancelled: neither the root context nor, by EndTest or Reset, a worker *)
Definition quiet (e : ievent) : Prop :=
  match e with IECancel | IEReturn _ EndTest _ | IEReturn _ Reset _ => False | _ => True end.
Lemma quiet_not_done ans es s : isteps ans new_interval es s -> Forall quiet es -> forall w, done s w = false.
Proof.
  intros H. remember new_interval as s0 eqn:E. revert E. induction H as [s|s es s1 e s2 H IH S]; intros E Q w; [now subst|].
  apply Forall_app in Q as [Q1 Q2]. apply Forall_inv in Q2. specialize (IH E Q1). unfold done in *.
  destruct S; cbn in *; try apply IH; [easy|]. subst. destruct c; try easy; unfold start_worker, stop_worker; destruct (i_canceler s0); apply IH.
Qed.
(* C45, what holds: as long as nothing was cancelled, a call that waits for the lock can get
   it and return, by steps of the holder and its own only.  What is missing: any use of
   EndTest, Reset or cancellation. *)
Theorem C45_partial ans es s t c : isteps ans new_interval es s -> Forall quiet es -> i_clients s t = ICWant c ->
  exists es' s1 s2 errs, (length es' <= 2)%nat /\ isteps ans s es' s1 /\ i_clients s1 t = ICHold c /\ istep ans s1 (IEReturn t c errs) s2.
Proof.
  intros R Q W. pose proof (iinv_steps _ _ _ _ iinv_new R) as [A1 A2 A3 A4 A5 A6 A7 A8]. pose proof (quiet_not_done _ _ _ R Q) as ND.
  assert (Go : forall s1, i_clients s1 t = ICWant c -> i_lock s1 = None ->
    exists s2 s3 errs, istep ans s1 IETau s2 /\ i_clients s2 t = ICHold c /\ istep ans s2 (IEReturn t c errs) s3).
  { intros s1 C1 L1. pose proof (is_lock ans s1 t c C1 L1) as S. match type of S with istep _ _ _ ?x => set (s2 := x) in * end.
    destruct (interval_call ans 0 c (i_rec s2)) as [[r out] errs] eqn:B.
    pose proof (is_body ans s2 t c 0 r out errs _ (upd_eq _ _ _) B eq_refl) as S'.
    exists s2. eexists. exists errs. split; [exact S|]. split; [apply upd_eq|exact S']. }
  assert (Rel : exists es' s1, (length es' <= 1)%nat /\ isteps ans s es' s1 /\ i_clients s1 t = ICWant c /\ i_lock s1 = None).
  { destruct (i_lock s) as [[t'|w]|] eqn:L.
    - destruct (A1 _ eq_refl) as [c' C]. destruct (interval_call ans 0 c' (i_rec s)) as [[r out] errs] eqn:B.
      pose proof (is_body ans s t' c' 0 r out errs _ C B eq_refl) as S.
      do 2 eexists. split; [|split; [apply isteps_one; exact S|]]; [cbn; lia|]. cbn. split; [|reflexivity].
      assert (X : t <> t') by congruence. rewrite upd_ne by exact X.
      unfold stop_worker, start_worker. destruct c'; try exact W; destruct (i_canceler s); cbn; exact W.
    - destruct (A3 _ eq_refl) as [G|G]; [|apply A5 in G; rewrite ND in G; discriminate].
      destruct (interval_tick ans 0 (i_rec s)) as [r p] eqn:B. pose proof (is_persist ans s w 0 r p G (ND w) B) as S.
      do 2 eexists. split; [|split; [apply isteps_one; exact S|]]; [cbn; lia|]. cbn. auto.
    - exists [], s. split; [cbn; lia|]. split; [constructor|auto]. }
  destruct Rel as (es' & s1 & Ln & H1 & C1 & L1). destruct (Go s1 C1 L1) as (s2 & s3 & errs & S2 & C2 & S3).
  exists (es' ++ [IETau]), s2, s3, errs. rewrite app_length. cbn. split; [lia|]. split; [eapply ist_snoc; eauto|auto].
Qed.
Print Assumptions C45_partial.
Example C45_nonvacuous ans : exists es s, isteps ans new_interval es s /\ i_canceler s = Some 0%nat /\ i_root s = false /\ i_lock s = None /\
  i_clients s 0%nat = ICIdle /\ Forall quiet es.
Proof.
  pose proof (is_call ans new_interval 0 BeginIteration eq_refl) as S1. match type of S1 with istep _ _ _ ?x => set (s1 := x) in * end.
  pose proof (is_lock ans s1 0 BeginIteration eq_refl eq_refl) as S2. match type of S2 with istep _ _ _ ?x => set (s2 := x) in * end.
  pose proof (is_body ans s2 0 BeginIteration 5 _ _ _ _ eq_refl eq_refl eq_refl) as S3.
  do 2 eexists. split; [eapply ist_snoc; [|exact S3]; eapply ist_snoc; [|exact S2]; apply isteps_one; exact S1|].
  repeat split. repeat constructor.
Qed.
