(* Properties of the counters of the Go runtime: C97. *)
Require Import ZArith List Bool Lia ZifyBool ZifyNat String.
From Verif Require Import Base BSpec Elements Value Codec CodecRead CodecRep Api ApiProofs Tree GetterProofs ReaderOps CodecProps
  Search EmptyProps Events EventsProps GoStats.
Import List ListNotations.
Open Scope Z_scope.

(* ------------------------------------------------------------------------ what is promised *)

(* Readings a running program gets: counters below 2^63, a clock after 1970, 256 pauses. *)
Definition reading_ok (r : reading) : Prop :=
  0 <= rd_now r /\ is_i64 (rd_now r) /\ (0 <= rd_cgo r < 2^63) /\ (0 <= rd_mallocs r < 2^63) /\ (0 <= rd_frees r < 2^63) /\
  (0 <= rd_numgc r < 2^32) /\ (0 <= rd_lastgc r < 2^63) /\ zlen (rd_pauses r) = 256.
(* the reading of a counter at the collection before, and the nanoseconds since; the first
   collection counts from the start of the program and finds no time to compare with *)
Definition before (f : reading -> Z) (p : option reading) : Z := match p with Some q => f q | None => 0 end.
Definition elapsed (p : option reading) (r : reading) : Z :=
  match p with Some q => rd_now r - rd_now q | None => 9223372036854775807 end.
Definition promised (t : ctype) (p : option reading) (r : reading) (f : reading -> Z) : Z :=
  match t with
  | CTCurrent => f r
  | CTDeltas => if elapsed p r =? 0 then 0 else f r - before f p
  | CTRates => if elapsed p r =? 0 then 0 else Z.quot (f r - before f p) (elapsed p r)
  end.
Definition tells (t : ctype) (later : Z) (p : option reading) (r : reading) (i : info) : Prop :=
  in_objects i = rd_objects r /\ in_alloc i = rd_alloc r /\ in_sys i = rd_sys r /\ in_idle i = rd_idle r /\
  in_inuse i = rd_inuse r /\ in_goroutines i = rd_goroutines r /\
  in_mallocs i = promised t p r rd_mallocs /\ in_frees i = promised t p r rd_frees /\
  in_gc i = promised t p r rd_numgc /\ in_cgo i = promised t p r rd_cgo /\
  in_latency i = Z.max (-9223372036854775808) (Z.min 9223372036854775807 (later - rd_lastgc r)).
(* the results of a run of collections of any kind *)
Inductive told : option reading -> list gcall -> list (option info) -> Prop :=
| told_nil p : told p [] []
| told_collect p t later r i cs is : tells t later p r i -> told (Some r) cs is ->
    told p (Collect t later r :: cs) (Some i :: is)
| told_basic p r cs is : told (Some r) cs is -> told p (CollectBasic r :: cs) (None :: is).

(* ------------------------------------------------------------------------------- the proofs *)

Definition holds (p : option reading) (s : gstats) : Prop :=
  gd_cur (gs_cgo s) = before rd_cgo p /\ gd_cur (gs_mallocs s) = before rd_mallocs p /\
  gd_cur (gs_frees s) = before rd_frees p /\ gd_cur (gs_gcs s) = before rd_numgc p /\
  match p with Some q => reading_ok q /\ gs_last s = rd_now q | None => gs_last s = zero_time end.
Lemma index_ok (l : list Z) n : zlen l = 256 -> exists x, goindex l (n mod 256) = Ret x /\ nth_error l (Z.to_nat (n mod 256)) = Some x.
Proof.
  intros L. pose proof (Z.mod_pos_bound n 256 ltac:(lia)) as B. unfold goindex.
  replace ((0 <=? n mod 256) && (n mod 256 <? zlen l)) with true by lia.
  destruct (nth_error l (Z.to_nat (n mod 256))) as [x|] eqn:E.
  - exists x. split; auto.
  - apply nth_error_None in E. unfold zlen in L. lia.
Qed.
Lemma in_i64 z : is_i64 z -> i64 z = z.
Proof. unfold is_i64, i64. intros. lia. Qed.
Lemma quot_i64 a b : Z.abs a <= 9223372036854775807 -> b <> 0 -> is_i64 (Z.quot a b).
Proof.
  intros H Nb. unfold is_i64.
  assert (Z.abs (Z.quot a b) <= Z.abs a); [|lia].
  rewrite <- Z.quot_abs by lia. rewrite Z.quot_div_nonneg by lia. apply Z.div_le_upper_bound; nia.
Qed.
Lemma count_promised t p r s f d : reading_ok r -> match p with Some q => reading_ok q | None => True end ->
  (forall q, reading_ok q -> 0 <= f q < 2^63) ->
  gd_cur d = f r -> gd_prev d = before f p -> gs_dur s = elapsed p r -> count_of t s d = promised t p r f.
Proof.
  intros Hr Hp Hf Ec Ep Ed. pose proof (Hf _ Hr).
  assert (B : 0 <= before f p < 2^63) by (destruct p; cbn [before]; [now apply Hf|lia]).
  assert (D : gd_diff d = f r - before f p) by (unfold gd_diff; rewrite Ec, Ep; apply in_i64; unfold is_i64; lia).
  destruct t; cbn [count_of promised]; auto; unfold get_rate; rewrite Ed, D; destruct (elapsed p r =? 0) eqn:E; auto.
  unfold rate_int. cbn [fst snd]. rewrite E. apply in_i64, quot_i64; lia.
Qed.
Lemma update_ok p r s : reading_ok r -> holds p s -> exists s', update r s = Ret s' /\ holds (Some r) s' /\
  gd_prev (gs_cgo s') = before rd_cgo p /\ gd_prev (gs_mallocs s') = before rd_mallocs p /\
  gd_prev (gs_frees s') = before rd_frees p /\ gd_prev (gs_gcs s') = before rd_numgc p /\
  gs_dur s' = elapsed p r /\ gs_lastgc s' = rd_lastgc r /\
  nth_error (rd_pauses r) (Z.to_nat (u32 (rd_numgc r + 255) mod 256)) = Some (gs_pause s').
Proof.
  intros Ok (H1 & H2 & H3 & H4 & H5). pose proof Ok as (A1 & A2 & A3 & A4 & A5 & A6 & A7 & A8).
  destruct (index_ok (rd_pauses r) (u32 (rd_numgc r + 255)) A8) as (x & E & X). unfold update. rewrite E. cbn [bind].
  eexists. split; [reflexivity|]. cbn [gd_prev gd_cur gd_next gs_cgo gs_mallocs gs_frees gs_gcs gs_dur gs_lastgc gs_pause gs_last].
  split; [|repeat split; auto].
  - unfold holds. cbn [gd_cur gd_next gs_cgo gs_mallocs gs_frees gs_gcs gs_last before].
    rewrite !in_i64 by (unfold is_i64; lia). repeat split; auto; unfold is_i64 in *; lia.
  - unfold since, elapsed. destruct p as [q|].
    + destruct H5 as [(Q1 & Q2 & _) ->]. unfold is_i64 in *. lia.
    + rewrite H5. unfold zero_time. unfold is_i64 in *. lia.
  - apply in_i64. unfold is_i64. lia.
Qed.
Lemma collect_ok t later p r s : reading_ok r -> holds p s -> exists s' i, collect t later r s = Ret (s', i) /\ holds (Some r) s' /\
  tells t later p r i.
Proof.
  intros Ok H. destruct (update_ok p r s Ok H) as (s' & E & H' & P1 & P2 & P3 & P4 & Ed & Eg & _).
  unfold collect. rewrite E. cbn [bind]. do 2 eexists. split; [reflexivity|]. split; [exact H'|].
  pose proof H' as (C1 & C2 & C3 & C4 & _). cbn [before] in *.
  assert (Hp : match p with Some q => reading_ok q | None => True end) by (destruct p; [apply H|exact I]).
  repeat split; cbn [in_mallocs in_frees in_gc in_cgo in_latency]; try (apply count_promised; auto; unfold reading_ok; intros; lia).
  unfold since. now rewrite Eg.
Qed.
Lemma told_from p s cs : holds p s -> Forall (fun c => reading_ok (read_of c)) cs ->
  exists s' is, collect_all cs s = Ret (s', is) /\ told p cs is /\ exists p', holds p' s'.
Proof.
  intros H F. revert p s H. induction F as [|c cs Ok F IH]; intros p s H; cbn [collect_all].
  - do 2 eexists. split; [reflexivity|]. split; [constructor|eauto].
  - destruct c as [t later r|r]; cbn [read_of] in Ok.
    + destruct (collect_ok t later p r s Ok H) as (s' & i & -> & H' & T). cbn [bind].
      destruct (IH _ _ H') as (s2 & is & -> & X & Y). cbn [bind]. do 2 eexists. split; [reflexivity|]. split; [now constructor|exact Y].
    + destruct (update_ok p r s Ok H) as (s' & E & H' & _). unfold collect_basic. rewrite E. cbn [bind].
      destruct (IH _ _ H') as (s2 & is & -> & X & Y). cbn [bind]. do 2 eexists. split; [reflexivity|]. split; [now constructor|exact Y].
Qed.
(* Every collection of a run returns; totals are the counters, deltas what they gained since the
   collection before, of whatever kind it was, rates that divided by the nanoseconds between. *)
Theorem C97_run : forall cs, Forall (fun c => reading_ok (read_of c)) cs ->
  exists s is, collect_all cs new_stats = Ret (s, is) /\ told None cs is.
Proof.
  intros cs F. destruct (told_from None new_stats cs ltac:(repeat split) F) as (s & is & E & T & _). eauto.
Qed.
Print Assumptions C97_run.

(* If only deltas are collected and the clock advances between any two, no event is lost and none
   is counted twice: the deltas add up to the total. *)
Fixpoint advancing (p : option reading) (rs : list reading) : Prop :=
  match rs with [] => True | r :: rs => match p with Some q => rd_now q < rd_now r | None => True end /\ advancing (Some r) rs end.
Definition zsum (l : list Z) : Z := fold_right Z.add 0 l.
Definition gain (f : info -> Z) (is : list (option info)) : Z := zsum (map (fun i => match i with Some i => f i | None => 0 end) is).
Definition deltas (rs : list (reading * Z)) : list gcall := map (fun r => Collect CTDeltas (snd r) (fst r)) rs.
Lemma deltas_sum rs : forall p is, told p (deltas rs) is -> advancing p (map fst rs) ->
  let final f := before f (List.last (map (fun r => Some (fst r)) rs) p) in
  gain in_mallocs is = final rd_mallocs - before rd_mallocs p /\ gain in_frees is = final rd_frees - before rd_frees p /\
  gain in_gc is = final rd_numgc - before rd_numgc p /\ gain in_cgo is = final rd_cgo - before rd_cgo p.
Proof.
  induction rs as [|[r l] rs IH]; intros p is T A; cbv zeta.
  - inversion T; subst. cbn. lia.
  - cbn [deltas map] in T. inversion T as [|? ? ? ? i ? is' Ti T'|]; subst. cbn [map advancing] in A. destruct A as [A1 A2].
    specialize (IH (Some r) is' T' A2). cbv zeta in IH. cbn [fst] in *.
    assert (E : List.last (map (fun r => Some (fst r)) ((r, l) :: rs)) p = List.last (map (fun r => Some (fst r)) rs) (Some r)).
    { cbn [map fst]. clear. revert r p. induction rs as [|[r' l'] rs IH]; intros r p; [reflexivity|]. cbn [map fst] in *.
      transitivity (List.last (Some r' :: map (fun r0 => Some (fst r0)) rs) p); [reflexivity|]. rewrite (IH r' p). now rewrite (IH r' (Some r)). }
    rewrite E.
    destruct Ti as (_ & _ & _ & _ & _ & _ & E1 & E2 & E3 & E4 & _). cbn [promised] in *.
    assert (Ne : (elapsed p r =? 0) = false) by (destruct p; cbn [elapsed]; lia). rewrite Ne in *.
    unfold gain, zsum in *. cbn [map fold_right] in *. cbn [before] in IH. lia.
Qed.
Theorem C97_deltas : forall rs, Forall reading_ok (map fst rs) -> advancing None (map fst rs) -> rs <> [] ->
  exists s is r, collect_all (deltas rs) new_stats = Ret (s, is) /\ nth_error (map fst rs) (List.length rs - 1) = Some r /\
    gain in_mallocs is = rd_mallocs r /\ gain in_frees is = rd_frees r /\ gain in_gc is = rd_numgc r /\ gain in_cgo is = rd_cgo r.
Proof.
  intros rs F A Ne. destruct (C97_run (deltas rs)) as (s & is & E & T).
  { unfold deltas. rewrite Forall_map in *. exact F. }
  pose proof (deltas_sum rs None is T A) as X. cbv zeta in X. cbn [before] in X.
  destruct (exists_last Ne) as (l & [r z] & ->). rewrite map_app in X. cbn [map fst] in X. rewrite last_last in X. cbn [before] in X.
  exists s, is, r. split; [exact E|]. split; [|lia].
  rewrite map_app, app_length. cbn [List.length map fst]. rewrite nth_error_app2 by (rewrite map_length; lia).
  rewrite map_length. now replace (Datatypes.length l + 1 - 1 - Datatypes.length l)%nat with 0%nat by lia.
Qed.
Print Assumptions C97_deltas.

(* Two collections within one tick of the clock: what happened between them is reported neither by
   the second nor by any later one. *)
Theorem C97_deltas_refuted : forall rs r1 l1 r2 l2 rest,
  Forall reading_ok (map fst (rs ++ (r1, l1) :: (r2, l2) :: rest)) ->
  advancing None (map fst (rs ++ [(r1, l1)])) -> rd_now r2 = rd_now r1 -> advancing (Some r2) (map fst rest) ->
  exists s is, collect_all (deltas (rs ++ (r1, l1) :: (r2, l2) :: rest)) new_stats = Ret (s, is) /\
    gain in_mallocs is = before rd_mallocs (List.last (map (fun r => Some (fst r)) rest) (Some r2)) - (rd_mallocs r2 - rd_mallocs r1).
Proof.
  intros rs r1 l1 r2 l2 rest F A1 Eq A2. destruct (C97_run (deltas (rs ++ (r1, l1) :: (r2, l2) :: rest))) as (s & is & E & T).
  { unfold deltas. rewrite Forall_map in *. exact F. }
  exists s, is. split; [exact E|]. clear E F.
  assert (G : forall p, told p (deltas (rs ++ (r1, l1) :: (r2, l2) :: rest)) is -> advancing p (map fst (rs ++ [(r1, l1)])) ->
    gain in_mallocs is = before rd_mallocs (List.last (map (fun r => Some (fst r)) rest) (Some r2)) - (rd_mallocs r2 - rd_mallocs r1) - before rd_mallocs p).
  2: {
    rewrite (G None T A1). cbn [before]. lia. }
  clear A1 T. revert is. induction rs as [|[r l] rs IH]; intros is p T A; cbn [app deltas map fst snd advancing] in *;
    inversion T as [|? ? ? ? i ? is' Ti T'|]; subst; destruct A as [A0 A];
    destruct Ti as (_ & _ & _ & _ & _ & _ & E1 & _); cbn [promised] in E1.
  - inversion T' as [|? ? ? ? i2 ? is2 Ti2 T2|]; subst. pose proof (deltas_sum rest (Some r2) is2 T2 A2) as X. cbv zeta in X.
    destruct Ti2 as (_ & _ & _ & _ & _ & _ & E2 & _). cbn [promised elapsed before] in *.
    replace (rd_now r2 - rd_now r1 =? 0) with true in E2 by lia.
    replace (elapsed p r1 =? 0) with false in E1 by (destruct p; cbn [elapsed]; lia).
    unfold gain, zsum in *. cbn [map fold_right]. lia.
  - specialize (IH _ _ T' A). cbn [before] in IH.
    replace (elapsed p r =? 0) with false in E1 by (destruct p; cbn [elapsed]; lia).
    unfold gain, zsum in *. cbn [map fold_right]. lia.
Qed.
Print Assumptions C97_deltas_refuted.

(* The rates are per nanosecond: less than one event for each nanosecond is a rate of zero. *)
Theorem C97_rates_refuted : forall rs q r l, Forall reading_ok (map read_of rs) -> reading_ok q -> reading_ok r ->
  (forall f, In f [rd_mallocs; rd_frees; rd_numgc; rd_cgo] -> Z.abs (f r - f q) < rd_now r - rd_now q) ->
  exists s is i, collect_all (rs ++ [CollectBasic q; Collect CTRates l r]) new_stats = Ret (s, is ++ [None; Some i]) /\
    in_mallocs i = 0 /\ in_frees i = 0 /\ in_gc i = 0 /\ in_cgo i = 0.
Proof.
  intros rs q r l F Oq Or Lt. destruct (C97_run (rs ++ [CollectBasic q; Collect CTRates l r])) as (s & is & E & T).
  { apply Forall_app. split; [now rewrite Forall_map in F|constructor; [exact Oq|constructor; [exact Or|constructor]]]. }
  assert (X : forall p is, told p (rs ++ [CollectBasic q; Collect CTRates l r]) is ->
    exists is' i, is = is' ++ [None; Some i] /\ tells CTRates l (Some q) r i).
  { clear. induction rs as [|c rs IH]; intros p is T; cbn [app] in T.
    - inversion T as [| |? ? ? is' T']; subst. inversion T' as [|? ? ? ? i ? is2 Ti T2|]; subst. inversion T2; subst.
      exists [], i. auto.
    - inversion T as [|? ? ? ? i ? is' Ti T'|? ? ? is' T']; subst; destruct (IH _ _ T') as (is2 & j & -> & Tj); [exists (Some i :: is2), j|exists (None :: is2), j]; auto. }
  destruct (X _ _ T) as (is' & i & -> & (_ & _ & _ & _ & _ & _ & E1 & E2 & E3 & E4 & _)).
  exists s, is', i. split; [exact E|].
  assert (Z0 : forall f, In f [rd_mallocs; rd_frees; rd_numgc; rd_cgo] -> promised CTRates (Some q) r f = 0).
  { intros f I. specialize (Lt f I). cbn [promised elapsed before]. destruct (_ =? 0); [reflexivity|]. apply Z.quot_small_iff; lia. }
  rewrite E1, E2, E3, E4. repeat split; apply Z0; cbn; auto.
Qed.
Print Assumptions C97_rates_refuted.

(* The pause reported is that of the last garbage collection.  The runtime keeps the pauses of the
   latest 256 in a ring. *)
Definition ring (all : list Z) (r : reading) : Prop :=
  rd_numgc r = zlen all mod 2^32 /\
  forall k, 0 <= k < zlen all -> zlen all - 256 <= k ->
    nth_error (rd_pauses r) (Z.to_nat (k mod 256)) = nth_error all (Z.to_nat k).
Lemma collect_all_app a b : forall s, collect_all (a ++ b) s =
  ('(s, i1) <- collect_all a s ;; '(s, i2) <- collect_all b s ;; Ret (s, i1 ++ i2)).
Proof.
  induction a as [|c a IH]; intros s; cbn [app collect_all bind].
  - destruct (collect_all b s) as [[s' i]| |]; reflexivity.
  - destruct c as [t l r|r].
    + destruct (collect t l r s) as [[s' i]| |]; cbn [bind]; auto. rewrite IH.
      destruct (collect_all a s') as [[s2 i2]| |]; cbn [bind]; auto. destruct (collect_all b s2) as [[s3 i3]| |]; reflexivity.
    + destruct (collect_basic r s) as [s'| |]; cbn [bind]; auto. rewrite IH.
      destruct (collect_all a s') as [[s2 i2]| |]; cbn [bind]; auto. destruct (collect_all b s2) as [[s3 i3]| |]; reflexivity.
Qed.
Theorem C97_pause : forall cs t later r all x, Forall (fun c => reading_ok (read_of c)) cs -> reading_ok r ->
  ring (all ++ [x]) r -> is_i64 x ->
  exists s is i, collect_all (cs ++ [Collect t later r]) new_stats = Ret (s, is ++ [Some i]) /\ in_pause i = x.
Proof.
  intros cs t later r all x F Ok (N & R) Ix. rewrite collect_all_app.
  destruct (told_from None new_stats cs ltac:(repeat split) F) as (s & is & -> & _ & p & H). cbn [bind collect_all].
  destruct (update_ok p r s Ok H) as (s' & E & H' & _ & _ & _ & _ & _ & _ & X).
  unfold collect. rewrite E. cbn [bind]. do 3 eexists. split; [reflexivity|]. cbn [in_pause].
  assert (L : zlen (all ++ [x]) = zlen all + 1) by (unfold zlen; rewrite app_length; cbn; lia).
  assert (L0 : 0 <= zlen all) by (unfold zlen; lia). rewrite L in *.
  specialize (R (zlen all) ltac:(lia) ltac:(lia)).
  assert (M : u32 (rd_numgc r + 255) mod 256 = zlen all mod 256).
  { rewrite N. unfold u32. clear. generalize (zlen all) as n. intros n.
    pose proof (Z.div_mod (n + 1) (2^32) ltac:(lia)). pose proof (Z.div_mod ((n + 1) mod 2^32 + 255) (2^32) ltac:(lia)).
    lia. }
  rewrite M, R in X. rewrite nth_error_app2 in X by (unfold zlen; lia).
  replace (Z.to_nat (zlen all) - Datatypes.length all)%nat with 0%nat in X by (unfold zlen; lia). cbn in X. injection X as <-.
  now apply in_i64.
Qed.
Print Assumptions C97_pause.

(* ---------------------------------------------------------------------------- its document *)

Definition info_ok (i : info) : Prop :=
  (0 <= in_objects i < 2^63) /\ (0 <= in_alloc i < 2^63) /\ (0 <= in_sys i < 2^63) /\ (0 <= in_idle i < 2^63) /\ (0 <= in_inuse i < 2^63) /\
  is_i64 (in_mallocs i) /\ is_i64 (in_frees i) /\ is_i64 (in_gc i) /\ is_i64 (in_pause i) /\ is_i64 (in_latency i) /\
  is_i64 (in_goroutines i) /\ is_i64 (in_cgo i).
(* as the struct tags announce it *)
Definition info_fields (i : info) : list (bytes * bval) :=
  [(str "memory.objects.heap", BInt64 (in_objects i)); (str "memory.summary.alloc", BInt64 (in_alloc i));
   (str "memory.summary.system", BInt64 (in_sys i)); (str "memory.heap.idle", BInt64 (in_idle i));
   (str "memory.heap.used", BInt64 (in_inuse i)); (str "memory.counters.mallocs", BInt64 (in_mallocs i));
   (str "memory.counters.frees", BInt64 (in_frees i)); (str "gc.rate", BInt64 (in_gc i));
   (str "gc.pause.duration.last", BInt64 (in_pause i)); (str "gc.pause.duration.latency", BInt64 (in_latency i));
   (str "goroutines.total", BInt64 (in_goroutines i)); (str "cgo.calls", BInt64 (in_cgo i))].
Theorem C97_document : forall i, info_ok i -> exists d, info_document i = Ret d /\ build_doc (info_fields i) = Ret d.
Proof.
  intros i Ok. assert (W : wf_fields (info_fields i)).
  { unfold info_fields, wf_fields, wf_field, info_ok in *.
    repeat (apply Forall_cons; cbn [fst snd]); try apply Forall_nil; (split; [apply str_ok; cbn; intuition (subst; discriminate)|]);
    cbn [wf]; unfold is_i64 in *; lia. }
  destruct (build_doc_rep (info_fields i) W) as (d & B & _); [unfold small; reflexivity|]. exists d. split; [|exact B].
  rewrite <- B. unfold info_document, info_fields, ec_duration. unfold info_ok in Ok. cbn [build_doc build].
  rewrite !(in_i64 (in_objects i)), !(in_i64 (in_alloc i)), !(in_i64 (in_sys i)), !(in_i64 (in_idle i)), !(in_i64 (in_inuse i)) by (unfold is_i64; lia).
  repeat match goal with |- (x <- ?a ;; _) = _ => destruct a; cbn [bind]; try reflexivity end.
Qed.
Print Assumptions C97_document.

(* Three collections; the last two at one instant. *)
Definition some_reading (now mallocs : Z) : reading :=
  MkRd now 0 mallocs 3 1 5 (7 :: repeat 0 255) 10 20 30 40 50 60.
Example C97_used : reading_ok (some_reading 1000 50) /\ reading_ok (some_reading 2000 80) /\
  advancing None [some_reading 1000 50; some_reading 2000 80] /\ ring [7] (some_reading 1000 50) /\
  (exists s is, collect_all (deltas [(some_reading 1000 50, 1001); (some_reading 2000 80, 2001); (some_reading 2000 90, 2002);
      (some_reading 3000 95, 3001)]) new_stats = Ret (s, is) /\
    map (option_map in_mallocs) is = [Some 50; Some 30; Some 0; Some 5] /\ gain in_mallocs is = 85) /\
  (exists s is, collect_all [CollectBasic (some_reading 1000 50); Collect CTRates 2001 (some_reading 2000 80); Collect CTCurrent 2003 (some_reading 2002 90);
      Collect CTRates 3001 (some_reading 2003 95)] new_stats = Ret (s, is) /\
    map (option_map in_mallocs) is = [None; Some 0; Some 90; Some 5] /\ map (option_map in_pause) is = [None; Some 7; Some 7; Some 7]).
Proof.
  split; [|split; [|split; [|split; [|split]]]].
  - vm_compute. repeat split; discriminate.
  - vm_compute. repeat split; discriminate.
  - vm_compute. repeat split.
  - split; [reflexivity|]. intros k K _. change (zlen [7]) with 1 in K. now replace k with 0 by lia.
  - do 2 eexists. split; [vm_compute; reflexivity|]. split; reflexivity.
  - do 2 eexists. split; [vm_compute; reflexivity|]. split; reflexivity.
Qed.
Example C97_document_used : info_ok (MkInfo 1 2 3 4 5 6 (-7) 8 9 10 11 12) /\
  zlen (enc_doc (info_fields (MkInfo 1 2 3 4 5 6 (-7) 8 9 10 11 12))) = 340.
Proof. split; [vm_compute; repeat split; discriminate|vm_compute; reflexivity]. Qed.
