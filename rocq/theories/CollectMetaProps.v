(* SetMetadata at any time, for batch and dynamic collectors (C38, C39). *)
Require Import ZArith List Bool Lia ZifyBool ZifyNat.
From Verif Require Import Base BSpec Value Tree CodecProps Ftdc FtdcSpec FtdcProofs FtdcRestore FtdcProps FtdcFlatProps Collect CollectProofs CollectProps.
Import ListNotations.
Open Scope Z_scope.

Section Meta.
Variable nan : Z -> Z -> Z.
Variable fuel : nat.
Variable m : document.

Lemma b_add_meta now c es : b_add nan fuel now (b_set_metadata c m) es =
  let '(c', r) := b_add nan fuel now c es in (b_set_metadata c' m, r).
Proof.
  destruct c as [me rf st la de nu mx]. unfold b_add, b_set_metadata. cbn [b_ref b_meta b_start b_last b_deltas b_num b_max].
  destruct rf as [rf|].
  - destruct (_ <=? _); [reflexivity|]. destruct (obs_doc fuel es); try reflexivity. destruct la; [|reflexivity].
    destruct (negb _); [reflexivity|]. destruct (fill _ _ _ _ _ _) as [ds [[e|]| |]]; reflexivity.
  - destruct (obs_doc fuel es); try reflexivity. cbn zeta. destruct (_ <? _); reflexivity.
Qed.
Lemma b_samples_meta c : b_samples (b_set_metadata c m) = b_samples c.
Proof. reflexivity. Qed.
Lemma bt_add_meta now c es : bt_add nan fuel now (bt_set_metadata c m) es =
  let '(c', r) := bt_add nan fuel now c es in (bt_set_metadata c' m, r).
Proof.
  destruct c as [mx ds l]. unfold bt_add, bt_set_metadata. destruct ds as [|d ds]; cbn [bt_max bt_done bt_last].
  - rewrite b_samples_meta. destruct (_ <=? _).
    + destruct (b_add _ _ _ _ _) as [l' r]. reflexivity.
    + rewrite b_add_meta. destruct (b_add _ _ _ _ _) as [l' r]. reflexivity.
  - destruct (_ <=? _); destruct (b_add _ _ _ _ _) as [l' r]; reflexivity.
Qed.
Lemma dy_add_meta now c es : dy_add nan fuel now (dy_set_metadata c m) es =
  let '(c', r) := dy_add nan fuel now c es in (dy_set_metadata c' m, r).
Proof.
  destruct c as [mx ds l h]. unfold dy_add, dy_set_metadata. destruct ds as [|d ds]; cbn [dy_max dy_done dy_last dy_hash].
  - destruct (obs_doc fuel es) as [x| |]; try reflexivity. destruct (key_hash x) as [k n]. rewrite bt_add_meta.
    destruct (bt_add nan fuel now l es) as [l' r]. destruct h as [h|]; [|reflexivity].
    destruct (h =? k); [reflexivity|]. destruct (bt_add nan fuel now (new_batch mx) es) as [l2 r2]. reflexivity.
  - destruct (obs_doc fuel es) as [x| |]; try reflexivity. destruct (key_hash x) as [k n].
    destruct (bt_add nan fuel now l es) as [l' r]. destruct h as [h|]; [|reflexivity].
    destruct (h =? k); [reflexivity|]. destruct (bt_add nan fuel now (new_batch mx) es) as [l2 r2]. reflexivity.
Qed.
Lemma bt_run_meta docs : forall c, bt_run nan fuel (bt_set_metadata c m) docs =
  let '(c', r) := bt_run nan fuel c docs in (bt_set_metadata c' m, r).
Proof.
  induction docs as [|[now es] docs IH]; intros c; cbn [bt_run]; [reflexivity|]. rewrite bt_add_meta.
  destruct (bt_add _ _ _ _ _) as [c1 r]. rewrite IH. destruct (bt_run _ _ _ _) as [c2 rs]. reflexivity.
Qed.
Lemma dy_run_meta docs : forall c, dy_run nan fuel (dy_set_metadata c m) docs =
  let '(c', r) := dy_run nan fuel c docs in (dy_set_metadata c' m, r).
Proof.
  induction docs as [|[now es] docs IH]; intros c; cbn [dy_run]; [reflexivity|]. rewrite dy_add_meta.
  destruct (dy_add _ _ _ _ _) as [c1 r]. rewrite IH. destruct (dy_run _ _ _ _) as [c2 rs]. reflexivity.
Qed.
Lemma bt_run_app d1 : forall c d2, bt_run nan fuel c (d1 ++ d2) =
  let '(c1, r1) := bt_run nan fuel c d1 in let '(c2, r2) := bt_run nan fuel c1 d2 in (c2, r1 ++ r2).
Proof.
  induction d1 as [|[now es] d1 IH]; intros c d2; cbn [bt_run app].
  - destruct (bt_run _ _ _ d2) as [c2 r2]. reflexivity.
  - destruct (bt_add _ _ _ _ _) as [c1 r]. rewrite IH. destruct (bt_run _ _ c1 d1) as [c2 r2]. destruct (bt_run _ _ c2 d2) as [c3 r3]. reflexivity.
Qed.
Lemma dy_run_app d1 : forall c d2, dy_run nan fuel c (d1 ++ d2) =
  let '(c1, r1) := dy_run nan fuel c d1 in let '(c2, r2) := dy_run nan fuel c1 d2 in (c2, r1 ++ r2).
Proof.
  induction d1 as [|[now es] d1 IH]; intros c d2; cbn [dy_run app].
  - destruct (dy_run _ _ _ d2) as [c2 r2]. reflexivity.
  - destruct (dy_add _ _ _ _ _) as [c1 r]. rewrite IH. destruct (dy_run _ _ c1 d1) as [c2 r2]. destruct (dy_run _ _ c2 d2) as [c3 r3]. reflexivity.
Qed.
End Meta.
Lemma bt_meta_twice c a b : bt_set_metadata (bt_set_metadata c a) b = bt_set_metadata c b.
Proof. destruct c as [mx [|d ds] l]; reflexivity. Qed.
Lemma dy_meta_twice c a b : dy_set_metadata (dy_set_metadata c a) b = dy_set_metadata c b.
Proof.
  destruct c as [mx [|d ds] l h]; unfold dy_set_metadata; cbn [dy_done dy_last dy_max dy_hash]; now rewrite bt_meta_twice.
Qed.

(* A client that sets metadata, adds samples, sets other metadata and adds more: the last
   metadata set is read back, before all samples, and the samples and answers are as if it
   had been set at the start. *)
Theorem C38_metadata_any_time : forall nan zip unzip fuel max md m mfs docs1 docs2 dfs c1 c rs1 rs2,
  codec_ok zip unzip -> 1 <= max < 4294967296 -> meta_ok fuel (Some m) mfs ->
  Forall2 (fun d fs => sample fuel (snd d) fs) (docs1 ++ docs2) dfs -> Forall (room fuel max) dfs ->
  bt_run nan fuel (batch_with max md) docs1 = (c1, rs1) -> bt_run nan fuel (bt_set_metadata c1 m) docs2 = (c, rs2) ->
  rs1 ++ rs2 = batch_answers max [] dfs /\
  (dfs <> [] -> exists gs out, partition max (accepted dfs (rs1 ++ rs2)) gs /\ Forall (fun g => zlen g = max) (removelast gs) /\
    bt_resolve zip fuel c = Ret (inl out) /\ reads_back nan unzip fuel out gs mfs).
Proof.
  intros nan zip unzip fuel max md m mfs docs1 docs2 dfs c1 c rs1 rs2 Cz Mx Mo Sa Ro E1 E2.
  assert (E : bt_run nan fuel (batch_with max (Some m)) (docs1 ++ docs2) = (c, rs1 ++ rs2)).
  { replace (batch_with max (Some m)) with (bt_set_metadata (batch_with max md) m) by (destruct md; cbn [batch_with]; rewrite ?bt_meta_twice; reflexivity).
    rewrite bt_run_app, bt_run_meta, E1, E2. reflexivity. }
  destruct (C38_batch nan zip unzip fuel max (Some m) mfs _ _ _ _ Cz Mx Mo Sa Ro E) as (A & _ & B). auto.
Qed.
Print Assumptions C38_metadata_any_time.
Theorem C39_metadata_any_time : forall nan zip unzip fuel max md m mfs docs1 docs2 dfs c1 c rs1 rs2,
  codec_ok zip unzip -> 1 <= max < 4294967296 -> meta_ok fuel (Some m) mfs ->
  Forall2 (fun d fs => sample fuel (snd d) fs) (docs1 ++ docs2) dfs -> Forall (room fuel max) dfs ->
  dy_run nan fuel (dynamic_with max md) docs1 = (c1, rs1) -> dy_run nan fuel (dy_set_metadata c1 m) docs2 = (c, rs2) ->
  dfs <> [] -> exists gs out, partition max (accepted dfs (rs1 ++ rs2)) gs /\
    dy_resolve zip fuel c = Ret (inl out) /\ reads_back nan unzip fuel out gs mfs.
Proof.
  intros nan zip unzip fuel max md m mfs docs1 docs2 dfs c1 c rs1 rs2 Cz Mx Mo Sa Ro E1 E2 Nd.
  assert (E : dy_run nan fuel (dynamic_with max (Some m)) (docs1 ++ docs2) = (c, rs1 ++ rs2)).
  { replace (dynamic_with max (Some m)) with (dy_set_metadata (dynamic_with max md) m) by (destruct md; cbn [dynamic_with]; rewrite ?dy_meta_twice; reflexivity).
    rewrite dy_run_app, dy_run_meta, E1, E2. reflexivity. }
  destruct (C39_dynamic_partial nan zip unzip fuel max (Some m) mfs _ _ _ _ Cz Mx Mo Sa Ro E) as (_ & _ & B).
  destruct (B Nd) as (gs & out & P & Eo & Rb & _). exists gs, out. auto.
Qed.
Print Assumptions C39_metadata_any_time.
(* a case: metadata set between two samples *)
Example metadata_nonvacuous : exists m mfs (docs : list (Z * document)) (dfs : list fields), meta_ok 3000 (Some m) mfs /\ mfs <> None /\
  Forall2 (fun d fs => sample 3000 (snd d) fs) (docs ++ docs) dfs /\ Forall (room 3000 1) dfs /\ dfs <> [].
Proof.
  set (d := one (BInt64 7)).
  assert (T : Forall (fun d => wf_fields d /\ zlen (enc_doc d) < 40 /\ zlen (doc_leaves d) = 1) [d; d]).
  { repeat (apply Forall_cons; [split; [repeat constructor; try (vm_compute; intuition congruence)|split; vm_compute; reflexivity]|]). apply Forall_nil. }
  destruct (short_samples [d; d]) as (docs & _ & F); [eapply Forall_impl; [|exact T]; unfold short; cbn; intuition lia|].
  inversion F as [|[t1 e1] ? l1 ? S1 F1 Q1]; subst. inversion F1 as [|[t2 e2] ? l2 ? S2 F2]; subst. inversion F2; subst.
  cbn [snd] in *. exists e1, (Some d), [(t1, e1)], [d; d]. split; [split; [exact S1|]; unfold enough; pose proof (Forall_inv T) as (_ & ? & _); lia|]. split; [discriminate|]. split; [|split; [|discriminate]].
  - constructor; [exact S1|]. constructor; [exact S1|constructor].
  - eapply Forall_impl; [|exact T]. intros x (_ & L & E). unfold room, chunk_room, enough. rewrite E. lia.
Qed.
