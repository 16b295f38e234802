(* Properties of the conversion between FTDC and CSV (C82-C84). *)
Require Import ZArith List Bool Lia ZifyBool ZifyNat.
From Verif Require Import Base BSpec Elements Value Codec CodecRead Itoa CodecRep Api ApiProofs Tree
  GetterProofs ReaderOps CodecProps DocOps Stream Search Dec128 DecProofs FtdcSpec Ftdc FtdcProofs FtdcRestore FtdcProps FtdcFlatProps
  Collect CollectProofs CollectProps CollectStreamProps Json JsonSpec JsonProofs JsonProps Csv.
Import ListNotations.
Open Scope Z_scope.

(* --------------------------------------------------------------- specification *)

(* A table: the header and the rows. *)
Notation table := (row * list row)%type.
(* The text of a metric: dates are shown to the second, other metrics as integers. *)
Definition leaf_text (fmt_secs : Z -> bytes) (l : leaf) : bytes :=
  match l with LDate ms => fmt_secs (Z.quot ms 1000) | _ => itoa_signed (leaf_int l) end.
(* The table of samples that were collected together: the names the reader gives to the
   metrics (C62_given), and a row for each sample. *)
Definition table_of (fmt_secs : Z -> bytes) (g : list fields) : table :=
  (given_names (hd [] g), map (fun d => map (leaf_text fmt_secs) (doc_leaves d)) g).
(* Consecutive tables with the same number of columns go to one file, under the header of
   the first. *)
Fixpoint files (ts : list table) : list (list row) :=
  match ts with
  | [] => []
  | (h, b) :: r =>
      match files r with
      | f :: fs => if (length h =? length (hd [] f))%nat then (h :: b ++ tl f) :: fs else (h :: b) :: f :: fs
      | [] => [h :: b]
      end
  end.
(* The chunk was read from what a collector wrote that had accepted the samples g; the
   format carries its metrics exactly (see C35, C36). *)
Definition collected nan zip unzip fuel (c : chunk) (g : list fields) : Prop :=
  (exists mfs, read_back nan zip unzip fuel mfs g c) /\
  Forall (fun d => Forall exact (doc_leaves d)) g.

(* ------------------------------------------------------------------------ disks *)

Definition add_last (fs : list (list row)) (r : list row) : list (list row) :=
  match rev fs with [] => [r] | f :: t => rev t ++ [f ++ r] end.
Lemma add_last_snoc fs f r : add_last (fs ++ [f]) r = fs ++ [f ++ r].
Proof. unfold add_last. rewrite rev_app_distr. cbn [rev app]. now rewrite rev_involutive. Qed.
Lemma answer_files d d' e : answer d = (d', e) -> d_files d' = d_files d /\ (d_plan d = [] -> e = None /\ d_plan d' = []).
Proof. unfold answer. destruct (d_plan d) eqn:P; intros E; injection E as <- <-; cbn; split; auto; discriminate. Qed.
Lemma put_files d r d' e : put d r = (d', e) ->
  (e = None -> d_files d' = add_last (d_files d) [r]) /\ (d_plan d = [] -> e = None /\ d_plan d' = []).
Proof.
  unfold put. destruct (answer d) as [d1 e1] eqn:A. destruct (answer_files _ _ _ A) as [F P]. destruct e1 as [e1|].
  - intros E. injection E as <- <-. split; [discriminate|]. intros Q. destruct (P Q). discriminate.
  - unfold add_last. rewrite <- F. destruct (rev (d_files d1)); intros E; injection E as <- <-; cbn; split; auto; intros Q; now destruct (P Q).
Qed.
Lemma create_files d d' e : create d = (d', e) ->
  (e = None -> d_files d' = d_files d ++ [[]]) /\ (d_plan d = [] -> e = None /\ d_plan d' = []).
Proof.
  unfold create. destruct (answer d) as [d1 e1] eqn:A. destruct (answer_files _ _ _ A) as [F P]. rewrite <- F.
  destruct e1 as [e1|]; intros E; injection E as <- <-; cbn; split; auto; try discriminate; intros Q; destruct (P Q); auto.
Qed.

Section Out.
Variable fmt_secs : Z -> bytes.

(* the chunk has these rows *)
Definition has_rows (c : chunk) (rows : list row) : Prop :=
  c_points c = zlen rows /\ forall i r, nth_error rows i = Some r -> get_record fmt_secs c (Z.of_nat i) = Ret r.

Lemma put_points_rows c rows fs : forall k d f d' r,
  (forall i r, nth_error rows i = Some r -> get_record fmt_secs c (k + Z.of_nat i) = Ret r) ->
  d_files d = fs ++ [f] -> put_points fmt_secs (length rows) k c d = (d', r) ->
  (r = Ret None /\ d_files d' = fs ++ [f ++ rows] \/ exists e, r = Ret (Some e)) /\
  (d_plan d = [] -> r = Ret None /\ d_plan d' = []).
Proof.
  induction rows as [|x rows IH]; intros k d f d' r H Fd E; cbn [length put_points] in E.
  - injection E as <- <-. rewrite app_nil_r. auto.
  - pose proof (H O x eq_refl) as H0. rewrite Z.add_0_r in H0. rewrite H0 in E.
    destruct (put d x) as [d1 e1] eqn:Pu. destruct (put_files _ _ _ _ Pu) as [F1 P1]. destruct e1 as [e1|].
    + injection E as <- <-. split; [right; eauto|]. intros Q. destruct (P1 Q). discriminate.
    + specialize (F1 eq_refl). rewrite Fd, add_last_snoc in F1.
      destruct (IH (k + 1) d1 (f ++ [x]) d' r) as [R P]; auto.
      { intros i y Hy. specialize (H (S i) y Hy). rewrite <- H. f_equal. lia. }
      rewrite <- app_assoc in R. split; [exact R|]. intros Q. apply P. now destruct (P1 Q).
Qed.
Lemma put_chunk_rows c rows fs d f d' r : has_rows c rows -> d_files d = fs ++ [f] -> put_chunk fmt_secs c d = (d', r) ->
  (r = Ret None /\ d_files d' = fs ++ [f ++ rows] \/ exists e, r = Ret (Some e)) /\
  (d_plan d = [] -> r = Ret None /\ d_plan d' = []).
Proof.
  intros [N H] Fd E. unfold put_chunk in E. rewrite N, to_nat_zlen in E.
  destruct (put_points fmt_secs (length rows) 0 c d) as [d1 r1] eqn:Pp.
  destruct (put_points_rows c rows fs 0 d f d1 r1 H Fd Pp) as [R P].
  destruct R as [[-> F1]|[e ->]].
  - destruct (answer d1) as [d2 e2] eqn:A. destruct (answer_files _ _ _ A) as [F2 P2]. injection E as <- <-. rewrite F2.
    split; [destruct e2; eauto|]. intros Q. destruct (P Q) as [_ Q']. destruct (P2 Q') as [-> ?]. auto.
  - injection E as <- <-. split; [eauto|]. intros Q. destruct (P Q). discriminate.
Qed.

Definition is_table (c : chunk) (t : table) : Prop := field_names c = fst t /\ has_rows c (snd t).
Lemma field_names_len c t : is_table c t -> zlen (c_metrics c) = zlen (fst t).
Proof. intros [<- _]. unfold field_names. now rewrite zlen_map. Qed.

(* WriteCSV, for tables with columns *)
Lemma write_rows cs ts : Forall2 is_table cs ts -> forall num fs f d d' r,
  num <> 0 -> d_files d = fs ++ [f] -> write_csv fmt_secs num cs d = (d', r) ->
  (r = Ret None -> Forall (fun t => zlen (fst t) = num) ts /\ d_files d' = fs ++ [f ++ concat (map snd ts)]) /\
  (exists e, r = Ret e) /\
  (d_plan d = [] -> Forall (fun t => zlen (fst t) = num) ts -> r = Ret None) /\
  (d_plan d = [] -> ~ Forall (fun t => zlen (fst t) = num) ts -> r = Ret (Some e_change) /\
    exists ts1 t ts2, ts = ts1 ++ t :: ts2 /\ Forall (fun t => zlen (fst t) = num) ts1 /\ zlen (fst t) <> num /\
      d_files d' = fs ++ [f ++ concat (map snd ts1)]).
Proof.
  induction 1 as [|c t cs ts It F IH]; intros num fs f d d' r Nz Fd E; cbn [write_csv] in E.
  - injection E as <- <-. cbn. rewrite app_nil_r. split; [auto|]. split; [eauto|]. split; [auto|]. intros _ Nf. destruct Nf. constructor.
  - rewrite (field_names_len _ _ It) in E.
    destruct (num =? 0) eqn:Z0; [lia|]. destruct (num =? zlen (fst t)) eqn:Zn.
    + assert (Zt : zlen (fst t) = num) by lia. destruct (put_chunk fmt_secs c d) as [d1 r1] eqn:Pc. destruct It as [_ Hr].
      destruct (put_chunk_rows c (snd t) fs d f d1 r1 Hr Fd Pc) as [R P]. destruct R as [[-> F1]|[e ->]].
      * destruct (IH num fs (f ++ snd t) d1 d' r Nz F1 E) as (A & B & C & D).
        split; [|split; [exact B|split]].
        -- intros ->. destruct (A eq_refl) as [A1 A2]. split; [constructor; [exact Zt|auto]|]. cbn [map concat]. now rewrite app_assoc.
        -- intros Q Fa. inversion_clear Fa. destruct (P Q). auto.
        -- intros Q Nf. destruct (P Q) as [_ Q']. destruct (D Q') as (-> & ts1 & t' & ts2 & -> & F2 & N2 & F3).
           { intros Fa. apply Nf. constructor; [exact Zt|auto]. }
           split; [reflexivity|]. exists (t :: ts1), t', ts2. split; [reflexivity|]. split; [constructor; [exact Zt|auto]|].
           split; [exact N2|]. cbn [map concat]. now rewrite app_assoc.
      * injection E as <- <-. split; [discriminate|]. split; [eauto|]. split; intros Q; destruct (P Q); discriminate.
    + assert (Zt : zlen (fst t) <> num) by lia. injection E as <- <-. split; [discriminate|]. split; [eauto|]. split; [intros _ Fa; inversion_clear Fa as [|? ? Q _]; destruct (Zt Q)|].
      intros _ _. split; [reflexivity|]. exists [], t, ts. cbn. rewrite app_nil_r. repeat split; auto.
Qed.

(* DumpCSV *)
Definition joined (num : Z) (f : list row) (ts : list table) : list (list row) :=
  match files ts with
  | g :: gs => if num =? zlen (hd [] g) then (f ++ tl g) :: gs else f :: g :: gs
  | [] => [f]
  end.
Lemma files_cons t ts : exists f fs, files (t :: ts) = (fst t :: f) :: fs.
Proof. destruct t as [h b]. cbn. destruct (files ts) as [|g gs]; [eauto|]. destruct (length h =? length (hd [] g))%nat; eauto. Qed.
Lemma joined_cons h b ts : files ((h, b) :: ts) = joined (zlen h) (h :: b) ts.
Proof.
  cbn [files]. unfold joined. destruct (files ts) as [|g gs]; [reflexivity|].
  replace (zlen h =? zlen (hd [] g)) with (length h =? length (hd [] g))%nat by (unfold zlen; lia).
  destruct (length h =? length (hd [] g))%nat; reflexivity.
Qed.
Lemma dump_rows cs ts : Forall2 is_table cs ts -> Forall (fun t => fst t <> []) ts -> forall num fs f d d' r,
  num <> 0 -> d_files d = fs ++ [f] -> dump_csv fmt_secs true num cs d = (d', r) ->
  (r = Ret None -> d_files d' = fs ++ joined num f ts) /\ (exists e, r = Ret e) /\ (d_plan d = [] -> r = Ret None).
Proof.
  induction 1 as [|c t cs ts It F IH]; intros Ne num fs f d d' r Nz Fd E; cbn [dump_csv] in E.
  - destruct (answer d) as [d1 e1] eqn:A. destruct (answer_files _ _ _ A) as [F1 P1]. injection E as <- <-. cbn.
    split; [congruence|]. split; [eauto|]. intros Q. destruct (P1 Q). congruence.
  - rewrite (field_names_len _ _ It) in E. inversion_clear Ne as [|? ? Nt Nts].
    destruct t as [h b]. cbn [fst snd] in *. destruct It as [Hn Hr]. cbn [fst snd] in *. rewrite Hn in E.
    assert (Zh : zlen h <> 0) by (destruct h; [congruence|]; zlens; pose proof (zlen_nonneg h); lia).
    assert (J : joined num f ((h, b) :: ts) = if num =? zlen h then joined num (f ++ b) ts else f :: joined (zlen h) (h :: b) ts).
    { assert (U : forall l, joined num f l = match files l with g :: gs => if num =? zlen (hd [] g) then (f ++ tl g) :: gs else f :: g :: gs | [] => [f] end) by reflexivity.
      rewrite (U ((h, b) :: ts)). clear U. destruct (files_cons (h, b) ts) as (x & xs & Ef). pose proof (joined_cons h b ts) as Jc. rewrite Ef. rewrite Ef in Jc.
      cbn [fst hd] in *. rewrite <- Jc. destruct (num =? zlen h) eqn:Zn; [|reflexivity]. assert (num = zlen h) by lia. subst num.
      cbn [tl hd]. unfold joined in *. destruct (files ts) as [|g gs]; [injection Jc as -> ->; reflexivity|].
      destruct (zlen h =? zlen (hd [] g)); injection Jc as -> ->; [now rewrite app_assoc|reflexivity]. }
    rewrite J. clear J.
    destruct (num =? 0) eqn:Z0; [lia|]. destruct (num =? zlen h) eqn:Zn.
    + destruct (put_chunk fmt_secs c d) as [d1 r1] eqn:Pc.
      destruct (put_chunk_rows c b fs d f d1 r1 Hr Fd Pc) as [R P]. destruct R as [[-> F1]|[e ->]].
      * destruct (IH Nts num fs (f ++ b) d1 d' r Nz F1 E) as (A & B & C). split; [exact A|]. split; [exact B|]. intros Q. apply C. now destruct (P Q).
      * injection E as <- <-. split; [discriminate|]. split; [eauto|]. intros Q; destruct (P Q); discriminate.
    + destruct (answer d) as [d1 e1] eqn:A. destruct (answer_files _ _ _ A) as [F1 P1].
      destruct e1 as [e1|]; [injection E as <- <-; split; [discriminate|split; [eauto|intros Q; destruct (P1 Q); discriminate]]|].
      destruct (create d1) as [d2 e2] eqn:Cr. destruct (create_files _ _ _ Cr) as [F2 P2].
      destruct e2 as [e2|]; [injection E as <- <-; split; [discriminate|split; [eauto|intros Q; destruct (P1 Q) as [_ Q']; destruct (P2 Q'); discriminate]]|].
      destruct (put d2 h) as [d3 e3] eqn:Pu. destruct (put_files _ _ _ _ Pu) as [F3 P3].
      destruct e3 as [e3|]; [injection E as <- <-; split; [discriminate|split; [eauto|intros Q; destruct (P1 Q) as [_ Q']; destruct (P2 Q') as [_ Q'']; destruct (P3 Q''); discriminate]]|].
      specialize (F2 eq_refl). specialize (F3 eq_refl). rewrite F2, add_last_snoc, F1, Fd in F3. cbn [app] in F3.
      destruct (put_chunk fmt_secs c d3) as [d4 r4] eqn:Pc.
      destruct (put_chunk_rows c b (fs ++ [f]) d3 [h] d4 r4 Hr F3 Pc) as [R P]. destruct R as [[-> F4]|[e ->]].
      * destruct (IH Nts (zlen h) (fs ++ [f]) (h :: b) d4 d' r Zh F4 E) as (A1 & B & C).
        split; [intros Er; rewrite (A1 Er), <- app_assoc; reflexivity|]. split; [exact B|].
        intros Q. apply C. destruct (P1 Q) as [_ Q1]. destruct (P2 Q1) as [_ Q2]. destruct (P3 Q2) as [_ Q3]. now destruct (P Q3).
      * injection E as <- <-. split; [discriminate|]. split; [eauto|]. intros Q.
        destruct (P1 Q) as [_ Q1]. destruct (P2 Q1) as [_ Q2]. destruct (P3 Q2) as [_ Q3]. destruct (P Q3). discriminate.
Qed.

Lemma collected_table nan zip unzip fuel c g : collected nan zip unzip fuel c g -> is_table c (table_of fmt_secs g).
Proof.
  intros ((mfs & H) & X). pose proof (C62_given _ _ _ _ _ _ _ H) as Nm.
  pose proof (chunk_columns _ _ _ _ _ _ _ H X) as C. pose proof (read_back_schema _ _ _ _ _ _ _ H) as Sc.
  destruct (read_back_is _ _ _ _ _ _ _ H) as (md & start & W & N & _ & K). destruct K as (_ & Ep & _).
  split; [exact Nm|]. split; [cbn [table_of snd]; rewrite zlen_map; exact Ep|]. cbn [table_of snd].
  intros i r Hr. rewrite nth_error_map in Hr. destruct (nth_error g i) as [d|] eqn:Hd; [|discriminate]. injection Hr as <-.
  assert (Id : In d g) by (eapply nth_error_In; eauto). unfold get_record. apply mapM_all.
  assert (Ld : length (doc_leaves d) = length (doc_leaves (hd [] g))).
  { rewrite Forall_forall in Sc. specialize (Sc d Id). apply (f_equal (@length _)) in Sc. unfold schema in Sc. now rewrite !map_length in Sc. }
  rewrite <- Ld in C. clear -Hd C.
  assert (A : forall ms k ls, Forall2 (fun m j => exists ls, column j g = map Some ls /\ Forall exact ls /\ Forall leaf_ok ls /\
      Forall (fun l => leaf_type l = m_type m) ls /\ m_values m = map leaf_int ls) ms (seq k (length ls)) ->
    (forall j l, nth_error ls j = Some l -> nth_error (doc_leaves d) (k + j) = Some l) ->
    Forall2 (fun m y => (v <- goindex (m_values m) (Z.of_nat i) ;; Ret (cell fmt_secs (m_type m) v)) = Ret y) ms (map (leaf_text fmt_secs) ls)).
  { clear -Hd. intros ms k ls F. remember (seq k (length ls)) as js eqn:Ejs. revert k ls Ejs.
    induction F as [|m j ms js Hm F IH]; intros k [|l ls] Ejs Hl; try discriminate; cbn [map]; constructor.
    - injection Ejs as -> ->. destruct Hm as (cs & Ec & Fx & Fo & Ft & Ev). specialize (Hl O l eq_refl). rewrite Nat.add_0_r in Hl.
      assert (Ni : nth_error cs i = Some l).
      { assert (nth_error (column k g) i = Some (Some l)) by (unfold column; now rewrite nth_error_map, Hd; cbn; f_equal).
        rewrite Ec, nth_error_map in H. destruct (nth_error cs i); cbn in H; congruence. }
      rewrite Ev, (goindex_nat (map leaf_int cs) i (leaf_int l)) by (now apply map_nth_error). cbn [bind].
      assert (Il : In l cs) by (eapply nth_error_In; eauto). rewrite Forall_forall in Ft.
      rewrite <- (Ft l Il). f_equal. now destruct l.
    - injection Ejs as -> ->. apply (IH (S k) ls eq_refl). intros j' l' Hj. specialize (Hl (S j') l' Hj). now rewrite <- Nat.add_succ_comm in Hl. }
  apply (A _ O _ C). auto.
Qed.
End Out.

(* ------------------------------------------------------------------------- C82 *)

(* C82.  WriteCSV of chunks that have metrics, whatever goes wrong with the file: it does not
   panic; if it returns nil then the chunks have the same number of metrics and the file has
   the names of the first chunk's metrics and a row for each sample, in order.  If nothing
   goes wrong it returns nil if the number of metrics does not change, and else an error,
   and the file has the rows of the chunks before the change.
   Missing: doubles and timestamps, see C82_double_refuted.  The names are those of
   C62_given. *)
Theorem C82_partial : forall fmt_secs nan zip unzip fuel cs gs plan d r,
  Forall2 (collected nan zip unzip fuel) cs gs -> Forall (fun g => doc_leaves (hd [] g) <> []) gs ->
  write_csv fmt_secs 0 cs (MkDisk [[]] plan) = (d, r) ->
  let number g := length (doc_leaves (hd [] g)) in
  let same := forall g g', In g gs -> In g' gs -> number g = number g' in
  let file l := match gs with [] => [] | g :: _ => fst (table_of fmt_secs g) :: concat (map (fun g => snd (table_of fmt_secs g)) l) end in
  (exists e, r = Ret e) /\
  (r = Ret None -> same /\ d_files d = [file gs]) /\
  (plan = [] -> same -> r = Ret None) /\
  (plan = [] -> ~ same -> r = Ret (Some e_change) /\
    exists g0 gs1 g gs2, gs = g0 :: gs1 ++ g :: gs2 /\ (forall g', In g' gs1 -> number g' = number g0) /\ number g <> number g0 /\
      d_files d = [file (g0 :: gs1)]).
Proof.
  intros fmt_secs nan zip unzip fuel cs gs plan d r F Ne E number same file.
  assert (F' : Forall2 (is_table fmt_secs) cs (map (table_of fmt_secs) gs)).
  { clear -F. induction F as [|c g cs gs H F IH]; cbn; constructor; auto. eapply collected_table; eauto. }
  destruct F as [|c g0 cs gs H F].
  - injection E as <- <-. split; [eauto|]. split; [intros _; split; [intros ? ? []|reflexivity]|]. split; [auto|].
    intros _ Ns. destruct Ns. intros ? ? [].
  - cbn [map] in F'. inversion_clear F' as [|? ? ? ? Ht Fts]. cbn [write_csv] in E. cbn [Z.eqb] in E.
    rewrite (field_names_len _ _ _ Ht) in E. pose proof Ht as [Hn Hr]. rewrite Hn in E.
    inversion_clear Ne as [|? ? Ng Ngs].
    assert (Len : forall g, zlen (fst (table_of fmt_secs g)) = Z.of_nat (number g)).
    { intros g. unfold zlen, table_of, number. cbn [fst]. now rewrite given_names_length. }
    rewrite Len in E. assert (Nz : Z.of_nat (number g0) <> 0) by (unfold number; destruct (doc_leaves (hd [] g0)); [congruence|cbn [length]; lia]).
    destruct (put (MkDisk [[]] plan) (fst (table_of fmt_secs g0))) as [d1 e1] eqn:Pu. destruct (put_files _ _ _ _ Pu) as [F1 P1].
    cbn [d_files d_plan] in *. destruct e1 as [e1|].
    { injection E as <- <-. split; [eauto|]. split; [discriminate|]. split; intros Q; destruct (P1 Q); discriminate. }
    specialize (F1 eq_refl). change [[]] with ([] ++ [[]] : list (list row)) in F1. rewrite add_last_snoc in F1. cbn [app] in F1.
    destruct (put_chunk fmt_secs c d1) as [d2 r2] eqn:Pc.
    destruct (put_chunk_rows fmt_secs c _ [] d1 _ d2 r2 Hr F1 Pc) as [R P]. destruct R as [[-> F2]|[e ->]].
    2:{ injection E as <- <-. split; [eauto|]. split; [discriminate|]. split; intros Q; destruct (P1 Q) as [_ Q']; destruct (P Q'); discriminate. }
    destruct (write_rows fmt_secs cs _ Fts (Z.of_nat (number g0)) [] _ d2 d r Nz F2 E) as (A & B & C & D).
    assert (Sm : Forall (fun t => zlen (fst t) = Z.of_nat (number g0)) (map (table_of fmt_secs) gs) <-> same).
    { rewrite Forall_map, Forall_forall. split.
      - intros Fa. assert (K : forall g, In g (g0 :: gs) -> number g = number g0).
        { intros g [<-|Hg]; [reflexivity|]. specialize (Fa g Hg). rewrite Len in Fa. lia. }
        intros g g' Hg Hg'. rewrite (K g Hg), (K g' Hg'). reflexivity.
      - intros Sa g Hg. rewrite Len. f_equal. apply Sa; [now right|now left]. }
    split; [exact B|]. cbn [app] in *. split.
    { intros Er. destruct (A Er) as [A1 A2]. split; [now apply Sm|]. unfold file. cbn [map concat]. rewrite A2, map_map. reflexivity. }
    split; [intros Q Sa; destruct (P1 Q) as [_ Q1]; destruct (P Q1) as [_ Q2]; apply C; [exact Q2|now apply Sm]|].
    intros Q Ns. destruct (P1 Q) as [_ Q1]. destruct (P Q1) as [_ Q2].
    destruct D as (Er & ts1 & t & ts2 & Es & T1 & T2 & T3); [exact Q2|intros Fa; apply Ns; now apply Sm|].
    split; [exact Er|]. apply map_eq_app in Es as (gs1 & gr & Eg & <- & Er2). destruct gr as [|g gs2]; [discriminate|]. injection Er2 as <- <-.
    subst gs. exists g0, gs1, g, gs2. split; [reflexivity|]. split.
    + intros g' Hg'. rewrite Forall_map, Forall_forall in T1. specialize (T1 g' Hg'). rewrite Len in T1. lia.
    + split; [rewrite Len in T2; lia|]. rewrite T3. unfold file. cbn [map concat]. now rewrite map_map.
Qed.
Print Assumptions C82_partial.

(* What was asked of the files between two disks, and answered. *)
Definition asked (d d' : disk) (used : list (option gerr)) : Prop := d_plan d = used ++ d_plan d'.
Definition fine {E} (l : list (option E)) : Prop := Forall (fun a => a = None) l.
Lemma asked_trans d1 d2 d3 u v : asked d1 d2 u -> asked d2 d3 v -> asked d1 d3 (u ++ v).
Proof. unfold asked. intros -> ->. apply app_assoc. Qed.
Lemma asked_refl d : asked d d [].
Proof. reflexivity. Qed.
Lemma answer_asked d d' e : answer d = (d', e) -> exists u, asked d d' u /\ (e = None -> fine u).
Proof.
  unfold answer. destruct (d_plan d) as [|a r] eqn:P; intros [= <- <-].
  - exists []. split; [apply asked_refl|constructor].
  - exists [a]. split; [exact P|]. intros ->. repeat constructor.
Qed.
Lemma put_asked d w d' e : put d w = (d', e) -> exists u, asked d d' u /\ (e = None -> fine u).
Proof.
  unfold put. destruct (answer d) as [d1 e1] eqn:A. destruct (answer_asked _ _ _ A) as (u & H & F).
  destruct e1; [intros [= <- <-]; eauto|]. destruct (rev (d_files d1)); intros [= <- <-]; exists u; split; auto.
Qed.
Lemma create_asked d d' e : create d = (d', e) -> exists u, asked d d' u /\ (e = None -> fine u).
Proof.
  unfold create. destruct (answer d) as [d1 e1] eqn:A. destruct (answer_asked _ _ _ A) as (u & H & F).
  destruct e1; intros [= <- <-]; exists u; split; auto.
Qed.
Lemma put_points_asked fmt c : forall n i d d' r, put_points fmt n i c d = (d', r) ->
  exists u, asked d d' u /\ (r = Ret None -> fine u).
Proof.
  induction n as [|n IH]; intros i d d' r; cbn [put_points].
  - intros [= <- <-]. exists []. split; [apply asked_refl|constructor].
  - destruct (get_record fmt c i); [|intros [= <- <-]; exists []; split; [apply asked_refl|discriminate]..].
    destruct (put d a) as [d1 e1] eqn:P. destruct (put_asked _ _ _ _ P) as (u & H & F). destruct e1 as [e1|].
    + intros [= <- <-]. exists u. split; [exact H|discriminate].
    + intros E. destruct (IH _ _ _ _ E) as (v & H2 & F2). exists (u ++ v). split; [eapply asked_trans; eauto|].
      intros Q. apply Forall_app. split; [exact (F eq_refl)|exact (F2 Q)].
Qed.
Lemma put_chunk_asked fmt c d d' r : put_chunk fmt c d = (d', r) -> exists u, asked d d' u /\ (r = Ret None -> fine u).
Proof.
  unfold put_chunk. destruct (put_points fmt _ 0 c d) as [d1 r1] eqn:P. destruct (put_points_asked _ _ _ _ _ _ _ P) as (u & H & F).
  destruct r1 as [[e|]| |]; [intros [= <- <-]; eauto| |intros [= <- <-]; eauto..].
  destruct (answer d1) as [d2 e2] eqn:A. destruct (answer_asked _ _ _ A) as (v & H2 & F2). intros [= <- <-].
  exists (u ++ v). split; [eapply asked_trans; eauto|]. intros [= Q]. apply Forall_app. split; [exact (F eq_refl)|exact (F2 Q)].
Qed.

(* C82, failures: nothing that goes wrong with the file is passed over.  If WriteCSV returns nil, for
   any chunks, then every operation on the file that it did succeeded: every row, and every
   flush. *)
Theorem C82_failures : forall fmt_secs cs num d d' r, write_csv fmt_secs num cs d = (d', r) ->
  exists used, d_plan d = used ++ d_plan d' /\ (r = Ret None -> fine used).
Proof.
  intros fmt_secs. induction cs as [|c cs IH]; intros num d d' r; cbn [write_csv].
  - intros [= <- <-]. exists []. split; [reflexivity|constructor].
  - assert (H : forall d1 e1 n1, (if num =? 0 then let '(d, e) := put d (field_names c) in (d, e, zlen (c_metrics c))
        else (d, (if num =? zlen (c_metrics c) then None else Some e_change), num)) = (d1, e1, n1) ->
        exists u, asked d d1 u /\ (e1 = None -> fine u)).
    { intros d1 e1 n1. destruct (num =? 0).
      - destruct (put d (field_names c)) as [d2 e2] eqn:P. intros [= <- <- <-]. eapply put_asked; eauto.
      - intros [= <- <- <-]. exists []. split; [apply asked_refl|constructor]. }
    destruct (if num =? 0 then _ else _) as [[d1 e1] n1]. destruct (H _ _ _ eq_refl) as (u & A & F). destruct e1 as [e1|].
    { intros [= <- <-]. exists u. split; [exact A|discriminate]. }
    destruct (put_chunk fmt_secs c d1) as [d2 r2] eqn:P. destruct (put_chunk_asked _ _ _ _ _ P) as (v & A2 & F2).
    destruct r2 as [[e|]| |]; [intros [= <- <-]; exists (u ++ v); split; [eapply asked_trans; eauto|discriminate]| |
      intros [= <- <-]; exists (u ++ v); split; [eapply asked_trans; eauto|discriminate]..].
    intros E. destruct (IH _ _ _ _ E) as (w & A3 & F3). exists ((u ++ v) ++ w).
    split; [apply (asked_trans d d2 d'); [eapply asked_trans; eauto|exact A3]|]. intros Q.
    apply Forall_app. split; [apply Forall_app; split; [exact (F eq_refl)|exact (F2 eq_refl)]|exact (F3 Q)].
Qed.
Print Assumptions C82_failures.
(* the header and the row are written, the flush fails; and with nothing failing, three answers are asked *)
Example C82_failures_used :
  let c := MkC [MkM [] [97] 5 18 [5]] 1 None None [] in
  write_csv (fun _ => []) 0 [c] (MkDisk [[]] [None; None; Some e_change]) = (MkDisk [[[[97]]; [[53]]]] [], Ret (Some e_change)) /\
  write_csv (fun _ => []) 0 [c] (MkDisk [[]] [None; None; None; None]) = (MkDisk [[[[97]]; [[53]]]] [None], Ret None).
Proof. split; vm_compute; reflexivity. Qed.

(* ------------------------------------------------------------------------- C83 *)

(* C83.  DumpCSV, whatever goes wrong with the files: it does not panic, and if it returns nil
   then there is a file for every run of chunks with the same number of metrics, with the
   names of the first of them and a row for each sample.  If nothing goes wrong it returns
   nil.  Missing as in C82. *)
Theorem C83_partial : forall fmt_secs nan zip unzip fuel cs gs plan d r,
  Forall2 (collected nan zip unzip fuel) cs gs -> Forall (fun g => doc_leaves (hd [] g) <> []) gs ->
  dump_csv fmt_secs false 0 cs (MkDisk [] plan) = (d, r) ->
  (exists e, r = Ret e) /\ (r = Ret None -> d_files d = files (map (table_of fmt_secs) gs)) /\ (plan = [] -> r = Ret None).
Proof.
  intros fmt_secs nan zip unzip fuel cs gs plan d r F Ne E.
  assert (F' : Forall2 (is_table fmt_secs) cs (map (table_of fmt_secs) gs)).
  { clear -F. induction F as [|c g cs gs H F IH]; cbn; constructor; auto. eapply collected_table; eauto. }
  assert (Ns : Forall (fun t => fst t <> []) (map (table_of fmt_secs) gs)).
  { rewrite Forall_map. eapply Forall_impl; [|exact Ne]. cbn. intros g Hg Hn. apply Hg.
    pose proof (given_names_length (hd [] g)) as L. rewrite Hn in L. now destruct (doc_leaves (hd [] g)). }
  destruct F' as [|c t cs ts Ht Fts].
  { injection E as <- <-. split; [eauto|]. split; auto. }
  cbn [dump_csv Z.eqb] in E. destruct (create (MkDisk [] plan)) as [d0 e0] eqn:Cr. destruct (create_files _ _ _ Cr) as [F0 P0]. cbn [d_files d_plan] in *.
  destruct e0 as [e0|].
  { injection E as <- <-. split; [eauto|]. split; [discriminate|]. intros Q; destruct (P0 Q); discriminate. }
  specialize (F0 eq_refl). rewrite (field_names_len _ _ _ Ht) in E. pose proof Ht as [Hn Hr]. rewrite Hn in E.
  inversion_clear Ns as [|? ? Nt Nts].
  assert (Nz : zlen (fst t) <> 0) by (clear -Nt; destruct t as [[|x l] b]; cbn in *; [congruence|]; unfold zlen; cbn [length]; lia).
  destruct (put d0 (fst t)) as [d1 e1] eqn:Pu. destruct (put_files _ _ _ _ Pu) as [F1 P1].
  destruct e1 as [e1|].
  { injection E as <- <-. split; [eauto|]. split; [discriminate|]. intros Q; destruct (P0 Q) as [_ Q0]; destruct (P1 Q0); discriminate. }
  specialize (F1 eq_refl). rewrite F0, add_last_snoc in F1. cbn [app] in F1.
  destruct (put_chunk fmt_secs c d1) as [d2 r2] eqn:Pc.
  destruct (put_chunk_rows fmt_secs c _ [] d1 _ d2 r2 Hr F1 Pc) as [R P]. destruct R as [[-> F2]|[e ->]].
  2:{ injection E as <- <-. split; [eauto|]. split; [discriminate|]. intros Q; destruct (P0 Q) as [_ Q0]; destruct (P1 Q0) as [_ Q1]; destruct (P Q1); discriminate. }
  destruct (dump_rows fmt_secs cs ts Fts Nts (zlen (fst t)) [] _ d2 d r Nz F2 E) as (A & B & C).
  split; [exact B|]. split.
  - intros Er. rewrite (A Er). destruct t as [h b]. cbn [fst snd app] in *. now rewrite joined_cons.
  - intros Q. apply C. destruct (P0 Q) as [_ Q0]. destruct (P1 Q0) as [_ Q1]. now destruct (P Q1).
Qed.
Print Assumptions C83_partial.

(* C83, failures: as in C82, and of the files that DumpCSV opens and closes. *)
Theorem C83_failures : forall fmt_secs cs op num d d' r, dump_csv fmt_secs op num cs d = (d', r) ->
  exists used, d_plan d = used ++ d_plan d' /\ (r = Ret None -> fine used).
Proof.
  intros fmt_secs. induction cs as [|c cs IH]; intros op num d d' r; cbn [dump_csv].
  - destruct op.
    + destruct (answer d) as [d1 e1] eqn:A. destruct (answer_asked _ _ _ A) as (u & H & F). intros [= <- <-]. exists u.
      split; [exact H|]. intros [= Q]. auto.
    + intros [= <- <-]. exists []. split; [reflexivity|constructor].
  - assert (H0 : forall d1 e1, (if op then (d, None) else create d) = (d1, e1) -> exists u, asked d d1 u /\ (e1 = None -> fine u)).
    { intros d1 e1. destruct op; [intros [= <- <-]; exists []; split; [apply asked_refl|constructor]|]. apply create_asked. }
    destruct (if op then (d, None) else create d) as [d0 e0]. destruct (H0 _ _ eq_refl) as (u0 & A0 & F0). clear H0.
    destruct e0 as [e0|]; [intros [= <- <-]; exists u0; split; [exact A0|discriminate]|].
    match goal with |- match ?x with _ => _ end = _ -> _ =>
      assert (H : forall d1 e1 n1, x = (d1, e1, n1) -> exists u, asked d0 d1 u /\ (e1 = None -> fine u)); [|destruct x as [[d1 e1] n1]] end.
    { intros d1 e1 n1. destruct (num =? 0).
      - destruct (put d0 (field_names c)) as [d2 e2] eqn:P. intros [= <- <- <-]. eapply put_asked; eauto.
      - destruct (num =? zlen (c_metrics c)); [intros [= <- <- <-]; exists []; split; [apply asked_refl|constructor]|].
        destruct (answer d0) as [d2 e2] eqn:A. destruct (answer_asked _ _ _ A) as (u & B & F).
        destruct e2 as [e2|]; [intros [= <- <- <-]; exists u; split; [exact B|discriminate]|].
        destruct (create d2) as [d3 [e3|]] eqn:C; destruct (create_asked _ _ _ C) as (v & B2 & F2).
        { intros [= <- <- <-]. exists (u ++ v). split; [eapply asked_trans; eauto|discriminate]. }
        destruct (put d3 (field_names c)) as [d4 e4] eqn:P. destruct (put_asked _ _ _ _ P) as (w & B3 & F3).
        intros [= <- <- <-]. exists ((u ++ v) ++ w). split; [apply (asked_trans d0 d3 d4); [eapply asked_trans; eauto|exact B3]|].
        intros Q. apply Forall_app. split; [apply Forall_app; split; [exact (F eq_refl)|exact (F2 eq_refl)]|exact (F3 Q)]. }
    destruct (H _ _ _ eq_refl) as (u & A & F). clear H. destruct e1 as [e1|].
    { intros [= <- <-]. exists (u0 ++ u). split; [eapply asked_trans; eauto|discriminate]. }
    destruct (put_chunk fmt_secs c d1) as [d2 r2] eqn:P. destruct (put_chunk_asked _ _ _ _ _ P) as (v & A2 & F2).
    assert (A3 : asked d d2 ((u0 ++ u) ++ v)) by (eapply asked_trans; [eapply asked_trans; eauto|eauto]).
    destruct r2 as [[e|]| |]; [intros [= <- <-]; exists ((u0 ++ u) ++ v); split; [exact A3|discriminate]| |
      intros [= <- <-]; exists ((u0 ++ u) ++ v); split; [exact A3|discriminate]..].
    intros E. destruct (IH _ _ _ _ _ E) as (w & A4 & F4). exists (((u0 ++ u) ++ v) ++ w).
    split; [exact (asked_trans _ _ _ _ _ A3 A4)|]. intros Q.
    repeat (apply Forall_app; split); [exact (F0 eq_refl)|exact (F eq_refl)|exact (F2 eq_refl)|exact (F4 Q)].
Qed.
Print Assumptions C83_failures.


(* ---------------------------------------------------------- cases and refutations *)

(* a chunk for some samples *)
Lemma some_chunk nan zip unzip g : codec_ok zip unzip -> g <> [] -> (length g <= 5)%nat -> Forall CollectProps.short g ->
  Forall (fun d => schema d = schema (hd [] g)) g -> zlen (doc_leaves (hd [] g)) <= 4 ->
  exists ch, read_back nan zip unzip 3000 None g ch.
Proof.
  intros Cz Ng Lg Sh Sc Lv. destruct (short_samples g Sh) as (docs & _ & Sa). destruct g as [|d0 dfs]; [congruence|]. cbn [hd] in *.
  destruct (add_all nan 3000 (new_base 5) (at0 docs)) as [c rs] eqn:Run.
  assert (Ea : forall l acc, Forall (fun d => schema d = schema d0) l -> (length acc + length l <= 5)%nat ->
    fst (s_run 5 (d0 :: acc) l) = d0 :: acc ++ l).
  { clear. induction l as [|d l IH]; intros acc F B; cbn [s_run]; [cbn; now rewrite app_nil_r|].
    inversion_clear F as [|? ? Fd Fl]. cbn [length] in B.
    assert (s_take 5 (d0 :: acc) d = Taken) as ->.
    { unfold s_take. replace (5 <=? zlen acc) with false by (unfold zlen; lia). unfold zs_eqb. rewrite Fd.
      destruct (list_eq_dec Z.eq_dec (schema d0) (schema d0)); congruence. }
    cbn [app]. specialize (IH (acc ++ [d]) Fl). rewrite app_length in IH. specialize (IH ltac:(cbn [length]; lia)).
    destruct (s_run 5 (d0 :: acc ++ [d]) l). cbn [fst] in *. rewrite IH, <- app_assoc. reflexivity. }
  assert (Er : fst (s_run 5 [] (d0 :: dfs)) = d0 :: dfs).
  { cbn [s_run s_take app]. inversion_clear Sc. specialize (Ea dfs [] ltac:(assumption)). cbn [length] in *. specialize (Ea ltac:(lia)).
    destruct (s_run 5 [d0] dfs). exact Ea. }
  assert (Room : chunk_room d0 (zlen (d0 :: dfs)) < 2000).
  { unfold chunk_room. inversion_clear Sh as [|? ? [_ B0] _]. assert (1 <= zlen (d0 :: dfs) <= 5) by (unfold zlen; cbn [length] in *; lia).
    pose proof (zlen_nonneg (doc_leaves d0)). nia. }
  rewrite <- Er in Room.
  destruct (base_round_trip nan zip unzip 3000 5 None None _ d0 dfs c rs Cz ltac:(lia) I Sa Run) as (_ & _ & _ & _ & _ & out & start & Eo & Rd).
  - lia.
  - unfold enough. lia.
  - destruct (Rd (MkStream out [] EEOF false) 3%nat eq_refl eq_refl ltac:(lia)) as (ch & Ec & _). exists ch.
    exists 5, None, (at0 docs), d0, dfs, c, rs, out, (MkStream out [] EEOF false), 3%nat. rewrite Er in *.
    repeat (split; [first [exact Cz|exact I|exact Sa|exact Run|reflexivity|exact Eo|exact Ec|unfold enough; lia|lia]|]). exact Ec.
Qed.

Ltac short_tac := repeat (apply Forall_cons; [split; [repeat constructor; try (vm_compute; intuition congruence)|vm_compute; reflexivity]|]); apply Forall_nil.

(* A case for C82 and C83: two chunks, of two samples and of one, with other metrics. *)
Definition csv_g1 : list fields := [[(k_a, BInt64 (-5)); (k_b, BBool true)]; [(k_a, BInt64 7); (k_b, BBool false)]].
Definition csv_g2 : list fields := [[(k_b, BDateTime 5000)]].
Example C82_nonvacuous : forall nan zip unzip, codec_ok zip unzip -> exists cs,
  Forall2 (collected nan zip unzip 3000) cs [csv_g1; csv_g1; csv_g2] /\
  Forall (fun g => doc_leaves (hd [] g) <> []) [csv_g1; csv_g1; csv_g2].
Proof.
  intros nan zip unzip Cz.
  destruct (some_chunk nan zip unzip csv_g1 Cz) as (c1 & R1); [discriminate|cbn; lia|short_tac|repeat constructor|vm_compute; congruence|].
  destruct (some_chunk nan zip unzip csv_g2 Cz) as (c2 & R2); [discriminate|cbn; lia|short_tac|repeat constructor|vm_compute; congruence|].
  exists [c1; c1; c2]. split.
  - repeat (apply Forall2_cons || apply Forall2_nil);
      (split; [exists None; assumption|]; repeat constructor; cbn; lia).
  - repeat constructor; discriminate.
Qed.

(* The comment of WriteCSV promises an error when the number of metrics changes; it does not
   look at the names.  Samples of one metric each, a and then b, are written under the header
   a, and nil is returned. *)
Theorem C82_schema_refuted : forall fmt_secs nan zip unzip, codec_ok zip unzip ->
  exists cs, Forall2 (collected nan zip unzip 3000) cs [[FtdcProps.one (BInt64 1)]; [[(k_b, BInt64 2)]]] /\
    exists d, write_csv fmt_secs 0 cs (MkDisk [[]] []) = (d, Ret None) /\ d_files d = [[[k_a]; [[49]]; [[50]]]].
Proof.
  intros fmt_secs nan zip unzip Cz.
  destruct (some_chunk nan zip unzip [FtdcProps.one (BInt64 1)] Cz) as (c1 & R1); [discriminate|cbn; lia|short_tac|repeat constructor|vm_compute; congruence|].
  destruct (some_chunk nan zip unzip [[(k_b, BInt64 2)]] Cz) as (c2 & R2); [discriminate|cbn; lia|short_tac|repeat constructor|vm_compute; congruence|].
  assert (F : Forall2 (collected nan zip unzip 3000) [c1; c2] [[FtdcProps.one (BInt64 1)]; [[(k_b, BInt64 2)]]]).
  { repeat (apply Forall2_cons || apply Forall2_nil); (split; [exists None; assumption|]; repeat constructor; cbn; lia). }
  exists [c1; c2]. split; [exact F|].
  destruct (write_csv fmt_secs 0 [c1; c2] (MkDisk [[]] [])) as [d r] eqn:E. exists d.
  destruct (C82_partial fmt_secs nan zip unzip 3000 _ _ [] d r F) as (_ & A & B & _); [repeat constructor; discriminate|exact E|].
  assert (r = Ret None) as ->.
  { apply B; [reflexivity|]. intros g g' [<-|[<-|[]]] [<-|[<-|[]]]; reflexivity. }
  split; [reflexivity|]. destruct (A eq_refl) as [_ ->]. vm_compute. reflexivity.
Qed.
Print Assumptions C82_schema_refuted.

(* A double is written as the integer its bits stand for: 1.0 as 4607182418800017408. *)
Theorem C82_double_refuted : forall fmt_secs nan zip unzip b, codec_ok zip unzip -> is_u64 b ->
  exists c, read_back nan zip unzip 3000 None [FtdcProps.one (BDouble b)] c /\
    exists d, write_csv fmt_secs 0 [c] (MkDisk [[]] []) = (d, Ret None) /\
      d_files d = [[[k_a]; [itoa_signed (if b <? 9223372036854775808 then b else b - 18446744073709551616)]]].
Proof.
  intros fmt_secs nan zip unzip b Cz B.
  destruct (some_chunk nan zip unzip [FtdcProps.one (BDouble b)] Cz) as (c & R); [discriminate|cbn; lia| |repeat constructor|vm_compute; congruence|].
  { constructor; [|constructor]. split; [constructor; [split; [now apply FtdcProofs.key_ok|exact B]|constructor]|].
    unfold FtdcProps.one, enc_doc. cbn [enc_elems]. zlens. rewrite zlen_enc_elem. change (zlen k_a) with 1. change (zlen (enc_body (BDouble b))) with 8. lia. }
  exists c. split; [exact R|]. destruct (read_back_is _ _ _ _ _ _ _ R) as (md & start & W & N & _ & K). destruct K as (Em & Ep & _).
  assert (Em' : c_metrics c = [MkM [] k_a (i64 b) 1 [i64 b]]) by (rewrite Em; reflexivity). clear Em.
  assert (Ei : i64 b = if b <? 9223372036854775808 then b else b - 18446744073709551616).
  { unfold i64, is_u64 in *. destruct (Z.ltb_spec b 9223372036854775808).
    - rewrite Z.mod_small; lia.
    - replace (b + 9223372036854775808) with (b - 9223372036854775808 + 1 * 18446744073709551616) by lia. rewrite Z_mod_plus_full, Z.mod_small; lia. }
  rewrite <- Ei. unfold write_csv, put_chunk, field_names. rewrite Ep, Em'.
  assert (G : get_record fmt_secs c 0 = Ret [itoa_signed (i64 b)]).
  { unfold get_record. rewrite Em'. generalize (i64 b). intros v. cbn [mapM m_values m_type]. change (goindex [v] 0) with (Ret v).
    cbn [bind]. unfold cell. reflexivity. }
  revert G. generalize (itoa_signed (i64 b)). intros t G.
  change (Z.to_nat (zlen [FtdcProps.one (BDouble b)])) with 1%nat. cbn [put_points]. rewrite G.
  eexists. split; reflexivity.
Qed.
Print Assumptions C82_double_refuted.

(* ------------------------------------------------------------------------- C84 *)

(* The text stands for an integer of 64 bits: decimal digits, perhaps after a sign. *)
Definition int_text (c : bytes) (v : Z) : Prop :=
  is_i64 v /\ exists s ds, digits1 ds /\ c = s ++ ds /\
    (s = [45] /\ v = - DecProofs.value ds \/ (s = [] \/ s = [43]) /\ v = DecProofs.value ds).
(* The document of a record under a header: the cells that are integers. *)
Inductive row_fields : row -> row -> fields -> Prop :=
| row_nil h : row_fields h [] []
| row_int k h c r v fs : int_text c v -> row_fields h r fs -> row_fields (k :: h) (c :: r) ((k, BInt64 v) :: fs)
| row_skip k h c r fs : (forall v, ~ int_text c v) -> row_fields h r fs -> row_fields (k :: h) (c :: r) fs.

Lemma all_digits ds : forallb is_digit ds = true -> Forall digit ds.
Proof. rewrite forallb_forall, Forall_forall. intros H c Hc. specialize (H c Hc). unfold is_digit in H. unfold digit. lia. Qed.
Lemma digits_val_spec ds v : digits_val ds = Some v <-> digits1 ds /\ v = DecProofs.value ds.
Proof.
  unfold digits_val, digits1. destruct ds as [|d ds]; [split; [discriminate|intros ((N & _) & _); congruence]|].
  destruct (forallb is_digit (d :: ds)) eqn:A.
  - split; [intros E; injection E as <-; split; [split; [discriminate|now apply all_digits]|reflexivity]|intros (_ & ->); reflexivity].
  - split; [discriminate|]. intros ((_ & D) & _). rewrite (digits_all _ D) in A. discriminate.
Qed.
Lemma parse_int_spec c v : parse_int c = Some v <-> int_text c v.
Proof.
  unfold parse_int, int_text. split.
  - intros E.
    assert (H : exists neg s ds, c = s ++ ds /\ (neg = true /\ s = [45] \/ neg = false /\ (s = [] \/ s = [43])) /\
      match digits_val ds with
      | None => None
      | Some n => let n := if neg : bool then - n else n in
          if (-9223372036854775808 <=? n) && (n <=? 9223372036854775807) then Some n else None
      end = Some v).
    { destruct c as [|x r]; [discriminate|]. revert E.
      destruct (Z.eqb_spec x 45) as [->|N1]; [intros E; exists true, [45], r; split; [reflexivity|split; auto]|].
      destruct (Z.eqb_spec x 43) as [->|N2]; intros E; [exists false, [43], r; split; [reflexivity|split; auto]|exists false, [], (x :: r); split; [reflexivity|split; auto]]. }
    destruct H as (neg & s & ds & Ec & Es & H). destruct (digits_val ds) as [n|] eqn:D; [|discriminate]. apply digits_val_spec in D as [D ->].
    cbn zeta in H. destruct ((-9223372036854775808 <=? (if neg then - DecProofs.value ds else DecProofs.value ds)) && ((if neg then - DecProofs.value ds else DecProofs.value ds) <=? 9223372036854775807)) eqn:B; [|discriminate].
    injection H as <-. split; [unfold is_i64; destruct neg; lia|]. exists s, ds. split; [exact D|]. split; [exact Ec|].
    destruct Es as [(-> & ->)|(-> & Es)]; auto.
  - intros (R & s & ds & D & -> & Es).
    assert (V : digits_val ds = Some (DecProofs.value ds)) by (apply digits_val_spec; auto). unfold is_i64 in R.
    destruct Es as [(-> & ->)|([->| ->] & ->)]; cbn [app].
    + cbn [Z.eqb Pos.eqb]. rewrite V. cbn zeta. now replace ((-9223372036854775808 <=? - DecProofs.value ds) && (- DecProofs.value ds <=? 9223372036854775807)) with true by lia.
    + destruct D as [N D]. destruct ds as [|x ds]; [congruence|]. inversion D as [|? ? D1 D2]; subst. unfold digit in D1.
      replace (x =? 45) with false by lia. replace (x =? 43) with false by lia. rewrite V. cbn zeta.
      now replace ((-9223372036854775808 <=? DecProofs.value (x :: ds)) && (DecProofs.value (x :: ds) <=? 9223372036854775807)) with true by lia.
    + cbn [Z.eqb Pos.eqb]. rewrite V. cbn zeta. now replace ((-9223372036854775808 <=? DecProofs.value ds) && (DecProofs.value ds <=? 9223372036854775807)) with true by lia.
Qed.

Lemma row_elems_build h r fs : row_fields h r fs -> row_elems h r = build_doc fs.
Proof.
  induction 1 as [h|k h c r v fs T R IH|k h c r fs T R IH]; [destruct h; reflexivity| |]; cbn [row_elems].
  - apply parse_int_spec in T. rewrite T, IH. reflexivity.
  - destruct (parse_int c) as [v|] eqn:P; [apply parse_int_spec in P; destruct (T v P)|exact IH].
Qed.
Definition ints (fs : fields) : Prop := Forall (fun f => exists v, snd f = BInt64 v) fs.
Lemma row_ints h r fs : row_fields h r fs -> ints fs.
Proof. induction 1; [constructor|constructor; eauto; cbn; eauto|assumption]. Qed.
Lemma row_wf h r fs : row_fields h r fs -> Forall cstr_ok h -> wf_fields fs.
Proof.
  induction 1 as [h|k h c r v fs T R IH|k h c r fs T R IH]; intros F; [constructor| |]; inversion_clear F as [|? ? F1 F2]; auto.
  constructor; [|exact (IH F2)]. split; [exact F1|]. destruct T as [T _]. exact T.
Qed.
Lemma ints_schema fs : ints fs -> schema fs = map (fun _ => 18) fs.
Proof. unfold schema, doc_leaves. induction 1 as [|[k v] fs (i & E) _ IH]; [reflexivity|]. cbn in E. subst v. cbn. now rewrite IH. Qed.
Lemma ints_hash fs : ints fs -> snd (key_hash fs) = zlen fs.
Proof.
  intros H. assert (snd (h_value [] (BDoc fs)) = zlen fs) as <- by
    (induction H as [|[k v] fs (i & Ev) _ IH]; [reflexivity|]; cbn in Ev; subst v;
     change (h_value [] (BDoc ((k, BInt64 i) :: fs))) with (let '(b, m) := h_value [] (BDoc fs) in ((46 :: k) ++ b, 1 + m));
     destruct (h_value [] (BDoc fs)); cbn [snd] in *; zlens; lia).
  unfold key_hash. now destruct (h_value [] (BDoc fs)).
Qed.

Lemma sd_run_app nan zip to_json fuel ops1 ops2 : forall c w,
  sd_run nan zip to_json fuel c w (ops1 ++ ops2) =
  (let '(c, w, l) := sd_run nan zip to_json fuel c w ops1 in
   let '(c, w, l') := sd_run nan zip to_json fuel c w ops2 in (c, w, l ++ l')).
Proof.
  induction ops1 as [|o ops1 IH]; intros c w; cbn [app sd_run]; [now destruct (sd_run nan zip to_json fuel c w ops2) as [[? ?] ?]|].
  destruct (match o with OAdd now es => sd_add nan zip to_json fuel now c w es | OFlush => sd_flush zip to_json fuel c w end) as [[c1 w1] r].
  rewrite IH. destruct (sd_run nan zip to_json fuel c1 w1 ops1) as [[c2 w2] l].
  now destruct (sd_run nan zip to_json fuel c2 w2 ops2) as [[c3 w3] l'].
Qed.
Lemma convert_run nan zip to_json fuel n h fin rows ess : n = zlen h ->
  Forall2 (fun r es => zlen (snd r) = n /\ row_elems h (snd r) = Ret es) rows ess -> forall c w c' w' l,
  sd_run nan zip to_json fuel c w (map (fun p => OAdd (fst (fst p)) (snd p)) (combine rows ess)) = (c', w', l) ->
  Forall (fun r => r = Ret None) l -> convert_rows nan zip to_json fuel n fin h rows c w = (c', w', Ret fin).
Proof.
  intros -> F. induction F as [|[now r] es rows ess (L & E) F IH]; intros c w c' w' l R A; cbn [combine map sd_run convert_rows] in *.
  - now injection R as <- <- <-.
  - cbn [fst snd] in *. rewrite L, Z.eqb_refl. cbn [negb]. rewrite E.
    destruct (sd_add nan zip to_json fuel now c w es) as [[c1 w1] r1]. 
    destruct (sd_run nan zip to_json fuel c1 w1 _) as [[c2 w2] l2] eqn:R2 in R. injection R as -> -> <-.
    inversion_clear A as [|? ? A1 A2]. rewrite A1. eapply IH; eauto.
Qed.

(* C84.  ConvertFromCSV of a table: a header whose names have no zero byte, records of its
   length, and the end of the text (fin is None) or an error of the reader, to a writer that
   takes everything.  What the reader said is returned (nil for the end), and reading what
   was written gives a document for each record, in order: its cells that are integers,
   under the names in the header.
   Missing: records of another length, see C84_header_refuted, and writers that fail, see
   C84_flush_refuted. *)
Theorem C84_partial : forall nan zip unzip to_json fuel max t0 h rows dfs fin out w r,
  codec_ok zip unzip -> 0 <= max < 4294967296 -> Forall cstr_ok h ->
  Forall2 (fun r fs => length (snd r) = length h /\ row_fields h (snd r) fs) rows dfs ->
  Forall (fun fs => small fs /\ enough fuel (zlen (enc_doc fs)) /\ room fuel (max + 1) fs) dfs ->
  convert_csv nan zip to_json fuel max ((t0, h) :: rows) fin (MkW out []) = (w, r) ->
  r = Ret fin /\ exists gs new, w_out w = out ++ new /\ concat gs = dfs /\ reads_back nan unzip fuel new gs None.
Proof.
  intros nan zip unzip to_json fuel max t0 h rows dfs fin out w r Cz Mx Ch F Ro E.
  assert (B : exists ess, Forall2 (fun r es => zlen (snd r) = zlen h /\ row_elems h (snd r) = Ret es) rows ess /\
    Forall2 (sample fuel) ess dfs /\ length rows = length ess).
  { clear -Ch F Ro. revert Ro. induction F as [|r fs rows dfs (L & R) F IH]; intros Ro; [exists []; repeat constructor|].
    inversion_clear Ro as [|? ? (S1 & S2 & S3) Ro']. destruct (IH Ro') as (ess & A & B & C).
    pose proof (row_wf _ _ _ R Ch) as W. destruct (build_doc_rep fs W S1) as (es & Eb & _). exists (es :: ess).
    split; [|split; [|cbn; congruence]].
    - constructor; [|exact A]. split; [unfold zlen; lia|]. now rewrite (row_elems_build _ _ _ R).
    - constructor; [|exact B]. now apply sample_built. }
  destruct B as (ess & Fe & Fs & Le).
  set (ops := map (fun p => OAdd (fst (fst p)) (snd p)) (combine rows ess)).
  assert (So : Forall2 (sop_is fuel) (ops ++ [OFlush]) (map Some dfs ++ [None])).
  { apply Forall2_app; [|repeat constructor]. unfold ops. clear -Fs Le. revert rows Le.
    induction Fs as [|es d ess dfs Hs Fs IH]; intros [|r rows] Le; try discriminate; [constructor|]. cbn. constructor; [exact Hs|]. apply IH. now injection Le. }
  assert (Sr : stream_room fuel max (map Some dfs ++ [None])).
  { apply Forall_app. split; [|repeat constructor]. rewrite Forall_map. eapply Forall_impl; [|exact Ro]. cbn. tauto. }
  destruct (sd_run nan zip to_json fuel (new_sdynamic max) (MkW out []) (ops ++ [OFlush])) as [[c1 w1] rs] eqn:Run.
  destruct (C66_streaming_dynamic_partial nan zip unzip to_json fuel max None None _ _ out c1 w1 rs Cz Mx I So Sr Run)
    as (Fa & Cl & gs & pending & new & Eg & _ & _ & _ & _ & Ep & Eo & Rb).
  rewrite sd_run_app in Run. destruct (sd_run nan zip to_json fuel (new_sdynamic max) (MkW out []) ops) as [[c2 w2] rs2] eqn:R2.
  cbn [sd_run] in Run. destruct (sd_flush zip to_json fuel c2 w2) as [[c3 w3] f] eqn:Fl. injection Run as -> -> <-.
  assert (Id : Forall ints dfs) by (clear -F; induction F as [|? ? ? ? (_ & R) ? ?]; constructor; auto; eapply row_ints; eauto).
  assert (Q : forall dfs acc rs2, Forall ints dfs -> Forall ints acc -> length rs2 = length dfs -> fair acc (map Some dfs ++ [None]) (rs2 ++ [f]) ->
    clash acc (map Some dfs ++ [None]) (rs2 ++ [f]) ->
    Forall (fun r => r = Ret None) rs2 /\ f = Ret None /\ taken (map Some dfs ++ [None]) (rs2 ++ [f]) = dfs).
  { clear. induction dfs as [|d dfs IH]; intros acc [|r rs2] Id Ia L Fa Cl; try discriminate; cbn [map app fair clash] in *.
    - destruct Fa as [-> _]. repeat split. constructor.
    - inversion_clear Id as [|? ? I1 I2]. destruct r as [[e|]| |].
      1,3,4: exfalso; destruct Fa as (_ & Na & Ns & _); destruct Cl as [Ck _]; apply Ns;
        pose proof (last_in acc (@nil (bytes * bval)) Na) as Hl; rewrite Forall_forall in Ia; specialize (Ia _ Hl);
        rewrite (ints_schema _ I1), (ints_schema _ Ia); apply (f_equal snd) in Ck; rewrite (ints_hash _ I1), (ints_hash _ Ia) in Ck;
        assert (Lk : length d = length (last acc [])) by (unfold zlen in Ck; lia); revert Lk; generalize (last acc []); clear;
        induction d as [|x d IH]; intros [|y l] Lk; try discriminate; [reflexivity|]; cbn; f_equal; apply IH; now injection Lk.
      destruct (IH (acc ++ [d]) rs2 I2) as (A1 & A2 & A3); auto; [apply Forall_app; auto|].
      split; [constructor; auto|]. split; [exact A2|]. cbn [taken]. now rewrite A3. }
  assert (Ln : length rs2 = length dfs).
  { assert (K : forall ops c w c' w' l, sd_run nan zip to_json fuel c w ops = (c', w', l) -> length l = length ops).
    { clear. induction ops as [|o ops IH]; intros c w c' w' l E; cbn [sd_run] in E; [now injection E as <- <- <-|].
      destruct (match o with OAdd now es => sd_add nan zip to_json fuel now c w es | OFlush => sd_flush zip to_json fuel c w end) as [[c1 w1] r].
      destruct (sd_run nan zip to_json fuel c1 w1 ops) as [[c2 w2] l2] eqn:E2. injection E as -> -> <-. cbn. f_equal. eauto. }
    rewrite (K _ _ _ _ _ _ R2). unfold ops. rewrite map_length, combine_length, Le, Nat.min_id. clear -Fs. induction Fs; cbn; congruence. }
  destruct (Q dfs [] rs2 Id (Forall_nil _) Ln Fa Cl) as (All & -> & Tk). rewrite Tk in Eg.
  assert (pending = []) as ->.
  { assert (Z0 : c_samples (sc_inner (sd_str c1)) = 0).
    { unfold sd_flush in Fl. destruct (flush_write zip to_json fuel (sc_inner (sd_str c2)) w2) as [[w4 b] r4] eqn:Fw. injection Fl as <- <- ->.
      destruct b; [reflexivity|]. unfold flush_write in Fw. destruct (Z.eqb_spec (c_samples (sc_inner (sd_str c2))) 0) as [Z0|]; [exact Z0|].
      destruct (c_resolve zip to_json fuel (sc_inner (sd_str c2))) as [[p|e]| |]; try discriminate.
      destruct (w_write w2 p) as [[w5 n5] [e|]]; try discriminate. destruct (negb (n5 =? zlen p)); discriminate. }
    rewrite Z0 in Ep. destruct pending; [reflexivity|]. zlens_in Ep. pose proof (zlen_nonneg pending). lia. }
  rewrite app_nil_r in Eg.
  cbn [convert_csv] in E. rewrite (convert_run nan zip to_json fuel (zlen h) h fin rows ess eq_refl Fe _ _ _ _ _ R2 All) in E.
  rewrite Fl in E. injection E as <- <-. split; [reflexivity|]. exists gs, new. auto.
Qed.
Print Assumptions C84_partial.

(* A case: two records under the names a and b, with a cell that is not a number. *)
Definition csv_rows : list (Z * row) := [(0, [[53]; [120]]); (1, [[45; 55]; [43; 56]])].
Example C84_nonvacuous :
  Forall cstr_ok [k_a; k_b] /\
  Forall2 (fun r fs => length (snd r) = length [k_a; k_b] /\ row_fields [k_a; k_b] (snd r) fs) csv_rows
    [[(k_a, BInt64 5)]; [(k_a, BInt64 (-7)); (k_b, BInt64 8)]] /\
  Forall (fun fs => small fs /\ enough 3000 (zlen (enc_doc fs)) /\ room 3000 (5 + 1) fs)
    [[(k_a, BInt64 5)]; [(k_a, BInt64 (-7)); (k_b, BInt64 8)]].
Proof.
  split; [repeat (apply Forall_cons; [now apply FtdcProofs.key_ok|]); apply Forall_nil|]. split.
  - repeat (apply Forall2_cons || apply Forall2_nil); (split; [reflexivity|]); cbn [snd csv_rows].
    + apply row_int; [apply parse_int_spec; reflexivity|]. apply row_skip; [|apply row_nil].
      intros v H. apply parse_int_spec in H. discriminate.
    + apply row_int; [apply parse_int_spec; reflexivity|]. apply row_int; [apply parse_int_spec; reflexivity|]. apply row_nil.
  - repeat (apply Forall_cons; [split; [vm_compute; reflexivity|split; [|split]]|]); try apply Forall_nil;
      unfold enough, chunk_room; vm_compute; congruence.
Qed.

(* An input without a first record is an error, io.EOF when it is empty, and nothing is written; an input of one record
   gives the result of reading on and nothing is written either. *)
Theorem C84_empty : forall nan zip to_json fuel max fin w t h,
  (exists e, convert_csv nan zip to_json fuel max [] fin w = (w, Ret (Some e)) /\
    (fin = None -> e = EEOF) /\ (forall x, fin = Some x -> e = x)) /\
  convert_csv nan zip to_json fuel max [(t, h)] fin w = (w, Ret fin).
Proof.
  intros nan zip to_json fuel max fin w t h. split.
  - destruct fin as [x|]; eexists; (split; [reflexivity|]); split; intros; congruence.
  - reflexivity.
Qed.
Print Assumptions C84_empty.
Example C84_empty_nonvacuous : convert_csv no_nan keep no_json 3000 5 [] None (MkW [] []) = (MkW [] [], Ret (Some EEOF)) /\
  convert_csv no_nan keep no_json 3000 5 [(0, [k_a])] None (MkW [] []) = (MkW [] [], Ret None).
Proof. split; reflexivity. Qed.

(* The comment says that the first record with another number of fields becomes the header
   of the following ones.  They are lost instead: the result is that of the records before. *)
Lemma convert_rest nan zip to_json fuel n fin rows : Forall (fun r => zlen (snd r) <> n) rows -> forall h c w,
  convert_rows nan zip to_json fuel n fin h rows c w = (c, w, Ret fin).
Proof.
  induction 1 as [|[now r] rows H F IH]; intros h c w; cbn [convert_rows]; [reflexivity|]. cbn [snd] in H.
  replace (zlen r =? n) with false by lia. apply IH.
Qed.
Theorem C84_header_refuted : forall nan zip to_json fuel max t0 h rows more fin w,
  Forall (fun r => zlen (snd r) <> zlen h) more ->
  convert_csv nan zip to_json fuel max ((t0, h) :: rows ++ more) fin w = convert_csv nan zip to_json fuel max ((t0, h) :: rows) fin w.
Proof.
  intros nan zip to_json fuel max t0 h rows more fin w F. unfold convert_csv.
  assert (A : forall hd c w, convert_rows nan zip to_json fuel (zlen h) fin hd (rows ++ more) c w =
    convert_rows nan zip to_json fuel (zlen h) fin hd rows c w).
  { induction rows as [|[now r] rows IH]; intros hd c w'; cbn [app]; [rewrite convert_rest by exact F; reflexivity|].
    cbn [convert_rows]. destruct (negb (zlen r =? zlen h)); [apply IH|]. destruct (negb (zlen r =? zlen hd)); [reflexivity|].
    destruct (row_elems hd r); try reflexivity.
    destruct (sd_add nan zip to_json fuel now c w' a) as [[c1 w1] [[e|]| |]]; try reflexivity. apply IH. }
  now rewrite A.
Qed.
Print Assumptions C84_header_refuted.
(* and a record of the first length after that is an error *)
Theorem C84_length_refuted : forall nan zip to_json fuel max t0 t1 t2 h r1 r2 rows fin w,
  zlen r1 <> zlen h -> zlen r2 = zlen h ->
  convert_csv nan zip to_json fuel max ((t0, h) :: (t1, r1) :: (t2, r2) :: rows) fin w = (w, Ret (Some e_fields)).
Proof.
  intros nan zip to_json fuel max t0 t1 t2 h r1 r2 rows fin w H1 H2. unfold convert_csv. cbn [convert_rows].
  replace (zlen r1 =? zlen h) with false by lia. replace (zlen r2 =? zlen h) with true by lia.
  replace (zlen r2 =? zlen r1) with false by lia. reflexivity.
Qed.
Print Assumptions C84_length_refuted.

(* The error of the final flush is lost: nothing was written, and nil is returned. *)
Theorem C84_flush_refuted : forall e, exists w,
  convert_csv no_nan keep no_json 3000 5 [(0, [k_a]); (0, [[53]])] None (MkW [] [(0, Some e)]) = (w, Ret None) /\ w_out w = [].
Proof. intros e. eexists. split; vm_compute; reflexivity. Qed.
Print Assumptions C84_flush_refuted.

(* C84, with C82: what WriteCSV wrote of samples without dates, ConvertFromCSV turns into
   samples with the same integers under the full names of the metrics. *)
Definition flat_ints (ns : list bytes) (d : fields) : fields := combine ns (map (fun l => BInt64 (leaf_int l)) (doc_leaves d)).
Definition is_date (l : leaf) : Prop := match l with LDate _ => True | _ => False end.
Lemma itoa_int_text v : is_i64 v -> int_text (itoa_signed v) v.
Proof.
  intros R. split; [exact R|]. unfold itoa_signed. destruct (Z.ltb_spec v 0).
  - destruct (itoa_numeral (- v) ltac:(lia)) as (N1 & N2 & N3 & _).
    exists [45], (itoa (- v)). split; [split; assumption|]. split; [reflexivity|]. left. split; [reflexivity|lia].
  - destruct (itoa_numeral v ltac:(lia)) as (N1 & N2 & N3 & _).
    exists [], (itoa v). split; [split; assumption|]. split; [reflexivity|]. right. split; [now left|lia].
Qed.
Lemma leaves_row fmt_secs ls : Forall (fun l => exact l /\ leaf_ok l /\ ~ is_date l) ls -> forall ns, length ns = length ls ->
  row_fields ns (map (leaf_text fmt_secs) ls) (combine ns (map (fun l => BInt64 (leaf_int l)) ls)).
Proof.
  induction 1 as [|l ls (X & O & D) F IH]; intros [|k ns] L; try discriminate; cbn [map combine]; [constructor|].
  apply row_int; [|apply IH; now injection L]. destruct (exact_int l O X) as (_ & _ & R & _).
  assert (leaf_text fmt_secs l = itoa_signed (leaf_int l)) as -> by (destruct l; try reflexivity; destruct (D I)).
  now apply itoa_int_text.
Qed.
Theorem C84_round_trip_partial : forall fmt_secs nan zip unzip to_json fuel max cs gs dk file w r,
  let ns := given_names (hd [] (hd [] gs)) in
  Forall2 (collected nan zip unzip fuel) cs gs -> Forall (fun g => doc_leaves (hd [] g) <> []) gs -> gs <> [] ->
  Forall (Forall (fun d => Forall (fun l => ~ is_date l) (doc_leaves d))) gs ->
  0 <= max < 4294967296 -> Forall cstr_ok ns ->
  Forall (fun fs => small fs /\ enough fuel (zlen (enc_doc fs)) /\ room fuel (max + 1) fs) (map (flat_ints ns) (concat gs)) ->
  write_csv fmt_secs 0 cs (MkDisk [[]] []) = (dk, Ret None) -> d_files dk = [file] ->
  convert_csv nan zip to_json fuel max (map (pair 0) file) None (MkW [] []) = (w, r) ->
  r = Ret None /\ exists gs', concat gs' = map (flat_ints ns) (concat gs) /\ reads_back nan unzip fuel (w_out w) gs' None.
Proof.
  intros fmt_secs nan zip unzip to_json fuel max cs gs dk file w r ns F Ne Ng Nd Mx Cn Ro E Ef Ec.
  destruct (C82_partial fmt_secs nan zip unzip fuel cs gs [] dk (Ret None) F Ne E) as (_ & A & _).
  destruct (A eq_refl) as [Sm Fd]. clear A. rewrite Ef in Fd. injection Fd as ->.
  destruct gs as [|g0 gs]; [congruence|]. cbn [hd] in ns. cbn [map] in Ec.
  assert (Cz : codec_ok zip unzip) by (inversion_clear F as [|? ? ? ? ((? & H) & _) _]; destruct H as (? & ? & ? & ? & ? & ? & ? & ? & ? & ? & Cz & _); exact Cz).
  assert (Fr : Forall2 (fun r fs => length (snd r) = length ns /\ row_fields ns (snd r) fs)
     (map (pair 0) (concat (map (fun g => snd (table_of fmt_secs g)) (g0 :: gs)))) (map (flat_ints ns) (concat (g0 :: gs)))).
  { assert (Ln : forall g, In g (g0 :: gs) -> length (doc_leaves (hd [] g)) = length ns).
    { intros g Hg. rewrite (Sm g g0 Hg (or_introl eq_refl)). unfold ns. symmetry. apply given_names_length. }
    clear -F Nd Ln. revert F Nd Ln. generalize (g0 :: gs). intros l F. induction F as [|c g cs l H F IH]; intros Nd Ln; [constructor|].
    cbn [map concat]. rewrite !map_app. apply Forall2_app; [|apply IH; [now inversion_clear Nd|intros; apply Ln; now right]].
    specialize (Ln g (or_introl eq_refl)). inversion_clear Nd as [|? ? Ng _]. destruct H as ((mfs & H) & X).
    pose proof (read_back_schema _ _ _ _ _ _ _ H) as Sc. destruct (read_back_is _ _ _ _ _ _ _ H) as (md & start & W & _).
    cbn [table_of snd]. assert (K : forall d, In d g -> length (doc_leaves d) = length ns /\ Forall (fun l => exact l /\ leaf_ok l /\ ~ is_date l) (doc_leaves d)).
    { intros d Hd. rewrite Forall_forall in Sc, Ng, W, X. split.
      - rewrite <- Ln. specialize (Sc d Hd). apply (f_equal (@length _)) in Sc. unfold schema in Sc. now rewrite !map_length in Sc.
      - pose proof (doc_leaves_ok d (W d Hd)) as O. specialize (Ng d Hd). specialize (X d Hd). cbn beta in *. rewrite Forall_forall in *. auto. }
    clear -K. induction g as [|d g IH]; [constructor|]. cbn [map]. constructor; [|apply IH; intros; apply K; now right].
    destruct (K d (or_introl eq_refl)) as [L Fl]. cbn [snd]. split; [now rewrite map_length|]. now apply leaves_row. }
  destruct (C84_partial nan zip unzip to_json fuel max 0 ns _ _ None [] w r Cz Mx Cn Fr Ro Ec) as (-> & gs' & new & Eo & Eg & Rb).
  split; [reflexivity|]. exists gs'. split; [exact Eg|]. rewrite Eo. exact Rb.
Qed.
Print Assumptions C84_round_trip_partial.
Example C84_round_trip_nonvacuous :
  let ns := given_names (hd [] csv_g1) in
  Forall (Forall (fun d => Forall (fun l => ~ is_date l) (doc_leaves d))) [csv_g1; csv_g1] /\ Forall cstr_ok ns /\
  Forall (fun fs => small fs /\ enough 3000 (zlen (enc_doc fs)) /\ room 3000 (5 + 1) fs) (map (flat_ints ns) (concat [csv_g1; csv_g1])).
Proof.
  split; [repeat constructor; cbn; auto|]. split; [repeat (apply Forall_cons; [now apply FtdcProofs.key_ok|]); apply Forall_nil|].
  repeat (apply Forall_cons; [split; [vm_compute; reflexivity|split; [|split]]|]); try apply Forall_nil;
    unfold enough, chunk_room; vm_compute; congruence.
Qed.
