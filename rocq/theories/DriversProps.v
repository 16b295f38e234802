(* Properties of the programs that fill files with samples (C85, C86). *)
Require Import String ZArith List Bool Lia ZifyBool ZifyNat.
From Verif Require Import Base BSpec Elements Value Codec CodecRead Itoa CodecRep Api ApiProofs Tree
  GetterProofs ReaderOps CodecProps DocOps Stream Search FtdcSpec Ftdc FtdcProofs FtdcRestore FtdcProps
  Collect CollectProofs CollectProps CollectStreamProps Json JsonSpec JsonProofs JsonProps ExtJson ExtJsonProps Drivers.
Import ListNotations.
Open Scope Z_scope.

(* --------------------------------------------------------------- specification *)

(* A text and its lines, which end with a newline or with a carriage return and a newline; the
   last one need not.  Lines are shorter than 64 KiB. *)
Definition line (l : bytes) : Prop := ~ In 10 l /\ zlen l < 65535 /\ last l 0 <> 13.
Inductive lines_in : bytes -> list bytes -> Prop :=
| li_nil : lines_in [] []
| li_last l : l <> [] -> line l -> lines_in l [l]
| li_lf l d ls : line l -> lines_in d ls -> lines_in (l ++ 10 :: d) (l :: ls)
| li_crlf l d ls : line l -> lines_in d ls -> lines_in (l ++ 13 :: 10 :: d) (l :: ls).
(* Each file is read back as the samples of a group, in chunks of at most max. *)
Definition file_of (nan : Z -> Z -> Z) (unzip : bytes -> option bytes) (fuel : nat) (max : Z) (f : bytes) (g : list fields) : Prop :=
  g <> [] /\ exists gs, partition max g gs /\ reads_back nan unzip fuel f gs None.
Definition nexts (vs : list jevent) : nat :=
  length (filter (fun v => match v with JNext _ => true | _ => false end) vs).

(* ------------------------------------------------------------------------- lines *)

Lemma drop_cr_line l : last l 0 <> 13 -> drop_cr l = l.
Proof.
  destruct (rev l) as [|c r] eqn:E; unfold drop_cr; rewrite E.
  - intros _. apply (f_equal (@rev Z)) in E. rewrite rev_involutive in E. now rewrite E.
  - intros H. destruct (c =? 13) eqn:C; [|reflexivity]. exfalso. apply H.
    apply (f_equal (@rev Z)) in E. rewrite rev_involutive in E. rewrite E. cbn [rev]. rewrite last_last. lia.
Qed.
Lemma drop_cr_crlf l : drop_cr (l ++ [13]) = l.
Proof. unfold drop_cr. rewrite rev_app_distr. cbn [rev app]. cbn. apply rev_involutive. Qed.
Lemma scan_app l : ~ In 10 l -> forall acc r, zlen acc + zlen l < 65536 -> scan_lines acc (l ++ r) = scan_lines (acc ++ l) r.
Proof.
  induction l as [|c l IH]; intros N acc r L; [cbn; now rewrite app_nil_r|].
  cbn [app scan_lines]. zlens_in L. cbn [In] in N. pose proof (zlen_nonneg l).
  destruct (c =? 10) eqn:C; [lia|]. unfold max_token. destruct (65536 <=? zlen acc + 1) eqn:T; [lia|].
  rewrite IH; [now rewrite <- app_assoc|tauto|zlens; lia].
Qed.
Lemma scan_spec d ls : lines_in d ls -> scan_lines [] d = (ls, false).
Proof.
  induction 1 as [|l Ne (N & L & C)|l d ls (N & L & C) H IH|l d ls (N & L & C) H IH].
  - reflexivity.
  - rewrite <- (app_nil_r l) at 1. rewrite (scan_app l N [] []); [|change (zlen []) with 0; lia]. cbn [app scan_lines].
    rewrite (drop_cr_line l C). destruct l; [congruence|reflexivity].
  - rewrite (scan_app l N [] _); [|change (zlen []) with 0; lia]. cbn [app scan_lines]. cbn [Z.eqb Pos.eqb].
    rewrite IH. now rewrite (drop_cr_line l C).
  - change (l ++ 13 :: 10 :: d) with (l ++ [13] ++ 10 :: d). rewrite app_assoc.
    assert (N2 : ~ In 10 (l ++ [13])) by (rewrite in_app_iff; cbn; intuition lia).
    rewrite (scan_app _ N2 [] _); [|zlens; change (zlen (@nil Z)) with 0; lia]. cbn [app scan_lines]. cbn [Z.eqb Pos.eqb].
    rewrite IH. now rewrite drop_cr_crlf.
Qed.

Lemma f2_len {A B} (R : A -> B -> Prop) l m : Forall2 R l m -> length l = length m.
Proof. induction 1; cbn; congruence. Qed.

(* ------------------------------------------------------------------------- C85 *)

Section Src.
Variable parse_time : bytes -> option Z.
Variable pf : bytes -> Z * bool.
Variable ff : Z -> bytes.
Variable fuel : nat.
Variable max : Z.
Definition fits (d : fields) : Prop := wf_fields d /\ small d /\ enough fuel (zlen (enc_doc d)) /\ room fuel max d.
Lemma reads_line t fs : reads_as parse_time pf ff t fs -> fits fs ->
  exists es, line_doc parse_time pf ff t = Ret (inl es) /\ sample fuel es fs.
Proof.
  intros (es & B & U) (W & S & F & _). exists es. split; [|now apply sample_built].
  specialize (U []). unfold doc_unmarshal_json in U. unfold line_doc.
  destruct (doc_bytes pf ff t) as [[x|x]| |]; cbn [bind] in *; try discriminate.
  unfold doc_jsonx. rewrite U. reflexivity.
Qed.
Lemma feed_lines ls dfs e : Forall2 (reads_as parse_time pf ff) ls dfs -> Forall fits dfs ->
  exists ds, feed parse_time pf ff ls e = (ds, EndWith e) /\ Forall2 (sample fuel) ds dfs.
Proof.
  induction 1 as [|l d ls dfs R F IH]; intros Fi; [exists []; split; [reflexivity|constructor]|].
  inversion_clear Fi as [|? ? F1 F2]. destruct (reads_line l d R F1) as (es & E & S). destruct (IH F2) as (ds & E2 & S2).
  exists (es :: ds). cbn [feed]. rewrite E, E2. split; [reflexivity|]. constructor; auto.
Qed.
End Src.

Section JS.
Variable nan : Z -> Z -> Z.
Variables (zip : bytes -> bytes) (unzip : bytes -> option bytes).
Hypothesis codec : codec_ok zip unzip.
Variable fuel : nat.
Variable max : Z.
Hypothesis Mx : 1 <= max < 4294967296.
Notation fits := (fits fuel max).

Lemma dy_run_app a b : forall c, dy_run nan fuel c (a ++ b) =
  let '(c, l) := dy_run nan fuel c a in let '(c, l') := dy_run nan fuel c b in (c, l ++ l').
Proof.
  induction a as [|[now es] a IH]; intros c; cbn [app dy_run].
  - destruct (dy_run nan fuel c b). reflexivity.
  - destruct (dy_add nan fuel now c es) as [c1 e]. rewrite IH. destruct (dy_run nan fuel c1 a) as [c2 l].
    destruct (dy_run nan fuel c2 b). reflexivity.
Qed.
Lemma dy_add_max now c es : dy_max (fst (dy_add nan fuel now c es)) = dy_max c.
Proof.
  unfold dy_add. destruct (obs_doc fuel es); [|reflexivity|reflexivity]. destruct (key_hash _) as [h n].
  destruct (dy_hash c).
  - destruct (_ =? _).
    + destruct (bt_add _ _ _ _ _). reflexivity.
    + destruct (bt_add _ _ _ _ _) as [b [[e|]| |]]; reflexivity.
  - destruct (bt_add _ _ _ _ _). reflexivity.
Qed.
Definition oks (dfs : list fields) : list (go (option gerr)) := map (fun _ => Ret None) dfs.
Lemma accepted_oks dfs : accepted dfs (oks dfs) = dfs.
Proof. induction dfs as [|d r IH]; [reflexivity|]. cbn [oks map accepted]. f_equal. exact IH. Qed.
Lemma answers_last pend d x : forall first acc, dy_answers first acc (pend ++ [d]) (oks pend ++ [x]) ->
  x = Ret None \/ x = Ret (Some e_schema).
Proof.
  induction pend as [|p pend IH]; intros first acc H.
  - cbn [app oks map dy_answers] in H. destruct x as [r| |]; try contradiction. destruct H as [[->|[-> _]] _]; auto.
  - cbn [app oks map dy_answers] in H. destruct H as [_ H]. apply (IH _ _ H).
Qed.

Record jinv (plan : list (option gerr)) (all : list fields) (s : jstate) (pend rest : list fields) : Prop := {
  ji_files : exists fgs, Forall2 (file_of nan unzip fuel max) (j_files s) fgs /\ all = concat fgs ++ pend ++ rest;
  ji_coll : exists docs, Forall2 (fun d fs => sample fuel (snd d) fs) docs pend /\
    dy_run nan fuel (new_dynamic max) docs = (j_coll s, oks pend);
  ji_max : dy_max (j_coll s) = max;
  ji_docs : Forall2 (sample fuel) (j_docs s) rest;
  ji_end : j_end s = EndWith None;
  ji_can : j_cancelled s = false;
  ji_plan : incl (j_plan s) plan;
  ji_res : j_result s = JRun }.
(* what the files hold when it is over *)
Definition jdone (plan : list (option gerr)) (all : list fields) (s : jstate) : Prop :=
  exists fgs rest, Forall2 (file_of nan unzip fuel max) (j_files s) fgs /\ all = concat fgs ++ rest /\
  match j_result s with
  | JRet None => rest = []
  | JRet (Some (JAdd e)) => e = e_schema
  | JRet (Some (JFlush e)) => In (Some e) plan
  | _ => False
  end.

Lemma flush_ok plan all s pend rest : Forall fits all -> jinv plan all s pend rest ->
  exists s', (j_flush zip fuel s = (s', Ret None) /\ jinv plan all s' [] rest) \/
    (exists e, j_flush zip fuel s = (s', Ret (Some e)) /\ In (Some e) plan /\ j_files s' = j_files s).
Proof.
  intros Fi I. destruct I as [(fgs & Fg & Da) (docs & Sa & Run) Em Dd Ee Ec Pl Re].
  assert (Fp : Forall fits pend).
  { rewrite Da, !Forall_app in Fi. apply Fi. }
  destruct (C39_dynamic_partial nan zip unzip fuel max None None docs pend (j_coll s) (oks pend) codec Mx I Sa) as (_ & Sc & Out).
  { eapply Forall_impl; [|exact Fp]. unfold fits. tauto. }
  { exact Run. }
  rewrite accepted_oks in *. unfold j_flush. rewrite Sc.
  destruct pend as [|p pend].
  - exists s. left. split; [reflexivity|]. constructor; eauto.
  - destruct (zlen (p :: pend) =? 0) eqn:Z; [zlens_in Z; pose proof (zlen_nonneg pend); lia|].
    destruct Out as (gs & out & P & R & Rb & _); [discriminate|]. rewrite R.
    destruct (j_plan s) as [|[e|] pl] eqn:Ep.
    + eexists. left. split; [reflexivity|]. constructor; cbn; auto.
      * exists (fgs ++ [p :: pend]). split.
        { apply Forall2_app; [exact Fg|]. constructor; [|constructor]. split; [discriminate|]. exists gs. auto. }
        rewrite concat_app. cbn [concat app]. rewrite app_nil_r, <- app_assoc. exact Da.
      * exists []. split; [constructor|]. unfold dy_reset. now rewrite Em.
    + eexists. right. exists e. split; [reflexivity|]. split; [apply Pl; now left|reflexivity].
    + eexists. left. split; [reflexivity|]. constructor; cbn; auto.
      * exists (fgs ++ [p :: pend]). split.
        { apply Forall2_app; [exact Fg|]. constructor; [|constructor]. split; [discriminate|]. exists gs. auto. }
        rewrite concat_app. cbn [concat app]. rewrite app_nil_r, <- app_assoc. exact Da.
      * exists []. split; [constructor|]. unfold dy_reset. now rewrite Em.
      * intros x Hx. apply Pl. now right.
Qed.
Lemma jinv_files plan all s pend rest : jinv plan all s pend rest ->
  exists fgs, Forall2 (file_of nan unzip fuel max) (j_files s) fgs /\ all = concat fgs ++ pend ++ rest.
Proof. now intros []. Qed.
Definition is_next (v : jevent) : nat := match v with JNext _ => 1 | _ => 0 end.
Lemma step_ok plan all s pend rest v : Forall fits all -> jinv plan all s pend rest -> v <> JCancel ->
  (exists pend' rest', jinv plan all (j_step nan zip fuel s v) pend' rest' /\ (length rest' + is_next v = length rest)%nat) \/
  jdone plan all (j_step nan zip fuel s v).
Proof.
  intros Fi I Nc. pose proof (jinv_files _ _ _ _ _ I) as (fgs & Fg & Da).
  pose proof (ji_res _ _ _ _ _ I) as Re. pose proof (ji_can _ _ _ _ _ I) as Ec. unfold j_step. rewrite Re.
  destruct v as [now| | | |]; [|destruct (flush_ok _ _ _ _ _ Fi I) as (s' & [[E I']|(e & E & Ie & Ef)]); rewrite E|congruence| |].
  - destruct (j_docs s) as [|d r] eqn:Ed.
    + right. pose proof (ji_docs _ _ _ _ _ I) as Dd. rewrite Ed in Dd. inversion Dd; subst rest.
      rewrite (ji_end _ _ _ _ _ I).
      destruct (flush_ok _ _ _ _ _ Fi I) as (s' & [[E I']|(e & E & Ie & Ef)]); rewrite E.
      * destruct (jinv_files _ _ _ _ _ I') as (fgs' & Fg' & Da'). exists fgs', []. cbn. split; [exact Fg'|]. split; [exact Da'|reflexivity].
      * exists fgs, (pend ++ []). cbn. rewrite Ef. auto.
    + destruct I as [_ (docs & Sa & Run) Em Dd Ee _ Pl _]. rewrite Ed in Dd. inversion Dd as [|? q ? rest' Sd Dr E1 E2]; subst.
      destruct (dy_add nan fuel now (j_coll s) d) as [c x] eqn:Ea.
      assert (Sa2 : Forall2 (fun d fs => sample fuel (snd d) fs) (docs ++ [(now, d)]) (pend ++ [q])).
      { apply Forall2_app; [exact Sa|]. constructor; [exact Sd|constructor]. }
      assert (Run2 : dy_run nan fuel (new_dynamic max) (docs ++ [(now, d)]) = (c, oks pend ++ [x])).
      { rewrite dy_run_app, Run. cbn [dy_run]. rewrite Ea. reflexivity. }
      assert (Fp : Forall (room fuel max) (pend ++ [q])).
      { change (q :: rest') with ([q] ++ rest') in Fi. rewrite !Forall_app in Fi. destruct Fi as (_ & F1 & F2 & _).
        apply Forall_app. split; [eapply Forall_impl; [|exact F1]|eapply Forall_impl; [|exact F2]]; unfold fits; tauto. }
      destruct (C39_dynamic_partial nan zip unzip fuel max None None _ _ _ _ codec Mx I Sa2 Fp Run2) as (An & _).
      apply answers_last in An. destruct An as [-> | ->].
      * left. exists (pend ++ [q]), rest'. split; [|cbn; lia]. constructor; cbn; auto.
        -- exists fgs. split; [exact Fg|]. rewrite <- app_assoc. reflexivity.
        -- exists (docs ++ [(now, d)]). split; [exact Sa2|]. rewrite Run2. unfold oks. now rewrite map_app.
        -- pose proof (dy_add_max now (j_coll s) d) as M. rewrite Ea in M. cbn in M. congruence.
      * right. exists fgs, (pend ++ q :: rest'). cbn. auto.
  - left. exists [], rest. cbn. split; [exact I'|lia].
  - right. exists fgs, (pend ++ rest). cbn. rewrite Ef. auto.
  - rewrite Ec. left. exists pend, rest. cbn. split; [exact I|lia].
  - rewrite Ec. cbn [andb]. left. exists pend, rest. cbn. split; [exact I|lia].
Qed.
Lemma run_over vs s : j_result s <> JRun -> j_run nan zip fuel s vs = s.
Proof.
  unfold j_run. revert s. induction vs as [|v vs IH]; intros s H; [reflexivity|]. cbn [fold_left].
  assert (E : j_step nan zip fuel s v = s) by (unfold j_step; destruct (j_result s); congruence). now rewrite E, IH.
Qed.
Lemma run_ok plan all vs : Forall fits all -> ~ In JCancel vs -> forall s pend rest, jinv plan all s pend rest ->
  (exists pend' rest', jinv plan all (j_run nan zip fuel s vs) pend' rest' /\ (length rest' + nexts vs = length rest)%nat) \/
  jdone plan all (j_run nan zip fuel s vs).
Proof.
  intros Fi. induction vs as [|v vs IH]; intros Nc s pend rest I.
  - left. exists pend, rest. split; [exact I|]. unfold nexts. cbn. lia.
  - cbn [In] in Nc. change (j_run nan zip fuel s (v :: vs)) with (j_run nan zip fuel (j_step nan zip fuel s v) vs).
    destruct (step_ok plan all s pend rest v Fi I) as [(p' & r' & I' & L)|D]; [intuition congruence| |].
    + destruct (IH ltac:(tauto) _ _ _ I') as [(p2 & r2 & I2 & L2)|D]; [left|now right].
      exists p2, r2. split; [exact I2|]. unfold nexts in *. cbn [filter]. unfold is_next in L. destruct v; cbn [length] in *; lia.
    + right. rewrite run_over; [exact D|]. destruct D as (? & ? & _ & _ & R). intros E. rewrite E in R. exact R.
Qed.
End JS.

(* C85.  Without a cancellation, the lines of a reader or file that are documents are collected:
   what the files hold, one after the other, is always the documents of the first lines, in
   order, and when nil is returned it is all of them.  Otherwise the error is that the schema
   changed or one of WriteFile's.  It has returned when as many items as there are lines, and
   one more, were received.  Missing: the other endings, see the refutations. *)
Theorem C85_partial : forall nan zip unzip parse_time pf ff fuel max src data ls dfs plan vs s,
  codec_ok zip unzip -> 1 <= max < 4294967296 ->
  (exists rerr, src = SReader data rerr \/ src = SFile data rerr None) -> lines_in data ls ->
  Forall2 (reads_as parse_time pf ff) ls dfs -> Forall (fits fuel max) dfs -> ~ In JCancel vs ->
  j_run nan zip fuel (collect_json parse_time pf ff max src plan) vs = s ->
  (exists fgs rest, Forall2 (file_of nan unzip fuel max) (j_files s) fgs /\ dfs = concat fgs ++ rest /\
    match j_result s with
    | JRun => True
    | JRet None => rest = []
    | JRet (Some (JAdd e)) => e = e_schema
    | JRet (Some (JFlush e)) => In (Some e) plan
    | _ => False
    end) /\
  (length dfs < nexts vs -> j_result s <> JRun)%nat.
Proof.
  intros nan zip unzip parse_time pf ff fuel max src data ls dfs plan vs s Cz Mx Src Li Rd Fi Nc <-.
  destruct (feed_lines parse_time pf ff fuel max ls dfs None Rd Fi) as (ds & Ef & Sd).
  assert (E : exists b, collect_json parse_time pf ff max src plan = MkJ (new_dynamic max) [] plan ds (EndWith None) b false JRun).
  { destruct Src as (rerr & [-> | ->]); eexists; unfold collect_json; cbn [source_docs]; rewrite (scan_spec _ _ Li); cbn [fst]; rewrite Ef; reflexivity. }
  destruct E as (b & E). rewrite E.
  assert (I0 : jinv nan unzip fuel max plan dfs (MkJ (new_dynamic max) [] plan ds (EndWith None) b false JRun) [] dfs).
  { constructor; cbn; auto.
    - exists []. split; [constructor|reflexivity].
    - exists []. split; [constructor|reflexivity].
    - apply incl_refl. }
  destruct (run_ok nan zip unzip Cz fuel max Mx plan dfs vs Fi Nc _ _ _ I0) as [(pend & rest & I & L)|(fgs & rest & Fg & Da & R)].
  - destruct (jinv_files _ _ _ _ _ _ _ _ _ I) as (fgs & Fg & Da). split.
    + exists fgs, (pend ++ rest). rewrite (ji_res _ _ _ _ _ _ _ _ _ I). auto.
    + lia.
  - split; [|intros _ E2; now rewrite E2 in R].
    exists fgs, rest. split; [exact Fg|]. split; [exact Da|]. destruct (j_result _) as [|[[]|]| |]; auto.
Qed.
Print Assumptions C85_partial.

(* ---------------------------------------------------------- what C85 cannot promise *)

(* lines that all end with a newline *)
Inductive ended : bytes -> list bytes -> Prop :=
| en_nil : ended [] []
| en_lf l d ls : line l -> ended d ls -> ended (l ++ 10 :: d) (l :: ls).
Lemma scan_ended d ls x : ended d ls -> scan_lines [] (d ++ x) = (ls ++ fst (scan_lines [] x), snd (scan_lines [] x)).
Proof.
  induction 1 as [|l d ls (N & L & C) H IH]; [cbn [app]; now destruct (scan_lines [] x)|].
  rewrite <- app_assoc. rewrite (scan_app l N [] _); [|change (zlen []) with 0; lia]. cbn [app scan_lines]. cbn [Z.eqb Pos.eqb].
  rewrite IH. now rewrite (drop_cr_line l C).
Qed.
Lemma scan_long l r : ~ In 10 l -> forall acc, zlen acc < 65536 <= zlen acc + zlen l -> scan_lines acc (l ++ r) = ([], true).
Proof.
  induction l as [|c l IH]; intros N acc L; [zlens_in L; change (zlen (@nil Z)) with 0 in L; lia|].
  cbn [app scan_lines]. zlens_in L. cbn [In] in N.
  destruct (c =? 10) eqn:C; [lia|]. unfold max_token. destruct (65536 <=? zlen acc + 1) eqn:T; [reflexivity|].
  apply IH; [tauto|zlens; lia].
Qed.
(* C85.  Input that ends with a line of 64 KiB, whatever follows it, or with a read error, is
   taken for the input that ends before: nil is returned, and lines are lost. *)
Theorem C85_input_refuted : forall nan zip parse_time pf ff fuel max d ls l rest rerr plan vs,
  ended d ls -> ~ In 10 l -> 65536 <= zlen l ->
  j_run nan zip fuel (collect_json parse_time pf ff max (SReader (d ++ l ++ rest) rerr) plan) vs =
    j_run nan zip fuel (collect_json parse_time pf ff max (SReader d None) plan) vs /\
  j_run nan zip fuel (collect_json parse_time pf ff max (SReader d rerr) plan) vs =
    j_run nan zip fuel (collect_json parse_time pf ff max (SReader d None) plan) vs.
Proof.
  intros nan zip parse_time pf ff fuel max d ls l rest rerr plan vs E N L. split; [|reflexivity].
  unfold collect_json. cbn [source_docs drops]. rewrite (scan_ended d ls _ E), (scan_long l rest N []); [|change (zlen []) with 0; lia].
  pose proof (scan_ended d ls [] E) as E0. rewrite app_nil_r in E0. rewrite E0. reflexivity.
Qed.
(* C85.  When the context is cancelled, the documents of a file may be dropped, all of them,
   and yet nil is returned. *)
Theorem C85_cancel_refuted : forall nan zip parse_time pf ff fuel max data ls dfs rerr plan now,
  lines_in data ls -> Forall2 (reads_as parse_time pf ff) ls dfs -> Forall (fits fuel max) dfs ->
  let s := j_run nan zip fuel (collect_json parse_time pf ff max (SFile data rerr None) plan) (JCancel :: repeat JDrop (length ls) ++ [JNext now]) in
  j_result s = JRet None /\ j_files s = [].
Proof.
  intros nan zip parse_time pf ff fuel max data ls dfs rerr plan now Li Rd Fi.
  destruct (feed_lines parse_time pf ff fuel max ls dfs None Rd Fi) as (ds & Ef & Sd).
  unfold collect_json. cbn [source_docs drops]. rewrite (scan_spec _ _ Li). cbn [fst]. rewrite Ef. unfold j_run. cbn [fold_left].
  assert (Ln : length ls = length ds).
  { transitivity (length dfs); [|symmetry]; eapply f2_len; eauto. }
  rewrite Ln. clear. unfold j_step at 2. cbn [j_result].
  induction ds as [|d ds IH]; cbn [length repeat app fold_left].
  - unfold j_step. cbn [j_result j_docs j_end]. unfold j_flush. cbn [j_coll]. change (dy_samples (new_dynamic max)) with 0. cbn. auto.
  - unfold j_step at 2. cbn [j_result j_cancelled j_drops andb j_docs tl j_coll j_files j_plan j_end]. exact IH.
Qed.
(* C85.  A line whose value panics when it is read ends the process. *)
Theorem C85_crash_refuted : forall nan zip parse_time pf ff fuel max data l ls p rerr plan now,
  lines_in data (l :: ls) -> doc_unmarshal_json parse_time pf ff [] l = Panic p ->
  j_result (j_run nan zip fuel (collect_json parse_time pf ff max (SReader data rerr) plan) [JNext now]) = JCrash.
Proof.
  intros nan zip parse_time pf ff fuel max data l ls p rerr plan now Li Pa.
  unfold collect_json. cbn [source_docs drops]. rewrite (scan_spec _ _ Li). cbn [fst feed].
  assert (E : line_doc parse_time pf ff l = Panic p).
  { unfold line_doc, doc_unmarshal_json in *. destruct (doc_bytes pf ff l) as [[x|x]| |]; cbn [bind] in *; try discriminate.
    - unfold doc_jsonx. now rewrite Pa.
    - injection Pa as ->. reflexivity. }
  rewrite E. reflexivity.
Qed.
(* C85.  When a line is not a document, the samples since the last flush are not saved: if the
   timer did not fire, none are. *)
Theorem C85_pending_refuted : forall nan zip parse_time pf ff fuel max data ls bad rest dfs e rerr plan vs,
  lines_in data (ls ++ bad :: rest) -> Forall2 (reads_as parse_time pf ff) ls dfs -> Forall (fits fuel max) dfs ->
  line_doc parse_time pf ff bad = Ret (inr e) -> e <> EEOF -> Forall (fun v => exists now, v = JNext now) vs ->
  let s := j_run nan zip fuel (collect_json parse_time pf ff max (SReader data rerr) plan) vs in
  j_files s = [] /\ j_result s <> JRet None.
Proof.
  intros nan zip parse_time pf ff fuel max data ls bad rest dfs e rerr plan vs Li Rd Fi Bad Ne Al.
  destruct (feed_lines parse_time pf ff fuel max ls dfs None Rd Fi) as (ds & Ef & _).
  unfold collect_json. cbn [source_docs drops]. rewrite (scan_spec _ _ Li). cbn [fst].
  assert (Ef2 : feed parse_time pf ff (ls ++ bad :: rest) None = (ds, EndWith (Some e))).
  { clear - Ef Bad. revert ds Ef. induction ls as [|l ls IH]; intros ds Ef; cbn [app feed] in *.
    - injection Ef as <-. now rewrite Bad.
    - destruct (line_doc parse_time pf ff l) as [[d|x]| |]; try discriminate.
      destruct (feed parse_time pf ff ls None) as [ds' x'] eqn:E. injection Ef as <- ->. now rewrite (IH _ eq_refl). }
  rewrite Ef2. clear - Ne Al.
  set (s0 := MkJ _ _ _ _ _ _ _ _).
  assert (H : j_end s0 = EndWith (Some e) /\ j_files s0 = [] /\ j_result s0 <> JRet None) by (cbn; repeat split; discriminate).
  clearbody s0. revert s0 H. unfold j_run. induction Al as [|v vs (now & ->) Al IH]; intros s (He & Hf & Hr); [cbn; auto|].
  cbn [fold_left]. apply IH. unfold j_step. destruct (j_result s) eqn:Er; auto; try (rewrite ?Er; auto).
  destruct (j_docs s) as [|d r].
  - rewrite He. destruct e; try congruence; cbn; repeat split; auto; discriminate.
  - destruct (dy_add nan fuel now (j_coll s) d) as [c [[x|]| |]]; cbn; repeat split; auto; discriminate.
Qed.
(* C85.  With Follow, only the lines that the file has at the first write event are ever seen. *)
Theorem C85_follow_refuted : forall b evs, follow_lines new_scanner (b :: evs) = fst (scan_lines [] b).
Proof.
  intros b evs. cbn [follow_lines scan_all new_scanner sn_eof sn_unread app]. 
  assert (E : forall evs u, follow_lines (MkScan u true) evs = []).
  { clear. induction evs as [|b r IH]; intros u; [reflexivity|]. cbn. apply IH. }
  rewrite E. apply app_nil_r.
Qed.

(* ------------------------------------------------------------------------- examples *)

Definition t_one : bytes := bstr "{""a"":1}".
Definition t_two : bytes := bstr "{""a"":2}".
Definition t_three : bytes := bstr "{""a"":3}".
Definition t_bad : bytes := bstr "nonsense".
Definition x_lines : bytes := t_one ++ 10 :: t_two ++ 13 :: 10 :: t_three.
Definition x_docs : list fields := [FtdcProps.one (BInt32 1); FtdcProps.one (BInt32 2); FtdcProps.one (BInt32 3)].
Lemma lineb l : forallb (fun c => negb (c =? 10) && negb (c =? 13)) l && (zlen l <? 65535) = true -> line l.
Proof.
  intros H. apply andb_true_iff in H. destruct H as [F L]. rewrite forallb_forall in F.
  split; [|split; [lia|]]; [intros I; apply F in I; discriminate|].
  destruct l as [|c l]; [cbn; lia|]. destruct (exists_last (l := c :: l)) as (l' & a & E); [discriminate|].
  rewrite E, last_last. intros ->. assert (In 13 (c :: l)) as I by (rewrite E, in_app_iff; cbn; tauto). apply F in I. discriminate.
Qed.
Lemma x_lines_ok : lines_in x_lines [t_one; t_two; t_three].
Proof.
  apply li_lf; [now apply lineb|]. apply li_crlf; [now apply lineb|]. apply li_last; [discriminate|now apply lineb].
Qed.
Lemma x_docs_ok parse_time pf ff : Forall2 (reads_as parse_time pf ff) [t_one; t_two; t_three] x_docs.
Proof.
  assert (H : forall t v, (t, v) = (t_one, BInt32 1) \/ (t, v) = (t_two, BInt32 2) \/ (t, v) = (t_three, BInt32 3) ->
    reads_as parse_time pf ff t (FtdcProps.one v)).
  { intros t v [E|[E|E]]; injection E as -> ->; (eexists; split; [vm_compute; reflexivity|intros d; vm_compute; reflexivity]). }
  constructor; [apply H; tauto|]. constructor; [apply H; tauto|]. constructor; [apply H; tauto|constructor].
Qed.
Lemma x_fits : Forall (fits 3000 10) x_docs.
Proof.
  assert (H : forall i, -3 <= i <= 3 -> fits 3000 10 (FtdcProps.one (BInt32 i))).
  { intros i L. assert (Z1 : zlen (enc_doc (FtdcProps.one (BInt32 i))) = 12).
    { unfold enc_doc, FtdcProps.one. cbn [enc_elems]. zlens. rewrite zlen_enc_elem. cbn [enc_body]. zlens. reflexivity. }
    assert (Lv : zlen (doc_leaves (FtdcProps.one (BInt32 i))) = 1) by reflexivity.
    split; [|split; [|split]].
    - constructor; [|constructor]. split; [now apply FtdcProofs.key_ok|cbn; unfold is_i32; lia].
    - unfold small. lia.
    - unfold enough. lia.
    - unfold room, chunk_room, enough. lia. }
  unfold x_docs. repeat (apply Forall_cons; [apply H; lia|]). apply Forall_nil.
Qed.
Definition idz (b : bytes) : bytes := b.
Lemma idz_ok : codec_ok idz Some.
Proof. intros b H. unfold idz. pose proof (zlen_nonneg b). repeat split; auto; lia. Qed.
(* two documents, a flush, the third, and the end *)
Definition x_vs : list jevent := [JNext 1; JNext 2; JTick; JNext 3; JNext 4].
Definition pf0 (_ : bytes) : Z * bool := (0, true).
Definition ff0 (_ : Z) : bytes := [].
Definition pt0 (_ : bytes) : option Z := None.
Example C85_nonvacuous : lines_in x_lines [t_one; t_two; t_three] /\ Forall2 (reads_as pt0 pf0 ff0) [t_one; t_two; t_three] x_docs /\
  Forall (fits 3000 10) x_docs /\ ~ In JCancel x_vs /\
  let s := j_run (fun _ _ => 0) idz 3000 (collect_json pt0 pf0 ff0 10 (SReader x_lines None) []) x_vs in
  j_result s = JRet None /\ length (j_files s) = 2%nat.
Proof.
  split; [exact x_lines_ok|]. split; [apply x_docs_ok|]. split; [exact x_fits|]. split; [cbn; intuition discriminate|].
  vm_compute. auto.
Qed.
Example C85_input_case : exists l, ~ In 10 l /\ 65536 <= zlen l /\ ended (t_one ++ [10]) [t_one].
Proof.
  exists (repeat 97 (Z.to_nat 65536)). split; [intros I; apply repeat_spec in I; discriminate|]. split.
  - unfold zlen. rewrite repeat_length. lia.
  - change (t_one ++ [10]) with (t_one ++ 10 :: []). apply en_lf; [now apply lineb|constructor].
Qed.
Example C85_crash_case : lines_in t_oid5 [t_oid5] /\ forall parse pf ff, doc_unmarshal_json parse pf ff [] t_oid5 = Panic p_assert.
Proof. split; [apply li_last; [discriminate|now apply lineb]|]. intros. apply C80_panics_case. Qed.
Example C85_pending_case : lines_in (t_one ++ 10 :: t_bad) ([t_one] ++ t_bad :: []) /\
  exists e, line_doc pt0 pf0 ff0 t_bad = Ret (inr e) /\ e <> EEOF.
Proof.
  split; [apply li_lf; [now apply lineb|apply li_last; [discriminate|now apply lineb]]|].
  eexists. split; [vm_compute; reflexivity|discriminate].
Qed.
(* the second line arrives after the first event *)
Example C85_follow_case : lines_in (t_one ++ 10 :: t_two) [t_one; t_two] /\ follow_lines new_scanner [t_one ++ [10]; t_two] = [t_one].
Proof. split; [apply li_lf; [now apply lineb|apply li_last; [discriminate|now apply lineb]]|vm_compute; reflexivity]. Qed.
Print Assumptions C85_input_refuted.
Print Assumptions C85_cancel_refuted.
Print Assumptions C85_crash_refuted.
Print Assumptions C85_pending_refuted.
Print Assumptions C85_follow_refuted.
