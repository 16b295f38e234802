(* The properties of the uncompressed and the sampling FTDC collectors: C43, C68 to C70. *)
Require Import ZArith List Bool Lia ZifyBool ZifyNat.
From Verif Require Import Base BSpec Elements Value Codec CodecRead Itoa CodecRep Api ApiProofs Tree
  GetterProofs ReaderOps CodecProps DocOps Stream Search FtdcSpec Ftdc FtdcProofs FtdcRestore FtdcProps FtdcFlatProps
  Collect CollectProofs CollectProps CollectStreamProps.
Import ListNotations.
Open Scope Z_scope.

(* ------------------------------------------------------------------------- C68 *)

(* What an uncompressed collector takes: documents with as many fields as the first that has
   any, until there are max of them. *)
Definition u_says (max : Z) (offered acc : list fields) (d : fields) : option gerr :=
  let width := match filter (fun d => negb (zlen d =? 0)) (offered ++ [d]) with f :: _ => zlen f | [] => 0 end in
  if negb (zlen d =? width) then Some e_schema else if max <=? zlen acc then Some e_overfull else None.
Fixpoint u_answers (max : Z) (offered acc ds : list fields) : list (go (option gerr)) :=
  match ds with
  | [] => []
  | d :: r => let e := u_says max offered acc d in
      Ret e :: u_answers max (offered ++ [d]) (match e with None => acc ++ [d] | Some _ => acc end) r
  end.
Fixpoint u_run (c : uncomp) (docs : list document) : uncomp * list (go (option gerr)) :=
  match docs with
  | [] => (c, [])
  | es :: r => let '(c, e) := u_add c es in let '(c, l) := u_run c r in (c, Ret e :: l)
  end.
Definition uncomp_with (bson : bool) (max : Z) (md : option document) : uncomp :=
  match md with None => new_uncomp bson max | Some es => u_set_metadata (new_uncomp bson max) es end.

Lemma Forall2_length {A B} (R : A -> B -> Prop) l l' : Forall2 R l l' -> length l = length l'.
Proof. induction 1; cbn; auto. Qed.

Section U.
Variable fuel : nat.
Variable max : Z.
Variable bson : bool.
Variable md : option document.
Definition width (offered : list fields) : Z := match filter (fun d : fields => negb (zlen d =? 0)) offered with f :: _ => zlen f | [] => 0 end.
Definition uinv (c : uncomp) (offered acc : list fields) : Prop :=
  u_bson c = bson /\ u_json c = negb bson /\ u_size c = max /\ u_metrics c = width offered /\ u_meta c = md /\
  Forall2 (sample fuel) (u_samples c) acc.
Lemma rep_doc_zlen es fs : rep_doc es fs -> zlen es = zlen fs.
Proof.
  revert es. induction fs as [|[k t] fs IH]; intros [|[v|] es] R; cbn [rep_doc] in R; try contradiction; [reflexivity|].
  zlens. rewrite (IH es) by apply R. reflexivity.
Qed.
Lemma width_snoc offered d : width (offered ++ [d]) = if width offered =? 0 then zlen d else width offered.
Proof.
  unfold width. rewrite filter_app. destruct (filter _ offered) as [|f l] eqn:E; cbn [app filter].
  - destruct (Z.eqb_spec (zlen d) 0) as [E0|E0]; cbn; lia.
  - assert (In f (f :: l)) as H by (now left). rewrite <- E in H. apply filter_In in H as [_ H].
    destruct (Z.eqb_spec (zlen f) 0); [discriminate|]. destruct (Z.eqb_spec (zlen f) 0); [contradiction|reflexivity].
Qed.
Lemma u_step c offered acc es d : uinv c offered acc -> sample fuel es d ->
  exists c', u_add c es = (c', u_says max offered acc d) /\
    uinv c' (offered ++ [d]) (match u_says max offered acc d with None => acc ++ [d] | Some _ => acc end).
Proof.
  intros (E1 & E2 & E3 & E4 & E5 & F) Sa. unfold u_add, u_says. fold (width (offered ++ [d])).
  assert (Ez : zlen es = zlen d) by (apply rep_doc_zlen; eapply sample_rep; eauto).
  assert (Ew : (if u_metrics c =? 0 then zlen es else u_metrics c) = width (offered ++ [d])) by (now rewrite E4, Ez, width_snoc).
  assert (El : zlen (u_samples c) = zlen acc) by (unfold zlen; now rewrite (Forall2_length _ _ _ F)).
  rewrite Ew, Ez, El, E3. destruct (zlen d =? width (offered ++ [d])); cbn [negb].
  - destruct (max <=? zlen acc).
    + eexists. split; [reflexivity|]. repeat (split; [assumption||reflexivity|]). exact F.
    + eexists. split; [reflexivity|]. repeat (split; [assumption||reflexivity|]). apply Forall2_app; [exact F|]. constructor; [exact Sa|constructor].
  - eexists. split; [reflexivity|]. repeat (split; [assumption||reflexivity|]). exact F.
Qed.
Lemma u_runs docs ds : Forall2 (sample fuel) docs ds -> forall c offered acc, uinv c offered acc ->
  exists c', u_run c docs = (c', u_answers max offered acc ds) /\ uinv c' (offered ++ ds) (acc ++ accepted ds (u_answers max offered acc ds)).
Proof.
  induction 1 as [|es d docs ds Sa _ IH]; intros c offered acc Iv; cbn [u_run u_answers accepted].
  - exists c. rewrite !app_nil_r. auto.
  - destruct (u_step c offered acc es d Iv Sa) as (c1 & E1 & I1). rewrite E1.
    destruct (IH c1 _ _ I1) as (c2 & E2 & I2). rewrite E2. exists c2. split; [reflexivity|]. rewrite <- app_assoc in I2. cbn [app] in I2.
    destruct (u_says max offered acc d); [exact I2|]. rewrite <- app_assoc in I2. exact I2.
Qed.
End U.

(* C68.  What each Add answers, how many samples Info counts, and that Resolve of a BSON
   collector is the encodings of the metadata and of the accepted samples in order. *)
Theorem C68_uncompressed : forall to_json fuel max md mfs docs ds c rs,
  match md, mfs with None, None => True | Some es, Some m => sample fuel es m | _, _ => False end ->
  Forall2 (sample fuel) docs ds ->
  u_run (uncomp_with true max md) docs = (c, rs) ->
  rs = u_answers max [] [] ds /\ zlen (u_samples c) = zlen (accepted ds rs) /\
  u_resolve to_json fuel c = Ret (match accepted ds rs with
    | [] => inr e_noref
    | acc => inl (concat (map enc_doc ((match mfs with Some m => [m] | None => [] end) ++ acc)))
    end).
Proof.
  intros to_json fuel max md mfs docs ds c rs Mo F Run.
  assert (I0 : uinv fuel max true md (uncomp_with true max md) [] []).
  { unfold uncomp_with. destruct md; cbn; repeat (split; [reflexivity|]); constructor. }
  destruct (u_runs fuel max true md docs ds F _ [] [] I0) as (c' & E & Iv). rewrite E in Run. injection Run as -> <-.
  cbn [app] in Iv. split; [reflexivity|]. destruct Iv as (E1 & E2 & _ & _ & E5 & Fs). set (acc := accepted ds _) in *.
  split; [unfold zlen; now rewrite (Forall2_length _ _ _ Fs)|].
  assert (Wr : forall l ls, Forall2 (sample fuel) l ls -> u_writes to_json fuel c l = Ret (inl (concat (map enc_doc ls)))).
  { induction 1 as [|es d l ls Sa _ IH]; [reflexivity|]. cbn [u_writes]. unfold u_write. rewrite E1, E2. cbn [negb Bool.eqb].
    rewrite (doc_marshal_rep fuel es d) by (try eapply sample_rep; eauto; apply Sa). cbn [bind]. rewrite IH. reflexivity. }
  unfold u_resolve. rewrite E5. destruct Fs as [|es d l ls Sa Fs]; [reflexivity|].
  erewrite Wr; [reflexivity|]. apply Forall2_app; [|constructor; auto].
  destruct md, mfs; try contradiction; [constructor; [exact Mo|constructor]|constructor].
Qed.
Print Assumptions C68_uncompressed.

(* C69, refuted.  A streaming uncompressed collector flushes when it has max+1 samples, but
   it only takes max: once it is full every Add fails, whatever the writer and the
   document, and nothing is written. *)
Section Full.
Variable nan : Z -> Z -> Z.
Variable zip : bytes -> bytes.
Variable to_json : document -> go (bytes + gerr).
Lemma stream_full_add fuel max bson c u w now es : 1 <= max -> sc_max c = max -> sc_count c = max -> sc_inner c = CU u ->
  u_size u = max -> zlen (u_samples u) = max -> u_bson u = bson ->
  exists c' u' e, sc_add nan zip to_json fuel now c w es = (c', w, Ret (Some e)) /\ (e = e_schema \/ e = e_overfull) /\
    sc_max c' = max /\ sc_count c' = max /\ sc_inner c' = CU u' /\ u_size u' = max /\ u_samples u' = u_samples u /\ u_bson u' = bson.
Proof.
  intros Mx E1 E2 E3 E4 E5 E6. unfold sc_add. rewrite E1, E2. replace (max <=? max - 1) with false by lia. rewrite E3. cbn [c_add].
  unfold u_add. rewrite E4, E5. replace (max <=? max) with true by lia.
  destruct (negb _); cbn; eexists _, _, _; split; try reflexivity; cbn; auto 10.
Qed.
Lemma stream_full_run fuel max bson ops : 1 <= max -> Forall (fun o => match o with OAdd _ _ => True | OFlush => False end) ops ->
  forall c u w, sc_max c = max -> sc_count c = max -> sc_inner c = CU u ->
  u_size u = max -> zlen (u_samples u) = max -> u_bson u = bson ->
  exists c' rs, sc_run nan zip to_json fuel c w ops = (c', w, rs) /\ Forall (fun r => r = Ret (Some e_schema) \/ r = Ret (Some e_overfull)) rs /\
    c_samples (sc_inner c') = max.
Proof.
  intros Mx. induction 1 as [|o ops Ho _ IH]; intros c u w E1 E2 E3 E4 E5 E6; cbn [sc_run].
  - exists c, []. rewrite E3. cbn [c_samples]. auto.
  - destruct o as [now es|]; [|contradiction].
    destruct (stream_full_add fuel max bson c u w now es Mx E1 E2 E3 E4 E5 E6) as (c1 & u1 & e & A1 & A2 & B1 & B2 & B3 & B4 & B5 & B6).
    rewrite A1. destruct (IH c1 u1 w B1 B2 B3 B4 ltac:(congruence) B6) as (c2 & rs & R & Fr & Cn). rewrite R.
    exists c2, (Ret (Some e) :: rs). split; [reflexivity|]. split; [|exact Cn]. constructor; [destruct A2; subst; auto|exact Fr].
Qed.
Lemma stream_fill fuel max bson w docs : forall ds c acc u, Forall2 (fun o d => match o with OAdd _ es => sample fuel es d | OFlush => False end) docs ds ->
  sc_max c = max -> sc_count c = zlen acc -> sc_inner c = CU u -> uinv fuel max bson None u acc acc ->
  zlen acc + zlen ds = max -> Forall (fun d => zlen d = zlen (hd [] (acc ++ ds)) /\ zlen d <> 0) (acc ++ ds) ->
  exists c' u', sc_run nan zip to_json fuel c w docs = (c', w, map (fun _ => Ret None) ds) /\
    sc_max c' = max /\ sc_count c' = max /\ sc_inner c' = CU u' /\ u_size u' = max /\ zlen (u_samples u') = max /\ u_bson u' = bson.
Proof.
  induction docs as [|o docs IH]; intros ds c acc u F E1 E2 E3 Iv Lm Fw; inversion F as [|? d ? ds' Ho F']; subst; cbn [sc_run map].
  - exists c, u. split; [reflexivity|]. zlens_in Lm. destruct Iv as (I1 & I2 & I3 & I4 & I5 & I6).
    repeat split; auto; try lia. unfold zlen in *. rewrite (Forall2_length _ _ _ I6). lia.
  - destruct o as [now es|]; [|contradiction]. unfold sc_add. rewrite E2.
    assert (Lm' : zlen acc + (1 + zlen ds') = sc_max c) by (zlens_in Lm; exact Lm). pose proof (zlen_nonneg ds').
    replace (sc_max c <=? zlen acc - 1) with false by lia. rewrite E3. cbn [c_add].
    destruct (u_step fuel (sc_max c) bson None u acc acc es d Iv Ho) as (u1 & Eu & I1).
    assert (Say : u_says (sc_max c) acc acc d = None).
    { unfold u_says. fold (width (acc ++ [d])).
      assert (Ew : width (acc ++ [d]) = zlen d).
      { assert (Q : forall l, l <> [] -> (forall x, In x l -> zlen x = zlen d /\ zlen x <> 0) -> width l = zlen d).
        { intros [|x l] N H1; [congruence|]. destruct (H1 x (or_introl eq_refl)) as [H2 H3]. unfold width. cbn [filter].
          replace (zlen x =? 0) with false by lia. cbn. exact H2. }
        apply Q; [intros X; now destruct (app_cons_not_nil _ _ _ (eq_sym X))|]. rewrite Forall_forall in Fw.
        intros x Hx. assert (Hd : In d (acc ++ d :: ds')) by (apply in_or_app; right; now left).
        assert (Hx' : In x (acc ++ d :: ds')) by (apply in_app_or in Hx as [Hx|[<-|[]]]; [apply in_or_app; auto|exact Hd]).
        destruct (Fw x Hx') as [A1 A2], (Fw d Hd) as [B1 B2]. split; [congruence|exact A2]. }
      rewrite Ew, Z.eqb_refl. cbn [negb]. now replace (sc_max c <=? zlen acc) with false by lia. }
    rewrite Eu, Say in *.
    destruct (IH ds' (MkStr (sc_max c) (zlen acc + 1) (CU u1)) (acc ++ [d]) u1 F' eq_refl) as (c2 & u2 & R & Q); auto; try (zlens; cbn; lia).
    + now rewrite <- app_assoc.
    + rewrite E2, R. exists c2, u2. split; [reflexivity|exact Q].
Qed.
End Full.
Theorem C69_refuted : forall nan zip to_json fuel bson max w ops ds more,
  1 <= max -> Forall2 (fun o d => match o with OAdd _ es => sample fuel es d | OFlush => False end) ops ds ->
  zlen ds = max -> Forall (fun d => zlen d = zlen (hd [] ds) /\ zlen d <> 0) ds ->
  Forall (fun o => match o with OAdd _ _ => True | OFlush => False end) more ->
  exists c rs, sc_run nan zip to_json fuel (new_streaming_uncomp bson max) w (ops ++ more) = (c, w, map (fun _ => Ret None) ds ++ rs) /\
    length rs = length more /\ Forall (fun r => r = Ret (Some e_schema) \/ r = Ret (Some e_overfull)) rs.
Proof.
  intros nan zip to_json fuel bson max w ops ds more Mx F L Fw Fm.
  destruct (stream_fill nan zip to_json fuel max bson w ops ds (new_streaming_uncomp bson max) [] (new_uncomp bson max) F) as (c1 & u1 & R1 & E1 & E2 & E3 & E4 & E5 & E6); auto.
  { repeat (split; [reflexivity|]). constructor. }
  destruct (stream_full_run nan zip to_json fuel max bson more Mx Fm c1 u1 w E1 E2 E3 E4 E5 E6) as (c2 & rs & R2 & Fr & _).
  exists c2, rs. split.
  - assert (App : forall a c w b, sc_run nan zip to_json fuel c w (a ++ b) =
      let '(c, w, r) := sc_run nan zip to_json fuel c w a in let '(c, w, r') := sc_run nan zip to_json fuel c w b in (c, w, r ++ r')).
    { clear. induction a as [|o a IH]; intros c w b; cbn [app sc_run].
      - now destruct (sc_run nan zip to_json fuel c w b) as [[? ?] ?].
      - destruct (match o with OAdd now es => sc_add nan zip to_json fuel now c w es | OFlush => sc_flush zip to_json fuel c w end) as [[c' w'] r].
        rewrite IH. destruct (sc_run nan zip to_json fuel c' w' a) as [[c2 w2] r2]. now destruct (sc_run nan zip to_json fuel c2 w2 b) as [[? ?] ?]. }
    rewrite App, R1, R2. reflexivity.
  - split; [|exact Fr]. clear -R2. revert c1 rs R2. generalize w at 1. induction more as [|o more IH]; intros v c1 rs R2; cbn [sc_run] in R2.
    + now injection R2 as _ _ <-.
    + destruct (match o with OAdd now es => sc_add nan zip to_json fuel now c1 v es | OFlush => sc_flush zip to_json fuel c1 v end) as [[c' w'] r].
      destruct (sc_run nan zip to_json fuel c' w' more) as [[c3 w3] r3] eqn:E3. injection R2 as -> -> <-. cbn. f_equal. eapply IH. eauto.
Qed.
Print Assumptions C69_refuted.

(* C69, the part that holds: the documents written, batch by batch and each time after the
   metadata, and then the buffered ones are the accepted samples in order.  Missing: Add does
   not flush, see C69_refuted. *)
Definition streaming_bson_with (max : Z) (md : option document) : streaming :=
  match md with None => new_streaming_uncomp true max | Some es => sc_set_metadata (new_streaming_uncomp true max) es end.
Section Rows.
Variable nan : Z -> Z -> Z.
Variable zip : bytes -> bytes.
Variable to_json : document -> go (bytes + gerr).
Variable fuel : nat.
Variable md : option document.
Variable mfs : option fields.
Hypothesis Mo : match md, mfs with None, None => True | Some es, Some m => sample fuel es m | _, _ => False end.
Variable out : bytes.
Definition rows (g : list fields) : bytes := concat (map enc_doc ((match mfs with Some m => [m] | None => [] end) ++ g)).
Definition rinv (c : streaming) (w : writer) (gs : list (list fields)) (acc : list fields) : Prop :=
  (exists u, sc_inner c = CU u /\ u_bson u = true /\ u_json u = false /\ u_meta u = md /\ Forall2 (sample fuel) (u_samples u) acc) /\
  w_plan w = [] /\ w_out w = out ++ concat (map rows gs) /\ Forall (fun g => g <> []) gs.
Lemma rflush c w gs acc : rinv c w gs acc ->
  exists c' w' new acc', sc_flush zip to_json fuel c w = (c', w', Ret None) /\ rinv c' w' (gs ++ new) acc' /\ concat new ++ acc' = acc.
Proof.
  intros ((u & E1 & E2 & E3 & E4 & F) & Wp & Wo & Gn). unfold sc_flush, flush_write. rewrite E1. cbn [c_samples c_resolve].
  assert (Wr : forall l ls, Forall2 (sample fuel) l ls -> u_writes to_json fuel u l = Ret (inl (concat (map enc_doc ls)))).
  { induction 1 as [|es d l ls Sa _ IH]; [reflexivity|]. cbn [u_writes]. unfold u_write. rewrite E2, E3. cbn [Bool.eqb].
    rewrite (doc_marshal_rep fuel es d) by (try eapply sample_rep; eauto; apply Sa). cbn [bind]. rewrite IH. reflexivity. }
  pose proof (Forall2_length _ _ _ F) as Lf. unfold zlen, u_resolve. destruct (u_samples u) as [|es l] eqn:Eu.
  - cbn [length Z.of_nat Z.eqb]. exists c, w, [], acc. split; [reflexivity|]. rewrite app_nil_r. split; [|reflexivity].
    split; [exists u; rewrite Eu; auto|auto].
  - destruct acc as [|d acc]; [discriminate|]. replace (Z.of_nat (length (es :: l)) =? 0) with false by (cbn; lia).
    rewrite (Wr _ ((match mfs with Some m => [m] | None => [] end) ++ d :: acc)).
    2:{ apply Forall2_app; [|exact F]. destruct md, mfs; try contradiction; rewrite E4; [constructor; [exact Mo|constructor]|constructor]. }
    unfold w_write. rewrite Wp. unfold zlen. rewrite Z.eqb_refl. cbn [negb].
    eexists _, _, [d :: acc], []. split; [reflexivity|]. split; [|cbn [concat app]; now rewrite !app_nil_r].
    split; [|split; [reflexivity|split]].
    + exists (u_reset u). cbn [sc_reset sc_inner c_reset]. rewrite E1. repeat split; auto. constructor.
    + cbn [w_out]. rewrite Wo, (map_app rows), concat_app, <- app_assoc. cbn [map concat]. rewrite app_nil_r. reflexivity.
    + apply Forall_app. split; [exact Gn|]. constructor; [discriminate|constructor].
Qed.
Lemma rrun ops ds : Forall2 (sop_is fuel) ops ds -> forall c w gs acc, rinv c w gs acc ->
  exists c' w' rs new acc', sc_run nan zip to_json fuel c w ops = (c', w', rs) /\ rinv c' w' (gs ++ new) acc' /\
    concat new ++ acc' = acc ++ taken ds rs /\ Forall (fun r => exists e, r = Ret e) rs.
Proof.
  induction 1 as [|o d ops ds Ho F IH]; intros c w gs acc Iv.
  - exists c, w, [], [], acc. cbn [taken sc_run]. rewrite !app_nil_r. repeat split; auto; apply Iv.
  - cbn [sc_run]. destruct o as [now es|], d as [d|]; cbn [sop_is] in Ho; try contradiction.
    + unfold sc_add.
      assert (Pre : exists c1 w1 n1 a1, (if sc_max c <=? sc_count c - 1 then sc_flush zip to_json fuel c w else (c, w, Ret None)) = (c1, w1, Ret None) /\
        rinv c1 w1 (gs ++ n1) a1 /\ concat n1 ++ a1 = acc).
      { destruct (sc_max c <=? sc_count c - 1); [now apply rflush|]. exists c, w, [], acc. rewrite app_nil_r. auto. }
      destruct Pre as (c1 & w1 & n1 & a1 & -> & I1 & D1).
      destruct I1 as ((u & E1 & E2 & E3 & E4 & Fs) & Wr). rewrite E1. cbn [c_add].
      assert (Ad : exists u' r, u_add u es = (u', r) /\ u_bson u' = true /\ u_json u' = false /\ u_meta u' = md /\
        Forall2 (sample fuel) (u_samples u') (match r with None => a1 ++ [d] | Some _ => a1 end)).
      { unfold u_add. destruct (negb _); [|destruct (u_size u <=? zlen (u_samples u))]; eexists _, _; (split; [reflexivity|]); cbn; repeat split; auto.
        apply Forall2_app; [exact Fs|]. constructor; [exact Ho|constructor]. }
      destruct Ad as (u' & r & -> & A1 & A2 & A3 & A4).
      assert (Nx : exists c2, (match Ret r with
        | Ret None => (MkStr (sc_max c1) (sc_count c1 + 1) (CU u'), w1, Ret None)
        | r0 => (MkStr (sc_max c1) (sc_count c1) (CU u'), w1, r0) end) = (c2, w1, Ret r) /\ sc_inner c2 = CU u').
      { destruct r; eexists; split; reflexivity. }
      destruct Nx as (c2 & Nx & E5).
      destruct (IH c2 w1 (gs ++ n1) _ ltac:(split; [exists u'; split; [exact E5|split; [exact A1|split; [exact A2|split; [exact A3|exact A4]]]]|exact Wr])) as (c3 & w3 & rs & n3 & a3 & E6 & I3 & D3 & F3).
      exists c3, w3, (Ret r :: rs), (n1 ++ n3), a3. 
      split; [destruct r; injection Nx as <-; rewrite E6; reflexivity|]. rewrite app_assoc. split; [exact I3|].
      split; [|constructor; [eauto|exact F3]]. rewrite concat_app, <- app_assoc, D3. destruct r; cbn [taken]; rewrite app_assoc, ?D1; [reflexivity|].
      rewrite app_assoc, D1. now rewrite <- app_assoc.
    + destruct (rflush c w gs acc Iv) as (c1 & w1 & n1 & a1 & -> & I1 & D1).
      destruct (IH c1 w1 _ a1 I1) as (c3 & w3 & rs & n3 & a3 & E6 & I3 & D3 & F3). rewrite E6.
      exists c3, w3, (Ret None :: rs), (n1 ++ n3), a3. split; [reflexivity|]. rewrite app_assoc. split; [exact I3|].
      split; [|constructor; [eauto|exact F3]]. rewrite concat_app, <- app_assoc, D3. cbn [taken]. now rewrite app_assoc, D1.
Qed.
End Rows.
Theorem C69_streaming_uncompressed_partial : forall nan zip to_json fuel max md mfs ops ds out c w rs,
  match md, mfs with None, None => True | Some es, Some m => sample fuel es m | _, _ => False end ->
  Forall2 (sop_is fuel) ops ds ->
  sc_run nan zip to_json fuel (streaming_bson_with max md) (MkW out []) ops = (c, w, rs) ->
  Forall (fun r => exists e, r = Ret e) rs /\
  exists gs pending, concat gs ++ pending = taken ds rs /\ Forall (fun g => g <> []) gs /\
    c_samples (sc_inner c) = zlen pending /\
    w_out w = out ++ concat (map (fun g => concat (map enc_doc ((match mfs with Some m => [m] | None => [] end) ++ g))) gs).
Proof.
  intros nan zip to_json fuel max md mfs ops ds out c w rs Mo F Run.
  assert (I0 : rinv fuel md mfs out (streaming_bson_with max md) (MkW out []) [] []).
  { unfold streaming_bson_with. split; [destruct md; eexists; split; try reflexivity; repeat split; constructor|].
    split; [reflexivity|]. split; [cbn; now rewrite app_nil_r|constructor]. }
  destruct (rrun nan zip to_json fuel md mfs Mo out ops ds F _ _ [] [] I0) as (c' & w' & rs' & gs & acc & E & Iv & D & Fr).
  rewrite E in Run. injection Run as -> -> ->. cbn [app] in *. split; [exact Fr|]. exists gs, acc. split; [exact D|].
  destruct Iv as ((u & E1 & _ & _ & _ & Fs) & _ & Wo & Gn). split; [exact Gn|]. rewrite E1. cbn [c_samples].
  split; [unfold zlen; now rewrite (Forall2_length _ _ _ Fs)|]. exact Wo.
Qed.
Print Assumptions C69_streaming_uncompressed_partial.

(* A case for C68 and C69. *)
Example C68_nonvacuous :
  exists docs, Forall2 (sample 3000) docs [doc_a; doc_ab; doc_b; doc_a] /\
  u_answers 2 [] [] [doc_a; doc_ab; doc_b; doc_a] = [Ret None; Ret (Some e_schema); Ret None; Ret (Some e_overfull)].
Proof.
  assert (T : Forall short [doc_a; doc_ab; doc_b; doc_a]).
  { repeat (apply Forall_cons; [split; [repeat constructor; try (vm_compute; intuition congruence)|vm_compute; reflexivity]|]). apply Forall_nil. }
  destruct (short_samples _ T) as (docs & _ & B). exists docs. split; [|vm_compute; reflexivity].
  clear T. remember [doc_a; doc_ab; doc_b; doc_a] as l. clear Heql. revert l B. induction docs as [|d docs IH]; intros [|x l] B; inversion B; subst; constructor; auto.
Qed.
Example C69_nonvacuous : exists ops more ds,
  Forall2 (fun o d => match o with OAdd _ es => sample 3000 es d | OFlush => False end) ops ds /\
  zlen ds = 2 /\ Forall (fun d => zlen d = zlen (hd [] ds) /\ zlen d <> 0) ds /\
  Forall (fun o => match o with OAdd _ _ => True | OFlush => False end) more /\ more <> [].
Proof.
  assert (T : Forall short [doc_a; doc_b]).
  { repeat (apply Forall_cons; [split; [repeat constructor; try (vm_compute; intuition congruence)|vm_compute; reflexivity]|]). apply Forall_nil. }
  destruct (short_samples _ T) as (docs & _ & B). exists (map (OAdd 0) docs), [OAdd 0 []], [doc_a; doc_b].
  split; [|split; [reflexivity|split; [|split; [|discriminate]]]].
  - remember [doc_a; doc_b] as l. clear Heql T. revert l B. induction docs as [|d docs IH]; intros [|x l] B; inversion B; subst; constructor; auto.
  - repeat (apply Forall_cons; [split; [reflexivity|vm_compute; discriminate]|]). apply Forall_nil.
  - constructor; [exact I|constructor].
Qed.

(* ------------------------------------------------------------------------- C70 *)

(* C70, refuted: Reset of a base or streaming collector keeps the metadata, so that the next
   chunk has it again; Reset of a batch, dynamic or streaming dynamic collector drops it; and
   a streaming dynamic collector of uncompressed documents is one of FTDC chunks after Reset
   or the first flush. *)
Theorem C70_refuted :
  (forall nan fuel max es now d c r, b_add nan fuel now (b_reset (b_set_metadata (new_base max) es)) d = (c, r) -> b_meta c = Some es) /\
  (forall max es, bt_reset (bt_set_metadata (new_batch max) es) = new_batch max) /\
  (forall max es, dy_reset (dy_set_metadata (new_dynamic max) es) = new_dynamic max) /\
  (forall max bson, sd_reset (new_sdynamic_uncomp bson max) = new_sdynamic max) /\
  (let '(_, w, rs) := sd_run no_nan keep no_json 3000 (new_sdynamic_uncomp true 5) (MkW [] []) (adds [doc_a] ++ [OFlush] ++ adds [doc_a] ++ [OFlush]) in
   rs = [Ret None; Ret None; Ret None; Ret None] /\ firstn 16 (w_out w) = enc_doc doc_a /\ w_out w <> enc_doc doc_a ++ enc_doc doc_a).
Proof.
  split; [|split; [|split; [|split]]].
  - intros nan fuel max es now d c r. unfold b_add. cbn [b_reset b_set_metadata new_base b_ref b_last b_meta].
    destruct (obs_doc fuel d) as [fs|p|]; [destruct (_ <? 0)| |]; intros E; inversion E; reflexivity.
  - reflexivity.
  - reflexivity.
  - reflexivity.
  - vm_compute. repeat split; discriminate.
Qed.
Print Assumptions C70_refuted.

(* ------------------------------------------------------------------------- C43 *)

Section SamplingProps.
Context {C D : Type}.
Variable add : C -> D -> C * go (option gerr).
(* calls: the two readings of the clock and the document *)
Fixpoint sa_run (c : sampling) (calls : list (Z * Z * D)) : sampling * list (go (option gerr)) :=
  match calls with
  | [] => (c, [])
  | (t1, t2, d) :: r =>
      let '(c, e) := sa_add add t1 t2 c d in
      let '(c, l) := sa_run c r in (c, e :: l)
  end.
(* the calls that are to be forwarded: the first, and those at least min after the last
   forwarded one *)
Fixpoint due (min : Z) (last : option Z) (calls : list (Z * Z * D)) : list (Z * Z * D) :=
  match calls with
  | [] => []
  | (t1, t2, d) :: r =>
      if match last with None => true | Some t => min <=? t1 - t end
      then (t1, t2, d) :: due min (Some t2) r else due min last r
  end.
Fixpoint forward (c : C) (calls : list (Z * Z * D)) : C * list (go (option gerr)) :=
  match calls with
  | [] => (c, [])
  | (_, _, d) :: r => let '(c, e) := add c d in let '(c, l) := forward c r in (c, e :: l)
  end.
(* the answers with nil put in for the calls not forwarded *)
Fixpoint answers_of (min : Z) (last : option Z) (calls : list (Z * Z * D)) (rs : list (go (option gerr))) : list (go (option gerr)) :=
  match calls with
  | [] => []
  | (t1, t2, d) :: r =>
      if match last with None => true | Some t => min <=? t1 - t end
      then match rs with e :: rs => e :: answers_of min (Some t2) r rs | [] => [] end
      else Ret None :: answers_of min last r rs
  end.
(* the clock does not go back, and the program runs for less than 292 years *)
Fixpoint clock (now : Z) (calls : list (Z * Z * D)) : Prop :=
  match calls with
  | [] => True
  | (t1, t2, _) :: r => now <= t1 <= t2 /\ t2 < 9223372036854775807 /\ clock t2 r
  end.

Lemma sampling_run min : 0 <= min <= 9223372036854775807 -> forall calls last now c,
  0 <= now -> clock now calls -> match last with Some t => 0 <= t <= now | None => True end ->
  let '(i, rs) := forward c (due min last calls) in
  exists last', sa_run (MkSa min last c) calls = (MkSa min last' i, answers_of min last calls rs).
Proof.
  intros Mm. induction calls as [|[[t1 t2] d] calls IH]; intros last now c Hn Ck Hl; cbn [due forward sa_run answers_of clock] in *.
  { exists last. reflexivity. }
  destruct Ck as (K1 & K2 & K3). unfold sa_add. cbn [sa_last sa_min sa_inner].
  assert (E : since t1 last <? min = negb (match last with None => true | Some t => min <=? t1 - t end)).
  { unfold since. destruct last as [t|]; cbn [negb]; lia. }
  rewrite E. destruct (match last with None => true | Some t => min <=? t1 - t end); cbn [negb].
  - cbn [forward]. destruct (add c d) as [i1 e1]. specialize (IH (Some t2) t2 i1 ltac:(lia) K3 ltac:(cbn; lia)).
    destruct (forward i1 (due min (Some t2) calls)) as [i rs]. destruct IH as (last' & IH). rewrite IH. exists last'. reflexivity.
  - assert (Hl2 : match last with Some t => 0 <= t <= t2 | None => True end) by (clear E; destruct last; [cbn in *; lia|exact I]).
    specialize (IH last t2 c ltac:(lia) K3 Hl2).
    destruct (forward c (due min last calls)) as [i rs]. destruct IH as (last' & IH). rewrite IH. exists last'. reflexivity.
Qed.

(* C43.  The collector underneath gets exactly the calls that are due, in order, and the
   caller its answers; the others return nil. *)
Theorem C43_sampling : forall min calls now c, 0 <= min <= 9223372036854775807 -> 0 <= now -> clock now calls ->
  let '(i, rs) := forward c (due min None calls) in
  exists last, sa_run (MkSa min None c) calls = (MkSa min last i, answers_of min None calls rs).
Proof. intros min calls now c Mm Hn Ck. apply (sampling_run min Mm calls None now c Hn Ck I). Qed.

(* ... and the calls that are due are at least min apart. *)
Fixpoint spaced (min : Z) (last : option Z) (calls : list (Z * Z * D)) : Prop :=
  match calls with
  | [] => True
  | (t1, t2, _) :: r => match last with None => True | Some t => min <= t1 - t end /\ spaced min (Some t2) r
  end.
Theorem C43_spacing : forall min calls, spaced min None (due min None calls) /\
  (forall pre t1 t2 d post, calls = pre ++ (t1, t2, d) :: post ->
    In (t1, t2, d) (due min None calls) \/ exists u1 u2 e, In (u1, u2, e) (due min None pre) /\ t1 - u2 < min).
Proof.
  intros min calls. split.
  - generalize (@None Z). induction calls as [|[[t1 t2] d] calls IH]; intros last; [exact I|]. cbn [due].
    destruct last as [t|]; [destruct (Z.leb_spec min (t1 - t))|]; cbn [spaced]; auto.
  - intros pre t1 t2 d post ->.
    assert (G : forall last, In (t1, t2, d) (due min last (pre ++ (t1, t2, d) :: post)) \/
      (exists u1 u2 e, In (u1, u2, e) (due min last pre) /\ t1 - u2 < min) \/ (exists t, last = Some t /\ t1 - t < min)).
    { induction pre as [|[[s1 s2] e] pre IH]; intros last; cbn [app due].
      - destruct last as [t|]; [destruct (Z.leb_spec min (t1 - t)); [left; now left|]|left; now left].
        right. right. eauto.
      - destruct (match last with None => true | Some t => min <=? s1 - t end).
        + destruct (IH (Some s2)) as [H|[(u1 & u2 & e' & H & L)|(t & E & L)]].
          * left. now right.
          * right. left. exists u1, u2, e'. split; [now right|exact L].
          * injection E as ->. right. left. exists s1, t, e. split; [now left|exact L].
        + apply IH. }
    destruct (G None) as [H|[H|(t & E & _)]]; [auto|auto|discriminate].
Qed.
End SamplingProps.
Print Assumptions C43_sampling.
Print Assumptions C43_spacing.
Example C43_nonvacuous : clock 0 [(1, 2, tt); (3, 4, tt); (12, 12, tt)] /\ due 10 None [(1, 2, tt); (3, 4, tt); (12, 12, tt)] = [(1, 2, tt); (12, 12, tt)].
Proof. split; [cbn; lia|reflexivity]. Qed.
