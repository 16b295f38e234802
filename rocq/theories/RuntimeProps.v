(* Properties of CollectRuntime (C86). *)
Require Import ZArith List Bool Lia ZifyBool ZifyNat.
From Verif Require Import Base BSpec Elements Value Codec CodecRead Itoa CodecRep Api ApiProofs Tree
  GetterProofs ReaderOps CodecProps DocOps Stream Search FtdcSpec Ftdc FtdcProofs FtdcRestore FtdcProps
  Collect CollectProofs CollectProps CollectStreamProps Json ExtJson Drivers.
Import ListNotations.
Open Scope Z_scope.

(* --------------------------------------------------------------- specification *)

(* the samples of the events *)
Definition ev_is (fuel : nat) (max : Z) (v : revent) (d : option fields) : Prop :=
  match v, d with
  | RSample _ (inl es), Some fs => sample fuel es fs /\ room fuel (max + 1) fs
  | RSample _ (inl _), None => False
  | _, d => d = None
  end.
Fixpoint somes (ds : list (option fields)) : list fields :=
  match ds with [] => [] | Some d :: r => d :: somes r | None :: r => somes r end.
(* a file that is read back as the chunks gs *)
Definition file_is (nan : Z -> Z -> Z) (unzip : bytes -> option bytes) (fuel : nat) (max : Z) (f : bytes) (gs : list (list fields)) : Prop :=
  Forall (fun g => 1 <= zlen g <= max + 1) gs /\ Forall uniform gs /\ reads_back nan unzip fuel f gs None.
(* What may be the outcome of an event: whether samples were lost, and whether the last file
   has the beginning of a chunk at its end. *)
Definition outcome_ok (closes creates : list (option gerr)) (wplans : list (list (Z * option gerr)))
    (v : revent) (r : rresult) (lost : list fields) (torn : bytes) : Prop :=
  match r, v with
  | RRun, (RDone | RSample _ (inr _)) => False
  | RRun, _ => torn = []
  | RRet None, RDone => lost = [] /\ torn = []
  | RRet (Some (RGen e)), RSample _ (inr e') => e = e' /\ torn = []
  | RRet (Some (RAdd e)), RSample _ (inl _) => (e = e_schema /\ torn = []) \/ wplans <> []
  | RRet (Some (RFlush e)), (RTick | RDone) => wplans <> []
  | RRet (Some (RClose e)), (RTick | RDone) => In (Some e) closes /\ lost = [] /\ torn = []
  | RRet (Some (RCreate e)), (RTick | RDone) => In (Some e) creates /\ lost = [] /\ torn = []
  | _, _ => False
  end.

(* ---------------------------------------------------------------------- proofs *)

Section Rt.
Variable nan : Z -> Z -> Z.
Variables (zip : bytes -> bytes) (unzip : bytes -> option bytes).
Hypothesis codec : codec_ok zip unzip.
Variable to_json : document -> go (bytes + gerr).
Variable fuel : nat.
Variable max : Z.
Hypothesis Mx : 0 <= max < 4294967296.
Notation run := (sc_run nan zip to_json fuel).
Notation flush := (sc_flush zip to_json fuel).
Notation add := (sc_add nan zip to_json fuel).

Lemma sc_run_app a b : forall c w, run c w (a ++ b) =
  let '(c, w, l) := run c w a in let '(c, w, l') := run c w b in (c, w, l ++ l').
Proof.
  induction a as [|o a IH]; intros c w; cbn [app sc_run].
  - destruct (run c w b) as [[c1 w1] l1]. reflexivity.
  - destruct (match o with OAdd now es => add now c w es | OFlush => flush c w end) as [[c1 w1] r1].
    rewrite IH. destruct (run c1 w1 a) as [[c2 w2] l2]. destruct (run c2 w2 b) as [[c3 w3] l3]. reflexivity.
Qed.
(* A writer that fails is like one that does not, up to the failure. *)
Lemma flush_sim c o pl c1 o1 : flush c (MkW o []) = (c1, MkW o1 [], Ret None) ->
  (exists pl', flush c (MkW o pl) = (c1, MkW o1 pl', Ret None)) \/
  (pl <> [] /\ exists e bad pl', flush c (MkW o pl) = (c, MkW (o ++ bad) pl', Ret (Some e))).
Proof.
  unfold sc_flush, flush_write. destruct (c_samples (sc_inner c) =? 0).
  - intros E. injection E as <- <-. left. eexists. reflexivity.
  - destruct (c_resolve _ _ _ _) as [[p|e]| |]; try discriminate.
    unfold w_write at 1. cbn [w_plan w_out]. rewrite Z.eqb_refl. cbn [negb]. intros E. injection E as <- <-.
    unfold w_write. cbn [w_plan w_out]. destruct pl as [|[n [e|]] pl].
    + left. rewrite Z.eqb_refl. cbn [negb]. eexists. reflexivity.
    + right. split; [discriminate|]. repeat eexists.
    + destruct (n =? zlen p) eqn:N; cbn [negb].
      * left. apply Z.eqb_eq in N. subst n. unfold zlen. rewrite Nat2Z.id, firstn_all. eexists. reflexivity.
      * right. split; [discriminate|]. repeat eexists.
Qed.
Lemma flush_full c o c1 w1 r : flush c (MkW o []) = (c1, w1, r) -> exists o1, w1 = MkW o1 [].
Proof.
  unfold sc_flush, flush_write. destruct (c_samples (sc_inner c) =? 0).
  - intros E. injection E as <- <- <-. eauto.
  - destruct (c_resolve _ _ _ _) as [[p|e]| |]; try (intros E; injection E as <- <- <-; eauto; fail).
    unfold w_write. cbn [w_plan w_out]. destruct (negb _); intros E; injection E as <- <- <-; eauto.
Qed.
Lemma add_full now c o es c1 w1 r : add now c (MkW o []) es = (c1, w1, r) -> exists o1, w1 = MkW o1 [].
Proof.
  unfold sc_add. destruct (sc_max c <=? sc_count c - 1).
  - destruct (flush c (MkW o [])) as [[c2 w2] r2] eqn:F. destruct (flush_full _ _ _ _ _ F) as (o2 & ->).
    destruct r2 as [[e|]| |]; try (intros E; injection E as <- <- <-; eauto; fail).
    destruct (c_add _ _ _ _ _) as [i [[e|]| |]]; intros E; injection E as <- <- <-; eauto.
  - destruct (c_add _ _ _ _ _) as [i [[e|]| |]]; intros E; injection E as <- <- <-; eauto.
Qed.
Lemma add_sim now c o pl es c1 o1 r cf wf : add now c (MkW o []) es = (c1, MkW o1 [], r) ->
  flush c (MkW o []) = (cf, wf, Ret None) ->
  (exists pl', add now c (MkW o pl) es = (c1, MkW o1 pl', r)) \/
  (pl <> [] /\ exists e bad pl', add now c (MkW o pl) es = (c, MkW (o ++ bad) pl', Ret (Some e))).
Proof.
  intros A F. destruct (flush_full _ _ _ _ _ F) as (of & ->). unfold sc_add in *.
  destruct (sc_max c <=? sc_count c - 1).
  - rewrite F in A. destruct (flush_sim c o pl cf of F) as [(pl' & E)|(N & e & bad & pl' & E)]; rewrite E.
    + left. destruct (c_add _ _ _ _ _) as [i [[e|]| |]]; injection A as <- <- <-; eauto.
    + right. split; [exact N|]. eauto.
  - left. destruct (c_add _ _ _ _ _) as [i [[e|]| |]]; injection A as <- <- <-; eauto.
Qed.
Lemma sc_flush_empty c w c1 w1 : flush c w = (c1, w1, Ret None) -> c_samples (sc_inner c1) = 0.
Proof.
  unfold sc_flush, flush_write. destruct (c_samples (sc_inner c) =? 0) eqn:Z.
  - intros E. injection E as <- <-. lia.
  - destruct (c_resolve _ _ _ _) as [[p|e]| |]; try discriminate. destruct (w_write w p) as [[w' n] [e|]]; try discriminate.
    destruct (negb _); try discriminate. intros E. injection E as <- <-. unfold sc_reset. cbn [sc_inner]. destruct (sc_inner c); reflexivity.
Qed.

(* the open file: the samples cur were added to it, and all calls were successful *)
Definition oks (l : list fields) : list (go (option gerr)) := map (fun _ => Ret None) l.
Definition open_ok (c : streaming) (o : bytes) (cur : list fields) : Prop :=
  exists ops, Forall2 (sop_is fuel) ops (map Some cur) /\ Forall (room fuel (max + 1)) cur /\
    run (new_streaming max) (MkW [] []) ops = (c, MkW o [], oks cur).
Lemma taken_oks cur x rs : taken (map Some cur ++ x) (oks cur ++ rs) = cur ++ taken x rs.
Proof. induction cur as [|d r IH]; [reflexivity|]. cbn [map oks app taken]. f_equal. exact IH. Qed.
Lemma fair_oks cur x rs : forall acc, fair acc (map Some cur ++ x) (oks cur ++ rs) -> fair (acc ++ cur) x rs.
Proof.
  induction cur as [|d r IH]; intros acc H; [now rewrite app_nil_r|]. cbn [map oks app fair] in H.
  apply IH in H. now rewrite <- app_assoc in H.
Qed.
Lemma room_some cur x : Forall (room fuel (max + 1)) cur -> Forall (room_of fuel max) x -> stream_room fuel max (map Some cur ++ x).
Proof.
  intros R X. apply Forall_app. split; [|exact X]. clear X. induction R; cbn [map]; constructor; auto.
Qed.
Lemma open_reads c o cur : open_ok c o cur -> exists gs pending, cur = concat gs ++ pending /\
  file_is nan unzip fuel max o gs /\ c_samples (sc_inner c) = zlen pending /\ zlen pending <= max + 1.
Proof.
  intros (ops & F & R & E).
  destruct (C40_streaming nan zip unzip to_json fuel max None None ops (map Some cur) [] c (MkW o []) (oks cur) codec Mx I F) as (_ & gs & pending & new & D & G & U & L & S & W & B).
  { pose proof (room_some cur [] R (Forall_nil _)) as Q. now rewrite app_nil_r in Q. }
  { exact E. }
  cbn in W. subst new. pose proof (taken_oks cur [] []) as T. rewrite !app_nil_r in T. rewrite T in D. cbn [taken] in D.
  exists gs, pending. split; [now rewrite D|]. split; [|split; auto]. split; [exact G|]. split; [exact U|exact B].
Qed.
Lemma open_flush c o cur : open_ok c o cur -> exists c1 o1 gs, flush c (MkW o []) = (c1, MkW o1 [], Ret None) /\
  cur = concat gs /\ file_is nan unzip fuel max o1 gs.
Proof.
  intros (ops & F & R & E). destruct (flush c (MkW o [])) as [[c1 w1] r] eqn:Fl. destruct (flush_full _ _ _ _ _ Fl) as (o1 & ->).
  assert (E2 : run (new_streaming max) (MkW [] []) (ops ++ [OFlush]) = (c1, MkW o1 [], oks cur ++ [r])).
  { rewrite sc_run_app, E. cbn [sc_run]. rewrite Fl. reflexivity. }
  destruct (C40_streaming nan zip unzip to_json fuel max None None (ops ++ [OFlush]) (map Some cur ++ [None]) [] c1 (MkW o1 []) (oks cur ++ [r]) codec Mx I) as (Fr & gs & pending & new & D & G & U & L & S & W & B).
  { apply Forall2_app; [exact F|]. constructor; [exact I|constructor]. }
  { apply room_some; [exact R|]. constructor; [exact I|constructor]. }
  { exact E2. }
  apply fair_oks in Fr. cbn [fair] in Fr. destruct Fr as [-> _]. cbn in W. subst new.
  rewrite (sc_flush_empty _ _ _ _ Fl) in S. assert (pending = []) as -> by (destruct pending; [reflexivity|zlens_in S; pose proof (zlen_nonneg pending); lia]).
  rewrite taken_oks in D. cbn [taken] in D. rewrite !app_nil_r in D.
  exists c1, o1, gs. split; [reflexivity|]. split; [now rewrite D|]. split; [exact G|]. split; [exact U|exact B].
Qed.
Lemma open_add c o cur now es d c1 w1 r : open_ok c o cur -> sample fuel es d -> room fuel (max + 1) d ->
  add now c (MkW o []) es = (c1, w1, r) -> exists o1, w1 = MkW o1 [] /\
  ((r = Ret None /\ open_ok c1 o1 (cur ++ [d])) \/
   (r = Ret (Some e_schema) /\ exists gs pending, cur = concat gs ++ pending /\ file_is nan unzip fuel max o1 gs /\ zlen pending <= max + 1)).
Proof.
  intros (ops & F & R & E) Sa Ro Ad. destruct (add_full _ _ _ _ _ _ _ Ad) as (o1 & ->). exists o1. split; [reflexivity|].
  assert (E2 : run (new_streaming max) (MkW [] []) (ops ++ [OAdd now es]) = (c1, MkW o1 [], oks cur ++ [r])).
  { rewrite sc_run_app, E. cbn [sc_run]. rewrite Ad. reflexivity. }
  assert (F2 : Forall2 (sop_is fuel) (ops ++ [OAdd now es]) (map Some cur ++ [Some d])).
  { apply Forall2_app; [exact F|]. constructor; [exact Sa|constructor]. }
  destruct (C40_streaming nan zip unzip to_json fuel max None None (ops ++ [OAdd now es]) (map Some cur ++ [Some d]) [] c1 (MkW o1 []) (oks cur ++ [r]) codec Mx I F2) as (Fr & gs & pending & new & D & G & U & L & S & W & B).
  { apply room_some; [exact R|]. constructor; [exact Ro|constructor]. }
  { exact E2. }
  cbn in W. subst new. apply fair_oks in Fr. rewrite taken_oks in D. cbn [app] in Fr.
  assert (r = Ret None \/ (r = Ret (Some e_schema))) as [-> | ->].
  { cbn [fair] in Fr. destruct r as [[e|]| |]; auto; destruct Fr as (Q & _); auto; discriminate. }
  - left. split; [reflexivity|]. exists (ops ++ [OAdd now es]). rewrite map_app. split; [exact F2|]. split.
    + apply Forall_app. split; [exact R|]. constructor; [exact Ro|constructor].
    + unfold oks. rewrite map_app. exact E2.
  - right. split; [reflexivity|]. cbn [taken] in D. rewrite app_nil_r in D. exists gs, pending.
    split; [now rewrite D|]. split; [|exact L]. split; [exact G|]. split; [exact U|exact B].
Qed.

Variables closes creates : list (option gerr).
Variable wplans : list (list (Z * option gerr)).
Record rinv (s : rstate) (all : list fields) : Prop := {
  ri_done : exists gss cur, Forall2 (file_is nan unzip fuel max) (r_done s) gss /\ all = concat (concat gss) ++ cur /\
    open_ok (r_coll s) (w_out (r_file s)) cur;
  ri_closes : incl (r_closes s) closes;
  ri_creates : incl (r_creates s) creates;
  ri_plans : wplans = [] -> w_plan (r_file s) = [] /\ r_wplans s = [] ;
  ri_res : r_result s = RRun }.
(* the files after an event *)
Definition after (v : revent) (s : rstate) (all : list fields) : Prop :=
  exists gss last lost good torn, Forall2 (file_is nan unzip fuel max) (r_done s) gss /\
    w_out (r_file s) = good ++ torn /\ file_is nan unzip fuel max good last /\
    all = concat (concat gss) ++ concat last ++ lost /\ zlen lost <= max + 2 /\
    outcome_ok closes creates wplans v (r_result s) lost torn.
Lemma open_new : open_ok (new_streaming max) [] [].
Proof. exists []. repeat constructor. Qed.
Lemma answer_in {A} (d x : A) l l' : answer d l = (x, l') -> (x = d \/ In x l) /\ incl l' l.
Proof. destruct l as [|y r]; intros E; injection E as <- <-; (split; [cbn; auto|]); [apply incl_refl|apply incl_tl, incl_refl]. Qed.

Lemma r_flush_ok s all : rinv s all -> exists s' r, r_flush zip to_json fuel max s = (s', Ret r) /\
  match r with
  | None => rinv s' all /\ exists gss last, Forall2 (file_is nan unzip fuel max) (r_done s') gss /\
      file_is nan unzip fuel max (w_out (r_file s')) last /\ all = concat (concat gss) ++ concat last
  | Some e => exists gss last lost good torn, Forall2 (file_is nan unzip fuel max) (r_done s') gss /\
    w_out (r_file s') = good ++ torn /\ file_is nan unzip fuel max good last /\
    all = concat (concat gss) ++ concat last ++ lost /\ zlen lost <= max + 1 /\
    match e with
    | RFlush e => wplans <> []
    | RClose e => In (Some e) closes /\ lost = [] /\ torn = []
    | RCreate e => In (Some e) creates /\ lost = [] /\ torn = []
    | _ => False
    end
  end.
Proof.
  intros I. pose proof I as [(gss & cur & Fg & Da & Op) Ic Ir Ip Re]. unfold r_flush.
  destruct (open_reads _ _ _ Op) as (gs & pending & Dc & Fi & Sc & Lp).
  destruct (c_samples (sc_inner (r_coll s)) =? 0) eqn:Z.
  - exists s, None. split; [reflexivity|]. split; [exact I|]. exists gss, gs. split; [exact Fg|]. split; [exact Fi|].
    rewrite Da, Dc. assert (pending = []) as ->; [|now rewrite app_nil_r].
    rewrite Sc in Z. destruct pending; [reflexivity|zlens_in Z; pose proof (zlen_nonneg pending); lia].
  - destruct (open_flush _ _ _ Op) as (c1 & o1 & gs1 & Fl & Dc1 & Fi1). destruct (r_file s) as [o pl] eqn:Ef. cbn [w_out] in *.
    destruct (flush_sim _ _ pl _ _ Fl) as [(pl' & E)|(Np & e & bad & pl' & E)]; rewrite E.
    + cbn [r_closes r_creates r_wplans r_done r_result].
      destruct (answer None (r_closes s)) as [[e|] cl] eqn:Ac; apply answer_in in Ac; destruct Ac as [Ac Ac'].
      { destruct Ac as [Ac|Ac]; [discriminate|]. eexists. exists (Some (RClose e)). split; [reflexivity|].
        exists gss, gs1, [], o1, []. cbn [r_done r_file w_out]. split; [exact Fg|]. split; [now rewrite app_nil_r|]. split; [exact Fi1|].
        split; [rewrite app_nil_r; congruence|]. split; [change (zlen (@nil fields)) with 0; lia|]. auto. }
      destruct (answer None (r_creates s)) as [[e|] cr] eqn:Ar; apply answer_in in Ar; destruct Ar as [Ar Ar'].
      { destruct Ar as [Ar|Ar]; [discriminate|]. eexists. exists (Some (RCreate e)). split; [reflexivity|].
        exists gss, gs1, [], o1, []. cbn [r_done r_file w_out]. split; [exact Fg|]. split; [now rewrite app_nil_r|]. split; [exact Fi1|].
        split; [rewrite app_nil_r; congruence|]. split; [change (zlen (@nil fields)) with 0; lia|]. auto. }
      destruct (answer [] (r_wplans s)) as [p wp] eqn:Aw.
      eexists. exists None. split; [reflexivity|].
      assert (Fd : Forall2 (file_is nan unzip fuel max) (r_done s ++ [o1]) (gss ++ [gs1])).
      { apply Forall2_app; [exact Fg|]. constructor; [exact Fi1|constructor]. }
      assert (Dd : all = concat (concat (gss ++ [gs1])) ++ []).
      { rewrite concat_app. cbn [concat]. rewrite app_nil_r, concat_app, app_nil_r. congruence. }
      split.
      * constructor; cbn; auto.
        -- exists (gss ++ [gs1]), []. split; [exact Fd|]. split; [exact Dd|exact open_new].
        -- intros a Ha. auto.
        -- intros a Ha. auto.
        -- intros W. destruct (Ip W) as [_ W2]. rewrite W2 in Aw. injection Aw as <- <-. auto.
      * exists (gss ++ [gs1]), []. cbn [r_done r_file w_out concat]. split; [exact Fd|]. split; [|exact Dd].
        destruct (open_reads _ _ _ open_new) as (gs' & pend' & D' & F' & _). destruct F' as (G' & _ & R').
        symmetry in D'. apply app_eq_nil in D'. destruct D' as [D' _].
        assert (gs' = []) as ->; [|split; [constructor|split; [constructor|exact R']]].
        destruct gs' as [|g gs']; [reflexivity|]. cbn [concat] in D'. apply app_eq_nil in D'. destruct D' as [-> _].
        inversion_clear G' as [|? ? G1 _]. change (zlen (@nil fields)) with 0 in G1. lia.
    + eexists. exists (Some (RFlush e)). split; [reflexivity|]. exists gss, gs, pending, o, bad. cbn [r_done r_file w_out].
      split; [exact Fg|]. split; [reflexivity|]. split; [exact Fi|]. split; [congruence|]. split; [exact Lp|].
      intros W. destruct (Ip W) as [W1 _]. cbn in W1. congruence.
Qed.
Lemma inv_after s all v : rinv s all -> match v with RTick | RSample _ (inl _) => True | _ => False end -> after v s all.
Proof.
  intros I Nv. pose proof I as [(gss & cur & Fg & Da & Op) _ _ _ Re]. destruct (open_reads _ _ _ Op) as (gs & pending & Dc & Fi & _ & Lp).
  exists gss, gs, pending, (w_out (r_file s)), []. split; [exact Fg|]. split; [now rewrite app_nil_r|]. split; [exact Fi|].
  split; [congruence|]. split; [lia|]. rewrite Re. cbn. destruct v as [? []| |]; tauto.
Qed.
Lemma r_step_ok s all v d : rinv s all -> ev_is fuel max v d ->
  after v (r_step nan zip to_json fuel max s v) (all ++ somes [d]) /\
  (r_result (r_step nan zip to_json fuel max s v) = RRun -> rinv (r_step nan zip to_json fuel max s v) (all ++ somes [d])).
Proof.
  intros I Ev. pose proof I as [(gss & cur & Fg & Da & Op) Ic Ir Ip Re]. unfold r_step. rewrite Re.
  assert (Fl : match v with RTick | RDone => True | _ => False end -> d = None) by (destruct v as [? []| |]; cbn in *; tauto).
  destruct v as [now [es|e]| |].
  - cbn in Ev. destruct d as [d|]; [|contradiction]. destruct Ev as [Sa Ro]. cbn [somes].
    destruct (r_file s) as [o pl] eqn:Ef. cbn [w_out] in *.
    destruct (sc_add nan zip to_json fuel now (r_coll s) (MkW o []) es) as [[c1 w1] r] eqn:Ad.
    destruct (open_add _ _ _ _ _ _ _ _ _ Op Sa Ro Ad) as (o1 & -> & Res).
    destruct (open_flush _ _ _ Op) as (cf & of & gsf & Flu & _ & _).
    destruct (open_reads _ _ _ Op) as (gs & pending & Dc & Fi & _ & Lp).
    destruct (add_sim _ _ _ pl _ _ _ _ _ _ Ad Flu) as [(pl' & E)|(Np & e & bad & pl' & E)]; rewrite E.
    + destruct Res as [[-> Op1]|[-> (gs1 & pend1 & Dc1 & Fi1 & Lp1)]].
      * assert (I1 : rinv (MkR c1 (r_done s) (MkW o1 pl') (r_closes s) (r_creates s) (r_wplans s) RRun) (all ++ [d])).
        { constructor; cbn; auto.
          - exists gss, (cur ++ [d]). split; [exact Fg|]. split; [rewrite app_assoc; congruence|exact Op1].
          - intros W. destruct (Ip W) as [W1 W2]. cbn in W1. subst pl. split; [|exact W2].
            rewrite Ad in E. congruence. }
        split; [apply inv_after; [exact I1|exact Logic.I]|auto].
      * split; [|cbn; discriminate]. exists gss, gs1, (pend1 ++ [d]), o1, []. cbn.
        split; [exact Fg|]. split; [now rewrite app_nil_r|]. split; [exact Fi1|].
        split; [rewrite Da, Dc1, <- !app_assoc; reflexivity|]. split; [zlens; lia|auto].
    + split; [|cbn; discriminate]. exists gss, gs, (pending ++ [d]), o, bad. cbn.
      split; [exact Fg|]. split; [reflexivity|]. split; [exact Fi|].
      split; [rewrite Da, Dc, <- !app_assoc; reflexivity|]. split; [zlens; lia|].
      right. intros W. destruct (Ip W) as [W1 _]. cbn in W1. congruence.
  - cbn in Ev. subst d. cbn [somes]. rewrite app_nil_r. split; [|cbn; discriminate].
    destruct (open_reads _ _ _ Op) as (gs & pending & Dc & Fi & _ & Lp).
    exists gss, gs, pending, (w_out (r_file s)), []. cbn. split; [exact Fg|]. split; [now rewrite app_nil_r|]. split; [exact Fi|].
    split; [congruence|]. split; [lia|auto].
  - rewrite (Fl Logic.I). cbn [somes]. rewrite app_nil_r.
    destruct (r_flush_ok s all I) as (s' & [e|] & E & H); rewrite E.
    + split; [|cbn; discriminate]. destruct H as (gss' & last & lost & good & torn & H1 & H2 & H3 & H4 & H5 & H6).
      exists gss', last, lost, good, torn. cbn. split; [exact H1|]. split; [exact H2|]. split; [exact H3|]. split; [exact H4|]. split; [lia|].
      destruct e; auto.
    + destruct H as [I' _]. split; [apply inv_after; [exact I'|exact Logic.I]|auto].
  - rewrite (Fl Logic.I). cbn [somes]. rewrite app_nil_r.
    destruct (r_flush_ok s all I) as (s' & [e|] & E & H); rewrite E; (split; [|cbn; discriminate]).
    + destruct H as (gss' & last & lost & good & torn & H1 & H2 & H3 & H4 & H5 & H6).
      exists gss', last, lost, good, torn. cbn. split; [exact H1|]. split; [exact H2|]. split; [exact H3|]. split; [exact H4|]. split; [lia|].
      destruct e; auto.
    + destruct H as [_ (gss' & last & H1 & H2 & H3)]. exists gss', last, [], (w_out (r_file s')), []. cbn.
      split; [exact H1|]. split; [now rewrite app_nil_r|]. split; [exact H2|]. rewrite app_nil_r. split; [exact H3|].
      split; [change (zlen (@nil fields)) with 0; lia|auto].
Qed.
Lemma somes_app a b : somes (a ++ b) = somes a ++ somes b.
Proof. induction a as [|[x|] a IH]; cbn; congruence. Qed.
Lemma r_run_ok vs ds : Forall2 (ev_is fuel max) vs ds -> forall s all, rinv s all ->
  r_result (r_run nan zip to_json fuel max s vs) = RRun -> rinv (r_run nan zip to_json fuel max s vs) (all ++ somes ds).
Proof.
  induction 1 as [|v d vs ds Ev F IH]; intros s all I Re; [cbn; now rewrite app_nil_r|].
  change (r_run nan zip to_json fuel max s (v :: vs)) with (r_run nan zip to_json fuel max (r_step nan zip to_json fuel max s v) vs) in *.
  destruct (r_result (r_step nan zip to_json fuel max s v)) eqn:Rs.
  - destruct (r_step_ok s all v d I Ev) as [_ I']. specialize (I' Rs).
    change (d :: ds) with ([d] ++ ds). rewrite somes_app, app_assoc. apply IH; auto.
  - exfalso. revert Re Rs. clear. generalize (r_step nan zip to_json fuel max s v). induction vs as [|x vs IH]; intros s0 Re Rs; cbn in Re; [congruence|].
    apply (IH (r_step nan zip to_json fuel max s0 x)); [exact Re|]. unfold r_step. rewrite Rs. exact Rs.
  - exfalso. revert Re Rs. clear. generalize (r_step nan zip to_json fuel max s v). induction vs as [|x vs IH]; intros s0 Re Rs; cbn in Re; [congruence|].
    apply (IH (r_step nan zip to_json fuel max s0 x)); [exact Re|]. unfold r_step. rewrite Rs. exact Rs.
  - exfalso. revert Re Rs. clear. generalize (r_step nan zip to_json fuel max s v). induction vs as [|x vs IH]; intros s0 Re Rs; cbn in Re; [congruence|].
    apply (IH (r_step nan zip to_json fuel max s0 x)); [exact Re|]. unfold r_step. rewrite Rs. exact Rs.
Qed.
End Rt.

(* C86.  After any events, with any answers of the file system: the files hold, one after the
   other, the samples generated, in order, up to at most max+2 that are lost; none is lost if
   nil is returned, which happens only on a cancellation.  An error is that of generate, that
   the schema changed, or that of the file system. *)
Theorem C86_runtime_files : forall nan zip unzip to_json fuel max wplans closes creates vs v ds d,
  codec_ok zip unzip -> 0 <= max < 4294967296 -> Forall2 (ev_is fuel max) vs ds -> ev_is fuel max v d ->
  let s0 := collect_runtime max wplans closes creates in
  r_result (r_run nan zip to_json fuel max s0 vs) = RRun ->
  let s := r_run nan zip to_json fuel max s0 (vs ++ [v]) in
  exists gss last lost good torn, Forall2 (file_is nan unzip fuel max) (r_done s) gss /\
    w_out (r_file s) = good ++ torn /\ file_is nan unzip fuel max good last /\
    somes (ds ++ [d]) = concat (concat gss) ++ concat last ++ lost /\ zlen lost <= max + 2 /\
    outcome_ok closes creates wplans v (r_result s) lost torn.
Proof.
  intros nan zip unzip to_json fuel max wplans closes creates vs v ds d Cz Mx F Ev s0 Re s.
  assert (I0 : rinv nan zip unzip to_json fuel max closes creates wplans s0 []).
  { subst s0. unfold collect_runtime. destruct (answer [] wplans) as [p wp] eqn:Aw. constructor; cbn; auto using incl_refl.
    - exists [], []. split; [constructor|]. split; [reflexivity|apply open_new].
    - intros ->. injection Aw as <- <-. auto. }
  pose proof (r_run_ok nan zip unzip Cz to_json fuel max Mx closes creates wplans vs ds F s0 [] I0 Re) as I1.
  destruct (r_step_ok nan zip unzip Cz to_json fuel max Mx closes creates wplans _ _ v d I1 Ev) as [A _].
  rewrite somes_app. subst s. unfold r_run in *. rewrite fold_left_app. exact A.
Qed.
Print Assumptions C86_runtime_files.

(* Two samples, a flush, one more and a cancellation: two files with three samples; and a
   sample of another schema, with which the one before it is lost. *)
Definition x_id (b : bytes) : bytes := b.
Definition x_js (_ : document) : go (bytes + gerr) := Ret (inr EEOF).
Definition x_sample (now i : Z) : revent := RSample now (match build_doc (one (BInt32 i)) with Ret es => inl es | _ => inr EEOF end).
Definition x_other (now i : Z) : revent := RSample now (match build_doc (one (BInt32 i) ++ [(k_b, BInt32 i)]) with Ret es => inl es | _ => inr EEOF end).
Lemma x_ev now i : is_i32 i -> ev_is 3000 10 (x_sample now i) (Some (one (BInt32 i))).
Proof.
  intros L. destruct (build_doc (one (BInt32 i))) as [es| |] eqn:B; try discriminate. unfold x_sample. rewrite B. cbn [ev_is].
  assert (Z1 : zlen (enc_doc (one (BInt32 i))) = 12).
  { unfold enc_doc, one. cbn [enc_elems]. zlens. rewrite zlen_enc_elem. cbn [enc_body]. zlens. reflexivity. }
  assert (Lv : zlen (doc_leaves (one (BInt32 i))) = 1) by reflexivity.
  split.
  - apply sample_built; auto; [|unfold small; lia|unfold enough; lia]. constructor; [|constructor]. split; [now apply FtdcProofs.key_ok|exact L].
  - unfold room, chunk_room, enough. lia.
Qed.
Example C86_nonvacuous :
  Forall2 (ev_is 3000 10) [x_sample 1 5; x_sample 2 6; RTick; x_sample 3 7] [Some (one (BInt32 5)); Some (one (BInt32 6)); None; Some (one (BInt32 7))] /\
  codec_ok x_id Some /\
  r_result (r_run (fun _ _ => 0) x_id x_js 3000 10 (collect_runtime 10 [] [] []) [x_sample 1 5; x_sample 2 6; RTick; x_sample 3 7]) = RRun /\
  let s := r_run (fun _ _ => 0) x_id x_js 3000 10 (collect_runtime 10 [] [] []) ([x_sample 1 5; x_sample 2 6; RTick; x_sample 3 7] ++ [RDone]) in
  r_result s = RRet None /\ length (r_done s) = 2%nat.
Proof.
  split.
  { constructor; [apply x_ev; unfold is_i32; lia|]. constructor; [apply x_ev; unfold is_i32; lia|]. constructor; [reflexivity|].
    constructor; [apply x_ev; unfold is_i32; lia|constructor]. }
  split; [intros b H; unfold x_id; pose proof (zlen_nonneg b); repeat split; auto; lia|].
  split; [vm_compute; reflexivity|]. vm_compute. auto.
Qed.
Example C86_loss_case :
  let s := r_run (fun _ _ => 0) x_id x_js 3000 10 (collect_runtime 10 [] [] []) [x_sample 1 5; x_other 2 6] in
  r_result s = RRet (Some (RAdd e_schema)) /\ r_files s = [[]].
Proof. vm_compute. auto. Qed.
