(* The properties of the FTDC collectors that keep their chunks: C38 and C39. *)
Require Import ZArith List Bool Lia ZifyBool ZifyNat.
From Verif Require Import Base BSpec Elements Value Codec CodecRead Itoa CodecRep Api ApiProofs Tree
  GetterProofs ReaderOps CodecProps DocOps Stream Search FtdcSpec Ftdc FtdcProofs FtdcRestore FtdcProps FtdcFlatProps
  Collect CollectProofs.
Import ListNotations.
Open Scope Z_scope.

(* --------------------------------------------------------------- specification *)

(* the samples whose Add returned nil *)
Fixpoint accepted (dfs : list fields) (rs : list (go (option gerr))) : list fields :=
  match dfs, rs with
  | d :: ds, Ret None :: r => d :: accepted ds r
  | _ :: ds, _ :: r => accepted ds r
  | _, _ => []
  end.
(* all samples have the same metrics: number and types *)
Definition uniform (g : list fields) : Prop := forall a b, In a g -> In b g -> schema a = schema b.
(* A partition of the accepted samples, in order, in chunks of 1 to max samples. *)
Definition partition (max : Z) (acc : list fields) (gs : list (list fields)) : Prop :=
  concat gs = acc /\ Forall (fun g => 1 <= zlen g <= max) gs /\ Forall uniform gs.

(* What Add of a batch collector returns after the samples acc have been accepted: every
   max samples a chunk begins; inside a chunk the schema has to be that of the last sample. *)
Definition batch_says (max : Z) (acc : list fields) (d : fields) : option gerr :=
  if zlen acc mod max =? 0 then None else
  if zs_eqb (schema d) (schema (last acc [])) then None else Some e_schema.
Fixpoint batch_answers (max : Z) (acc dfs : list fields) : list (go (option gerr)) :=
  match dfs with
  | [] => []
  | d :: r => let e := batch_says max acc d in
      Ret e :: batch_answers max (match e with None => acc ++ [d] | Some _ => acc end) r
  end.

(* Reading the bytes gives the chunks gs with the metadata. *)
Definition reads_back (nan : Z -> Z -> Z) (unzip : bytes -> option bytes) (fuel : nat) (out : bytes)
    (gs : list (list fields)) (mfs : option fields) : Prop :=
  forall s n, st_data s = out -> st_err s = EEOF -> (2 * length gs < n)%nat ->
    exists cs, read_chunks unzip n fuel s = (cs, Ret None) /\ Forall2 (chunk_holds nan) cs gs /\ Forall (carries fuel mfs) cs.

(* ------------------------------------------------------------------------- C38 *)

Section Runs.
Variable nan : Z -> Z -> Z.
(* Add of documents at given times, and what the calls returned *)
Fixpoint bt_run (fuel : nat) (c : batch) (docs : list (Z * document)) : batch * list (go (option gerr)) :=
  match docs with
  | [] => (c, [])
  | (now, es) :: r =>
      let '(c, e) := bt_add nan fuel now c es in
      let '(c, l) := bt_run fuel c r in (c, e :: l)
  end.
Fixpoint dy_run (fuel : nat) (c : dynamic) (docs : list (Z * document)) : dynamic * list (go (option gerr)) :=
  match docs with
  | [] => (c, [])
  | (now, es) :: r =>
      let '(c, e) := dy_add nan fuel now c es in
      let '(c, l) := dy_run fuel c r in (c, e :: l)
  end.
End Runs.
Definition batch_with (max : Z) (md : option document) : batch :=
  match md with None => new_batch max | Some es => bt_set_metadata (new_batch max) es end.
Definition dynamic_with (max : Z) (md : option document) : dynamic :=
  match md with None => new_dynamic max | Some es => dy_set_metadata (new_dynamic max) es end.

Section Batch.
Variable nan : Z -> Z -> Z.
Variable fuel : nat.
Variable max : Z.
Variable md : option document.
Hypothesis Mx : 1 <= max.

Definition binv (c : batch) (gs : list (list fields)) (acc : list fields) : Prop :=
  keeps nan max md (bt_done c) (bt_last c) gs acc /\ bt_max c = max /\
  Forall (fun g => zlen g = max) gs /\ zlen acc <= max /\ (acc = [] -> gs = []) /\
  Forall uniform gs /\ uniform acc.

Lemma uniform_snoc acc d : uniform acc -> (acc = [] \/ schema d = schema (hd [] acc)) -> uniform (acc ++ [d]).
Proof.
  intros U H a b Ha Hb. apply in_app_or in Ha, Hb. destruct acc as [|x acc].
  - destruct Ha as [[]|[<-|[]]], Hb as [[]|[<-|[]]]. reflexivity.
  - destruct H as [H|H]; [discriminate|]. cbn [hd] in H.
    assert (Q : forall a, In a (x :: acc) \/ In a [d] -> schema a = schema x).
    { intros y [Hy|[<-|[]]]; [apply U; auto; left; reflexivity|exact H]. }
    rewrite (Q a Ha), (Q b Hb). reflexivity.
Qed.
Lemma uniform_one d : uniform [d].
Proof. intros a b [<-|[]] [<-|[]]. reflexivity. Qed.
Lemma uniform_last acc : uniform acc -> acc <> [] -> schema (last acc []) = schema (hd [] acc).
Proof.
  intros U N. apply U.
  - destruct (exists_last N) as (l & x & ->). rewrite last_last. apply in_or_app. right. now left.
  - destruct acc; [congruence|now left].
Qed.
Lemma last_app (l r : list fields) d : r <> [] -> last (l ++ r) d = last r d.
Proof. intros N. destruct (exists_last N) as (r' & x & ->). now rewrite app_assoc, !last_last. Qed.
Lemma zlen_concat gs : Forall (fun g : list fields => zlen g = max) gs -> zlen (concat gs) = max * zlen gs.
Proof. induction 1 as [|g gs E _ IH]; cbn [concat]; zlens; [lia|]. rewrite E, IH. lia. Qed.
Lemma mod_full gs acc : Forall (fun g : list fields => zlen g = max) gs -> zlen acc <= max ->
  zlen (concat gs ++ acc) mod max = if zlen acc =? max then 0 else zlen acc.
Proof.
  intros F L. zlens. rewrite (zlen_concat gs F). rewrite Z.add_comm, Z.mul_comm, Z.mod_add by lia.
  pose proof (zlen_nonneg acc). destruct (Z.eqb_spec (zlen acc) max) as [->|N]; [apply Z.mod_same; lia|].
  apply Z.mod_small. lia.
Qed.

Lemma bstep c gs acc now es d : binv c gs acc -> sample fuel es d ->
  exists c' gs' acc', bt_add nan fuel now c es = (c', Ret (batch_says max (concat gs ++ acc) d)) /\ binv c' gs' acc' /\
    concat gs' ++ acc' = match batch_says max (concat gs ++ acc) d with None => (concat gs ++ acc) ++ [d] | Some _ => concat gs ++ acc end.
Proof.
  intros (K & Em & Fg & La & Ne & Us & Ua) Sa. unfold bt_add, batch_says. rewrite Em, (mod_full gs acc Fg La).
  assert (Ec : b_samples (bt_last c) = zlen acc) by (destruct K as (_ & C & _); apply (cstate_count _ _ _ _ _ C)).
  rewrite Ec. pose proof (zlen_nonneg acc) as Pn. destruct (Z.leb_spec max (zlen acc)) as [Lf|Lf].
  - assert (E : zlen acc = max) by lia. rewrite E, Z.eqb_refl. cbn [Z.eqb].
    assert (Na : acc <> []) by (intros ->; zlens_in E; lia).
    destruct (keeps_fresh nan fuel now max md _ _ _ _ es d K Na Sa ltac:(lia)) as (l' & Eb & K').
    rewrite Eb. eexists _, (gs ++ [acc]), [d]. split; [reflexivity|]. split.
    + split; [exact K'|]. split; [reflexivity|]. split; [apply Forall_app; split; [exact Fg|constructor; [exact E|constructor]]|].
      split; [zlens; lia|]. split; [discriminate|]. split; [apply Forall_app; split; [exact Us|constructor; [exact Ua|constructor]]|apply uniform_one].
    + rewrite concat_app. cbn [concat]. now rewrite app_nil_r.
  - destruct (Z.eqb_spec (zlen acc) max) as [|_]; [lia|].
    destruct (keeps_same nan fuel now max md _ _ _ _ es d K Sa ltac:(lia)) as (l' & Eb & K').
    rewrite Eb. exists (MkBatch max (bt_done c) l'), gs, (match s_take max acc d with Taken => acc ++ [d] | _ => acc end).
    split; [|split; [split; [exact K'|]|]].
    + f_equal. f_equal. destruct acc as [|a acc]; [reflexivity|]. cbn [s_take]. zlens_in Lf. zlens.
      replace (max <=? zlen acc) with false by lia. pose proof (zlen_nonneg acc). replace (1 + zlen acc =? 0) with false by lia.
      rewrite last_app by discriminate. rewrite uniform_last by (auto; discriminate). cbn [hd].
      now destruct (zs_eqb (schema d) (schema a)).
    + split; [reflexivity|]. split; [exact Fg|]. destruct acc as [|a acc].
      * cbn [s_take app]. split; [zlens; lia|]. split; [discriminate|]. split; [exact Us|apply uniform_one].
      * cbn [s_take]. zlens_in Lf. replace (max <=? zlen acc) with false by lia. unfold zs_eqb.
        destruct (list_eq_dec Z.eq_dec (schema d) (schema a)) as [Es|Es].
        -- split; [zlens; zlens_in La; lia|]. split; [intros Q; now destruct (app_cons_not_nil _ _ _ (eq_sym Q))|].
           split; [exact Us|]. apply uniform_snoc; auto.
        -- auto.
    + destruct acc as [|a acc]; [cbn [s_take]; now rewrite app_nil_r|]. cbn [s_take]. zlens_in Lf.
      replace (max <=? zlen acc) with false by lia. zlens. pose proof (zlen_nonneg acc). replace (1 + zlen acc =? 0) with false by lia.
      rewrite last_app by discriminate. rewrite uniform_last by (auto; discriminate). cbn [hd].
      destruct (zs_eqb (schema d) (schema a)); [now rewrite app_assoc|reflexivity].
Qed.

Lemma accepted_answers dfs : forall acc, acc ++ accepted dfs (batch_answers max acc dfs) =
  fold_left (fun acc d => match batch_says max acc d with None => acc ++ [d] | Some _ => acc end) dfs acc.
Proof.
  induction dfs as [|d dfs IH]; intros acc; cbn [batch_answers accepted fold_left]; [now rewrite app_nil_r|].
  destruct (batch_says max acc d); [apply IH|]. rewrite <- IH, <- app_assoc. reflexivity.
Qed.

Lemma brun docs dfs : Forall2 (fun d fs => sample fuel (snd d) fs) docs dfs -> forall c gs acc, binv c gs acc ->
  exists c' gs' acc', bt_run nan fuel c docs = (c', batch_answers max (concat gs ++ acc) dfs) /\ binv c' gs' acc' /\
    concat gs' ++ acc' = (concat gs ++ acc) ++ accepted dfs (batch_answers max (concat gs ++ acc) dfs) /\
    (dfs <> [] -> acc' <> []).
Proof.
  intros F. induction F as [|[now es] d docs dfs Sa F IH]; intros c gs acc B.
  - exists c, gs, acc. cbn. rewrite app_nil_r. repeat split; auto; apply B || congruence.
  - cbn [bt_run snd] in *. destruct (bstep c gs acc now es d B Sa) as (c1 & g1 & a1 & E1 & B1 & D1).
    destruct (IH c1 g1 a1 B1) as (c2 & g2 & a2 & E2 & B2 & D2 & N2). exists c2, g2, a2. rewrite E1, E2, D1.
    split; [reflexivity|]. split; [exact B2|]. split.
    + rewrite D2, D1. cbn [batch_answers accepted]. destruct (batch_says _ _ d); [reflexivity|]. now rewrite <- !app_assoc.
    + intros _. destruct dfs as [|d' dfs]; [|apply N2; discriminate]. inversion F; subst. cbn in E2. injection E2 as <-.
      destruct B1 as (_ & _ & _ & _ & Ne & _). destruct B2 as (_ & _ & _ & _ & Ne2 & _). intros Z2. subst a2.
      specialize (Ne2 eq_refl). subst g2. cbn in D2. symmetry in D2. apply app_eq_nil in D2 as [D2 _].
      rewrite D1 in D2. destruct (batch_says max (concat gs ++ acc) d) eqn:Eb.
      * rewrite D2 in Eb. discriminate.
      * now destruct (app_cons_not_nil _ _ _ (eq_sym D2)).
Qed.

Lemma binv_start : binv (batch_with max md) [] [].
Proof.
  assert (U : uniform []) by (intros ? ? []).
  unfold binv, keeps, batch_with. destruct md as [es|]; cbn -[uniform].
  all: split; [split; [constructor|split; [repeat split; auto|constructor]]|].
  all: repeat (split; [solve [auto|constructor|zlens; lia]|]); exact U.
Qed.
End Batch.

Lemma partition_room fuel max acc gs : Forall (room fuel max) acc -> partition max acc gs ->
  Forall (fun g => room fuel (zlen g) (hd [] g)) gs.
Proof.
  intros R (Ec & F & _). rewrite Forall_forall in *. intros g Hg. specialize (F g Hg).
  apply (room_le fuel max); [lia|]. apply R. rewrite <- Ec. apply in_concat. exists g. split; [exact Hg|].
  destruct g; [zlens_in F; lia|now left].
Qed.
Lemma accepted_in d dfs : forall rs, In d (accepted dfs rs) -> In d dfs.
Proof. induction dfs as [|x dfs IH]; intros [|[[e|]|p|] rs] H; cbn in *; try contradiction; eauto. destruct H; eauto. Qed.

(* C38.  What each Add returns; the accepted samples are kept once each and in order, in
   chunks that are all full but the last; they are counted by Info; Resolve gives bytes from
   which exactly these chunks are read. *)
Theorem C38_batch : forall nan zip unzip fuel max md mfs docs dfs c rs,
  codec_ok zip unzip -> 1 <= max < 4294967296 -> meta_ok fuel md mfs ->
  Forall2 (fun d fs => sample fuel (snd d) fs) docs dfs -> Forall (room fuel max) dfs ->
  bt_run nan fuel (batch_with max md) docs = (c, rs) ->
  rs = batch_answers max [] dfs /\
  bt_samples c = zlen (accepted dfs rs) /\
  (dfs <> [] -> exists gs out, partition max (accepted dfs rs) gs /\ Forall (fun g => zlen g = max) (removelast gs) /\
    bt_resolve zip fuel c = Ret (inl out) /\ reads_back nan unzip fuel out gs mfs).
Proof.
  intros nan zip unzip fuel max md mfs docs dfs c rs Cz Mx Mo Sa Ro Run. destruct (meta_ok_fits _ _ _ Mo) as [Mi Mf].
  destruct (brun nan fuel max md ltac:(lia) docs dfs Sa (batch_with max md) [] [] (binv_start nan max md ltac:(lia))) as (c' & gs & acc & E & B & D & N).
  cbn [concat app] in *. rewrite E in Run. injection Run as -> <-. split; [reflexivity|].
  destruct B as (K & Em & Fg & La & Ne & Us & Ua). split.
  - rewrite <- D. apply (keeps_count _ _ _ _ _ _ _ K).
  - intros Nd. specialize (N Nd). exists (gs ++ [acc]).
    assert (P : partition max (accepted dfs (batch_answers max [] dfs)) (gs ++ [acc])).
    { split; [rewrite concat_app; cbn [concat]; now rewrite app_nil_r|]. split; apply Forall_app; split; auto.
      - eapply Forall_impl; [|exact Fg]. cbn. lia.
      - constructor; [|constructor]. destruct acc; [congruence|]. zlens. zlens_in La. pose proof (zlen_nonneg acc). lia. }
    destruct (keeps_resolve nan zip unzip Cz fuel max md mfs _ _ _ _ K N ltac:(lia) Mi Mf) as (out & Eo & Rd).
    { apply (partition_room fuel max _ _) in P; [exact P|]. rewrite Forall_forall in *. intros d Hd. apply Ro. eapply accepted_in; eauto. }
    exists out. split; [exact P|]. split; [now rewrite removelast_last|]. split; [exact Eo|exact Rd].
Qed.
Print Assumptions C38_batch.

(* Short documents, for the cases. *)
Definition short (d : fields) : Prop := wf_fields d /\ zlen (enc_doc d) < 40.
Definition at0 (docs : list document) : list (Z * document) := map (fun es => (0, es)) docs.
Lemma short_samples dfs : Forall short dfs ->
  exists docs, mapM build_doc dfs = Ret docs /\ Forall2 (fun d fs => sample 3000 (snd d) fs) (at0 docs) dfs.
Proof.
  induction 1 as [|d dfs (W & L) _ IH]; [exists []; split; [reflexivity|constructor]|].
  destruct IH as (docs & E & F). destruct (build_doc_rep d W ltac:(unfold small; lia)) as (es & Eb & _).
  exists (es :: docs). cbn [mapM]. rewrite Eb. cbn [bind]. rewrite E. split; [reflexivity|]. constructor; [|exact F].
  apply sample_built; auto; unfold small, enough; lia.
Qed.

(* A case: two chunks of two and one samples, and a refused one. *)
Example C38_nonvacuous : exists fuel (docs : list (Z * document)) (dfs : list fields),
  Forall2 (fun d fs => sample fuel (snd d) fs) docs dfs /\ Forall (room fuel 2) dfs /\
  batch_answers 2 [] dfs = [Ret None; Ret (Some e_schema); Ret None; Ret None] /\
  accepted dfs (batch_answers 2 [] dfs) = [one (BInt64 1); one (BInt64 2); one (BInt64 3)].
Proof.
  set (dfs := [one (BInt64 1); one (BBool true); one (BInt64 2); one (BInt64 3)]).
  assert (T : Forall (fun d => wf_fields d /\ zlen (enc_doc d) < 40 /\ zlen (doc_leaves d) = 1) dfs).
  { repeat (apply Forall_cons; [split; [repeat constructor; try (vm_compute; intuition congruence)|split; vm_compute; reflexivity]|]). apply Forall_nil. }
  destruct (short_samples dfs) as (docs & _ & B); [eapply Forall_impl; [|exact T]; unfold short; cbn; intuition lia|].
  exists 3000%nat, (at0 docs), dfs. split; [exact B|]. split.
  - eapply Forall_impl; [|exact T]. intros d (_ & L & E). unfold room, chunk_room, enough. rewrite E. lia.
  - split; vm_compute; reflexivity.
Qed.

(* ------------------------------------------------------------------------- C39 *)

Section Dynamic.
Variable nan : Z -> Z -> Z.
Variable fuel : nat.
Variable max : Z.
Variable md : option document.
Hypothesis Mx : 1 <= max.

Definition hash_of (d : fields) : Z := fst (key_hash d).
(* seen: the first sample offered *)
Definition dinv (c : dynamic) (first : option fields) (gs : list (list fields)) (acc : list fields) : Prop :=
  keeps nan max md (flat_map bt_chunks (dy_done c) ++ bt_done (dy_last c)) (bt_last (dy_last c)) gs acc /\
  bt_max (dy_last c) = max /\ dy_max c = max /\ dy_hash c = option_map hash_of first /\
  (first = None -> acc = [] /\ gs = []) /\ (first <> None -> acc <> []) /\
  Forall (fun g => 1 <= zlen g <= max) gs /\ zlen acc <= max /\ Forall uniform gs /\ uniform acc.

(* What Add answers, as far as it concerns a refusal. *)
Definition may_refuse (first : option fields) (acc : list fields) (d : fields) : Prop :=
  exists f, first = Some f /\ hash_of d = hash_of f /\ acc <> [] /\ schema d <> schema (last acc []).

Lemma bt_add_cases now b gs acc done es d : keeps nan max md (done ++ bt_done b) (bt_last b) gs acc -> bt_max b = max -> zlen acc <= max ->
  Forall (fun g => 1 <= zlen g <= max) gs -> Forall uniform gs -> uniform acc -> sample fuel es d ->
  exists b' r gs' acc', bt_add nan fuel now b es = (b', Ret r) /\ bt_max b' = max /\
    keeps nan max md (done ++ bt_done b') (bt_last b') gs' acc' /\ zlen acc' <= max /\ acc' <> [] /\
    Forall (fun g => 1 <= zlen g <= max) gs' /\ Forall uniform gs' /\ uniform acc' /\
    ((r = None /\ concat gs' ++ acc' = (concat gs ++ acc) ++ [d]) \/
     (r = Some e_schema /\ gs' = gs /\ acc' = acc /\ acc <> [] /\ schema d <> schema (last (concat gs ++ acc) []))).
Proof.
  intros K Em La Fg Us Ua Sa. unfold bt_add. rewrite Em.
  assert (Ec : b_samples (bt_last b) = zlen acc) by (destruct K as (_ & C & _); apply (cstate_count _ _ _ _ _ C)).
  rewrite Ec. pose proof (zlen_nonneg acc) as Pn. destruct (Z.leb_spec max (zlen acc)) as [Lf|Lf].
  - assert (E : zlen acc = max) by lia. assert (Na : acc <> []) by (intros ->; zlens_in E; lia).
    destruct (keeps_fresh nan fuel now max md _ _ _ _ es d K Na Sa ltac:(lia)) as (l' & Eb & K').
    rewrite Eb. exists (MkBatch max (bt_done b ++ [bt_last b]) l'), None, (gs ++ [acc]), [d]. split; [reflexivity|].
    split; [reflexivity|]. split; [cbn [bt_done bt_last]; now rewrite app_assoc|]. split; [zlens; lia|]. split; [discriminate|].
    split; [apply Forall_app; split; [exact Fg|constructor; [lia|constructor]]|].
    split; [apply Forall_app; split; [exact Us|constructor; [exact Ua|constructor]]|]. split; [apply uniform_one|].
    left. split; [reflexivity|]. rewrite concat_app. cbn [concat]. now rewrite app_nil_r.
  - destruct (keeps_same nan fuel now max md _ _ _ _ es d K Sa ltac:(lia)) as (l' & Eb & K'). rewrite Eb.
    exists (MkBatch max (bt_done b) l'), (err_of (s_take max acc d)), gs, (match s_take max acc d with Taken => acc ++ [d] | _ => acc end).
    split; [reflexivity|]. split; [reflexivity|]. split; [exact K'|].
    destruct acc as [|a acc].
    + cbn [s_take app err_of]. split; [zlens; lia|]. split; [discriminate|]. split; [exact Fg|]. split; [exact Us|].
      split; [apply uniform_one|]. left. split; [reflexivity|]. now rewrite app_nil_r.
    + cbn [s_take]. zlens_in Lf. replace (max <=? zlen acc) with false by lia. unfold zs_eqb.
      destruct (list_eq_dec Z.eq_dec (schema d) (schema a)) as [Es|Es]; cbn [err_of].
      * split; [zlens; zlens_in La; lia|]. split; [intros Q; now destruct (app_cons_not_nil _ _ _ (eq_sym Q))|].
        split; [exact Fg|]. split; [exact Us|]. split; [apply uniform_snoc; auto|]. left. split; [reflexivity|]. now rewrite app_assoc.
      * split; [exact La|]. split; [discriminate|]. split; [exact Fg|]. split; [exact Us|]. split; [exact Ua|]. right.
        repeat split; auto; try discriminate. rewrite last_app by discriminate. rewrite uniform_last by (auto; discriminate). exact Es.
Qed.

Lemma dstep c first gs acc now es d : dinv c first gs acc -> sample fuel es d ->
  exists c' r gs' acc', dy_add nan fuel now c es = (c', Ret r) /\
    dinv c' (match first with None => Some d | f => f end) gs' acc' /\
    ((r = None /\ concat gs' ++ acc' = (concat gs ++ acc) ++ [d]) \/
     (r = Some e_schema /\ concat gs' ++ acc' = concat gs ++ acc /\ may_refuse first (concat gs ++ acc) d)).
Proof.
  intros (K & Eb & Em & Eh & N0 & N1 & Fg & La & Us & Ua) Sa. unfold dy_add. rewrite (sample_obs _ _ _ Sa).
  assert (Ehs : key_hash (swapf d) = (hash_of d, snd (key_hash d))) by (rewrite key_hash_swap; unfold hash_of; now destruct (key_hash d)).
  rewrite Ehs, Eh. destruct first as [f|]; cbn [option_map].
  - assert (Na : acc <> []) by (apply N1; discriminate). destruct (Z.eqb_spec (hash_of f) (hash_of d)) as [E|E].
    + destruct (bt_add_cases now _ gs acc _ es d K Eb La Fg Us Ua Sa) as (b' & r & gs' & acc' & Ea & Em' & K' & La' & Na' & Fg' & Us' & Ua' & Cs).
      rewrite Ea. exists (MkDyn (dy_max c) (dy_done c) b' (Some (hash_of f))), r, gs', acc'. split; [reflexivity|]. split.
      * repeat (split; [solve [assumption|reflexivity|discriminate|auto]|]). exact Ua'.
      * destruct Cs as [Cs|(-> & -> & -> & _ & Cs)]; [left; exact Cs|right]. repeat split; auto. exists f.
        repeat split; auto. intros Q. apply app_eq_nil in Q as [_ Q]. contradiction.
    + unfold bt_add. cbn [bt_max new_batch bt_last bt_done].
      change (b_samples (new_base (dy_max c))) with 0. rewrite Em. replace (max <=? 0) with false by lia.
      destruct (keeps_fresh nan fuel now max md _ _ _ _ es d K Na Sa ltac:(lia)) as (l' & Ea & K').
      rewrite Ea. eexists _, None, (gs ++ [acc]), [d]. split; [reflexivity|]. split.
      * split; [|split; [reflexivity|split; [reflexivity|split; [reflexivity|]]]].
        -- cbn [dy_done dy_last bt_done bt_last]. rewrite flat_map_app. cbn [flat_map]. rewrite !app_nil_r. unfold bt_chunks at 2.
           rewrite app_assoc. exact K'.
        -- split; [discriminate|]. split; [discriminate|]. split; [apply Forall_app; split; [exact Fg|constructor; [|constructor]]|].
           { destruct acc; [congruence|]. zlens. zlens_in La. pose proof (zlen_nonneg acc). lia. }
           split; [zlens; lia|]. split; [apply Forall_app; split; [exact Us|constructor; [exact Ua|constructor]]|apply uniform_one].
      * left. split; [reflexivity|]. rewrite concat_app. cbn [concat]. now rewrite app_nil_r.
  - destruct (N0 eq_refl) as [-> ->].
    destruct (bt_add_cases now _ [] [] _ es d K Eb La Fg Us Ua Sa) as (b' & r & gs' & acc' & Ea & Em' & K' & La' & Na' & Fg' & Us' & Ua' & Cs).
    rewrite Ea. exists (MkDyn (dy_max c) (dy_done c) b' (Some (hash_of d))), r, gs', acc'. split; [reflexivity|]. split.
    + repeat (split; [solve [assumption|reflexivity|discriminate|auto]|]). exact Ua'.
    + destruct Cs as [Cs|(_ & _ & _ & Q & _)]; [left; exact Cs|congruence].
Qed.

(* Refusals: an answer is nil, or the error when the keys hash as those of the first sample
   and the schema is not that of the last accepted one. *)
Fixpoint dy_answers (first : option fields) (acc dfs : list fields) (rs : list (go (option gerr))) : Prop :=
  match dfs, rs with
  | [], [] => True
  | d :: ds, Ret r :: rest =>
      (r = None \/ (r = Some e_schema /\ may_refuse first acc d)) /\
      dy_answers (match first with None => Some d | f => f end) (match r with None => acc ++ [d] | _ => acc end) ds rest
  | _, _ => False
  end.
Lemma drun docs dfs : Forall2 (fun d fs => sample fuel (snd d) fs) docs dfs -> forall c first gs acc, dinv c first gs acc ->
  exists c' first' gs' acc' rs, dy_run nan fuel c docs = (c', rs) /\ dinv c' first' gs' acc' /\
    concat gs' ++ acc' = (concat gs ++ acc) ++ accepted dfs rs /\ dy_answers first (concat gs ++ acc) dfs rs /\
    (dfs <> [] \/ first <> None -> first' <> None).
Proof.
  intros F. induction F as [|[now es] d docs dfs Sa F IH]; intros c first gs acc B.
  - exists c, first, gs, acc, []. cbn [accepted dy_answers dy_run]. rewrite app_nil_r. split; [reflexivity|]. split; [exact B|].
    split; [reflexivity|]. split; [exact I|]. intros [Q|Q]; congruence.
  - cbn [dy_run snd] in *. destruct (dstep c first gs acc now es d B Sa) as (c1 & r & g1 & a1 & E1 & B1 & D1).
    destruct (IH c1 _ g1 a1 B1) as (c2 & f2 & g2 & a2 & rs & E2 & B2 & D2 & A2 & N2). exists c2, f2, g2, a2, (Ret r :: rs).
    rewrite E1, E2. split; [reflexivity|]. split; [exact B2|].
    destruct D1 as [(-> & D1)|(-> & D1 & Mr)]; rewrite D1 in *; (split; [|split]).
    + rewrite D2. cbn [accepted]. now rewrite <- !app_assoc.
    + cbn [dy_answers]. split; [left; reflexivity|exact A2].
    + intros _. apply N2. right. destruct first; discriminate.
    + exact D2.
    + cbn [dy_answers]. split; [right; auto|exact A2].
    + intros _. apply N2. right. destruct first; discriminate.
Qed.
Lemma dinv_start : dinv (dynamic_with max md) None [] [].
Proof.
  assert (U : uniform []) by (intros ? ? []).
  unfold dinv, keeps, dynamic_with. destruct md as [es|]; cbn -[uniform].
  all: split; [split; [constructor|split; [repeat split; auto|constructor]]|].
  all: repeat (split; [solve [auto|constructor|congruence|zlens; lia]|]); exact U.
Qed.
End Dynamic.

Lemma keeps_sizes nan max md done l gs acc : keeps nan max md done l gs acc -> acc <> [] ->
  map zlen (gs ++ [acc]) = map b_samples (done ++ [l]).
Proof.
  intros K N. pose proof (keeps_new _ _ _ _ _ _ _ K N) as F. clear K N. remember (gs ++ [acc]) as all. remember (done ++ [l]) as bs. clear -F.
  assert (E : all = map snd (marked md all)) by (destruct all; cbn; [reflexivity|]; rewrite map_map; cbn; now rewrite map_id).
  rewrite E at 1. clear E. induction F as [|b g bs gs (C & _) _ IH]; [reflexivity|]. cbn [map]. rewrite IH.
  now rewrite (cstate_count _ _ _ _ _ C).
Qed.

(* C39.  A dynamic collector keeps the accepted samples once each and in order, in chunks
   of at most max samples that have the same number and types of metrics, and they are read
   back from what Resolve returns.  Missing: the keys inside a chunk may differ, and
   consecutive samples of the same schema need not share a chunk; see C39_refuted. *)
Theorem C39_dynamic_partial : forall nan zip unzip fuel max md mfs docs dfs c rs,
  codec_ok zip unzip -> 1 <= max < 4294967296 -> meta_ok fuel md mfs ->
  Forall2 (fun d fs => sample fuel (snd d) fs) docs dfs -> Forall (room fuel max) dfs ->
  dy_run nan fuel (dynamic_with max md) docs = (c, rs) ->
  dy_answers None [] dfs rs /\
  dy_samples c = zlen (accepted dfs rs) /\
  (dfs <> [] -> exists gs out, partition max (accepted dfs rs) gs /\
    dy_resolve zip fuel c = Ret (inl out) /\ reads_back nan unzip fuel out gs mfs /\
    map zlen gs = map b_samples (flat_map bt_chunks (dy_chunks c))).
Proof.
  intros nan zip unzip fuel max md mfs docs dfs c rs Cz Mx Mo Sa Ro Run. destruct (meta_ok_fits _ _ _ Mo) as [Mi Mf].
  destruct (drun nan fuel max md ltac:(lia) docs dfs Sa (dynamic_with max md) None [] [] (dinv_start nan max md ltac:(lia)))
    as (c' & first & gs & acc & rs' & E & B & D & A & N).
  cbn [concat app] in *. rewrite E in Run. injection Run as -> <-. split; [exact A|].
  destruct B as (K & Eb & Em & Eh & N0 & N1 & Fg & La & Us & Ua). split.
  - rewrite <- D, <- (keeps_count _ _ _ _ _ _ _ K). unfold dy_samples, dy_chunks.
    assert (Q : forall l k, fold_right (fun b n => bt_samples b + n) k l = fold_right (fun b n => b_samples b + n) k (flat_map bt_chunks l)).
    { assert (Q1 : forall l k, fold_right (fun b n => b_samples b + n) k l = fold_right (fun b n => b_samples b + n) 0 l + k).
      { induction l as [|x l IH]; intros k; cbn [fold_right]; [lia|]. rewrite IH. lia. }
      induction l as [|x l IH]; intros k; cbn [fold_right flat_map]; [reflexivity|]. rewrite fold_right_app, IH, (Q1 (bt_chunks x)). reflexivity. }
    rewrite Q, flat_map_app. cbn [flat_map]. rewrite app_nil_r, <- app_assoc. reflexivity.
  - intros Nd. specialize (N1 (N (or_introl Nd))). exists (gs ++ [acc]).
    assert (P : partition max (accepted dfs rs') (gs ++ [acc])).
    { split; [rewrite concat_app; cbn [concat]; now rewrite app_nil_r|]. split; apply Forall_app; split; auto.
      constructor; [|constructor]. destruct acc; [congruence|]. zlens. zlens_in La. pose proof (zlen_nonneg acc). lia. }
    destruct (keeps_resolve nan zip unzip Cz fuel max md mfs _ _ _ _ K N1 ltac:(lia) Mi Mf) as (out & Eo & Rd).
    { apply (partition_room fuel max _ _) in P; [exact P|]. rewrite Forall_forall in *. intros d Hd. apply Ro. eapply accepted_in; eauto. }
    exists out. split; [exact P|]. assert (Ef : flat_map bt_chunks (dy_chunks c) = (flat_map bt_chunks (dy_done c) ++ bt_done (dy_last c)) ++ [bt_last (dy_last c)]).
    { unfold dy_chunks. rewrite flat_map_app. cbn [flat_map]. rewrite app_nil_r. unfold bt_chunks at 2. now rewrite app_assoc. }
    split; [unfold dy_resolve; rewrite resolve_nested, Ef; exact Eo|]. split; [exact Rd|]. rewrite Ef.
    rewrite <- (keeps_sizes _ _ _ _ _ _ _ K N1). reflexivity.
Qed.
Print Assumptions C39_dynamic_partial.

(* The claim is false: the hash of the first sample is never replaced, so that a sample with
   the first sample's keys joins whatever chunk is open, samples after a change of schema get
   a chunk each; and {a: {b: 1}} and {a: 1, b: 1} have the same hash, so that one is refused
   after the other. *)
Lemma same_pieces (hs : list (list fields)) : forall gs, concat hs = concat gs -> map zlen hs = map zlen gs -> hs = gs.
Proof.
  induction hs as [|h hs IH]; intros [|g gs] E L; try discriminate; [reflexivity|]. cbn [concat map] in *. injection L as Lh L.
  assert (Ln : length h = length g) by (unfold zlen in Lh; lia).
  assert (h = g).
  { apply (f_equal (firstn (length h))) in E. rewrite firstn_app, firstn_all, Nat.sub_diag, firstn_O, app_nil_r in E.
    rewrite Ln, firstn_app, firstn_all, Nat.sub_diag, firstn_O, app_nil_r in E. exact E. }
  subst g. apply app_inv_head in E. f_equal. auto.
Qed.
Definition doc_a : fields := [(k_a, BInt64 1)].
Definition doc_b : fields := [(k_b, BInt64 1)].
Definition doc_ab : fields := [(k_a, BInt64 1); (k_b, BInt64 1)].
Definition doc_a_b : fields := [(k_a, BDoc [(k_b, BInt64 1)])].
Definition dynamic_reads (nan : Z -> Z -> Z) (zip : bytes -> bytes) (unzip : bytes -> option bytes)
    (dfs : list fields) (gs : list (list fields)) : Prop :=
  exists docs c out, mapM build_doc dfs = Ret docs /\
    dy_run nan 3000 (new_dynamic 5) (at0 docs) = (c, map (fun _ => Ret None) dfs) /\
    dy_resolve zip 3000 c = Ret (inl out) /\ reads_back nan unzip 3000 out gs None.
Theorem C39_refuted : forall nan zip unzip, codec_ok zip unzip ->
  dynamic_reads nan zip unzip [doc_a; doc_b; doc_a] [[doc_a]; [doc_b; doc_a]] /\
  dynamic_reads nan zip unzip [doc_a; doc_b; doc_b] [[doc_a]; [doc_b]; [doc_b]] /\
  exists docs c, mapM build_doc [doc_a_b; doc_ab] = Ret docs /\
    dy_run nan 3000 (new_dynamic 5) (at0 docs) = (c, [Ret None; Ret (Some e_schema)]).
Proof.
  intros nan zip unzip Cz.
  assert (Sh : Forall short [doc_a; doc_b; doc_ab; doc_a_b]).
  { repeat (apply Forall_cons; [split; [repeat constructor; try (vm_compute; intuition congruence)|vm_compute; reflexivity]|]). apply Forall_nil. }
  assert (G : forall dfs gs, Forall short dfs -> Forall (fun d => zlen (doc_leaves d) <= 2) dfs -> dfs <> [] ->
    (let x := dy_run nan 3000 (new_dynamic 5) (at0 (match mapM build_doc dfs with Ret l => l | _ => [] end)) in
      (snd x, map b_samples (flat_map bt_chunks (dy_chunks (fst x))))) = (map (fun _ => Ret None) dfs, map zlen gs) -> concat gs = dfs ->
    dynamic_reads nan zip unzip dfs gs).
  { intros dfs gs S L N RU Cg. destruct (short_samples dfs S) as (docs & E & F). rewrite E in RU. cbv zeta in RU.
    destruct (dy_run nan 3000 (new_dynamic 5) (at0 docs)) as [c rs] eqn:R. cbn [fst snd] in RU. injection RU as -> U.
    destruct (C39_dynamic_partial nan zip unzip 3000 5 None None (at0 docs) dfs c (map (fun _ => Ret None) dfs) Cz ltac:(lia) I F) with (2 := R) as (_ & _ & Q).
    { rewrite Forall_forall in *. intros d Hd. specialize (S d Hd). specialize (L d Hd). destruct S as [_ S].
      unfold room, chunk_room, enough. lia. }
    destruct (Q N) as (hs & out & (Pc & _) & Eo & Rb & Ez).
    assert (Ea : accepted dfs (map (fun _ => Ret None) dfs) = dfs).
    { clear. induction dfs as [|d dfs IH]; [reflexivity|]. cbn. now rewrite IH. }
    rewrite Ea in Pc. replace gs with hs by (apply same_pieces; congruence). exists docs, c, out. auto. }
  pose proof (Forall_inv Sh) as Sa. pose proof (Forall_inv (Forall_inv_tail Sh)) as Sb.
  split; [|split].
  - apply G; [auto| | | |reflexivity].
    + repeat (apply Forall_cons; [vm_compute; discriminate|]). apply Forall_nil.
    + discriminate.
    + vm_compute. reflexivity.
  - apply G; [auto| | | |reflexivity].
    + repeat (apply Forall_cons; [vm_compute; discriminate|]). apply Forall_nil.
    + discriminate.
    + vm_compute. reflexivity.
  - exists (match mapM build_doc [doc_a_b; doc_ab] with Ret l => l | _ => [] end).
    exists (fst (dy_run nan 3000 (new_dynamic 5) (at0 (match mapM build_doc [doc_a_b; doc_ab] with Ret l => l | _ => [] end)))).
    split; vm_compute; reflexivity.
Qed.
Print Assumptions C39_refuted.
