(* Proofs about the collectors of x/ftdc that keep chunks (Collect.v). *)
Require Import ZArith List Bool Lia ZifyBool ZifyNat.
From Verif Require Import Base BSpec Elements Value Codec CodecRead Itoa CodecRep Api ApiProofs Tree
  GetterProofs ReaderOps CodecProps DocOps Stream Search FtdcSpec Ftdc FtdcProofs FtdcRestore FtdcProps FtdcFlatProps Collect.
Import ListNotations.
Open Scope Z_scope.

Notation fields := (list (bytes * bval)).

(* A chunk holds the samples acc: everything C35 to C37 say about it. *)
Definition chunk_holds (nan : Z -> Z -> Z) (ch : chunk) (acc : list fields) : Prop :=
  c_points ch = zlen acc /\ restores_ints ch acc /\ restores_doubles nan ch acc /\ restores_seconds ch acc /\ restores_dates ch acc /\ restores_docs ch acc.
(* The chunk carries the metadata. *)
Definition carries (fuel : nat) (mfs : option fields) (ch : chunk) : Prop :=
  match mfs with
  | None => c_meta ch = None
  | Some m => exists es fs, c_meta ch = Some es /\ obs_doc fuel es = Ret fs /\ first_key k_doc fs = Some (BDoc (swapf m))
  end.
(* There is room in a chunk for k samples that start with d. *)
Definition room (fuel : nat) (k : Z) (d : fields) : Prop :=
  chunk_room d k < 2147483648 /\ enough fuel (chunk_room d k).

Lemma room_le fuel k k' d : 0 <= k' <= k -> room fuel k d -> room fuel k' d.
Proof. unfold room, chunk_room, enough. intros L. pose proof (zlen_nonneg (doc_leaves d)). nia. Qed.

Section Keep.
Variable nan : Z -> Z -> Z.
Variables (zip : bytes -> bytes) (unzip : bytes -> option bytes).
Hypothesis codec : codec_ok zip unzip.

Lemma chunk_is_holds m ch md start acc : chunk_is nan m ch (md, start, acc) -> acc <> [] -> Forall wf_fields acc ->
  Forall small acc -> chunk_holds nan ch acc.
Proof.
  intros K N W S. split; [|split; [|split; [|split; [|split]]]].
  - apply K.
  - eapply chunk_restores_ints; eauto.
  - eapply chunk_restores_doubles; eauto.
  - eapply chunk_restores_seconds; eauto.
  - eapply chunk_restores_dates; eauto.
  - eapply chunk_restores_docs; eauto.
Qed.

(* the samples of a chunk with its metadata *)
Notation group := (option document * list fields)%type.
Definition holds_group (max : Z) (b : better) (g : group) : Prop :=
  cstate nan b (fst g) max (snd g) /\ snd g <> [] /\ Forall small (snd g).
(* only the first chunk has the metadata *)
Definition marked (md : option document) (gs : list (list fields)) : list group :=
  match gs with [] => [] | g :: r => (md, g) :: map (fun g => (None, g)) r end.
Definition here (md : option document) (gs : list (list fields)) : option document :=
  match gs with [] => md | _ => None end.

Lemma marked_snoc md gs g : marked md (gs ++ [g]) = marked md gs ++ [(here md gs, g)].
Proof. destruct gs as [|x gs]; [reflexivity|]. cbn. now rewrite map_app. Qed.

(* the chunks done, the current one, and what they hold *)
Definition keeps (max : Z) (md : option document) (done : list better) (l : better) (gs : list (list fields)) (acc : list fields) : Prop :=
  Forall2 (holds_group max) done (marked md gs) /\ cstate nan l (here md gs) max acc /\ Forall small acc.

Lemma keeps_new max md done l gs acc : keeps max md done l gs acc -> acc <> [] ->
  Forall2 (holds_group max) (done ++ [l]) (marked md (gs ++ [acc])).
Proof.
  intros (F & C & S) N. rewrite marked_snoc. apply Forall2_app; [exact F|]. constructor; [|constructor].
  unfold holds_group. auto.
Qed.
Lemma here_snoc md gs g : here md (gs ++ [g]) = None.
Proof. now destruct gs. Qed.

(* Add to the current chunk, and Add to a new one *)
Lemma keeps_same fuel now max md done l gs acc es fs : keeps max md done l gs acc -> sample fuel es fs -> 0 <= max ->
  exists l', b_add nan fuel now l es = (l', Ret (err_of (s_take max acc fs))) /\
    keeps max md done l' gs (match s_take max acc fs with Taken => acc ++ [fs] | _ => acc end).
Proof.
  intros (F & C & S) Sa M. destruct (add_step nan fuel now l (here md gs) max acc es fs C Sa M) as (l' & E & C').
  exists l'. split; [exact E|]. split; [exact F|]. split; [exact C'|].
  destruct (s_take max acc fs); auto. apply Forall_app. split; [exact S|]. constructor; [apply Sa|constructor].
Qed.
Lemma keeps_fresh fuel now max md done l gs acc es fs : keeps max md done l gs acc -> acc <> [] -> sample fuel es fs -> 0 <= max ->
  exists l', b_add nan fuel now (new_base max) es = (l', Ret None) /\ keeps max md (done ++ [l]) l' (gs ++ [acc]) [fs].
Proof.
  intros K N Sa M. pose proof (keeps_new _ _ _ _ _ _ K N) as F.
  destruct (add_step nan fuel now (new_base max) None max [] es fs (cstate_new nan max) Sa M) as (l' & E & C').
  exists l'. split; [exact E|]. split; [exact F|]. rewrite here_snoc. split; [exact C'|]. constructor; [apply Sa|constructor].
Qed.

(* ------------------------------------------------------------- resolving and reading *)

Lemma resolve_groups fuel max mfs : forall bs gs md, max < 4294967296 ->
  Forall2 (holds_group max) bs (map (fun g => (md, g)) gs) -> meta_is md mfs -> (forall start, meta_fits fuel start mfs) ->
  Forall (fun g => room fuel (zlen g) (hd [] g)) gs ->
  exists segs, resolve_all (b_resolve zip fuel) bs = Ret (inl (concat (map (seg_bytes nan zip) segs))) /\
    Forall (seg_ok fuel) segs /\ map snd segs = gs /\ Forall (fun s => fst (fst s) = mfs) segs /\ Forall (Forall small) gs.
Proof.
  intros bs gs md M F Mi Mf. revert gs F. induction bs as [|b bs IH]; intros gs F R.
  - destruct gs; inversion F. exists []. repeat split; constructor.
  - destruct gs as [|g gs]; inversion F as [|? ? ? ? (C & N & S) F']; subst. cbn [fst snd] in *.
    inversion_clear R as [|? ? [R1 R2] R'].
    destruct (resolve_seg nan zip unzip codec fuel b md mfs max g C N Mi Mf M R1 R2) as (start & E & Ok).
    destruct (IH gs F' R') as (segs & Es & Fo & Em & Fm & Fs).
    exists ((mfs, start, g) :: segs). cbn [resolve_all]. rewrite E. cbn [bind]. rewrite Es. cbn [bind map concat].
    repeat split; auto. cbn. now rewrite Em.
Qed.

Lemma chunks_are_none cs : forall gs, chunks_are nan None cs gs -> Forall (fun s : seg => fst (fst s) = None) gs -> Forall (fun s : seg => snd s <> [] /\ Forall wf_fields (snd s) /\ Forall small (snd s)) gs ->
  Forall2 (chunk_holds nan) cs (map snd gs) /\ Forall (fun c => c_meta c = None) cs.
Proof.
  induction cs as [|c cs IH]; intros [|[[md start] acc] gs] K Fm Fo; cbn [chunks_are] in K; try contradiction; [split; constructor|].
  destruct K as [K1 K2]. inversion_clear Fm as [|? ? E Fm']. cbn in E. subst md. cbn [meta_after] in *.
  inversion_clear Fo as [|? ? (N & W & S) Fo']. destruct (IH gs K2 Fm' Fo') as [A B]. split; constructor; auto.
  - cbn [snd]. eapply chunk_is_holds; eauto.
  - destruct K1 as (_ & _ & _ & _ & K1). destruct (c_meta c); [contradiction|reflexivity].
Qed.

(* once the metadata is there, every chunk shows it, whether or not it is repeated *)
Lemma carries_meta fuel start m ch : wf_fields m -> meta_fits fuel start (Some m) ->
  shows_meta (c_meta ch) (Some (meta_fields start m)) -> carries fuel (Some m) ch.
Proof.
  intros W [Sm Fm] K. destruct (c_meta ch) as [es|] eqn:Ec; [|contradiction]. cbn [shows_meta] in K.
  exists es, (swapf (meta_fields start m)). split; [exact Ec|]. split.
  - apply obs_doc_rep; auto. apply meta_fields_wf; [exact nan|exact W].
  - unfold meta_fields, swapf. cbn [map fst snd]. rewrite swapd_doc. reflexivity.
Qed.
Lemma chunks_are_some fuel m start0 cs : wf_fields m -> (forall start, meta_fits fuel start (Some m)) ->
  forall gs, chunks_are nan (Some (meta_fields start0 m)) cs gs ->
  Forall (fun s : seg => fst (fst s) = None \/ fst (fst s) = Some m) gs ->
  Forall (fun s : seg => snd s <> [] /\ Forall wf_fields (snd s) /\ Forall small (snd s)) gs ->
  Forall2 (chunk_holds nan) cs (map snd gs) /\ Forall (carries fuel (Some m)) cs.
Proof.
  intros W Mf. revert start0. induction cs as [|c cs IH]; intros start0 [|[[md start] acc] gs] K Fm Fo; cbn [chunks_are] in K; try contradiction; [split; constructor|].
  destruct K as [K1 K2]. inversion_clear Fm as [|? ? E Fm']. cbn in E.
  inversion_clear Fo as [|? ? (N & Wa & S) Fo'].
  assert (Q : exists st, meta_after (Some (meta_fields start0 m)) (md, start, acc) = Some (meta_fields st m)).
  { destruct E as [->| ->]; cbn; eauto. }
  destruct Q as (st & Q). rewrite Q in *. destruct (IH st gs K2 Fm' Fo') as [A B]. split; constructor; auto.
  - cbn [snd]. eapply chunk_is_holds; eauto.
  - apply (carries_meta fuel st m c W (Mf st)). destruct K1 as (_ & _ & _ & _ & K1). exact K1.
Qed.

Lemma segs_fine fuel segs : Forall (seg_ok fuel) segs -> Forall (Forall small) (map snd segs) ->
  Forall (fun s : seg => snd s <> [] /\ Forall wf_fields (snd s) /\ Forall small (snd s)) segs.
Proof.
  induction 1 as [|[[md start] acc] segs (N & W & _) _ IH]; cbn [map]; intros F; inversion_clear F; constructor; auto.
Qed.

(* Reading what was resolved, with the metadata in the first chunk or in every chunk. *)
Lemma read_kept fuel mfs segs s n : Forall (seg_ok fuel) segs -> Forall (Forall small) (map snd segs) ->
  match mfs with Some m => wf_fields m /\ (forall start, meta_fits fuel start (Some m)) | None => True end ->
  match segs with [] => True | g :: r => fst (fst g) = mfs /\ Forall (fun g => fst (fst g) = None \/ fst (fst g) = mfs) r end ->
  st_data s = concat (map (seg_bytes nan zip) segs) -> st_err s = EEOF -> (2 * length segs < n)%nat ->
  exists cs, read_chunks unzip n fuel s = (cs, Ret None) /\ Forall2 (chunk_holds nan) cs (map snd segs) /\ Forall (carries fuel mfs) cs.
Proof.
  intros Ok S Mo Fm D E L. destruct (read_segs nan zip unzip codec fuel n segs s Ok D E L) as (cs & R & K).
  exists cs. split; [exact R|]. pose proof (segs_fine fuel segs Ok S) as Fi.
  destruct segs as [|[[md start] acc] segs]; [destruct cs; [split; constructor|contradiction]|].
  destruct Fm as [Em Fm]. cbn [fst] in Em. subst md. destruct mfs as [m|].
  - destruct cs as [|c cs]; [contradiction|]. destruct K as [K1 K2]. cbn [meta_after] in *. destruct Mo as [W Mf].
    inversion_clear Fi as [|? ? (N & Wa & Sa) Fi']. cbn [snd] in *.
    destruct (chunks_are_some fuel m start cs W Mf segs K2 Fm Fi') as [A B]. cbn [map]. split; constructor; auto.
    + eapply chunk_is_holds; eauto.
    + apply (carries_meta fuel start m c W (Mf start)). destruct K1 as (_ & _ & _ & _ & K1). exact K1.
  - apply (chunks_are_none cs _ K); auto. constructor; auto. eapply Forall_impl; [|exact Fm]. cbn. tauto.
Qed.

Lemma resolve_all_app {A} (f : A -> go (bytes + gerr)) l r a b : resolve_all f l = Ret (inl a) -> resolve_all f r = Ret (inl b) ->
  resolve_all f (l ++ r) = Ret (inl (a ++ b)).
Proof.
  revert a. induction l as [|x l IH]; intros a El Er; cbn [resolve_all app] in *.
  - injection El as <-. exact Er.
  - destruct (f x) as [[u|e]|p|]; cbn [bind] in *; try discriminate.
    destruct (resolve_all f l) as [[v|e]|p|]; cbn [bind] in *; try discriminate. injection El as <-.
    rewrite (IH v eq_refl Er). cbn [bind]. now rewrite app_assoc.
Qed.

(* all the chunks of a collector that keeps them *)
Theorem keeps_resolve fuel max md mfs done l gs acc : keeps max md done l gs acc -> acc <> [] -> max < 4294967296 ->
  meta_is md mfs -> (forall start, meta_fits fuel start mfs) ->
  Forall (fun g => room fuel (zlen g) (hd [] g)) (gs ++ [acc]) ->
  exists out, resolve_all (b_resolve zip fuel) (done ++ [l]) = Ret (inl out) /\
    forall s n, st_data s = out -> st_err s = EEOF -> (2 * length (gs ++ [acc]) < n)%nat ->
      exists cs, read_chunks unzip n fuel s = (cs, Ret None) /\ Forall2 (chunk_holds nan) cs (gs ++ [acc]) /\ Forall (carries fuel mfs) cs.
Proof.
  intros K N M Mi Mf R. pose proof (keeps_new _ _ _ _ _ _ K N) as F.
  remember (gs ++ [acc]) as all eqn:Ea. assert (Na : all <> []) by (subst; now destruct gs). clear K N Ea gs acc.
  remember (done ++ [l]) as bs. clear Heqbs done l. destruct all as [|g all]; [congruence|]. cbn [marked] in F.
  inversion F as [|b ? bs' ? Fb F']; subst. inversion_clear R as [|? ? Rg R'].
  destruct (resolve_groups fuel max mfs [b] [g] md M) as (s1 & E1 & O1 & P1 & M1 & S1); auto; [constructor; auto|].
  destruct (resolve_groups fuel max None bs' all None M F' I ltac:(intros; exact I) R') as (s2 & E2 & O2 & P2 & M2 & S2).
  assert (P : map snd (s1 ++ s2) = g :: all) by (rewrite map_app; unfold seg in *; rewrite P1, P2; reflexivity).
  exists (concat (map (seg_bytes nan zip) (s1 ++ s2))). split.
  - rewrite map_app, concat_app. now apply (resolve_all_app _ [b] bs').
  - intros s n D E L. destruct (read_kept fuel mfs (s1 ++ s2) s n) as (cs & Rc & H1 & H2); auto.
    + now apply Forall_app.
    + rewrite P. now apply (Forall_app _ [g] all).
    + unfold meta_is in Mi. destruct md, mfs; try contradiction; auto. split; [apply Mi|exact Mf].
    + destruct s1 as [|x [|? ?]]; try discriminate. cbn [app]. inversion_clear M1. split; auto.
      eapply Forall_impl; [|exact M2]. cbn. tauto.
    + apply (f_equal (@length _)) in P. rewrite map_length in P. unfold seg in *. rewrite P. exact L.
    + exists cs. rewrite P in H1. auto.
Qed.

Lemma keeps_count max md done l gs acc : keeps max md done l gs acc ->
  fold_right (fun b n => b_samples b + n) 0 (done ++ [l]) = zlen (concat gs ++ acc).
Proof.
  intros (F & C & _). pose proof (cstate_count _ _ _ _ _ C) as E.
  assert (A : forall done gs, Forall2 (holds_group max) done gs -> forall k, fold_right (fun b n => b_samples b + n) k done = zlen (concat (map snd gs)) + k).
  { clear. induction 1 as [|b g done gs (C & _) _ IH]; intros k; cbn [fold_right map concat]; [reflexivity|].
    rewrite IH, (cstate_count _ _ _ _ _ C). zlens. lia. }
  rewrite fold_right_app. cbn [fold_right]. rewrite (A _ _ F), E.
  assert (map snd (marked md gs) = gs) as -> by (destruct gs; cbn; [reflexivity|]; rewrite map_map; cbn; now rewrite map_id).
  zlens. lia.
Qed.
End Keep.

Lemma resolve_all_eq {A} (f : A -> go (bytes + gerr)) l r : resolve_all f (l ++ r) =
  (a <- resolve_all f l ;;
   match a with
   | inr e => Ret (inr e)
   | inl a => b <- resolve_all f r ;; Ret (match b with inl b => inl (a ++ b) | inr e => inr e end)
   end).
Proof.
  induction l as [|x l IH]; cbn [resolve_all app bind].
  - now destruct (resolve_all f r) as [[u|e]|p|].
  - destruct (f x) as [[u|e]|p|]; cbn [bind]; auto. rewrite IH.
    destruct (resolve_all f l) as [[v|e]|p|]; cbn [bind]; auto.
    destruct (resolve_all f r) as [[w|e]|p|]; cbn [bind]; auto. now rewrite app_assoc.
Qed.
Lemma resolve_nested zip fuel l : resolve_all (bt_resolve zip fuel) l = resolve_all (b_resolve zip fuel) (flat_map bt_chunks l).
Proof.
  induction l as [|b l IH]; [reflexivity|]. cbn [flat_map]. rewrite resolve_all_eq. cbn [resolve_all]. fold (bt_resolve zip fuel b).
  destruct (bt_resolve zip fuel b) as [[u|e]|p|]; cbn [bind]; auto. now rewrite IH.
Qed.

(* the keys do not depend on the halves of timestamps *)
Lemma h_value_swap t : forall key, h_value key (swapd t) = h_value key t.
Proof.
  induction t using bval_ind'; intros key; try reflexivity.
  - rename H into IH. rewrite swapd_doc. cbn [h_value]. unfold swapf.
    induction IH as [|[k v] fs Hv _ IHfs]; [reflexivity|]. cbn [map fst snd]. cbn [snd] in Hv. rewrite Hv.
    destruct (h_value _ v) as [a n]. rewrite IHfs. reflexivity.
  - rename H into IH. rewrite swapd_array. cbn [h_value]. generalize O. induction IH as [|v vs Hv _ IHvs]; intros i; [reflexivity|].
    cbn [map]. rewrite Hv. destruct (h_value _ v) as [a n]. rewrite IHvs. reflexivity.
Qed.
Lemma key_hash_swap fs : key_hash (swapf fs) = key_hash fs.
Proof. unfold key_hash. rewrite <- swapd_doc. now rewrite h_value_swap. Qed.
