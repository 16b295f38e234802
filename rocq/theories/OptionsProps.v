(* C116: which options CollectRuntime accepts, and what accepting them does. *)
Require Import ZArith List Bool Lia ZifyBool ZifyNat Permutation Sorted String.
From Verif Require Import Base BSpec Value Codec Api Tree GetterProofs Events Sort Metrics MetricsProps Options.
Import List ListNotations.
Open Scope Z_scope.

(* ------------------------------------------------------------------ specification *)

Definition acceptable (o : options) : Prop :=
  1000000 <= o_collect o <= o_flush o /\ 10 <= o_samples o /\
  ~ (o_skip_go o = true /\ o_skip_sys o = true /\ o_skip_proc o = true) /\
  (o_parallel o = true -> o_collectors o <> []).

(* the texts of the errors and what each complains about *)
Inductive complaint (o : options) : string -> Prop :=
| cp_flush : o_flush o < 1000000 -> complaint o "flush interval must be greater than a millisecond"
| cp_collect : o_collect o < 1000000 -> complaint o "collection interval must be greater than a millisecond"
| cp_order : o_flush o < o_collect o -> complaint o "collection interval must be smaller than flush interval"
| cp_samples : o_samples o < 10 -> complaint o "sample count must be at least 10"
| cp_skip : o_skip_go o = true -> o_skip_sys o = true -> o_skip_proc o = true ->
    complaint o "cannot skip all metrics collection, must specify golang, process, or system"
| cp_parallel : o_parallel o = true -> o_collectors o = [] ->
    complaint o "cannot run parallel collectors with no collectors specified".

(* ------------------------------------------------------------------------ lemmas *)

Lemma by_name_swo l : swo_on l by_name.
Proof.
  unfold by_name. split; [|split]; intros.
  - apply ltb_irrefl.
  - eapply ltb_trans; eauto.
  - eapply ltb_neg_trans; eauto.
Qed.

Lemma sort_perm sort l : sorts_stably sort -> Permutation l (sort by_name l).
Proof. intros S. apply (S by_name l (by_name_swo l)). Qed.
Lemma sort_nil sort l : sorts_stably sort -> (zlen (sort by_name l) =? 0) = true <-> l = [].
Proof.
  intros S. pose proof (sort_perm sort l S) as P. apply Permutation_length in P. unfold zlen. rewrite <- P.
  destruct l; cbn; split; intros; try discriminate; auto; lia.
Qed.

Lemma same_name x y : same by_name x y = true <-> co_name x = co_name y.
Proof.
  unfold same, by_name. split; intros H.
  - apply andb_true_iff in H as [H1 H2]. apply negb_true_iff in H1, H2. now apply ltb_total.
  - rewrite H, ltb_irrefl. reflexivity.
Qed.
Lemma filter_one l x : NoDup (map co_name l) -> In x l -> filter (same by_name x) l = [x].
Proof.
  induction l as [|y l IH]; intros N I; [easy|]. cbn [map] in N. inversion_clear N as [|? ? N1 N2]. cbn [filter].
  assert (forall z, ~ In (co_name z) (map co_name l) -> filter (same by_name z) l = []) as Z.
  { clear. induction l as [|y l IH]; intros z N; [reflexivity|]. cbn in *. destruct (same by_name z y) eqn:E.
    - apply same_name in E. exfalso. auto.
    - auto. }
  destruct I as [->|I].
  - replace (same by_name x x) with true by (symmetry; now apply same_name). now rewrite Z.
  - destruct (same by_name x y) eqn:E; [|auto]. apply same_name in E. exfalso. apply N1. rewrite <- E. now apply in_map.
Qed.
Lemma sort_same sort l l' : sorts_stably sort -> Permutation l l' -> NoDup (map co_name l) -> sort by_name l = sort by_name l'.
Proof.
  intros S P N. apply (stable_unique by_name l); [apply by_name_swo|apply S, by_name_swo|].
  destruct (S by_name l' (by_name_swo l')) as (P' & So & F).
  assert (N' : NoDup (map co_name l')) by (eapply Permutation_NoDup; [apply Permutation_map, P|auto]).
  split; [now transitivity l'|]. split; [exact So|]. intros x I.
  assert (In x l') by (eapply Permutation_in; eauto). rewrite F by auto. now rewrite !filter_one.
Qed.

Lemma in_validate_condition ec c s m : In m (validate_condition ec c s) <-> In m ec \/ (c = true /\ m = str s).
Proof.
  unfold validate_condition. destruct c; [rewrite in_app_iff; cbn; intuition congruence|intuition congruence].
Qed.

(* ---------------------------------------------------------------------- theorems *)

(* The errors are the complaints that apply, each once. *)
Theorem C116_errors : forall sort o e, sorts_stably sort -> snd (validate sort o) = Some e ->
  NoDup e /\ forall m, In m e <-> exists s, complaint o s /\ m = str s.
Proof.
  intros sort o e S V. unfold validate in V. cbn [snd] in V.
  match type of V with resolve ?l = _ => set (L := l) in V end.
  assert (L = e) as <- by (unfold resolve in V; destruct L; congruence). clear V.
  split.
  - unfold L, validate_condition.
    repeat match goal with |- context [if ?c then _ else _] => destruct c end; cbn [app];
      repeat constructor; cbn; intuition discriminate.
  - intros m. unfold L. rewrite !in_validate_condition. unfold millisecond. split.
    + intros [[[[[[[]|[H ->]]|[H ->]]|[H ->]]|[H ->]]|[H ->]]|[H ->]]; eexists; (split; [|reflexivity]).
      * apply cp_flush. lia.
      * apply cp_collect. lia.
      * apply cp_order. lia.
      * apply cp_samples. lia.
      * apply andb_true_iff in H as [H H3]. apply andb_true_iff in H as [H1 H2]. now apply cp_skip.
      * apply andb_true_iff in H as [H1 H2]. apply cp_parallel; [auto|]. eapply sort_nil; eauto.
    + intros (s & C & ->). destruct C as [H|H|H|H|H1 H2 H3|H1 H2].
      * do 5 left. right. split; [lia|reflexivity].
      * do 4 left. right. split; [lia|reflexivity].
      * do 3 left. right. split; [lia|reflexivity].
      * do 2 left. right. split; [lia|reflexivity].
      * do 1 left. right. split; [now rewrite H1, H2, H3|reflexivity].
      * right. split; [|reflexivity]. rewrite H1. cbn [andb]. now apply sort_nil.
Qed.
Print Assumptions C116_errors.

(* Options are accepted exactly when they are acceptable; otherwise no sample is taken. *)
Theorem C116_accepts : forall sort p docb o, sorts_stably sort ->
  (acceptable o <-> snd (validate sort o) = None) /\
  (acceptable o <-> exists g, first_sample sort p docb o = inr g).
Proof.
  intros sort p docb o S.
  assert (A : acceptable o <-> snd (validate sort o) = None).
  { unfold validate, acceptable. cbn [snd]. pose proof (sort_nil sort (o_collectors o) S) as Z.
    unfold validate_condition, millisecond.
    destruct (o_flush o <? 1000000) eqn:E1; destruct (o_collect o <? 1000000) eqn:E2; destruct (o_flush o <? o_collect o) eqn:E3;
      destruct (o_samples o <? 10) eqn:E4; cbn [app];
      try (split; [intros; lia|intros H; destruct (_ && _ && _), (_ && _) in H; discriminate]).
    destruct (o_skip_go o), (o_skip_proc o), (o_skip_sys o), (o_parallel o), (zlen (sort by_name (o_collectors o)) =? 0);
      cbn; try (split; [intros (? & ? & H5 & H6)|discriminate]; exfalso; first [apply H5; now auto|apply H6; [reflexivity|now apply Z]]);
      (split; [reflexivity|intros _]); (split; [lia|]); (split; [lia|]); (split; [intuition discriminate|]);
      intros; try discriminate; intros Q; apply Z in Q; discriminate. }
  split; [exact A|]. rewrite A. unfold first_sample. destruct (validate sort o) as [cs [e|]]; cbn [snd]; split.
  - discriminate.
  - intros [? ?]. discriminate.
  - eauto.
  - reflexivity.
Qed.
Print Assumptions C116_accepts.

(* The options NewCollectOptions gives are accepted. *)
Theorem C116_default : forall sort prefix, sorts_stably sort ->
  validate sort (new_collect_options prefix) = ([], None) /\ o_prefix (new_collect_options prefix) = prefix.
Proof.
  intros sort prefix S. split; [|reflexivity]. pose proof (sort_perm sort [] S) as P. apply Permutation_nil in P.
  unfold validate. cbn [o_collectors new_collect_options]. rewrite P. vm_compute. reflexivity.
Qed.
Print Assumptions C116_default.

(* Validating, whether it fails or not, orders the collectors of the caller by name and keeps the order of those of one
   name. *)
Theorem C116_order : forall sort o, sorts_stably sort ->
  let cs := fst (validate sort o) in
  Permutation (o_collectors o) cs /\
  StronglySorted (fun a b => bytes_ltb (co_name b) (co_name a) = false) cs /\
  forall n, filter (fun c => bytes_eqb (co_name c) n) cs = filter (fun c => bytes_eqb (co_name c) n) (o_collectors o).
Proof.
  intros sort o S cs. unfold cs, validate. cbn [fst]. destruct (S by_name _ (by_name_swo (o_collectors o))) as (P & So & F).
  split; [exact P|]. split; [exact So|]. intros n.
  destruct (filter (fun c => bytes_eqb (co_name c) n) (o_collectors o)) as [|x r] eqn:E.
  - destruct (filter _ (sort _ _)) as [|y q] eqn:E'; [reflexivity|]. exfalso.
    assert (In y (y :: q)) as I by now left. rewrite <- E' in I. apply filter_In in I as [I1 I2].
    apply Permutation_sym in P. apply (Permutation_in _ P) in I1.
    assert (In y []) as []. rewrite <- E. apply filter_In. auto.
  - assert (In x (x :: r)) as I by now left. rewrite <- E in I. apply filter_In in I as [I1 I2].
    rewrite <- E. apply bytes_eqb_eq in I2. subst n. specialize (F x I1).
    assert (X : forall c, bytes_eqb (co_name c) (co_name x) = same by_name x c).
    { intros c. destruct (same by_name x c) eqn:Q.
      - apply same_name in Q. apply bytes_eqb_eq. auto.
      - destruct (bytes_eqb _ _) eqn:Q'; [|reflexivity]. apply bytes_eqb_eq in Q'.
        rewrite (proj2 (same_name x c)) in Q by auto. discriminate. }
    rewrite !(filter_ext _ _ X). exact F.
Qed.
Print Assumptions C116_order.

(* So with distinct names the samples do not depend on the order in which the collectors were listed. *)
Theorem C116_same_samples : forall sort p docb o o', sorts_stably sort ->
  NoDup (map co_name (o_collectors o)) -> Permutation (o_collectors o) (o_collectors o') ->
  acceptable o -> acceptable o' -> first_sample sort p docb o = first_sample sort p docb o'.
Proof.
  intros sort p docb o o' S N P A A'. apply (proj1 (C116_accepts sort p docb o S)) in A. apply (proj1 (C116_accepts sort p docb o' S)) in A'.
  assert (fst (validate sort o) = fst (validate sort o')) as E by (unfold validate; cbn [fst]; now apply sort_same).
  unfold first_sample. destruct (validate sort o) as [cs e], (validate sort o') as [cs' e']. cbn in *. now subst.
Qed.
Print Assumptions C116_same_samples.

Lemma gives_split cs fss : gives cs fss -> Forall (fun c => exists fs d, build_doc fs = Ret d /\ co_op c = Some d) cs.
Proof. induction 1 as [|k d fs cs fss B G IH]; constructor; eauto. Qed.
Lemma gives_join cs : Forall (fun c => exists fs d, build_doc fs = Ret d /\ co_op c = Some d) cs ->
  exists fss, gives cs fss /\ map fst fss = map co_name cs.
Proof.
  induction 1 as [|[k op] cs (fs & d & B & E) F (fss & G & M)]; [exists []; split; [constructor|reflexivity]|].
  cbn in E. subst op. exists ((k, fs) :: fss). split; [now constructor|]. cbn. now rewrite M.
Qed.

(* Accepted options can give samples with two fields of one key: names can repeat, or be runtime. *)
Theorem C116_names_refuted : forall sort p rt docb o fss, sorts_stably sort -> acceptable o ->
  build_doc rt = Ret docb -> gives (o_collectors o) fss ->
  ~ NoDup (str "runtime" :: map co_name (o_collectors o)) ->
  exists fields, first_sample sort p docb o = inr (build_doc fields) /\ ~ NoDup (map fst fields).
Proof.
  intros sort p rt docb o fss S A B G N. apply (proj1 (C116_accepts sort p docb o S)) in A.
  pose proof (sort_perm sort (o_collectors o) S) as P.
  destruct (gives_join (sort by_name (o_collectors o))) as (fss' & G' & M).
  { eapply Permutation_Forall; [exact P|]. eapply gives_split; eauto. }
  exists ((str "runtime", BDoc rt) :: map sub fss'). split.
  - unfold first_sample. assert (E : fst (validate sort o) = sort by_name (o_collectors o)) by reflexivity.
    destruct (validate sort o) as [cs e]. cbn in A, E. subst. f_equal. apply C46_sequential; auto.
    intros Z. rewrite Z in P. apply Permutation_sym, Permutation_nil in P. rewrite P in N. apply N. repeat constructor. easy.
  - cbn [map fst]. rewrite map_map. change (map (fun x => fst (sub x)) fss') with (map fst fss'). rewrite M. intros D. apply N.
    eapply Permutation_NoDup; [|exact D]. constructor. apply Permutation_map. now symmetry.
Qed.
Print Assumptions C116_names_refuted.

(* And with repeated names the samples do depend on the order of listing. *)
Theorem C116_listing_refuted : forall sort p rt docb o n d1 fs1 d2 fs2, sorts_stably sort -> acceptable o ->
  build_doc rt = Ret docb -> build_doc fs1 = Ret d1 -> build_doc fs2 = Ret d2 ->
  o_collectors o = [MkColl n (Some d1); MkColl n (Some d2)] ->
  first_sample sort p docb o = inr (build_doc [(str "runtime", BDoc rt); (n, BDoc fs1); (n, BDoc fs2)]).
Proof.
  intros sort p rt docb o n d1 fs1 d2 fs2 S A B B1 B2 E. apply (proj1 (C116_accepts sort p docb o S)) in A.
  unfold first_sample. assert (Es : fst (validate sort o) = o_collectors o).
  { unfold validate. cbn [fst]. apply (stable_unique by_name (o_collectors o)); [apply by_name_swo|apply S, by_name_swo|].
    split; [reflexivity|]. split; [|reflexivity]. rewrite E. repeat constructor. unfold by_name. cbn. apply ltb_irrefl. }
  destruct (validate sort o) as [cs e]. cbn in A, Es. subst cs e. f_equal. rewrite E.
  apply (C46_sequential p docb rt _ [(n, fs1); (n, fs2)]); auto; [|discriminate]. repeat constructor; auto.
Qed.
Print Assumptions C116_listing_refuted.

(* The texts ask for more than a millisecond and for a collection interval below the flush interval; a millisecond for
   both is accepted. *)
Theorem C116_text_refuted : forall sort o, sorts_stably sort -> acceptable o -> forall t, 1000000 <= t ->
  snd (validate sort (MkOpt t t (o_skip_go o) (o_skip_sys o) (o_skip_proc o) (o_parallel o) (o_samples o) (o_collectors o) (o_prefix o))) = None /\
  snd (validate sort (MkOpt t 1000000 (o_skip_go o) (o_skip_sys o) (o_skip_proc o) (o_parallel o) (o_samples o) (o_collectors o) (o_prefix o))) = None.
Proof.
  intros sort o S A t T. split; apply (proj1 (C116_accepts sort PNil [] _ S)); unfold acceptable in *; cbn; intuition lia.
Qed.
Print Assumptions C116_text_refuted.

(* Accepted options that run collectors in parallel never give a sample. *)
Theorem C116_parallel_refuted : forall sort o rt num s doc, sorts_stably sort -> acceptable o -> o_parallel o = true ->
  gsteps (fst (validate sort o)) rt (new_generate (fst (validate sort o)) num) s ->
  snd (validate sort o) = None /\ fst (validate sort o) <> [] /\ gs_main s <> GReturned doc.
Proof.
  intros sort o rt num s doc S A Pa H. split; [now apply (proj1 (C116_accepts sort PNil [] o S))|]. split.
  - destruct A as (_ & _ & _ & A). specialize (A Pa). unfold validate. cbn [fst]. intros Z.
    pose proof (sort_perm sort (o_collectors o) S) as P. rewrite Z in P. apply Permutation_sym, Permutation_nil in P. auto.
  - eapply C46_refuted; eauto.
Qed.
Print Assumptions C116_parallel_refuted.

(* ------------------------------------------------------------------ non-vacuity *)

Definition ex_coll (n : string) (i : Z) : collector :=
  MkColl (str n) (match build_doc [(str "v", BInt32 i)] with Ret d => Some d | _ => None end).
Definition ex_opt par cs : options := MkOpt second millisecond false true true par 10 cs [120].
Example C116_ex_sorter : sorts_stably (@isort collector).
Proof. apply insertion_sort_is_stable. Qed.
Example C116_ex_acceptable : acceptable (ex_opt false [ex_coll "b" 1; ex_coll "a" 2]) /\ acceptable (ex_opt true [ex_coll "b" 1; ex_coll "b" 2]) /\
  map co_name (fst (validate isort (ex_opt false [ex_coll "b" 1; ex_coll "a" 2]))) = [str "a"; str "b"].
Proof.
  split; [|split; [|reflexivity]]; unfold acceptable, ex_opt, second, millisecond;
    cbn [o_collect o_flush o_samples o_skip_go o_skip_sys o_skip_proc o_parallel o_collectors];
    (split; [lia|]); (split; [lia|]); (split; [intros (Q & _); discriminate|]); intros _ Q; discriminate.
Qed.
Example C116_ex_errors : exists e, snd (validate isort (MkOpt 0 1 true true true true 9 [] [])) = Some e /\ length e = 6%nat.
Proof. eexists. split; [vm_compute; reflexivity|]. reflexivity. Qed.
Example C116_ex_names : exists rt docb fss, build_doc rt = Ret docb /\ gives [ex_coll "runtime" 1] fss /\
  ~ NoDup (str "runtime" :: map co_name [ex_coll "runtime" 1]).
Proof.
  exists [], [], [(str "runtime", [(str "v", BInt32 1)])]. split; [reflexivity|]. split.
  - constructor; [reflexivity|constructor].
  - intros N. inversion_clear N as [|? ? I _]. apply I. now left.
Qed.
Example C116_ex_parallel : exists s, gsteps [ex_coll "a" 1] (MkValue 0 0 None None) (new_generate [ex_coll "a" 1] 2) s /\ gs_main s = GWait.
Proof. eexists. split; [apply gs_refl|reflexivity]. Qed.
