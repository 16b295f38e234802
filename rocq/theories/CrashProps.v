(* C112: files cut short by a crash. *)
Require Import ZArith List Bool Lia ZifyBool ZifyNat.
From Verif Require Import Base BSpec Elements Value Codec CodecRead Itoa CodecRep Api ApiProofs Tree
  GetterProofs ReaderOps CodecProps DocOps Stream Search FtdcSpec Ftdc FtdcProofs FtdcRestore FtdcProps FtdcFlatProps
  Collect CollectProofs CollectProps CollectStreamProps Crash.
Import ListNotations.
Open Scope Z_scope.

(* ------------------------------------------------------------- specification *)

(* Of documents written one after the other, those wholly in the first k bytes, and how many
   bytes of the next one are there too. *)
Fixpoint whole (docs : list (list (bytes * bval))) (k : Z) : list (list (bytes * bval)) * Z :=
  match docs with
  | [] => ([], 0)
  | d :: r =>
      if k <? zlen (enc_doc d) then ([], k) else
      let '(l, x) := whole r (k - zlen (enc_doc d)) in (d :: l, x)
  end.
Definition doc_fits (fuel : nat) (fs : list (bytes * bval)) : Prop := wf_fields fs /\ small fs /\ enough fuel (zlen (enc_doc fs)).
(* what is left by a crash that lets only the first k bytes arrive *)
Definition cut (k : Z) (b : bytes) : bytes := firstn (Z.to_nat k) b.
(* what a reader says at the end if x bytes of a document are there *)
Definition says (x : Z) : gerr := if (x =? 0) || (x =? 4) then EEOF else EUnexpectedEOF.

(* what a reader of chunks returns *)
Definition told (x : Z) : option gerr := match says x with EEOF => None | e => Some e end.

(* --------------------------------------------------------------------- proofs *)

Lemma cut_app k (a b : bytes) : zlen a <= k -> cut k (a ++ b) = a ++ cut (k - zlen a) b.
Proof.
  intros L. unfold cut, zlen in *. rewrite firstn_app. rewrite firstn_all2 by lia. f_equal. f_equal. lia.
Qed.
Lemma whole_prefix : forall docs k, exists post, docs = fst (whole docs k) ++ post.
Proof.
  induction docs as [|d r IH]; intros k; cbn [whole]; [exists []; reflexivity|].
  destruct (k <? zlen (enc_doc d)); [exists (d :: r); reflexivity|]. destruct (IH (k - zlen (enc_doc d))) as (p & E).
  destruct (whole r (k - zlen (enc_doc d))) as [l x]. cbn [fst] in *. exists p. cbn. now rewrite <- E.
Qed.

Lemma one_cut fuel s d k rest : doc_fits fuel d -> 0 <= k < zlen (enc_doc d) -> st_data s = cut k (enc_doc d ++ rest) -> st_err s = EEOF ->
  exists s', dce_read_from fuel s = (s', Ret (inr (says k))).
Proof.
  intros (W & S & F) K D E.
  assert (D' : st_data s = cut k (enc_doc d)).
  { rewrite D. unfold cut. rewrite firstn_app. replace (Z.to_nat k - length (enc_doc d))%nat with 0%nat by (unfold zlen in K; lia). cbn. apply app_nil_r. }
  assert (L : zlen (st_data s) = k) by (rewrite D'; unfold cut, zlen in *; rewrite firstn_length; lia).
  unfold dce_read_from, says. destruct (Z.eqb_spec k 0) as [->|Nk]; cbn [orb].
  - destruct (doc_read_from_end fuel s) as (s' & H & _); [destruct (st_data s); [reflexivity|cbn in L; discriminate]|]. rewrite H, E. eauto.
  - destruct (doc_read_from_cut fuel s d (skipn (Z.to_nat k) (enc_doc d)) S) as (s' & H & _).
    + intros Q. rewrite Q in L. change (0 = k) in L. lia.
    + intros Q. apply (f_equal (@length _)) in Q. rewrite skipn_length in Q. unfold zlen in K. cbn in Q. lia.
    + rewrite D'. unfold cut. now rewrite firstn_skipn.
    + rewrite H, E, L. eauto.
Qed.

(* Reading what was left is reading the documents wholly there, but for the last answer. *)
Lemma cut_docs fuel : forall docs n s s2 k, (length docs < n)%nat -> Forall (doc_fits fuel) docs -> 0 <= k ->
  st_data s = cut k (concat (map enc_doc docs)) -> st_err s = EEOF ->
  st_data s2 = concat (map enc_doc (fst (whole docs k))) -> st_err s2 = EEOF ->
  exists ess s' s2', read_docs n fuel s = (ess, s', Ret (Some (says (snd (whole docs k))))) /\
    read_docs n fuel s2 = (ess, s2', Ret (Some EEOF)) /\ Forall2 rep_doc ess (fst (whole docs k)) /\
    Forall2 (fun es fs => read_document fuel (enc_doc fs) = Ret (inl es)) ess (fst (whole docs k)).
Proof.
  assert (End : forall s, st_data s = [] -> st_err s = EEOF -> exists s', dce_read_from fuel s = (s', Ret (inr EEOF))).
  { intros s D E. destruct (doc_read_from_end fuel s D) as (s' & H & _). unfold dce_read_from. rewrite H, E. eauto. }
  induction docs as [|d docs IH]; intros n s s2 k L A K D E D2 E2; (destruct n as [|n]; [cbn in L; lia|]); cbn [whole] in *.
  - cbn [map concat fst snd] in *. unfold cut in D. rewrite firstn_nil in D.
    destruct (End s D E) as (s' & H). destruct (End s2 D2 E2) as (s2' & H2). exists [], s', s2'. cbn [read_docs]. rewrite H, H2.
    split; [reflexivity|]. split; [reflexivity|]. split; constructor.
  - inversion_clear A as [|? ? Ad A']. cbn [map concat] in D. cbn [length] in L. destruct (Z.ltb_spec k (zlen (enc_doc d))) as [Lk|Lk]; cbn [fst snd] in *.
    + destruct (one_cut fuel s d k _ Ad (conj K Lk) D E) as (s' & H). destruct (End s2 D2 E2) as (s2' & H2).
      exists [], s', s2'. cbn [read_docs]. rewrite H, H2. split; [reflexivity|]. split; [reflexivity|]. split; constructor.
    + destruct (whole docs (k - zlen (enc_doc d))) as [l x] eqn:Ew. cbn [fst snd map concat] in *. rewrite cut_app in D by exact Lk.
      destruct Ad as (W & S & F). destruct (doc_read_from_wf fuel s d _ W S F D) as (s1 & es & H & R & D1 & E1).
      destruct (doc_read_from_wf fuel s2 d _ W S F D2) as (s3 & es' & H2 & R2 & D3 & E3). assert (es' = es) as -> by congruence.
      destruct (IH n s1 s3 (k - zlen (enc_doc d)) ltac:(lia) A' ltac:(lia) D1 ltac:(congruence)) as (ess & t & t2 & I1 & I2 & I3 & I4);
        [rewrite Ew; exact D3|congruence|]. rewrite Ew in *. cbn [fst snd] in *.
      exists (es :: ess), t, t2. cbn [read_docs]. unfold dce_read_from. rewrite H, H2, I1, I2. split; [reflexivity|]. split; [reflexivity|].
      split; constructor; auto. destruct (read_document_wf d [] fuel W) as (es' & Rd' & Rr); rewrite ?app_nil_r; auto. rewrite app_nil_r in Rd'. congruence.
Qed.

(* ------------------------------------------------------------------- documents *)

(* C112.  A reader of a file of documents that was cut after any number of bytes is given every
   document that is wholly there and nothing else, and is then told io.ErrUnexpectedEOF if part
   of a document follows, unless it is four bytes. *)
Theorem C112_documents_partial : forall fuel docs n s k, (length docs < n)%nat -> Forall (doc_fits fuel) docs -> 0 <= k ->
  st_data s = cut k (concat (map enc_doc docs)) -> st_err s = EEOF ->
  exists ess s', read_docs n fuel s = (ess, s', Ret (Some (says (snd (whole docs k))))) /\
    Forall2 (fun es fs => doc_marshal fuel es = Ret (inl (enc_doc fs))) ess (fst (whole docs k)).
Proof.
  intros fuel docs n s k L A K D E.
  destruct (cut_docs fuel docs n s (MkStream (concat (map enc_doc (fst (whole docs k)))) [] EEOF false) k L A K D E eq_refl eq_refl) as (ess & s' & _ & H & _ & F & _).
  exists ess, s'. split; [exact H|]. destruct (whole_prefix docs k) as (post & P). rewrite P in A. apply Forall_app in A as [A _]. clear -A F.
  induction F as [|es fs ess l R F IH]; constructor; inversion_clear A as [|? ? (W & S & Fu) A']; [now apply doc_marshal_rep|auto].
Qed.
Print Assumptions C112_documents_partial.

(* With DC.ReadFrom: the same documents, then nil or a panic. *)
Theorem C112_read_from_partial : forall fuel docs n s k, (length docs < n)%nat -> Forall (doc_fits fuel) docs -> 0 <= k ->
  st_data s = cut k (concat (map enc_doc docs)) -> st_err s = EEOF ->
  exists ess, dc_docs n fuel s = (ess, if (snd (whole docs k) =? 0) || (snd (whole docs k) =? 4) then Ret tt else Panic (PErr EUnexpectedEOF)) /\
    Forall2 (fun es fs => doc_marshal fuel es = Ret (inl (enc_doc fs))) ess (fst (whole docs k)).
Proof.
  assert (Dc : forall n fuel s ess s' e, read_docs n fuel s = (ess, s', Ret (Some e)) -> dc_docs n fuel s = (ess, match e with EEOF => Ret tt | e => Panic (PErr e) end)).
  { induction n as [|n IH]; intros fuel s ess s' e H; cbn [read_docs dc_docs] in *; [discriminate|]. unfold dc_read_from.
    destruct (dce_read_from fuel s) as [s1 [[es|x]|p|]]; try discriminate.
    - destruct (read_docs n fuel s1) as [[l s2] o] eqn:R. injection H as <- <- ->. now rewrite (IH _ _ _ _ _ R).
    - injection H as <- <- <-. destruct x; reflexivity. }
  intros fuel docs n s k L A K D E. destruct (C112_documents_partial fuel docs n s k L A K D E) as (ess & s' & H & F).
  exists ess. split; [|exact F]. rewrite (Dc _ _ _ _ _ _ H). unfold says. destruct (_ || _); reflexivity.
Qed.
Print Assumptions C112_read_from_partial.

(* Four bytes into a document the cut goes unnoticed: whatever was written before, and whatever
   was lost, the answers are those for a complete file. *)
Theorem C112_noticed_refuted : forall fuel docs d lost n s, (length (docs ++ d :: lost) < n)%nat -> Forall (doc_fits fuel) (docs ++ d :: lost) ->
  st_data s = cut (zlen (concat (map enc_doc docs)) + 4) (concat (map enc_doc (docs ++ d :: lost))) -> st_err s = EEOF ->
  (exists ess s', read_docs n fuel s = (ess, s', Ret (Some EEOF)) /\ Forall2 (fun es fs => doc_marshal fuel es = Ret (inl (enc_doc fs))) ess docs) /\
  (exists ess, dc_docs n fuel s = (ess, Ret tt) /\ Forall2 (fun es fs => doc_marshal fuel es = Ret (inl (enc_doc fs))) ess docs).
Proof.
  intros fuel docs d lost n s L A D E.
  assert (Wh : whole (docs ++ d :: lost) (zlen (concat (map enc_doc docs)) + 4) = (docs, 4)).
  { clear -A. induction docs as [|x docs IH]; cbn [app] in *; inversion_clear A as [|? ? Ax A'].
    - cbn [map concat whole]. destruct Ax as (_ & S & _). destruct (enc_doc_split d S) as (_ & _ & _ & _ & _ & _ & L5).
      replace (zlen (@nil Z) + 4 <? zlen (enc_doc d)) with true by (change (zlen (@nil Z)) with 0; lia). reflexivity.
    - cbn [map concat whole]. rewrite zlen_app. pose proof (zlen_nonneg (concat (map enc_doc docs))).
      replace (zlen (enc_doc x) + zlen (concat (map enc_doc docs)) + 4 <? zlen (enc_doc x)) with false by lia.
      replace (zlen (enc_doc x) + zlen (concat (map enc_doc docs)) + 4 - zlen (enc_doc x)) with (zlen (concat (map enc_doc docs)) + 4) by lia. now rewrite (IH A'). }
  assert (P : 0 <= zlen (concat (map enc_doc docs)) + 4) by (pose proof (zlen_nonneg (concat (map enc_doc docs))); lia). split.
  - destruct (C112_documents_partial fuel _ n s _ L A P D E) as (ess & s' & H & F). rewrite Wh in *. exists ess, s'. auto.
  - destruct (C112_read_from_partial fuel _ n s _ L A P D E) as (ess & H & F). rewrite Wh in *. exists ess. auto.
Qed.
Print Assumptions C112_noticed_refuted.

(* ------------------------------------------------------------------------ chunks *)

Section Chunks.
Variable nan : Z -> Z -> Z.
Variables (zip : bytes -> bytes) (unzip : bytes -> option bytes).
Hypothesis codec : codec_ok zip unzip.
Notation sbytes := (seg_bytes nan zip).
Notation sdocs := (seg_docs nan zip).

Lemma doc_min fs : 5 <= zlen (enc_doc fs).
Proof. unfold enc_doc, enc_frame. rewrite !zlen_app, zlen_le32. pose proof (zlen_nonneg (enc_elems fs)). change (zlen [0]) with 1. lia. Qed.
Lemma segs_docs gs : concat (map sbytes gs) = concat (map enc_doc (concat (map sdocs gs))).
Proof. induction gs as [|g gs IH]; [reflexivity|]. cbn [map concat]. now rewrite map_app, concat_app, IH. Qed.
Lemma whole_app a : forall b k, zlen (concat (map enc_doc a)) <= k ->
  whole (a ++ b) k = (a ++ fst (whole b (k - zlen (concat (map enc_doc a)))), snd (whole b (k - zlen (concat (map enc_doc a))))).
Proof.
  induction a as [|x a IH]; intros b k L; cbn [app map concat whole] in *.
  - change (zlen (@nil Z)) with 0. rewrite Z.sub_0_r. now destruct (whole b k).
  - rewrite zlen_app in *. pose proof (zlen_nonneg (concat (map enc_doc a))). destruct (Z.ltb_spec k (zlen (enc_doc x))); [lia|].
    rewrite IH by lia. replace (k - zlen (enc_doc x) - zlen (concat (map enc_doc a))) with (k - (zlen (enc_doc x) + zlen (concat (map enc_doc a)))) by lia. reflexivity.
Qed.

Lemma whole_all a : whole a (zlen (concat (map enc_doc a))) = (a, 0).
Proof. pose proof (whole_app a [] _ (Z.le_refl _)) as H. rewrite app_nil_r in H. rewrite H. cbn. now rewrite app_nil_r. Qed.

(* of the documents wholly there, those of whole segments come first, then at most metadata *)
Lemma whole_segs fuel : forall gs k, Forall (seg_ok fuel) gs -> 0 <= k -> exists j ms, (j <= length gs)%nat /\
  fst (whole (concat (map sdocs gs)) k) = concat (map sdocs (firstn j gs)) ++ ms /\
  (ms = [] \/ exists start m, ms = [meta_fields start m] /\ wf_fields m /\ meta_fits fuel start (Some m)) /\
  zlen (concat (map sbytes (firstn j gs))) <= k /\
  ((j < length gs)%nat -> k < zlen (concat (map sbytes (firstn (S j) gs)))) /\
  (k = zlen (concat (map sbytes (firstn j gs))) \/ k = zlen (concat (map sbytes (firstn j gs))) + 4 \/ j = length gs -> says (snd (whole (concat (map sdocs gs)) k)) = EEOF).
Proof.
  induction gs as [|g gs IH]; intros k A K.
  { exists 0%nat, []. cbn [firstn map concat whole fst snd length app]. change (zlen (@nil Z)) with 0. split; [lia|]. split; [reflexivity|]. split; [auto|]. split; [lia|]. split; [lia|auto]. }
  inversion_clear A as [|? ? Ag A']. cbn [map concat]. destruct (Z.leb_spec (zlen (sbytes g)) k) as [L|L].
  - destruct (IH (k - zlen (sbytes g)) A' ltac:(lia)) as (j & ms & Lj & W & Hm & L1 & L2 & L3).
    assert (Fs : forall i, zlen (concat (map sbytes (firstn (S i) (g :: gs)))) = zlen (sbytes g) + zlen (concat (map sbytes (firstn i gs)))) by (intros i; apply zlen_app).
    exists (S j), ms. cbn [length]. split; [lia|]. rewrite whole_app by exact L. cbn [fst snd]. rewrite !Fs. unfold sbytes at 1 in W.
    split; [rewrite W; apply app_assoc|]. split; [exact Hm|]. split; [lia|]. split.
    + intros H. specialize (L2 ltac:(lia)). lia.
    + intros [H|[H|H]]; apply L3; [left|right; left|right; right]; lia.
  - assert (Fs : zlen (concat (map sbytes (firstn 1 (g :: gs)))) = zlen (sbytes g)) by (cbn [firstn map concat]; now rewrite app_nil_r).
    exists 0%nat. rewrite Fs. change (zlen (concat (map sbytes (firstn 0 (g :: gs))))) with 0. change (concat (map sdocs (firstn 0 (g :: gs)))) with (@nil (list (bytes * bval))).
    clear Fs. destruct g as [[md start] acc]. unfold seg_ok in Ag. destruct Ag as (_ & _ & _ & _ & _ & Mf & Mw). cbn [app].
    assert (P : exists ms, fst (whole (sdocs (md, start, acc) ++ concat (map sdocs gs)) k) = ms /\
      (ms = [] \/ exists start m, ms = [meta_fields start m] /\ wf_fields m /\ meta_fits fuel start (Some m)) /\
      (k = 0 \/ k = 4 -> says (snd (whole (sdocs (md, start, acc) ++ concat (map sdocs gs)) k)) = EEOF)).
    { unfold seg_bytes, seg_docs, out_docs in *. destruct md as [m|]; cbn [app map concat] in L |- *; rewrite ?app_nil_r, ?zlen_app in L; cbn [whole].
      - destruct (Z.ltb_spec k (zlen (enc_doc (meta_fields start m)))) as [L1|L1]; [exists []; cbn; split; [reflexivity|]; split; [auto|]; intros [->| ->]; reflexivity|].
        match goal with |- context[k - ?a <? ?b] => replace (k - a <? b) with true by lia end.
        exists [meta_fields start m]. cbn [fst snd]. split; [reflexivity|]. split; [right; exists start, m; auto|].
        intros Q. pose proof (doc_min (meta_fields start m)). lia.
      - match goal with |- context[k <? ?b] => replace (k <? b) with true by lia end. exists []. cbn; split; [reflexivity|]; split; [auto|]; intros [->| ->]; reflexivity. }
    destruct P as (ms & P1 & P2 & P3). exists ms. split; [lia|]. split; [exact P1|]. split; [exact P2|]. split; [lia|]. split; [auto|]. intros [H|[H|H]]; [apply P3; lia..|discriminate].
Qed.
Lemma chunks_snoc fuel em : (forall om, read_chunk_doc unzip fuel om em = Ret RMeta) -> forall ess om,
  chunks_of unzip fuel om (ess ++ [em]) = chunks_of unzip fuel om ess.
Proof.
  intros M. induction ess as [|e ess IH]; intros om; cbn [app chunks_of]; [rewrite M; reflexivity|].
  destruct (read_chunk_doc unzip fuel om e) as [[| |c|x]|p|]; auto. now rewrite IH.
Qed.

(* Reading what is left of chunks is reading the first ones, but for the error. *)
Lemma cut_segs fuel gs n s k : Forall (seg_ok fuel) gs -> 0 <= k -> (2 * length gs < n)%nat ->
  st_data s = cut k (concat (map sbytes gs)) -> st_err s = EEOF ->
  exists j e, (j <= length gs)%nat /\ zlen (concat (map sbytes (firstn j gs))) <= k /\
    ((j < length gs)%nat -> k < zlen (concat (map sbytes (firstn (S j) gs)))) /\
    e = told (snd (whole (concat (map sdocs gs)) k)) /\ (k = zlen (concat (map sbytes (firstn j gs))) \/ k = zlen (concat (map sbytes (firstn j gs))) + 4 \/ j = length gs -> e = None) /\
    read_chunks unzip n fuel s = (fst (read_chunks unzip n fuel (MkStream (concat (map sbytes (firstn j gs))) [] EEOF false)), Ret e).
Proof.
  intros A K L D E. destruct (whole_segs fuel gs k A K) as (j & ms & Lj & W & Hm & L1 & L2 & L3).
  assert (Ad : Forall (doc_fits fuel) (concat (map sdocs gs))).
  { clear -A codec. induction A; cbn; [constructor|]. apply Forall_app. split; auto. now apply (seg_docs_ok nan zip unzip). }
  assert (Ln : (length (concat (map sdocs gs)) < n)%nat).
  { assert (length (concat (map sdocs gs)) <= 2 * length gs)%nat; [|lia]. clear.
    induction gs as [|[[md start] acc] gs IH]; cbn; [lia|]. rewrite app_length. unfold out_docs. destruct md; cbn [app length]; lia. }
  rewrite segs_docs in D. set (docs := concat (map sdocs gs)) in *.
  destruct (cut_docs fuel docs n s (MkStream (concat (map enc_doc (fst (whole docs k)))) [] EEOF false) k Ln Ad K D E eq_refl eq_refl) as (ess & s' & s2' & R & R2 & F & G).
  set (x := snd (whole docs k)) in *.
  exists j, (told x). split; [exact Lj|]. split; [exact L1|]. split; [exact L2|].
  split; [reflexivity|]. split; [intros Q; unfold told; now rewrite (L3 Q)|].
  (* the chunks *)
  assert (Aj : Forall (seg_ok fuel) (firstn j gs)) by (rewrite <- (firstn_skipn j gs) in A; now apply Forall_app in A).
  assert (Lnj : (length (concat (map sdocs (firstn j gs))) < n)%nat).
  { pose proof (f_equal (@length _) W) as Q. rewrite app_length in Q. destruct (whole_prefix docs k) as (post & P).
    apply (f_equal (@length _)) in P. rewrite app_length in P. lia. }
  assert (Adj : Forall (doc_fits fuel) (concat (map sdocs (firstn j gs)))).
  { clear -Aj codec. induction Aj; cbn; [constructor|]. apply Forall_app. split; auto. now apply (seg_docs_ok nan zip unzip). }
  set (sj := MkStream (concat (map sbytes (firstn j gs))) [] EEOF false).
  destruct (cut_docs fuel (concat (map sdocs (firstn j gs))) n sj sj (zlen (concat (map sbytes (firstn j gs)))) Lnj Adj (zlen_nonneg _)) as (ess3 & s3 & s4 & R3 & _ & F3 & G3);
    try reflexivity.
  { unfold cut, sj. cbn [st_data]. rewrite segs_docs. symmetry. apply firstn_all2. unfold zlen. lia. }
  { unfold sj. cbn [st_data]. rewrite segs_docs, whole_all. reflexivity. }
  rewrite (segs_docs (firstn j gs)), whole_all in R3, F3, G3. cbn [fst snd] in R3, F3, G3.
  assert (Ex : exists em, ess = ess3 ++ em /\ Forall2 rep_doc em ms).
  { rewrite W in F, G. clear -F G G3. apply Forall2_app_inv_r in F as (a & b & Fa & Fb & ->). exists b. split; [|exact Fb]. f_equal.
    assert (La : length a = length (concat (map sdocs (firstn j gs)))) by (clear -Fa; induction Fa; cbn; auto).
    revert a La G Fa. generalize dependent (concat (map sdocs (firstn j gs))). intros l G3. induction G3 as [|e f es l He G3 IH]; intros a La G Fa.
    - now destruct a.
    - destruct a as [|x a]; [discriminate|]. cbn [app] in G. inversion G; subst. inversion Fa; subst. f_equal; [congruence|]. apply IH; auto. }
  destruct Ex as (em & -> & Fm).
  destruct (chunks_of_segs nan zip unzip codec fuel (firstn j gs) ess3 None None Aj I F3) as (cs & Ec & _).
  assert (Ec' : chunks_of unzip fuel None (ess3 ++ em) = (cs, Ret None)).
  { destruct Hm as [->|(start & m & -> & Wm & Fi)]; [inversion Fm; now rewrite app_nil_r|].
    inversion Fm as [|e ? em' ? Re Fe]; subst. inversion Fe; subst. rewrite chunks_snoc; [exact Ec|].
    intros om. now apply (read_meta_spec nan unzip fuel om e start m). }
  unfold read_chunks. fold sj. rewrite R, Ec', R3, Ec. cbn [bind fst]. unfold told, says. destruct (_ || _); reflexivity.
Qed.
End Chunks.

(* ---------------------------------------------------------- streaming collectors *)

Lemma taken_length : forall ds rs, (length (taken ds rs) <= length ds)%nat.
Proof. induction ds as [|[d|] ds IH]; intros [|[[e|]|p|] rs]; cbn; try lia; specialize (IH rs); lia. Qed.
Lemma count_le (p q a b x y t u d1 d2 : nat) : (p + q <= a + b -> a + x = t -> b + y = x + u -> t <= d1 -> u <= d2 -> p + q <= d1 + d2)%nat.
Proof. lia. Qed.
Lemma lt_abs (k a x : Z) : k < a -> a + x <= k -> 0 <= x -> False.
Proof. lia. Qed.
Lemma groups_length (gs : list (list fields)) : Forall (fun g => 1 <= zlen g) gs -> (length gs <= length (concat gs))%nat.
Proof. induction 1 as [|g gs Hg _ IH]; cbn; [lia|]. rewrite app_length. unfold zlen in Hg. lia. Qed.
Lemma firstn_prefix {A} (a b : list A) j : (length a <= j)%nat -> exists c d, firstn j (a ++ b) = a ++ c /\ b = c ++ d.
Proof. intros L. exists (firstn (j - length a) b), (skipn (j - length a) b). rewrite firstn_app, firstn_all2 by exact L. now rewrite firstn_skipn. Qed.

Lemma seg_min nan zip g : 5 <= zlen (seg_bytes nan zip g).
Proof.
  destruct g as [[md start] acc]. unfold seg_bytes, seg_docs, out_docs. rewrite map_app, concat_app, zlen_app. cbn [map concat]. rewrite zlen_app.
  match goal with |- _ <= _ + (zlen (enc_doc ?d) + _) => pose proof (doc_min d) end.
  repeat match goal with |- context[zlen ?x] => lazymatch x with enc_doc _ => fail | _ => idtac end; pose proof (zlen_nonneg x); generalize dependent (zlen x); intros end. lia.
Qed.
Lemma no_room (k a b c : Z) : k = a + 4 -> a + (b + c) <= k -> 5 <= b -> 0 <= c -> False.
Proof. lia. Qed.
Lemma pos_lt (a b c : Z) : 0 <= b -> 1 <= a <= c -> forall x, x < a + b + x.
Proof. lia. Qed.
Lemma stream_cut : forall nan zip unzip to_json fuel max md mfs ops1 ds1 ops2 ds2 c1 w1 rs1 c2 w2 rs2 k s n,
  codec_ok zip unzip -> 0 <= max < 4294967296 -> meta_ok fuel md mfs ->
  Forall2 (sop_is fuel) ops1 ds1 -> stream_room fuel max ds1 -> Forall2 (sop_is fuel) ops2 ds2 -> stream_room fuel max ds2 ->
  sc_run nan zip to_json fuel (streaming_with max md) (MkW [] []) ops1 = (c1, w1, rs1) ->
  sc_run nan zip to_json fuel c1 w1 ops2 = (c2, w2, rs2) ->
  zlen (w_out w1) <= k -> st_data s = cut k (w_out w2) -> st_err s = EEOF -> (2 * (length ops1 + length ops2) < n)%nat ->
  exists cs gs e docs safe buffered more lost,
    read_chunks unzip n fuel s = (cs, Ret e) /\
    w_out w2 = concat (map enc_doc docs) /\ e = told (snd (whole docs k)) /\
    (zlen (w_out w2) <= k -> e = None /\ zlen lost = c_samples (sc_inner c2)) /\
    Forall2 (chunk_holds nan) cs gs /\ Forall (carries fuel mfs) cs /\
    concat gs = safe ++ more /\
    taken ds1 rs1 = safe ++ buffered /\ zlen buffered = c_samples (sc_inner c1) /\
    taken ds1 rs1 ++ taken ds2 rs2 = concat gs ++ lost /\
    (k = zlen (w_out w1) + 4 -> e = None /\ more = [] /\ (k <= zlen (w_out w2) -> c_samples (sc_inner c2) < zlen lost)).
Proof.
  intros nan zip unzip to_json fuel max md mfs ops1 ds1 ops2 ds2 c1 w1 rs1 c2 w2 rs2 k s n Cz Mx Mo F1 Ro1 F2 Ro2 Run1 Run2 Lk D E Ln.
  destruct (meta_ok_fits _ _ _ Mo) as [Mi Mf]. set (w0 := MkW [] []) in *.
  destruct (srun nan zip unzip Cz to_json fuel max Mx w0 md mfs ops1 ds1 Mi Mf F1 Ro1 _ _ [] [] (sinv_start nan zip to_json fuel max Mx w0 md mfs w0 eq_refl))
    as (c' & w' & rs' & ps & acc & R & Iv & Fm & T1 & _). rewrite R in Run1. injection Run1 as -> -> ->. cbn [app] in *.
  destruct (srun nan zip unzip Cz to_json fuel max Mx w0 md mfs ops2 ds2 Mi Mf F2 Ro2 _ _ _ _ Iv) as (c' & w' & rs' & new & acc2 & R2 & Iv2 & Fm2 & T2 & _).
  rewrite R2 in Run2. injection Run2 as -> -> ->.
  destruct Iv as (_ & _ & (b & Eb & C) & _ & _ & _ & _ & Wo & _ & _ & Wp).
  destruct Iv2 as (_ & _ & (b2 & Eb2 & C2) & _ & _ & _ & _ & Wo2 & Ws & Wg & Wp2).
  destruct (Wp eq_refl) as [_ Al]. destruct (Wp2 eq_refl) as [_ Al2]. cbn [w_out w0 app] in Wo, Wo2.
  rewrite (pieces_out nan zip _ Al) in Wo. rewrite (pieces_out nan zip _ Al2) in Wo2.
  assert (Lg : (length (segs (ps ++ new)) <= length ops1 + length ops2)%nat).
  { assert (G : Forall (fun g : list fields => 1 <= zlen g) (groups (ps ++ new))) by (eapply Forall_impl; [|exact Wg]; intros g (Q & _); lia).
    apply groups_length in G. rewrite groups_app, concat_app, !app_length in G. apply (f_equal (@length _)) in T1, T2. rewrite app_length in T1. rewrite (app_length (concat _)), (app_length acc) in T2.
    pose proof (taken_length ds1 rs1). pose proof (taken_length ds2 rs2).
    assert (Fl : forall ops ds, Forall2 (sop_is fuel) ops ds -> length ops = length ds) by (clear; induction 1; cbn; auto).
    rewrite (Fl _ _ F1), (Fl _ _ F2). unfold groups in G. rewrite !map_length in G. rewrite segs_app, app_length. exact (count_le _ _ _ _ _ _ _ _ _ _ G T1 T2 H H0). }
  rewrite Wo2 in D.
  destruct (cut_segs nan zip unzip Cz fuel (segs (ps ++ new)) n s k Ws) as (j & e & Lj & Lo & Hi & He & Hx & Rd); auto; [pose proof (zlen_nonneg (w_out w1)); lia|lia|].
  set (gj := firstn j (segs (ps ++ new))) in *.
  assert (Part : exists post, segs (ps ++ new) = gj ++ post) by (exists (skipn j (segs (ps ++ new))); unfold gj; now rewrite firstn_skipn).
  destruct Part as (post & Part).
  assert (Fall : Forall (fun s : seg => fst (fst s) = mfs) (segs (ps ++ new))) by (rewrite segs_app; apply Forall_app; auto).
  assert (Wsj : Forall (seg_ok fuel) gj) by (rewrite Part in Ws; now apply Forall_app in Ws).
  assert (Fj : Forall (fun s : seg => fst (fst s) = mfs) gj) by (rewrite Part in Fall; now apply Forall_app in Fall).
  destruct (read_kept nan zip unzip Cz fuel mfs gj (MkStream (concat (map (seg_bytes nan zip) gj)) [] EEOF false) n) as (cs & Rc & H1 & H2); auto.
  { assert (Q : Forall (Forall small) (groups (ps ++ new))) by (eapply good_small; eauto). unfold groups in Q. rewrite Part, map_app in Q. now apply Forall_app in Q. }
  { unfold meta_is in Mi. destruct md, mfs; try contradiction; auto. split; [apply Mi|exact Mf]. }
  { destruct gj as [|x r]; [exact I|]. inversion_clear Fj as [|? ? Q1 Q2]. split; [exact Q1|]. eapply Forall_impl; [|exact Q2]. auto. }
  { unfold gj. rewrite firstn_length. lia. }
  rewrite Rc in Rd. cbn [fst] in Rd.
  (* everything written by the first calls is among the whole segments *)
  assert (Lp : (length (segs ps) <= j)%nat).
  { destruct (Nat.le_gt_cases (length (segs ps)) j) as [Q|Q]; [exact Q|exfalso].
    assert (Hj : (j < length (segs (ps ++ new)))%nat) by (rewrite segs_app, app_length; lia). specialize (Hi Hj).
    rewrite segs_app, firstn_app in Hi. replace (S j - length (segs ps))%nat with 0%nat in Hi by lia. cbn [firstn] in Hi. rewrite app_nil_r in Hi.
    rewrite Wo in Lk. rewrite <- (firstn_skipn (S j) (segs ps)), map_app, concat_app, zlen_app in Lk.
    exact (lt_abs _ _ _ Hi Lk (zlen_nonneg _)). }
  destruct (firstn_prefix (segs ps) (segs new) j Lp) as (a & d & Ea & Ed). rewrite <- segs_app in Ea. fold gj in Ea.
  exists cs, (map snd gj), e, (concat (map (seg_docs nan zip) (segs (ps ++ new)))), (concat (groups ps)), acc, (concat (map snd a)), (concat (map snd d) ++ acc2).
  split; [exact Rd|]. split; [rewrite Wo2; apply segs_docs|]. split; [exact He|]. split; [|split; [exact H1|split; [exact H2|split; [|split; [|split; [|split]]]]]].
  - intros Lw. rewrite Wo2 in Lw. assert (Qj : j = length (segs (ps ++ new))).
    { destruct (Nat.le_gt_cases (length (segs (ps ++ new))) j) as [Q|Q]; [apply Nat.le_antisymm; [exact Lj|exact Q]|exfalso]. specialize (Hi Q).
      rewrite <- (firstn_skipn (S j) (segs (ps ++ new))), map_app, concat_app, zlen_app in Lw. exact (lt_abs _ _ _ Hi Lw (zlen_nonneg _)). }
    split; [apply Hx; right; right; exact Qj|]. assert (Eg : gj = segs (ps ++ new)) by (unfold gj; rewrite Qj; apply firstn_all).
    rewrite Ea, segs_app, Ed in Eg. apply app_inv_head in Eg. rewrite <- (app_nil_r a) in Eg at 1. apply app_inv_head in Eg. subst d.
    cbn [map concat app]. rewrite Eb2. symmetry. apply (cstate_count _ _ _ _ _ C2).
  - rewrite Ea, map_app, concat_app. reflexivity.
  - symmetry. exact T1.
  - rewrite Eb. symmetry. apply (cstate_count _ _ _ _ _ C).
  - rewrite Ea, map_app, concat_app, <- T1, <- !app_assoc. f_equal. rewrite <- T2, app_assoc. f_equal. unfold groups.
    now rewrite Ed, map_app, concat_app.
  - intros Ek.
    assert (Na : a = []).
    { destruct a as [|g a]; [reflexivity|exfalso]. rewrite Ea, map_app, concat_app, zlen_app in Lo. cbn [map concat] in Lo. rewrite zlen_app in Lo.
      pose proof (seg_min nan zip g). pose proof (zlen_nonneg (concat (map (seg_bytes nan zip) a))). rewrite Wo in Ek. apply (no_room _ _ _ _ Ek Lo); assumption. }
    subst a. rewrite app_nil_r in Ea. cbn [app] in Ed. split; [apply Hx; right; left; rewrite Ea, <- Wo; exact Ek|]. split; [reflexivity|].
    intros Lw. rewrite Eb2. cbn [c_samples]. rewrite (cstate_count _ _ _ _ _ C2). subst d.
    destruct (segs new) as [|g r] eqn:En.
    { rewrite Wo2, segs_app, En, app_nil_r, <- Wo in Lw. lia. }
    cbn [map concat]. assert (Gg : good_group max (snd g)).
    { unfold groups in Wg. rewrite segs_app, En, map_app in Wg. apply Forall_app in Wg as [_ Wg]. now inversion Wg. }
    destruct Gg as [Gg _]. rewrite !zlen_app. pose proof (zlen_nonneg (concat (map snd r))). apply (pos_lt _ _ _ H Gg).
Qed.
(* C112.  A client streams samples to a file; after some calls the bytes so far are safe, and then
   it makes more calls and crashes with any number k of bytes in the file.  Reading the file gives
   chunks, with the metadata.  Their samples are a first part of those accepted, in order, and have
   all those accepted by the first calls that were not still in the collector then.  What was
   written are documents, and the error is io.ErrUnexpectedEOF if part of one is left and it is
   not four bytes, and nil otherwise. *)
Theorem C112_streaming : forall nan zip unzip to_json fuel max md mfs ops1 ds1 ops2 ds2 c1 w1 rs1 c2 w2 rs2 k s n,
  codec_ok zip unzip -> 0 <= max < 4294967296 -> meta_ok fuel md mfs ->
  Forall2 (sop_is fuel) ops1 ds1 -> stream_room fuel max ds1 -> Forall2 (sop_is fuel) ops2 ds2 -> stream_room fuel max ds2 ->
  sc_run nan zip to_json fuel (streaming_with max md) (MkW [] []) ops1 = (c1, w1, rs1) ->
  sc_run nan zip to_json fuel c1 w1 ops2 = (c2, w2, rs2) ->
  zlen (w_out w1) <= k -> st_data s = cut k (w_out w2) -> st_err s = EEOF -> (2 * (length ops1 + length ops2) < n)%nat ->
  exists cs gs e docs safe buffered more lost,
    read_chunks unzip n fuel s = (cs, Ret e) /\
    w_out w2 = concat (map enc_doc docs) /\ e = told (snd (whole docs k)) /\
    (zlen (w_out w2) <= k -> e = None /\ zlen lost = c_samples (sc_inner c2)) /\
    Forall2 (chunk_holds nan) cs gs /\ Forall (carries fuel mfs) cs /\
    concat gs = safe ++ more /\
    taken ds1 rs1 = safe ++ buffered /\ zlen buffered = c_samples (sc_inner c1) /\
    taken ds1 rs1 ++ taken ds2 rs2 = concat gs ++ lost.
Proof.
  intros. destruct (stream_cut nan zip unzip to_json fuel max md mfs ops1 ds1 ops2 ds2 c1 w1 rs1 c2 w2 rs2 k s n)
    as (cs & gs & e & docs & safe & buffered & more & lost & H20 & H20' & H21 & H22 & H23 & H24 & H25 & H26 & H27 & H28 & _); auto.
  exists cs, gs, e, docs, safe, buffered, more, lost. auto 14.
Qed.
Print Assumptions C112_streaming.

(* But if four bytes of the next chunk are there the file looks complete: there is no error, and
   samples that the collector had passed to the writer are missing. *)
Theorem C112_lost_chunks_refuted : forall nan zip unzip to_json fuel max md mfs ops1 ds1 ops2 ds2 c1 w1 rs1 c2 w2 rs2 s n,
  codec_ok zip unzip -> 0 <= max < 4294967296 -> meta_ok fuel md mfs ->
  Forall2 (sop_is fuel) ops1 ds1 -> stream_room fuel max ds1 -> Forall2 (sop_is fuel) ops2 ds2 -> stream_room fuel max ds2 ->
  sc_run nan zip to_json fuel (streaming_with max md) (MkW [] []) ops1 = (c1, w1, rs1) ->
  sc_run nan zip to_json fuel c1 w1 ops2 = (c2, w2, rs2) ->
  zlen (w_out w1) + 4 <= zlen (w_out w2) ->
  st_data s = cut (zlen (w_out w1) + 4) (w_out w2) -> st_err s = EEOF -> (2 * (length ops1 + length ops2) < n)%nat ->
  exists cs gs lost, read_chunks unzip n fuel s = (cs, Ret None) /\ Forall2 (chunk_holds nan) cs gs /\
    taken ds1 rs1 ++ taken ds2 rs2 = concat gs ++ lost /\ c_samples (sc_inner c2) < zlen lost.
Proof.
  intros. destruct (stream_cut nan zip unzip to_json fuel max md mfs ops1 ds1 ops2 ds2 c1 w1 rs1 c2 w2 rs2 (zlen (w_out w1) + 4) s n)
    as (cs & gs & e & docs & safe & buffered & more & lost & H20 & H20' & H21 & H22 & H23 & H24 & H25 & H26 & H27 & H28 & H29); auto; [lia|].
  destruct (H29 eq_refl) as (E0 & _ & L). rewrite E0 in H20. exists cs, gs, lost. auto 6.
Qed.
Print Assumptions C112_lost_chunks_refuted.

(* And after a restart that appends to the file: with part of a document there, any number of
   documents that are shorter together than what is missing of it are not read. *)
Theorem C112_appended_refuted : forall fuel docs d x after n s, Forall (doc_fits fuel) (docs ++ [d]) -> Forall (doc_fits fuel) after -> after <> [] ->
  4 <= x -> x + zlen (concat (map enc_doc after)) < zlen (enc_doc d) -> (length docs < n)%nat ->
  st_data s = concat (map enc_doc docs) ++ cut x (enc_doc d) ++ concat (map enc_doc after) -> st_err s = EEOF ->
  exists ess s', read_docs n fuel s = (ess, s', Ret (Some EUnexpectedEOF)) /\ Forall2 (fun es fs => doc_marshal fuel es = Ret (inl (enc_doc fs))) ess docs.
Proof.
  intros fuel docs d x after. induction docs as [|y docs IH]; intros n s A Aa Na X L Ln D E; (destruct n as [|n]; [cbn in Ln; lia|]);
    cbn [app] in A; inversion_clear A as [|? ? Ay A']; cbn [map concat app] in D; cbn [read_docs].
  - destruct Ay as (W & S & F). destruct (enc_doc_split d S) as (h & b & Eh & Lh & Rh & Lb & L5).
    set (a := concat (map enc_doc after)) in *.
    assert (Pa : 5 <= zlen a) by (destruct after as [|z r]; [congruence|]; unfold a; cbn [map concat]; rewrite zlen_app; pose proof (doc_min z); pose proof (zlen_nonneg (concat (map enc_doc r))); lia).
    assert (Ec : cut x (enc_doc d) = h ++ cut (x - 4) b) by (rewrite Eh, cut_app by lia; now rewrite Lh).
    rewrite Ec, <- app_assoc in D. destruct (read_full_enough s 4 h _ ltac:(lia) D Lh) as (s1 & R1 & D1 & G1).
    assert (L1 : zlen (st_data s1) = x - 4 + zlen a) by (rewrite D1, zlen_app; unfold cut, zlen in *; rewrite firstn_length; lia).
    destruct (read_full_short s1 (zlen (enc_doc d) - 4) ltac:(lia) ltac:(lia)) as (s' & R & _).
    exists [], s'. split; [|constructor]. unfold dce_read_from, doc_read_from. rewrite R1, Rh. replace (zlen (enc_doc d) <? 4) with false by lia.
    rewrite R. unfold Stream.short. rewrite G1, E. replace (zlen (st_data s1) =? 0) with false by lia. reflexivity.
  - destruct Ay as (W & S & F). rewrite <- app_assoc in D. destruct (doc_read_from_wf fuel s y _ W S F D) as (s1 & es & H & R & D1 & E1).
    cbn [length] in Ln. destruct (IH n s1 A' Aa Na X L ltac:(lia) D1 ltac:(congruence)) as (ess & s' & H1 & H2).
    exists (es :: ess), s'. unfold dce_read_from. rewrite H, H1. split; [reflexivity|]. constructor; [apply doc_marshal_rep; [|exact W|exact S|exact F]|exact H2].
    destruct (read_document_wf y [] fuel W) as (es' & Rd' & Rr); rewrite ?app_nil_r; auto. rewrite app_nil_r in Rd'. congruence.
Qed.
Print Assumptions C112_appended_refuted.

(* A case: two documents in a file that is cut in the second one, or appended to; and a collector
   with a flush in the middle that writes after it. *)
Definition cr_a : list (bytes * bval) := [([97], BInt32 1)].
Definition cr_b : list (bytes * bval) := [([98], BString [120; 121; 122; 120; 121; 122; 120; 121; 122; 120])].
Example C112_nonvacuous :
  Forall (doc_fits 3000) [cr_a; cr_b] /\ whole [cr_a; cr_b] 20 = ([cr_a], 8) /\ whole [cr_a; cr_b] 16 = ([cr_a], 4) /\
  8 + zlen (concat (map enc_doc [cr_a])) < zlen (enc_doc cr_b) /\
  exists ops1 ops2,
    Forall2 (sop_is 3000) ops1 [Some (one (BInt64 1)); None] /\ Forall2 (sop_is 3000) ops2 [Some (one (BInt64 2)); None] /\
    stream_room 3000 1 [Some (one (BInt64 1)); None] /\ stream_room 3000 1 [Some (one (BInt64 2)); None] /\
    let '(c1, w1, _) := sc_run no_nan keep no_json 3000 (streaming_with 1 None) (MkW [] []) ops1 in
    let '(c2, w2, _) := sc_run no_nan keep no_json 3000 c1 w1 ops2 in
    c_samples (sc_inner c1) = 0 /\ 0 < zlen (w_out w1) /\ zlen (w_out w1) + 4 <= zlen (w_out w2).
Proof.
  assert (Fits : forall d, In d [cr_a; cr_b] -> doc_fits 3000 d).
  { intros d [<-|[<-|[]]]; (split; [repeat constructor; try (vm_compute; intuition congruence)|]; split; [vm_compute; reflexivity|vm_compute; intuition congruence]). }
  split; [repeat (constructor; [apply Fits; cbn; auto|]); constructor|]. split; [vm_compute; reflexivity|]. split; [vm_compute; reflexivity|]. split; [vm_compute; reflexivity|].
  assert (T : forall z, In z [1; 2] -> exists es, build_doc (one (BInt64 z)) = Ret es /\ sample 3000 es (one (BInt64 z)) /\ room 3000 (1 + 1) (one (BInt64 z))).
  { intros z Hz. assert (Sh : short (one (BInt64 z)) /\ zlen (doc_leaves (one (BInt64 z))) = 1).
    { destruct Hz as [<-|[<-|[]]]; (split; [split; [repeat constructor; try (vm_compute; intuition congruence)|vm_compute; reflexivity]|vm_compute; reflexivity]). }
    destruct Sh as [Sh Lv]. destruct (short_samples [one (BInt64 z)]) as (docs & E & B); [constructor; [exact Sh|constructor]|].
    cbn [mapM] in E. destruct (build_doc (one (BInt64 z))) as [es|p|]; try discriminate. cbn [bind] in E. injection E as <-. cbn [at0 map] in B.
    inversion_clear B as [|? ? ? ? B1 _]. exists es. split; [reflexivity|]. split; [exact B1|]. unfold room, chunk_room, enough. destruct Sh as [_ Sh]. rewrite Lv. lia. }
  destruct (T 1) as (e1 & E1 & S1 & R1); [cbn; auto|]. destruct (T 2) as (e2 & E2 & S2 & R2); [cbn; auto|].
  exists [OAdd 0 e1; OFlush], [OAdd 0 e2; OFlush].
  split; [constructor; [exact S1|constructor; [exact I|constructor]]|]. split; [constructor; [exact S2|constructor; [exact I|constructor]]|].
  split; [constructor; [exact R1|constructor; [exact I|constructor]]|]. split; [constructor; [exact R2|constructor; [exact I|constructor]]|].
  vm_compute in E1, E2. injection E1 as <-. injection E2 as <-. vm_compute. intuition congruence.
Qed.
