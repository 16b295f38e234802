(* C105: ranging over Reader.Iterator *)
Require Import ZArith List Bool Lia ZifyBool.
From Verif Require Import Base Elements Value RdIter.
Import ListNotations.
Open Scope Z_scope.

(* the elements of a document that was read, as the body of a loop sees them *)
Definition seen (es : document) : list yielded := flat_map (fun e => match e with Some v => [YElem v] | None => [] end) es.
Definition ending (e : option gerr) : list yielded := match e with Some e => [YErr e] | None => [] end.

Lemma elems_some fuel : forall r pos ende es e, iter_loop fuel r pos ende = Ret (es, e) -> exists vs, es = map Some vs.
Proof.
  induction fuel as [|fuel IH]; intros r pos ende es e E; [discriminate|]. cbn [iter_loop] in E.
  destruct (rd_step r pos ende) as [[p x|p|p v]| |]; cbn [bind] in E; try discriminate.
  - injection E as <- <-. now exists [].
  - injection E as <- <-. now exists [].
  - destruct (iter_loop fuel r p ende) as [[es' e']| |] eqn:L; cbn [bind] in E; try discriminate. injection E as <- <-.
    destruct (IH _ _ _ _ _ L) as (vs & ->). now exists (v :: vs).
Qed.
Lemma seen_map vs : seen (map Some vs) = map YElem vs.
Proof. induction vs as [|v vs IH]; [reflexivity|]. cbn. now rewrite <- IH. Qed.

(* one range: whole, or left in turn k; and where it stops *)
Lemma range_all fuel : forall r pos ende vs e, iter_loop fuel r pos ende = Ret (map Some vs, e) ->
  exists p, it_range fuel r ende (MkIt pos None) None = Ret (map YElem vs ++ ending e, MkIt p e) /\
    (e = None -> rd_step r p ende = Ret (RDone p)).
Proof.
  induction fuel as [|fuel IH]; intros r pos ende vs e E; [discriminate|]. cbn [iter_loop it_range] in *. unfold it_next. cbn [it_pos it_err].
  destruct (rd_step r pos ende) as [[p x|p|p v]| |] eqn:St; cbn [bind] in *; try discriminate.
  - injection E as E <-. destruct vs; [|discriminate]. exists p. split; [reflexivity|discriminate].
  - injection E as E <-. destruct vs; [|discriminate]. exists p. split; [reflexivity|]. intros _.
    assert (p = pos); [|subst; exact St].
    unfold rd_step in St. destruct (ende <=? pos); [discriminate|]. destruct (goindex r pos) as [b| |]; cbn [bind] in St; try discriminate.
    destruct (b =? 0); [now injection St|]. destruct (rd_validate_key r (u32 (pos + 1)) ende) as [[n [x|]]| |]; cbn [bind] in St; try discriminate.
    destruct (validate_core _ None true pos (u32 (pos + 1 + n)) r) as [[n' [x|]]| |]; cbn [bind] in St; discriminate.
  - destruct (iter_loop fuel r p ende) as [[es' e']| |] eqn:L; cbn [bind] in E; try discriminate. injection E as E <-.
    destruct vs as [|v' vs]; [discriminate|]. injection E as <- ->. destruct (IH _ _ _ _ _ L) as (q & Q & H). cbn [option_map]. rewrite Q. cbn [bind].
    exists q. split; [reflexivity|exact H].
Qed.
Lemma range_leave fuel : forall r pos ende vs e k, iter_loop fuel r pos ende = Ret (map Some vs, e) -> (k < length vs)%nat ->
  exists p fuel', it_range fuel r ende (MkIt pos None) (Some k) = Ret (map YElem (firstn (S k) vs), MkIt p None) /\
    (fuel' <= fuel)%nat /\ iter_loop fuel' r p ende = Ret (map Some (skipn (S k) vs), e).
Proof.
  induction fuel as [|fuel IH]; intros r pos ende vs e k E Hk; [discriminate|]. cbn [iter_loop it_range] in *. unfold it_next. cbn [it_pos it_err].
  destruct (rd_step r pos ende) as [[p x|p|p v]| |] eqn:St; cbn [bind] in *; try discriminate.
  - injection E as E <-. destruct vs; [cbn in Hk; lia|discriminate].
  - injection E as E <-. destruct vs; [cbn in Hk; lia|discriminate].
  - destruct (iter_loop fuel r p ende) as [[es' e']| |] eqn:L; cbn [bind] in E; try discriminate. injection E as E <-.
    destruct vs as [|v' vs]; [discriminate|]. injection E as <- ->. destruct k as [|k]; cbn [it_err].
    + exists p, fuel. split; [reflexivity|]. split; [lia|exact L].
    + cbn [length] in Hk. destruct (IH _ _ _ _ _ k L) as (q & f' & H1 & H2 & H3); [lia|]. cbn [option_map Nat.pred]. rewrite H1. cbn [bind].
      exists q, f'. split; [reflexivity|]. split; [lia|exact H3].
Qed.
Lemma iter_loop_mono f : forall f' r pos ende x, iter_loop f r pos ende = Ret x -> (f <= f')%nat -> iter_loop f' r pos ende = Ret x.
Proof.
  induction f as [|f IH]; intros [|f'] r pos ende x E H; try discriminate; try lia. cbn [iter_loop] in *.
  destruct (rd_step r pos ende) as [[p e|p|p v]| |]; cbn [bind] in *; try discriminate; auto.
  destruct (iter_loop f r p ende) as [[es e]| |] eqn:L; cbn [bind] in E; try discriminate. rewrite (IH f' _ _ _ _ L) by lia. exact E.
Qed.

(* The body of a loop over the iterator of any bytes is given the elements ReadDocument finds,
   and then the error it ends with. *)
Theorem C105_range : forall fuel r es e, doc_unmarshal fuel r = Ret (es, e) ->
  rd_ranges fuel r [None] = Ret [seen es ++ ending e].
Proof.
  intros fuel r es e E. unfold doc_unmarshal in E. unfold rd_ranges. destruct (zlen r <? 5); [injection E as <- <-; reflexivity|].
  destruct (goslice r 0 4) as [h| |]; cbn [bind] in *; try discriminate. destruct (readi32 h) as [l| |]; cbn [bind] in *; try discriminate.
  destruct (zlen r <? l); [injection E as <- <-; reflexivity|]. destruct (elems_some _ _ _ _ _ _ E) as (vs & ->). rewrite seen_map.
  cbn [it_ranges]. destruct (range_all _ _ _ _ _ _ E) as (p & -> & _). reflexivity.
Qed.
Print Assumptions C105_range.

(* Left in turn k, it has given the first k+1 of them and no error. *)
Theorem C105_leave : forall fuel r es e k, doc_unmarshal fuel r = Ret (es, e) -> (k < length es)%nat ->
  rd_ranges fuel r [Some k] = Ret [seen (firstn (S k) es)].
Proof.
  intros fuel r es e k E Hk. unfold doc_unmarshal in E. unfold rd_ranges. destruct (zlen r <? 5); [injection E as <- <-; cbn in Hk; lia|].
  destruct (goslice r 0 4) as [h| |]; cbn [bind] in *; try discriminate. destruct (readi32 h) as [l| |]; cbn [bind] in *; try discriminate.
  destruct (zlen r <? l); [injection E as <- <-; cbn in Hk; lia|]. destruct (elems_some _ _ _ _ _ _ E) as (vs & ->).
  rewrite map_length in Hk. rewrite firstn_map, seen_map.
  cbn [it_ranges]. destruct (range_leave _ _ _ _ _ _ _ E Hk) as (p & f & -> & _). reflexivity.
Qed.
Print Assumptions C105_leave.

(* Ranging again over the same sequence does not begin again: after a whole range there is
   nothing, after one left in turn k the rest. *)
Theorem C105_again_refuted : forall fuel r es, doc_unmarshal fuel r = Ret (es, None) ->
  rd_ranges fuel r [None; None] = Ret [seen es; []] /\
  forall k, (k < length es)%nat -> rd_ranges fuel r [Some k; None] = Ret [seen (firstn (S k) es); seen (skipn (S k) es)].
Proof.
  intros fuel r es E. unfold doc_unmarshal in E. unfold rd_ranges. destruct (zlen r <? 5); [discriminate|].
  destruct (goslice r 0 4) as [h| |]; cbn [bind] in *; try discriminate. destruct (readi32 h) as [l| |]; cbn [bind] in *; try discriminate.
  destruct (zlen r <? l); [discriminate|]. destruct (elems_some _ _ _ _ _ _ E) as (vs & ->). rewrite seen_map. split.
  - cbn [it_ranges]. destruct (range_all _ _ _ _ _ _ E) as (p & -> & H). cbn [bind]. rewrite app_nil_r.
    destruct fuel as [|fuel]; [discriminate|]. cbn [it_range]. unfold it_next. cbn [it_pos it_err]. rewrite H by reflexivity. reflexivity.
  - intros k Hk. rewrite map_length in Hk. rewrite firstn_map, skipn_map, !seen_map. cbn [it_ranges].
    destruct (range_leave _ _ _ _ _ _ _ E Hk) as (p & f & -> & Hf & L). cbn [bind].
    destruct (range_all _ _ _ _ _ _ (iter_loop_mono _ _ _ _ _ _ L Hf)) as (q & -> & _). cbn [bind]. now rewrite app_nil_r.
Qed.
Print Assumptions C105_again_refuted.

(* After an error, a second range that is left panics: the error is given to the body that left. *)
Theorem C105_error_refuted : exists r es e, doc_unmarshal 9 r = Ret (es, Some e) /\
  rd_ranges 9 r [None; Some O] = Panic (PErr e_range).
Proof.
  exists [11; 0; 0; 0; 153; 97; 0; 10; 98; 0; 0]. eexists _, _. split; [vm_compute; reflexivity|vm_compute; reflexivity].
Qed.
Print Assumptions C105_error_refuted.

Example C105_nonvacuous : exists a b, doc_unmarshal 9 [11; 0; 0; 0; 10; 97; 0; 10; 98; 0; 0] = Ret ([Some a; Some b], None) /\
  rd_ranges 9 [11; 0; 0; 0; 10; 97; 0; 10; 98; 0; 0] [Some O; None; None] = Ret [[YElem a]; [YElem b]; []].
Proof. eexists _, _. split; [vm_compute; reflexivity|vm_compute; reflexivity]. Qed.
