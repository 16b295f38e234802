(* DocumentMap: model of unmarshal.go:8-80 and its proofs.  A map is a list of entries with
   distinct keys; each range over it visits the entries in any order, given here as a
   permutation chosen by the caller of the model. *)
Require Import ZArith List Bool Lia ZifyBool ZifyNat Permutation.
From Verif Require Import Base BSpec Elements Value Codec CodecRead Itoa CodecRep Api ApiProofs Tree
  GetterProofs ReaderOps CodecProps DocOps DocSpec DocProofs Sort Stream.
Import ListNotations.
Open Scope Z_scope.

(* -------------------------------------------------------------------- model *)

(* Element.Validate through a pointer, element.go:46-49 *)
Definition p_validate (fuel : nat) (p : ptr) : vres :=
  match p with None => Ret (0, Some ENilElement) | Some e => elem_validate fuel e end.

(* A DocumentMap with *Element values, which may be nil *)
Definition pmap := list (bytes * ptr).

(* unmarshal.go:25-35 Validate, visiting the entries in the order of it.  erc.Collector is
   the fun library's: Resolve is nil exactly when every error collected was nil. *)
Fixpoint dm_validate (fuel : nat) (it : pmap) : go (option gerr) :=
  match it with
  | [] => Ret None
  | (_, p) :: r =>
      _ <- p_key p ;;
      '(_, e) <- p_validate fuel p ;;
      e' <- dm_validate fuel r ;;
      Ret (match e with Some x => Some x | None => e' end)
  end.

(* unmarshal.go:37-47 MarshalDocument: Validate ranges over the map in the order it1, the
   loop that appends in the order it2 *)
Fixpoint dm_append (grow : nat -> nat) (fuel : nat) (w : world) (j : nat) (it : pmap) : world * go unit :=
  match it with
  | [] => (w, Ret tt)
  | (_, p) :: r =>
      let '(w', x) := exec grow fuel w (OAppend j [p]) in
      match x with
      | Ret _ => dm_append grow fuel w' j r
      | Panic q => (w', Panic q)
      | Fuel => (w', Fuel)
      end
  end.
Definition dm_marshal_document (grow : nat -> nat) (fuel : nat) (w : world) (it1 it2 : pmap) :
    world * go (nat + gerr) :=
  match dm_validate fuel it1 with
  | Panic p => (w, Panic p)
  | Fuel => (w, Fuel)
  | Ret (Some e) => (w, Ret (inr e))
  | Ret None =>
      let '(w1, r) := exec grow fuel w (ONew (length it2)) in
      match r with
      | Ret (RDoc j) => let '(w2, x) := dm_append grow fuel w1 j it2 in (w2, _ <- x ;; Ret (inl j))
      | Ret _ => (w1, Panic PNil)
      | Panic p => (w1, Panic p)
      | Fuel => (w1, Fuel)
      end
  end.

(* unmarshal.go:49-57 UnmarshalDocument: the map afterwards and the error *)
Fixpoint dm_unmarshal_document (fuel : nat) (m : dmap) (es : list elem) : dmap * go (option gerr) :=
  match es with
  | [] => (m, Ret None)
  | e :: r =>
      match elem_validate fuel e with
      | Ret (_, Some x) => (m, Ret (Some x))
      | Ret (_, None) =>
          match elem_key e with
          | Ret k => dm_unmarshal_document fuel (map_put m k e) r
          | Panic p => (m, Panic p)
          | Fuel => (m, Fuel)
          end
      | Panic p => (m, Panic p)
      | Fuel => (m, Fuel)
      end
  end.

(* unmarshal.go:67-80 UnmarshalBSON: the elements the iterator of the Reader yields before
   it ends, as in um_elems *)
Fixpoint dm_put_all (m : dmap) (es : list elem) : go dmap :=
  match es with
  | [] => Ret m
  | e :: r => k <- elem_key e ;; dm_put_all (map_put m k e) r
  end.
Definition dm_unmarshal_bson (fuel : nat) (m : dmap) (b : bytes) : go dmap * go (option gerr) :=
  let '(es, o) := um_elems fuel b in (dm_put_all m es, o).

(* ------------------------------------------------------------ specification *)

(* the last element with key k, else what the map had *)
Definition last_wins (m : dmap) (es : list elem) (k : bytes) : option elem :=
  match s_find k (rev es) with Some e => Some e | None => map_get m k end.

(* --------------------------------------------------------------------- proofs *)

Lemma map_get_put m k e k' : map_get (map_put m k e) k' = if bytes_eqb k k' then Some e else map_get m k'.
Proof.
  unfold map_get. induction m as [|[a x] m IH]; cbn.
  - now destruct (bytes_eqb k k').
  - destruct (bytes_eqb a k) eqn:E; cbn.
    + apply bytes_eqb_eq in E. subst a. destruct (bytes_eqb k k'); reflexivity.
    + destruct (bytes_eqb a k') eqn:E2.
      * destruct (bytes_eqb k k') eqn:E3; [|reflexivity].
        apply bytes_eqb_eq in E2, E3. subst. now rewrite beq_refl in E.
      * exact IH.
Qed.
Lemma map_put_keys m k e : NoDup (map fst m) -> NoDup (map fst (map_put m k e)).
Proof.
  induction m as [|[a x] m IH]; cbn; intros N; [repeat constructor; auto|].
  inversion N as [|? ? N1 N2]; subst. destruct (bytes_eqb a k) eqn:E; cbn.
  - apply bytes_eqb_eq in E. subst a. exact N.
  - constructor; [|auto]. intros I. assert (J : In a (map fst m) \/ a = k).
    { clear - I. induction m as [|[b y] m IH]; cbn in *; [destruct I; [auto|contradiction]|].
      destruct (bytes_eqb b k) eqn:E; cbn in I.
      - apply bytes_eqb_eq in E. subst b. tauto.
      - tauto. }
    destruct J as [J|J]; [contradiction|]. subst. now rewrite beq_refl in E.
Qed.

Lemma s_find_app k l1 l2 : s_find k (l1 ++ l2) = match s_find k l1 with Some e => Some e | None => s_find k l2 end.
Proof. induction l1 as [|e l1 IH]; cbn; [reflexivity|]. now destruct (bytes_eqb (key e) k). Qed.

Lemma dm_put_all_spec es : forall m, Forall keyed es -> NoDup (map fst m) ->
  exists m', dm_put_all m es = Ret m' /\ NoDup (map fst m') /\ forall k, map_get m' k = last_wins m es k.
Proof.
  induction es as [|e es IH]; intros m K N.
  - exists m. repeat split; auto.
  - inversion K as [|? ? K1 K2]; subst. cbn [dm_put_all]. rewrite (keyed_key _ K1). cbn [bind].
    destruct (IH (map_put m (key e) e) K2 (map_put_keys _ _ _ N)) as (m' & E & N' & G). exists m'.
    split; [exact E|]. split; [exact N'|]. intros k. rewrite G. unfold last_wins. cbn [rev].
    rewrite s_find_app. cbn [s_find]. rewrite map_get_put.
    destruct (s_find k (rev es)); [reflexivity|]. now destruct (bytes_eqb (key e) k).
Qed.

(* the elements before the first that does not validate, and its error *)
Fixpoint valid_prefix (fuel : nat) (es : list elem) : list elem * option gerr :=
  match es with
  | [] => ([], None)
  | e :: r => match elem_validate fuel e with
              | Ret (_, None) => let '(l, x) := valid_prefix fuel r in (e :: l, x)
              | Ret (_, Some x) => ([], Some x)
              | _ => ([], None)
              end
  end.

Lemma dm_unmarshal_spec fuel es : forall m, Forall keyed es -> NoDup (map fst m) ->
  Forall (fun e => exists n x, elem_validate fuel e = Ret (n, x)) es ->
  exists m', dm_unmarshal_document fuel m es = (m', Ret (snd (valid_prefix fuel es))) /\
    NoDup (map fst m') /\ forall k, map_get m' k = last_wins m (fst (valid_prefix fuel es)) k.
Proof.
  induction es as [|e es IH]; intros m K N V.
  - exists m. repeat split; auto.
  - inversion K as [|? ? K1 K2]; subst. apply Forall_cons_iff in V as [(n & x & V1) V2].
    cbn [dm_unmarshal_document valid_prefix]. rewrite V1. destruct x as [x|].
    + exists m. repeat split; auto.
    + rewrite (keyed_key _ K1). destruct (IH (map_put m (key e) e) K2 (map_put_keys _ _ _ N) V2) as (m' & E & N' & G).
      exists m'. destruct (valid_prefix fuel es) as [l y]. cbn [fst snd] in *.
      split; [exact E|]. split; [exact N'|]. intros k. rewrite G. unfold last_wins. cbn [rev].
      rewrite s_find_app. cbn [s_find]. rewrite map_get_put.
      destruct (s_find k (rev l)); [reflexivity|]. now destruct (bytes_eqb (key e) k).
Qed.

Lemma dm_validate_all fuel it : Forall (fun kv => exists e n, snd kv = Some e /\ keyed e /\ elem_validate fuel e = Ret (n, None)) it ->
  dm_validate fuel it = Ret None.
Proof.
  induction 1 as [|[k p] it (e & n & E & K & V) _ IH]; [reflexivity|]. cbn [snd] in E. subst p.
  cbn [dm_validate p_key p_validate]. rewrite (keyed_key _ K). cbn [bind]. rewrite V. cbn [bind]. now rewrite IH.
Qed.
Lemma dm_validate_bad fuel it x : dm_validate fuel it = Ret x ->
  x = None <-> Forall (fun kv => exists n, p_validate fuel (snd kv) = Ret (n, None)) it.
Proof.
  revert x. induction it as [|[k p] it IH]; intros x H; cbn in H.
  - injection H as <-. split; auto.
  - destruct (p_key p); cbn in H; try discriminate.
    destruct (p_validate fuel p) as [[n e]| |] eqn:E; cbn in H; try discriminate.
    destruct (dm_validate fuel it) as [e'| |]; cbn in H; try discriminate. injection H as <-.
    specialize (IH e' eq_refl). rewrite Forall_cons_iff. cbn [snd]. rewrite E. destruct e as [y|].
    + split; [discriminate|]. intros [(? & ?) _]. discriminate.
    + rewrite IH. split; [intros; split; [eauto|auto]|tauto].
Qed.

Lemma dm_append_refines grow fuel it l : Forall2 (fun kv e => snd kv = Some e) it l -> Forall keyed l ->
  forall w s j d, inv w s -> nth_error s j = Some d -> s_memo d = None ->
  exists w', dm_append grow fuel w j it = (w', Ret tt) /\ inv w' (replace_at j (MkS (s_elems d ++ l) None) s).
Proof.
  induction 1 as [|[k p] e it l E _ IH]; intros K w s j d I J M.
  - exists w. split; [reflexivity|]. rewrite app_nil_r. pose proof (inv_same w s j d I J) as Q.
    unfold s_put in Q. now rewrite M in Q.
  - inversion K as [|? ? K1 K2]; subst. cbn [snd] in E. subst p. cbn [dm_append].
    pose proof (exec_refines grow fuel w s (OAppend j [Some e]) I) as H. cbn [s_exec] in H.
    specialize (H ltac:(cbn; constructor; auto)). unfold s_at in H. rewrite J in H.
    cbn [s_append any_nil before_nil] in H.
    destruct (exec grow fuel w _) as [w1 r]. destruct H as [I1 A]. destruct r as [r| |]; cbn in A; try contradiction.
    assert (Lj : (j < length s)%nat) by (eapply some_lt; eauto).
    destruct (IH K2 w1 _ j (MkS (s_elems d ++ [e]) None) I1) as (w2 & E2 & I2).
    + apply nth_error_replace_eq. exact Lj.
    + reflexivity.
    + exists w2. split; [exact E2|]. cbn [s_elems] in I2. rewrite <- app_assoc in I2. cbn [app] in I2.
      replace (replace_at j (MkS (s_elems d ++ e :: l) None) s)
        with (replace_at j (MkS (s_elems d ++ e :: l) None) (s_put s j (s_elems d ++ [e]) None)); [exact I2|].
      unfold s_put. apply nth_ext_error. intros i. destruct (Nat.eq_dec j i) as [<-|Ne].
      * rewrite !nth_error_replace_eq; auto. now rewrite replace_length.
      * rewrite !nth_error_replace_neq; auto. now rewrite replace_length.
Qed.

Lemma dm_marshal_refines grow fuel w s it1 it2 l : inv w s -> dm_validate fuel it1 = Ret None ->
  Forall2 (fun kv e => snd kv = Some e) it2 l -> Forall keyed l ->
  exists w', dm_marshal_document grow fuel w it1 it2 = (w', Ret (inl (length s))) /\ inv w' (s ++ [MkS l None]).
Proof.
  intros I V F K. unfold dm_marshal_document. rewrite V.
  pose proof (exec_refines grow fuel w s (ONew (length it2)) I Logic.I) as H. cbn [s_exec] in H.
  destruct (exec grow fuel w _) as [w1 r]. destruct H as [I1 A].
  destruct r as [r| |]; cbn in A; try contradiction. destruct r; try contradiction; try discriminate. injection A as ->.
  destruct (dm_append_refines grow fuel it2 l F K w1 _ (length s) (MkS [] None) I1) as (w2 & E2 & I2); auto.
  { rewrite nth_error_app2, Nat.sub_diag by lia. reflexivity. }
  rewrite E2. cbn [bind]. exists w2. split; [reflexivity|]. cbn [s_elems app] in I2.
  unfold replace_at in I2. rewrite firstn_app, firstn_all, Nat.sub_diag in I2. cbn [firstn] in I2.
  rewrite app_nil_r, skipn_all2 in I2 by (rewrite app_length; cbn; lia). exact I2.
Qed.
