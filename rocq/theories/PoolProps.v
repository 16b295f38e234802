(* C109: what calls return is theirs, whatever other calls do with the buffers of the pools. *)
Require Import ZArith List Bool Lia Arith.
From Verif Require Import Base Pool.
Import ListNotations.
Open Scope nat_scope.

(* ---- specification: results are values ---- *)
Definition expect (c : call) : option (list Z) :=
  match c with
  | ReadFrom s | FromReader s =>
      if (Z.of_nat (length s) <? Z.max 4 (declared s))%Z || (declared s <? 4)%Z then None
      else Some (firstn (Z.to_nat (declared s)) s)
  | ArrMarshal bs => Some bs
  | ArrString ps | Resolve ps => Some (concat ps)
  end.
Definition calls (evs : list event) : list call := flat_map (fun e => match e with ECall c => [c] | _ => [] end) evs.
(* the values the callers hold: each result as expected of its call, then as its holder wrote *)
Fixpoint held (cs : list call) (vs : list (list Z)) (evs : list event) (os : list (option nat)) : list (list Z) :=
  match evs, os with
  | ev :: evs, o :: os =>
      let vs := match ev with
                | EClient r off bs => match nth_error vs r with
                                      | Some v => if off + length bs <=? length v then upd vs r (over v off bs) else vs
                                      | None => vs end
                | _ => vs end in
      let vs := match o with
                | Some t => vs ++ [match nth_error cs t with Some c => match expect c with Some v => v | None => [] end | None => [] end]
                | None => vs end in
      held cs vs evs os
  | _, _ => vs
  end.

(* ---- calls alone, over values; None stands for a byte that may be anything ---- *)
Definition aval := list (option Z).
Definition known (v : aval) : option (list Z) :=
  fold_right (fun o r => match o, r with Some z, Some l => Some (z :: l) | _, _ => None end) (Some []) v.
Fixpoint aruns (e : nat -> option aval) (p : list cmd) : option (list (list Z)) :=
  match p with
  | [] => Some []
  | CGet x :: r => match e x with None => aruns (set e x (Some [])) r | Some _ => None end
  | CMake x n :: r => match e x with None => aruns (set e x (Some (repeat (Some 0%Z) n))) r | Some _ => None end
  | CGrow x n :: r => match e x with Some v => aruns (set e x (Some (v ++ repeat None (n - length v)))) r | None => None end
  | CWrite x bs :: r => match e x with Some v => aruns (set e x (Some (v ++ map Some bs))) r | None => None end
  | CStore x off bs :: r =>
      match e x with
      | Some v => if off + length bs <=? length v then aruns (set e x (Some (over v off (map Some bs)))) r else None
      | None => None
      end
  | CPut x :: r => match e x with Some _ => aruns (set e x None) r | None => None end
  | CRet x :: r =>
      match e x with
      | Some v => match known v, aruns (set e x None) r with Some l, Some ls => Some (l :: ls) | _, _ => None end
      | None => None
      end
  | CCopyOut x :: r =>
      match e x with
      | Some v => match known v, aruns e r with Some l, Some ls => Some (l :: ls) | _, _ => None end
      | None => None
      end
  end.
Definition aenv0 : nat -> option aval := fun _ => None.

Lemma known_map : forall l, known (map Some l) = Some l.
Proof. induction l as [|z l IH]; [reflexivity|]. cbn [map known fold_right] in *. unfold known in IH. now rewrite IH. Qed.
Lemma over_len : forall A (v : list A) off bs, off + length bs <= length v -> length (over v off bs) = length v.
Proof. intros. unfold over. rewrite !app_length, firstn_length, skipn_length. lia. Qed.
Lemma over_all : forall A (v bs : list A), length v = length bs -> over v 0 bs = bs.
Proof. intros A v bs L. unfold over. cbn [firstn app Nat.add]. rewrite skipn_all2 by lia. apply app_nil_r. Qed.
Lemma over_two : forall A (v a b : list A), length v = length a + length b -> over (over v 0 a) (length a) b = a ++ b.
Proof.
  intros A v a b L. unfold over. cbn [firstn app Nat.add]. rewrite firstn_app, Nat.sub_diag, firstn_O, app_nil_r, firstn_all.
  rewrite skipn_all2 by (rewrite app_length, skipn_length; lia). now rewrite app_nil_r.
Qed.
Lemma aruns_ext : forall p e e', (forall x, e x = e' x) -> aruns e p = aruns e' p.
Proof.
  induction p as [|c p IH]; intros e e' E; [reflexivity|].
  assert (S : forall x v y, set e x v y = set e' x v y) by (intros; unfold set; now destruct (y =? x)).
  destruct c; cbn [aruns]; rewrite (E x); destruct (e' x); auto.
  - destruct (off + length bs <=? length a); auto.
  - now rewrite (IH _ _ (S x None)).
  - now rewrite (IH _ _ E).
Qed.
Lemma aruns_writes : forall ps e v x r, e x = Some v ->
  aruns e (map (CWrite x) ps ++ r) = aruns (set e x (Some (v ++ map Some (concat ps)))) r.
Proof.
  induction ps as [|p ps IH]; intros e v x r E; cbn [map app concat].
  - apply aruns_ext. intros y. unfold set. destruct (Nat.eqb_spec y x) as [->|]; [|reflexivity]. now rewrite app_nil_r.
  - cbn [aruns]. rewrite E. rewrite (IH _ (v ++ map Some p)) by (unfold set; now rewrite Nat.eqb_refl).
    apply aruns_ext. intros y. unfold set. destruct (y =? x); [|reflexivity]. now rewrite map_app, app_assoc.
Qed.
Lemma zeros_len : forall A (x : A) n, length (repeat x n) = n.
Proof. intros. apply repeat_length. Qed.
Lemma le_true : forall a b, a <= b -> (a <=? b) = true.
Proof. intros. now apply Nat.leb_le. Qed.
(* both readers: the header, and the document *)
Definition head_env (s : list Z) : nat -> option aval := set aenv0 0 (Some (over (repeat None 4) 0 (map Some (firstn 4 s)))).
Lemma store_head : forall (s : list Z) r,
  aruns aenv0 ([CGet 0; CGrow 0 4; CStore 0 0 (firstn 4 s)] ++ r) = aruns (head_env s) r.
Proof.
  intros s r. cbn [app aruns]. cbn [aenv0 set Nat.eqb]. cbn [length Nat.sub app]. cbn [set Nat.eqb].
  rewrite le_true; [|rewrite repeat_length, firstn_length; lia].
  apply aruns_ext. intros y. unfold head_env, set. now destruct (y =? 0).
Qed.
Lemma store_body : forall (s : list Z) n v e w, e 0 = Some w -> e 1 = Some v -> length v = n -> 4 <= n -> 4 <= length s ->
  aruns e ([CStore 1 0 (firstn 4 s); CStore 1 4 (firstn (n - 4) (skipn 4 s))] ++
    (if length s <? n then [CPut 0] else [CPut 0; CRet 1])) =
  Some (if length s <? n then [] else [firstn n s]).
Proof.
  intros s n v e w E0 E1 L N4 S4.
  assert (L1 : length (firstn 4 s) = 4) by (rewrite firstn_length; lia).
  cbn [app aruns]. rewrite E1, L1. rewrite le_true by lia. cbn [set Nat.eqb].
  assert (Lv : length (over v 0 (map Some (firstn 4 s))) = n).
  { rewrite over_len; [exact L|]. rewrite map_length. lia. }
  rewrite Lv. rewrite le_true by (rewrite firstn_length; lia).
  destruct (Nat.ltb_spec (length s) n) as [C|C]; cbn [aruns set Nat.eqb]; rewrite E0; [reflexivity|].
  cbn [aruns set Nat.eqb]. set (b := firstn (n - 4) (skipn 4 s)).
  assert (Lb : length b = n - 4) by (unfold b; rewrite firstn_length, skipn_length; lia).
  pose proof (over_two _ v (map Some (firstn 4 s)) (map Some b)) as O. rewrite !map_length, L1 in O. rewrite O by lia.
  rewrite <- map_app, known_map. 
  assert (F : firstn n s = firstn 4 s ++ b).
  { transitivity (firstn n (firstn 4 s ++ skipn 4 s)); [now rewrite firstn_skipn|].
    rewrite firstn_app, L1, (firstn_all2 (n := n)) by lia. reflexivity. }
  now rewrite F.
Qed.
Lemma program_ok : forall c, aruns aenv0 (program c) = Some (match expect c with Some v => [v] | None => [] end).
Proof.
  intros c. destruct c as [s|s|bs|ps|ps]; cbn [program expect].
  - rewrite store_head.
    destruct (Nat.ltb_spec (length s) 4) as [C|C].
    + replace (Z.of_nat (length s) <? Z.max 4 (declared s))%Z with true by (symmetry; apply Z.ltb_lt; lia). reflexivity.
    + cbn [app]. cbn [aruns]. change (head_env s 1) with (@None aval). cbn [set Nat.eqb]. cbn [length app].
      destruct (Nat.ltb_spec (Z.to_nat (declared s)) 4) as [D|D].
      * replace (declared s <? 4)%Z with true by (symmetry; apply Z.ltb_lt; lia). rewrite orb_true_r. reflexivity.
      * replace (declared s <? 4)%Z with false by (symmetry; apply Z.ltb_ge; lia). rewrite orb_false_r.
        rewrite Nat.sub_0_r.
        erewrite (store_body s (Z.to_nat (declared s))); [|reflexivity|reflexivity|now rewrite repeat_length|lia|lia].
        destruct (Nat.ltb_spec (length s) (Z.to_nat (declared s))) as [F|F].
        -- replace (Z.of_nat (length s) <? Z.max 4 (declared s))%Z with true by (symmetry; apply Z.ltb_lt; lia). reflexivity.
        -- replace (Z.of_nat (length s) <? Z.max 4 (declared s))%Z with false by (symmetry; apply Z.ltb_ge; lia). reflexivity.
  - rewrite store_head.
    destruct (Nat.ltb_spec (length s) 4) as [C|C].
    + replace (Z.of_nat (length s) <? Z.max 4 (declared s))%Z with true by (symmetry; apply Z.ltb_lt; lia). reflexivity.
    + destruct (Z.ltb_spec (declared s) 0) as [G|G].
      * replace (declared s <? 4)%Z with true by (symmetry; apply Z.ltb_lt; lia). rewrite orb_true_r. reflexivity.
      * cbn [app]. cbn [aruns]. change (head_env s 1) with (@None aval). cbv iota.
        destruct (Nat.ltb_spec (Z.to_nat (declared s)) 4) as [D|D].
        -- replace (declared s <? 4)%Z with true by (symmetry; apply Z.ltb_lt; lia). rewrite orb_true_r. reflexivity.
        -- replace (declared s <? 4)%Z with false by (symmetry; apply Z.ltb_ge; lia). rewrite orb_false_r.
           erewrite (store_body s (Z.to_nat (declared s))); [|reflexivity|reflexivity|now rewrite repeat_length|lia|lia].
           destruct (Nat.ltb_spec (length s) (Z.to_nat (declared s))) as [F|F].
           ++ replace (Z.of_nat (length s) <? Z.max 4 (declared s))%Z with true by (symmetry; apply Z.ltb_lt; lia). reflexivity.
           ++ replace (Z.of_nat (length s) <? Z.max 4 (declared s))%Z with false by (symmetry; apply Z.ltb_ge; lia). reflexivity.
  - cbn [aruns aenv0 set Nat.eqb length app]. rewrite Nat.sub_0_r, repeat_length. rewrite le_true by lia. cbn [set Nat.eqb].
    rewrite over_all by (rewrite map_length; apply repeat_length). now rewrite known_map.
  - cbn [app aruns aenv0]. rewrite (aruns_writes ps _ [] 0) by reflexivity. cbn [app aruns set Nat.eqb]. now rewrite known_map.
  - cbn [app aruns aenv0]. rewrite (aruns_writes ps _ [] 0) by reflexivity. cbn [app aruns set Nat.eqb]. now rewrite known_map.
Qed.

(* ---- who holds which array ---- *)
Inductive owner := OPool | OVar (t x : nat) | ORes (r : nat).
Definition agrees (a : option Z) (z : Z) : Prop := a = None \/ a = Some z.
Definition cell_ok (own : nat -> owner) (h : list (list Z)) (t x : nat) (ov : option slice) (oa : option aval) : Prop :=
  match ov, oa with
  | None, None => True
  | Some v, Some av =>
      own (s_orig v) = OVar t x /\ own (s_cur v) = OVar t x /\ s_orig v < length h /\ s_cur v < length h /\
      s_len v <= length (arr h (s_cur v)) /\ Forall2 agrees av (firstn (s_len v) (arr h (s_cur v)))
  | _, _ => False
  end.
Definition pool_ok (own : nat -> owner) (h : list (list Z)) (p : list nat) : Prop :=
  NoDup p /\ forall i, In i p -> own i = OPool /\ i < length h.
Definition res_ok (own : nat -> owner) (h : list (list Z)) (rs : list (nat * nat)) (vs : list (list Z)) : Prop :=
  length vs = length rs /\
  forall r i n, nth_error rs r = Some (i, n) -> own i = ORes r /\ i < length h /\
    n <= length (arr h i) /\ nth_error vs r = Some (firstn n (arr h i)).
Definition thread_ok (own : nat -> owner) (h : list (list Z)) (t : nat) (th : thread) (c : call) (k : nat) : Prop :=
  exists ae out done, aruns ae (t_prog th) = Some out /\ (forall x, cell_ok own h t x (t_env th x) (ae x)) /\
    done ++ out = match expect c with Some v => [v] | None => [] end /\ length done = k.
(* how many results the call t has handed out *)
Definition handed (os : list (option nat)) (t : nat) : nat :=
  length (filter (fun o => match o with Some q => q =? t | None => false end) os).
Definition inv (cs : list call) (vs : list (list Z)) (os : list (option nat)) (s : st) : Prop :=
  (forall t, length (threads s) <= t -> handed os t = 0) /\
  exists own, pool_ok own (heap s) (pool s) /\ res_ok own (heap s) (results s) vs /\
    forall t th, nth_error (threads s) t = Some th ->
      exists c, nth_error cs t = Some c /\ thread_ok own (heap s) t th c (handed os t).

(* only the array j may have changed hands or contents, besides new ones *)
Definition chg (own : nat -> owner) (h : list (list Z)) (own' : nat -> owner) (h' : list (list Z)) (j : nat) : Prop :=
  length h <= length h' /\ forall i, i < length h -> i <> j -> own' i = own i /\ arr h' i = arr h i.
Lemma cell_chg : forall own h own' h' j t x v av, chg own h own' h' j -> own j <> OVar t x \/ length h <= j ->
  cell_ok own h t x v av -> cell_ok own' h' t x v av.
Proof.
  intros own h own' h' j t x [v|] [av|] [L C] J; cbn; auto. intros (A & B & D & E & F & G).
  assert (N : forall i, i < length h -> own i = OVar t x -> i <> j) by (intros i Li Oi ->; destruct J as [J|J]; [now apply J|lia]).
  destruct (C _ D (N _ D A)) as [-> _]. destruct (C _ E (N _ E B)) as [-> ->]. repeat split; auto; lia.
Qed.
Lemma pool_chg : forall own h own' h' j p, chg own h own' h' j -> own j <> OPool \/ length h <= j \/ ~ In j p ->
  pool_ok own h p -> pool_ok own' h' p.
Proof.
  intros own h own' h' j p [L C] J [N P]. split; [exact N|]. intros i Hi. destruct (P i Hi) as [A B].
  assert (i <> j) by (intros ->; destruct J as [J|[J|J]]; [now apply J|lia|now apply J]).
  destruct (C i B H) as [-> _]. split; [exact A|lia].
Qed.
Lemma res_chg : forall own h own' h' j rs vs, chg own h own' h' j -> (forall r, own j <> ORes r) \/ length h <= j ->
  res_ok own h rs vs -> res_ok own' h' rs vs.
Proof.
  intros own h own' h' j rs vs [L C] J [Lv R]. split; [exact Lv|]. intros r i n E. destruct (R r i n E) as (A & B & D & F).
  assert (N : i <> j) by (intros ->; destruct J as [J|J]; [now apply (J r)|lia]).
  destruct (C i B N) as [-> ->]. repeat split; auto. lia.
Qed.
Lemma thread_chg : forall own h own' h' j t th c k, chg own h own' h' j -> (forall x, own j <> OVar t x) \/ length h <= j ->
  thread_ok own h t th c k -> thread_ok own' h' t th c k.
Proof.
  intros own h own' h' j t th c k C J (ae & out & done & A & B & D). exists ae, out, done. split; [exact A|]. split; [|exact D].
  intros x. apply (cell_chg own h own' h' j); auto. destruct J as [J|J]; auto.
Qed.
(* the same thread: the variable x has a new value *)
Lemma env_chg : forall own h own' h' j t x e ae v av, chg own h own' h' j ->
  (forall y, y <> x -> own j <> OVar t y) \/ length h <= j ->
  (forall y, cell_ok own h t y (e y) (ae y)) -> cell_ok own' h' t x v av ->
  forall y, cell_ok own' h' t y (set e x v y) (set ae x av y).
Proof.
  intros own h own' h' j t x e ae v av C J E X y. unfold set. destruct (Nat.eqb_spec y x) as [->|N]; [exact X|].
  apply (cell_chg own h own' h' j); auto. destruct J as [J|J]; auto.
Qed.
Lemma arr_app : forall h a i, i < length h -> arr (h ++ [a]) i = arr h i.
Proof. intros. unfold arr. now apply app_nth1. Qed.
Lemma arr_new : forall h a, arr (h ++ [a]) (length h) = a.
Proof. intros. unfold arr. rewrite app_nth2, Nat.sub_diag by lia. reflexivity. Qed.
Lemma upd_len : forall A (l : list A) i x, length (upd l i x) = length l.
Proof.
  intros. unfold upd. destruct (Nat.ltb_spec i (length l)); [|reflexivity].
  rewrite app_length, firstn_length. cbn [length]. rewrite skipn_length. lia.
Qed.
Lemma upd_nth_eq : forall A (l : list A) i x, i < length l -> nth_error (upd l i x) i = Some x.
Proof.
  intros A l i x L. unfold upd. destruct (Nat.ltb_spec i (length l)); [|lia].
  rewrite nth_error_app2 by (rewrite firstn_length; lia). rewrite firstn_length. replace (i - Nat.min i (length l)) with 0 by lia. reflexivity.
Qed.
Lemma nth_error_firstn_lt : forall A n i (l : list A), i < n -> nth_error (firstn n l) i = nth_error l i.
Proof. induction n; intros [|i] [|x l] L; cbn; auto; try lia. apply IHn. lia. Qed.
Lemma nth_error_skipn_at : forall A n i (l : list A), nth_error (skipn n l) i = nth_error l (n + i).
Proof. induction n; intros i [|x l]; cbn; auto. now destruct i. Qed.
Lemma upd_nth_neq : forall A (l : list A) i k x, i <> k -> nth_error (upd l i x) k = nth_error l k.
Proof.
  intros A l i k x N. unfold upd. destruct (Nat.ltb_spec i (length l)) as [L|]; [|reflexivity].
  destruct (Nat.lt_ge_cases k i) as [C|C].
  - rewrite nth_error_app1 by (rewrite firstn_length; lia). now apply nth_error_firstn_lt.
  - rewrite nth_error_app2 by (rewrite firstn_length; lia). rewrite firstn_length.
    destruct (k - Nat.min i (length l)) as [|q] eqn:Q; [lia|]. cbn [nth_error]. rewrite nth_error_skipn_at. f_equal. lia.
Qed.
Lemma arr_nth : forall h i, arr h i = match nth_error h i with Some a => a | None => [] end.
Proof. intros. unfold arr. destruct (nth_error h i) eqn:E; [now apply nth_error_nth|]. apply nth_overflow. now apply nth_error_None. Qed.
Lemma arr_upd_eq : forall h i a, i < length h -> arr (upd h i a) i = a.
Proof. intros. rewrite arr_nth, upd_nth_eq by auto. reflexivity. Qed.
Lemma arr_upd_neq : forall h i k a, i <> k -> arr (upd h i a) k = arr h k.
Proof. intros. now rewrite !arr_nth, upd_nth_neq. Qed.

Definition give (own : nat -> owner) (i : nat) (o : owner) : nat -> owner := fun k => if k =? i then o else own k.
Lemma give_eq : forall own i o, give own i o i = o.
Proof. intros. unfold give. now rewrite Nat.eqb_refl. Qed.
Lemma give_neq : forall own i o k, k <> i -> give own i o k = own k.
Proof. intros. unfold give. destruct (Nat.eqb_spec k i); congruence. Qed.
Lemma chg_new : forall own h a o, chg own h (give own (length h) o) (h ++ [a]) (length h).
Proof.
  intros. split; [rewrite app_length; lia|]. intros i L _. rewrite give_neq by lia. rewrite arr_app by auto. auto.
Qed.
Lemma chg_give : forall own h i o, chg own h (give own i o) h i.
Proof. intros. split; [lia|]. intros k L N. now rewrite give_neq by auto. Qed.
Lemma chg_upd : forall own h i a, chg own h own (upd h i a) i.
Proof. intros. split; [rewrite upd_len; lia|]. intros k L N. rewrite arr_upd_neq by auto. auto. Qed.
Lemma chg_none : forall own h, chg own h own h (length h).
Proof. intros. split; [lia|]. auto. Qed.

(* values *)
Lemma agrees_len : forall a l, Forall2 agrees a l -> length a = length l.
Proof. induction 1; cbn; auto. Qed.
Lemma agrees_known : forall a l, Forall2 agrees a l -> forall k, known a = Some k -> k = l.
Proof.
  induction 1 as [|x y a l [->| ->] F IH]; intros k K; cbn [known fold_right] in K.
  - now injection K as <-.
  - discriminate.
  - fold (known a) in K. destruct (known a) as [m|]; [|discriminate]. injection K as <-. now rewrite (IH m eq_refl).
Qed.
Lemma agrees_some : forall l, Forall2 agrees (map Some l) l.
Proof. induction l; constructor; auto. now right. Qed.
Lemma agrees_none : forall l n, length l = n -> Forall2 agrees (repeat None n) l.
Proof. induction l as [|z l IH]; intros [|n] L; cbn in *; try discriminate; constructor; auto. now left. Qed.
Lemma F2_firstn : forall A B (P : A -> B -> Prop) n l m, Forall2 P l m -> Forall2 P (firstn n l) (firstn n m).
Proof. intros A B P n l m F. revert n. induction F; intros [|n]; cbn; auto. Qed.
Lemma F2_skipn : forall A B (P : A -> B -> Prop) n l m, Forall2 P l m -> Forall2 P (skipn n l) (skipn n m).
Proof. intros A B P n l m F. revert n. induction F; intros [|n]; cbn; auto. Qed.
Lemma over_firstn : forall A (l : list A) off bs n, off + length bs <= n -> n <= length l ->
  firstn n (over l off bs) = over (firstn n l) off bs.
Proof.
  intros A l off bs n L N. unfold over.
  rewrite !firstn_app, !firstn_length, !firstn_firstn. rewrite !(Nat.min_l off) by lia. rewrite Nat.min_r by lia.
  rewrite (firstn_all2 (n := n - off)) by lia. f_equal. f_equal. rewrite skipn_firstn_comm. f_equal. lia.
Qed.
Lemma over_end : forall A (l bs : list A) n, n + length bs <= length l -> firstn (n + length bs) (over l n bs) = firstn n l ++ bs.
Proof.
  intros A l bs n L. unfold over. rewrite app_assoc, firstn_app, app_length, firstn_length.
  rewrite Nat.min_l by lia. rewrite Nat.sub_diag, firstn_O, app_nil_r. apply firstn_all2. rewrite app_length, firstn_length. lia.
Qed.

Lemma in_without : forall A k (l : list A) i, In i (without k l) -> In i l.
Proof.
  intros A k l i H. unfold without in H. apply in_app_or in H. rewrite <- (firstn_skipn k l). apply in_or_app.
  destruct H as [H|H]; [now left|right]. rewrite <- (firstn_skipn 1 (skipn k l)). apply in_or_app. right.
  replace (skipn 1 (skipn k l)) with (skipn (S k) l); [exact H|]. clear. revert l. induction k; intros [|x l]; cbn; auto. apply IHk.
Qed.
Lemma without_split : forall A k (l : list A) x, nth_error l k = Some x -> exists a b, l = a ++ x :: b /\ without k l = a ++ b.
Proof.
  intros A k l x E. apply nth_error_split in E. destruct E as (a & b & -> & <-). exists a, b. split; [reflexivity|].
  unfold without. rewrite firstn_app, Nat.sub_diag, firstn_all, firstn_O, app_nil_r. f_equal.
  rewrite skipn_app. rewrite skipn_all2 by lia. replace (S (length a) - length a) with 1 by lia. reflexivity.
Qed.
Lemma without_nodup : forall A k (l : list A), NoDup l -> NoDup (without k l).
Proof.
  intros A k l N. destruct (nth_error l k) as [x|] eqn:E.
  - destruct (without_split _ _ _ _ E) as (a & b & -> & ->). now apply NoDup_remove_1 in N.
  - unfold without. apply nth_error_None in E. rewrite firstn_all2, skipn_all2 by lia. now rewrite app_nil_r.
Qed.
Lemma NoDup_app_one : forall A (l : list A) x, NoDup l -> ~ In x l -> NoDup (l ++ [x]).
Proof.
  induction l as [|y l IH]; intros x N H; cbn; [repeat constructor; auto|]. inversion N; subst. constructor.
  - rewrite in_app_iff. intros [Z|[Z|[]]]; [auto|]. subst. apply H. now left.
  - apply IH; auto. intros Z. apply H. now right.
Qed.
Lemma pool_without : forall own h p k, pool_ok own h p -> pool_ok own h (without k p).
Proof. intros own h p k [N P]. split; [now apply without_nodup|]. intros i H. apply P. eapply in_without; eauto. Qed.

(* One step of a call keeps everything of everyone else, and does on its own what the call does
   alone. *)
Lemma cmd_ok : forall own h p rs vs t e ae c prog pick extra out,
  pool_ok own h p -> res_ok own h rs vs -> (forall x, cell_ok own h t x (e x) (ae x)) -> aruns ae (c :: prog) = Some out ->
  exists h' p' rs' e' b own' j ae' out', step_cmd h p rs e c pick extra = Some (h', p', rs', e', b) /\
    chg own h own' h' j /\ (length h <= j \/ own j = OPool \/ exists x, own j = OVar t x) /\
    pool_ok own' h' p' /\ (forall x, cell_ok own' h' t x (e' x) (ae' x)) /\ aruns ae' prog = Some out' /\
    if b then exists v, out = v :: out' /\ res_ok own' h' rs' (vs ++ [v]) else out = out' /\ res_ok own' h' rs' vs.
Proof.
  intros own h p rs vs t e ae c prog pick extra out P R E A.
  assert (NewGet : forall x, ae x = None -> aruns (set ae x (Some [])) prog = Some out ->
    exists h' p' rs' e' b own' j ae' out', Some (h ++ [repeat 0%Z extra], p, rs, set e x (Some (MkSl (length h) (length h) 0)), false) = Some (h', p', rs', e', b) /\
    chg own h own' h' j /\ (length h <= j \/ own j = OPool \/ exists x, own j = OVar t x) /\
    pool_ok own' h' p' /\ (forall x, cell_ok own' h' t x (e' x) (ae' x)) /\ aruns ae' prog = Some out' /\
    if b then exists v, out = v :: out' /\ res_ok own' h' rs' (vs ++ [v]) else out = out' /\ res_ok own' h' rs' vs).
  { intros x X A'. do 5 eexists. exists (give own (length h) (OVar t x)), (length h), (set ae x (Some [])), out.
    split; [reflexivity|]. pose proof (chg_new own h (repeat 0%Z extra) (OVar t x)) as C. split; [exact C|]. split; [left; lia|].
    split; [eapply pool_chg; eauto|]. split; [|split; [exact A'|split; [reflexivity|eapply res_chg; eauto]]].
    apply (env_chg own h _ _ (length h)); auto. cbn. rewrite give_eq, app_length. cbn. repeat split; auto; try lia. }
  destruct c as [x|x n|x n|x bs|x off bs|x|x|x]; cbn [aruns] in A; cbn [step_cmd]; pose proof (E x) as Ex; unfold cell_ok in Ex.
  - (* CGet *)
    destruct (ae x) as [av|] eqn:Ax; [discriminate|]. destruct pick as [k|]; [|now apply NewGet].
    destruct (nth_error p k) as [i|] eqn:Pk; [|now apply NewGet].
    destruct (without_split _ _ _ _ Pk) as (a & b & Ep & Ew). destruct P as [N P].
    assert (Ni : ~ In i (without k p)) by (rewrite Ew; rewrite Ep in N; now apply NoDup_remove_2 in N).
    destruct (P i (nth_error_In _ _ Pk)) as [Oi Li].
    do 5 eexists. exists (give own i (OVar t x)), i, (set ae x (Some [])), out.
    split; [reflexivity|]. pose proof (chg_give own h i (OVar t x)) as C. split; [exact C|]. split; [now right; left|].
    split; [eapply pool_chg; [exact C|auto|now apply pool_without]|].
    split; [|split; [exact A|split; [reflexivity|eapply res_chg; [exact C|left; congruence|exact R]]]].
    apply (env_chg own h _ _ i); auto; [left; congruence|]. cbn. rewrite give_eq. repeat split; auto; try lia.
  - (* CMake *)
    destruct (ae x) as [av|] eqn:Ax; [discriminate|].
    do 5 eexists. exists (give own (length h) (OVar t x)), (length h), (set ae x (Some (repeat (Some 0%Z) n))), out.
    split; [reflexivity|]. pose proof (chg_new own h (repeat 0%Z n) (OVar t x)) as C. split; [exact C|]. split; [left; lia|].
    split; [eapply pool_chg; eauto|]. split; [|split; [exact A|split; [reflexivity|eapply res_chg; eauto]]].
    apply (env_chg own h _ _ (length h)); auto. cbn. rewrite give_eq, app_length, arr_new, repeat_length. cbn [length].
    repeat split; auto; try lia. rewrite firstn_all2 by (rewrite repeat_length; lia).
    clear. induction n; cbn; constructor; auto. now right.
  - (* CGrow *)
    destruct (ae x) as [av|] eqn:Ax; [|discriminate]. destruct (e x) as [v|] eqn:Xe; [|contradiction].
    destruct Ex as (O1 & O2 & L1 & L2 & L3 & F). pose proof (agrees_len _ _ F) as La. rewrite firstn_length, Nat.min_l in La by lia.
    destruct (Nat.leb_spec n (s_len v)) as [C1|C1]; [|destruct (Nat.leb_spec n (length (arr h (s_cur v)))) as [C2|C2]].
    + do 5 eexists. exists own, (length h), ae, out. split; [reflexivity|]. split; [apply chg_none|]. split; [left; lia|].
      split; [exact P|]. split; [exact E|]. split; [|auto]. rewrite <- A. apply aruns_ext. intros y. unfold set.
      destruct (Nat.eqb_spec y x) as [->|]; [|reflexivity]. rewrite Ax. replace (n - length av) with 0 by lia. cbn [repeat]. now rewrite app_nil_r.
    + do 5 eexists. exists own, (length h). eexists. exists out. split; [reflexivity|]. split; [apply chg_none|]. split; [left; lia|].
      split; [exact P|]. split; [|split; [exact A|auto]].
      apply (env_chg own h own h (length h)); auto using chg_none. cbn. repeat split; auto.
      replace n with (s_len v + (n - s_len v)) at 2 by lia. rewrite <- (firstn_skipn (s_len v) (arr h (s_cur v))) at 1.
      rewrite firstn_app, firstn_length, Nat.min_l by lia. rewrite (firstn_all2 (n := s_len v + (n - s_len v))) by (rewrite firstn_length; lia).
      apply Forall2_app; [exact F|]. apply agrees_none. rewrite firstn_length, skipn_length. lia.
    + do 5 eexists. exists (give own (length h) (OVar t x)), (length h). eexists. exists out.
      split; [reflexivity|]. match goal with |- chg _ _ _ (h ++ [?a]) _ /\ _ => pose proof (chg_new own h a (OVar t x)) as C end.
      split; [exact C|]. split; [left; lia|].
      split; [eapply pool_chg; eauto|]. split; [|split; [exact A|split; [reflexivity|eapply res_chg; eauto]]].
      apply (env_chg own h _ _ (length h)); auto. cbn. rewrite give_eq, app_length, arr_new. cbn [length].
      assert (Lf : length (firstn (s_len v) (arr h (s_cur v))) = s_len v) by (rewrite firstn_length; lia).
      repeat split; auto; try lia; [rewrite app_length, repeat_length; lia|].
      rewrite firstn_app, Lf. rewrite (firstn_all2 (n := n)) by lia. apply Forall2_app; [exact F|].
      replace (n - length av) with (n - s_len v) by lia. apply agrees_none. rewrite firstn_length, repeat_length. lia.
  - (* CWrite *)
    destruct (ae x) as [av|] eqn:Ax; [|discriminate]. destruct (e x) as [v|] eqn:Xe; [|contradiction].
    destruct Ex as (O1 & O2 & L1 & L2 & L3 & F).
    destruct (Nat.leb_spec (s_len v + length bs) (length (arr h (s_cur v)))) as [C1|C1].
    + do 5 eexists. exists own, (s_cur v). eexists. exists out. split; [reflexivity|].
      match goal with |- chg _ _ _ (upd h ?i ?a) _ /\ _ => pose proof (chg_upd own h i a) as C end.
      split; [exact C|]. split; [right; right; eauto|].
      split; [eapply pool_chg; [exact C|left; congruence|exact P]|].
      split; [|split; [exact A|split; [reflexivity|eapply res_chg; [exact C|left; congruence|exact R]]]].
      apply (env_chg own h _ _ (s_cur v)); auto; [left; congruence|]. cbn. rewrite upd_len, arr_upd_eq by auto.
      repeat split; auto; [rewrite over_len; lia|]. rewrite over_end by auto. apply Forall2_app; [exact F|apply agrees_some].
    + do 5 eexists. exists (give own (length h) (OVar t x)), (length h). eexists. exists out.
      split; [reflexivity|]. match goal with |- chg _ _ _ (h ++ [?a]) _ /\ _ => pose proof (chg_new own h a (OVar t x)) as C end.
      split; [exact C|]. split; [left; lia|].
      split; [eapply pool_chg; eauto|]. split; [|split; [exact A|split; [reflexivity|eapply res_chg; eauto]]].
      apply (env_chg own h _ _ (length h)); auto. cbn. rewrite give_eq, give_neq, app_length, arr_new by lia. cbn [length].
      assert (Lf : length (firstn (s_len v) (arr h (s_cur v))) = s_len v) by (rewrite firstn_length; lia).
      repeat split; auto; try lia; [rewrite !app_length; lia|].
      rewrite app_assoc, firstn_app, app_length, Lf, Nat.sub_diag, firstn_O, app_nil_r.
      rewrite firstn_all2 by (rewrite app_length; lia). apply Forall2_app; [exact F|apply agrees_some].
  - (* CStore *)
    destruct (ae x) as [av|] eqn:Ax; [|discriminate]. destruct (e x) as [v|] eqn:Xe; [|contradiction].
    destruct Ex as (O1 & O2 & L1 & L2 & L3 & F). pose proof (agrees_len _ _ F) as La. rewrite firstn_length, Nat.min_l in La by lia.
    destruct (Nat.leb_spec (off + length bs) (length av)) as [C0|C0]; [|discriminate].
    rewrite le_true by lia.
    do 5 eexists. exists own, (s_cur v). eexists. exists out. split; [reflexivity|].
    match goal with |- chg _ _ _ (upd h ?i ?a) _ /\ _ => pose proof (chg_upd own h i a) as C end.
    split; [exact C|]. split; [right; right; eauto|].
    split; [eapply pool_chg; [exact C|left; congruence|exact P]|].
    split; [|split; [exact A|split; [reflexivity|eapply res_chg; [exact C|left; congruence|exact R]]]].
    intros y. assert (Q : cell_ok own (upd h (s_cur v) (over (arr h (s_cur v)) off bs)) t y (set e x (Some v) y) (set ae x (Some (over av off (map Some bs))) y)).
    { apply (env_chg own h _ _ (s_cur v)); auto; [left; congruence|]. cbn. rewrite upd_len, arr_upd_eq by auto.
      repeat split; auto; [rewrite over_len; lia|]. rewrite over_firstn by lia. unfold over. rewrite map_length.
      repeat apply Forall2_app; auto using F2_firstn, F2_skipn, agrees_some. }
    replace (e y) with (set e x (Some v) y); [exact Q|]. unfold set. destruct (Nat.eqb_spec y x) as [Z|Z]; [subst; now rewrite Xe|reflexivity].
  - (* CPut *)
    destruct (ae x) as [av|] eqn:Ax; [|discriminate]. destruct (e x) as [v|] eqn:Xe; [|contradiction].
    destruct Ex as (O1 & O2 & L1 & L2 & L3 & F).
    do 5 eexists. exists (give own (s_orig v) OPool), (s_orig v). eexists. exists out. split; [reflexivity|].
    pose proof (chg_give own h (s_orig v) OPool) as C. split; [exact C|]. split; [right; right; eauto|]. split.
    { assert (Np : own (s_orig v) <> OPool) by congruence. destruct (pool_chg _ _ _ _ _ p C (or_introl Np) P) as [N Q]. split.
      - apply NoDup_app_one; [exact N|]. intros H. destruct P as [_ P]. destruct (P _ H). congruence.
      - intros i H. apply in_app_or in H. destruct H as [H|[<-|[]]]; [auto|]. rewrite give_eq. auto. }
    split; [|split; [exact A|split; [reflexivity|eapply res_chg; [exact C|left; congruence|exact R]]]].
    apply (env_chg own h _ _ (s_orig v)); auto; [left; congruence|]. exact I.
  - (* CRet *)
    destruct (ae x) as [av|] eqn:Ax; [|discriminate]. destruct (e x) as [v|] eqn:Xe; [|contradiction].
    destruct Ex as (O1 & O2 & L1 & L2 & L3 & F).
    destruct (known av) as [l|] eqn:K; [|discriminate]. destruct (aruns (set ae x None) prog) as [ls|] eqn:A'; [|discriminate]. injection A as <-.
    do 5 eexists. exists (give own (s_cur v) (ORes (length rs))), (s_cur v). eexists. exists ls. split; [reflexivity|].
    pose proof (chg_give own h (s_cur v) (ORes (length rs))) as C. split; [exact C|]. split; [right; right; eauto|].
    split; [eapply pool_chg; [exact C|left; congruence|exact P]|].
    split; [|split; [exact A'|]].
    + apply (env_chg own h _ _ (s_cur v)); auto; [left; congruence|]. exact I.
    + exists l. split; [reflexivity|]. assert (Nr : forall r, own (s_cur v) <> ORes r) by congruence.
      destruct (res_chg _ _ _ _ _ rs vs C (or_introl Nr) R) as [Lv Q].
      split; [rewrite !app_length; cbn; lia|]. intros r i n Er. destruct (Nat.lt_ge_cases r (length rs)) as [Lr|Lr].
      * rewrite nth_error_app1 in Er by auto. rewrite nth_error_app1 by lia. auto.
      * rewrite nth_error_app2 in Er by auto. destruct (r - length rs) as [|q] eqn:Qr; [|destruct q; discriminate Er].
        cbn in Er. injection Er as <- <-. assert (r = length rs) by lia. subst r. rewrite give_eq.
        rewrite nth_error_app2, Lv, Nat.sub_diag by lia. cbn. rewrite (agrees_known _ _ F l K). auto.
  - (* CCopyOut *)
    destruct (ae x) as [av|] eqn:Ax; [|discriminate]. destruct (e x) as [v|] eqn:Xe; [|contradiction].
    destruct Ex as (O1 & O2 & L1 & L2 & L3 & F).
    destruct (known av) as [l|] eqn:K; [|discriminate]. destruct (aruns ae prog) as [ls|] eqn:A'; [|discriminate]. injection A as <-.
    do 5 eexists. exists (give own (length h) (ORes (length rs))), (length h), ae, ls. split; [reflexivity|].
    match goal with |- chg _ _ _ (h ++ [?a]) _ /\ _ => pose proof (chg_new own h a (ORes (length rs))) as C end.
    split; [exact C|]. split; [left; lia|]. split; [eapply pool_chg; eauto|].
    split; [|split; [exact A'|]].
    + intros y. apply (cell_chg own h _ _ (length h)); auto.
    + exists l. split; [reflexivity|]. destruct (res_chg _ _ _ _ _ rs vs C (or_intror (le_n _)) R) as [Lv Q].
      split; [rewrite !app_length; cbn; lia|]. intros r i n Er. destruct (Nat.lt_ge_cases r (length rs)) as [Lr|Lr].
      * rewrite nth_error_app1 in Er by auto. rewrite nth_error_app1 by lia. auto.
      * rewrite nth_error_app2 in Er by auto. destruct (r - length rs) as [|q] eqn:Qr; [|destruct q; discriminate Er].
        cbn in Er. injection Er as <- <-. assert (r = length rs) by lia. subst r. rewrite give_eq, arr_new, app_length.
        rewrite nth_error_app2, Lv, Nat.sub_diag by lia. cbn [nth_error length]. rewrite (agrees_known _ _ F l K).
        rewrite firstn_length, Nat.min_l by lia. rewrite firstn_firstn, Nat.min_id. repeat split; auto. lia.
Qed.

Lemma handed_app : forall os o t, handed (os ++ [o]) t = handed os t + (match o with Some q => if q =? t then 1 else 0 | None => 0 end).
Proof.
  intros. unfold handed. rewrite filter_app, app_length. cbn. destruct o as [q|]; [destruct (q =? t)|]; reflexivity.
Qed.
(* one event: what the callers hold afterwards *)
Definition held1 (cs : list call) (vs : list (list Z)) (ev : event) (o : option nat) : list (list Z) := held cs vs [ev] [o].
Lemma step_ok : forall cs vs os s ev,
  inv cs vs os s -> (forall c, ev = ECall c -> nth_error cs (length (threads s)) = Some c) ->
  let '(s', o) := step s ev in
  inv cs (held1 cs vs ev o) (os ++ [o]) s' /\
  length (threads s') = length (threads s) + (match ev with ECall _ => 1 | _ => 0 end) /\
  (forall t pick extra e c r, ev = EStep t pick extra -> nth_error (threads s) t = Some (MkT e (c :: r)) ->
    exists e', nth_error (threads s') t = Some (MkT e' r)).
Proof.
  intros cs vs os s ev (Hn & own & P & R & T) Cs.
  assert (Same : inv cs vs (os ++ [None]) s).
  { split; [intros t L; rewrite handed_app; cbn; rewrite Hn by auto; reflexivity|]. exists own. split; [exact P|]. split; [exact R|].
    intros t th E. rewrite handed_app, Nat.add_0_r. auto. }
  destruct ev as [c|t pick extra|r off bs|k]; cbn [step].
  - cbn [held1 held]. split; [|split; [cbn [threads]; rewrite app_length; reflexivity|discriminate]]. split.
    { intros t L. cbn [threads] in L. rewrite app_length in L. cbn in L. rewrite handed_app, Hn by lia. reflexivity. }
    exists own. cbn [heap pool results threads]. split; [exact P|]. split; [exact R|]. intros t th E.
    rewrite handed_app, Nat.add_0_r. destruct (Nat.lt_ge_cases t (length (threads s))) as [L|L].
    + rewrite nth_error_app1 in E by auto. auto.
    + rewrite nth_error_app2 in E by auto. destruct (t - length (threads s)) as [|q] eqn:Q; [|destruct q; discriminate E].
      cbn in E. injection E as <-. assert (t = length (threads s)) by lia. subst t. exists c. split; [now apply Cs|].
      exists aenv0. eexists. exists []. cbn [t_prog t_env]. split; [apply program_ok|]. split; [intros x; exact I|].
      rewrite Hn by lia. auto.
  - destruct (nth_error (threads s) t) as [[e [|c r]]|] eqn:Et.
    + split; [exact Same|]. split; [lia|]. intros t' p' x' e' c' r' Ev E'. injection Ev as <- <- <-. congruence.
    + destruct (T t _ Et) as (cl & Ec & (ae & out & done & A & Ce & D & Dn)). cbn [t_prog t_env] in *.
      destruct (cmd_ok own (heap s) (pool s) (results s) vs t e ae c r pick extra out P R Ce A)
        as (h' & p' & rs' & e' & b & own' & j & ae' & out' & St & Ch & J & P' & Ce' & A' & B). rewrite St.
      assert (Lt : t < length (threads s)) by (apply nth_error_Some; congruence).
      set (o := if b then Some t else None).
      assert (Oth : forall t' th, t' <> t -> nth_error (upd (threads s) t (MkT e' r)) t' = Some th ->
        exists c, nth_error cs t' = Some c /\ thread_ok own' h' t' th c (handed (os ++ [o]) t')).
      { intros t' th N E'. rewrite upd_nth_neq in E' by auto. destruct (T t' th E') as (c' & Ec' & Th). exists c'. split; [exact Ec'|].
        replace (handed (os ++ [o]) t') with (handed os t').
        2:{ rewrite handed_app. unfold o. destruct b; [|lia]. destruct (Nat.eqb_spec t t'); [congruence|lia]. }
        apply (thread_chg own (heap s) own' h' j); auto. destruct J as [J|[J|[x J]]]; [now right|left; congruence|left; congruence]. }
      split; [|split; [cbn [threads]; rewrite upd_len; lia|]].
      * split; [intros t' L; cbn [threads] in L; rewrite upd_len in L; rewrite handed_app, Hn by auto; unfold o; destruct b; [|reflexivity];
          destruct (Nat.eqb_spec t t'); [lia|reflexivity]|].
        exists own'. cbn [heap pool results threads]. split; [exact P'|]. split.
        -- unfold o. destruct b; cbn [held1 held].
           ++ destruct B as (v & -> & Rs). rewrite Ec. destruct (expect cl) as [w|].
              ** destruct done as [|d0 done]; [|destruct done; cbn in D; discriminate D]. cbn in D. injection D as -> _. exact Rs.
              ** destruct done; discriminate D.
           ++ now destruct B.
        -- intros t' th E'. destruct (Nat.eq_dec t' t) as [->|N]; [|now apply Oth].
           rewrite upd_nth_eq in E' by auto. injection E' as <-. exists cl. split; [exact Ec|].
           rewrite handed_app. unfold o. destruct b.
           ++ destruct B as (v & -> & _). rewrite Nat.eqb_refl. exists ae', out', (done ++ [v]). cbn [t_prog t_env].
              split; [exact A'|]. split; [exact Ce'|]. rewrite <- app_assoc, app_length. cbn. split; [exact D|lia].
           ++ destruct B as [-> _]. exists ae', out', done. rewrite Nat.add_0_r. auto.
      * intros t' q' x' e0 c0 r0 Ev E'. injection Ev as <- <- <-. rewrite Et in E'. injection E' as <- <- <-.
        cbn [threads]. rewrite upd_nth_eq by auto. eauto.
    + split; [exact Same|]. split; [lia|]. intros t' p' x' e' c' r' Ev E'. injection Ev as <- <- <-. congruence.
  - destruct (nth_error (results s) r) as [[i n]|] eqn:Er.
    + destruct R as [Lv R]. destruct (R r i n Er) as (Oi & Li & Ln & Vr).
      assert (Le : length (firstn n (arr (heap s) i)) = n) by (rewrite firstn_length; lia).
      destruct (Nat.leb_spec (off + length bs) n) as [C|C].
      * cbn [held1 held]. rewrite Vr, Le. rewrite le_true by auto.
        set (a := over (arr (heap s) i) off bs). pose proof (chg_upd own (heap s) i a) as Ch.
        split; [|split; [cbn; lia|discriminate]]. split; [intros t L; rewrite handed_app; cbn; rewrite Hn by auto; reflexivity|].
        exists own. cbn [heap pool results threads]. split; [|split].
        -- apply (pool_chg own (heap s) _ _ i); auto. left. congruence.
        -- split; [rewrite upd_len; exact Lv|]. intros r' i' n' E'. destruct (R r' i' n' E') as (O' & L' & Ln' & V').
           rewrite upd_len. destruct (Nat.eq_dec r' r) as [->|Nr].
           ++ rewrite Er in E'. injection E' as <- <-. rewrite arr_upd_eq by auto.
              assert (Lr : r < length vs) by (apply nth_error_Some; congruence). rewrite upd_nth_eq by auto.
              unfold a. rewrite over_len by lia. rewrite over_firstn by lia. auto.
           ++ rewrite upd_nth_neq by auto. rewrite arr_upd_neq by congruence. auto.
        -- intros t th E. rewrite handed_app, Nat.add_0_r. destruct (T t th E) as (c & Ec & Th). exists c. split; [exact Ec|].
           apply (thread_chg own (heap s) _ _ i); auto. left. congruence.
      * cbn [held1 held]. rewrite Vr, Le. destruct (Nat.leb_spec (off + length bs) n); [lia|]. split; [exact Same|]. split; [lia|discriminate].
    + cbn [held1 held]. destruct R as [Lv R]. assert (Nv : nth_error vs r = None) by (apply nth_error_None in Er; apply nth_error_None; lia).
      rewrite Nv. split; [exact Same|]. split; [lia|discriminate].
  - cbn [held1 held]. split; [|split; [cbn; lia|discriminate]]. destruct Same as [Hn' _]. split; [exact Hn'|].
    exists own. cbn [heap pool results threads]. split; [now apply pool_without|]. split; [exact R|].
    intros t th E. rewrite handed_app, Nat.add_0_r. auto.
Qed.
Lemma held_app1 : forall cs vs ev o evs os, held cs vs (ev :: evs) (o :: os) = held cs (held1 cs vs ev o) evs os.
Proof. reflexivity. Qed.
Lemma steps_ok : forall evs pre os0 vs s,
  inv (pre ++ calls evs) vs os0 s -> length (threads s) = length pre ->
  let '(s', os) := steps s evs in
  inv (pre ++ calls evs) (held (pre ++ calls evs) vs evs os) (os0 ++ os) s' /\ length (threads s') = length (pre ++ calls evs).
Proof.
  induction evs as [|ev evs IH]; intros pre os0 vs s I L; cbn [steps].
  - cbn [calls flat_map held]. rewrite !app_nil_r in *. auto.
  - assert (Cs : forall c, ev = ECall c -> nth_error (pre ++ calls (ev :: evs)) (length (threads s)) = Some c).
    { intros c ->. rewrite L, nth_error_app2, Nat.sub_diag by lia. reflexivity. }
    pose proof (step_ok _ _ _ _ ev I Cs) as H. destruct (step s ev) as [s1 o]. destruct H as (I1 & L1 & _).
    set (pre' := pre ++ match ev with ECall c => [c] | _ => [] end).
    assert (E : pre ++ calls (ev :: evs) = pre' ++ calls evs) by (unfold pre'; rewrite <- app_assoc; reflexivity).
    rewrite E in *. specialize (IH pre' (os0 ++ [o]) _ s1 I1).
    destruct (steps s1 evs) as [s2 os]. rewrite held_app1. rewrite <- app_assoc in IH. cbn [app] in IH. apply IH.
    unfold pre'. rewrite app_length, L1, L. destruct ev; reflexivity.
Qed.
Lemma inv0 : forall cs, inv cs [] [] st0.
Proof.
  intros cs. split; [reflexivity|]. exists (fun _ => OPool). split; [split; [constructor|intros i []]|].
  split; [split; [reflexivity|intros r i n E; destruct r; discriminate E]|]. intros t th E. destruct t; discriminate E.
Qed.

(* Whatever calls run at the same time, in whatever order their steps come, whichever buffers the
   pool gives out, keeps or drops, and whatever callers write into what they were given: every
   result shows what its call was to return, as changed by its own holder. *)
Theorem C109_values : forall evs s os, steps st0 evs = (s, os) ->
  forall r, shows s r = nth_error (held (calls evs) [] evs os) r.
Proof.
  intros evs s os E r. pose proof (steps_ok evs [] [] [] st0 (inv0 _) eq_refl) as H. rewrite E in H. cbn [app] in H.
  destruct H as [(_ & own & _ & [Lv R] & _) _]. unfold shows. destruct (nth_error (results s) r) as [[i n]|] eqn:Er.
  - symmetry. apply (R r i n Er).
  - symmetry. apply nth_error_None. apply nth_error_None in Er. lia.
Qed.
Print Assumptions C109_values.
(* No call is ever stuck, and a call that is over has handed out its result, once. *)
Theorem C109_runs : forall evs s os, steps st0 evs = (s, os) ->
  (forall t e c r pick extra, nth_error (threads s) t = Some (MkT e (c :: r)) ->
     exists e', nth_error (threads (fst (step s (EStep t pick extra)))) t = Some (MkT e' r)) /\
  (forall t e c, nth_error (threads s) t = Some (MkT e []) -> nth_error (calls evs) t = Some c ->
     handed os t = match expect c with Some _ => 1 | None => 0 end) /\
  length (threads s) = length (calls evs).
Proof.
  intros evs s os E. pose proof (steps_ok evs [] [] [] st0 (inv0 _) eq_refl) as H. rewrite E in H. cbn [app] in H.
  destruct H as [I L]. split; [|split; [|exact L]].
  - intros t e c r pick extra Et. pose proof (step_ok _ _ _ s (EStep t pick extra) I ltac:(discriminate)) as H.
    destruct (step s (EStep t pick extra)) as [s' o]. destruct H as (_ & _ & H). cbn [fst]. exact (H _ _ _ _ _ _ eq_refl Et).
  - intros t e c Et Ec. destruct I as (_ & own & _ & _ & T). destruct (T _ _ Et) as (c' & Ec' & (ae & out & done & A & _ & D & Dn)).
    rewrite Ec in Ec'. injection Ec' as <-. cbn in A. injection A as <-. rewrite app_nil_r in D. rewrite <- Dn, D. now destruct (expect c).
Qed.
Print Assumptions C109_runs.

(* A concrete run: a document is read while an array is printed and another is marshalled with a
   buffer that was put back; the caller then overwrites the marshalled bytes. *)
Definition run_evs : list event :=
  [ECall (ReadFrom [6; 0; 0; 0; 7; 0; 9]%Z); EStep 0 None 8; ECall (ArrString [[91]; [1; 2; 3]; [93]]%Z);
   EStep 0 None 8; EStep 0 None 8; EStep 1 None 2; EStep 0 (Some 0) 3; EStep 1 None 2; EStep 1 None 2; EStep 0 None 0;
   EStep 0 None 0; EStep 0 None 0; EStep 1 None 0; EStep 0 None 0; ECall (ArrMarshal [5; 5; 5]%Z); EStep 2 (Some 0) 0;
   EStep 0 None 0; EStep 1 None 0; EStep 1 None 0; EStep 2 None 0; EStep 2 None 0; EStep 2 None 0; EClient 2 1 [4; 4]%Z].
Example C109_nonvacuous :
  let '(s, os) := steps st0 run_evs in
  map (shows s) [0; 1; 2; 3] = [Some [6; 0; 0; 0; 7; 0]; Some [91; 1; 2; 3; 93]; Some [5; 4; 4]; None]%Z /\
  filter (fun o => match o with Some _ => true | None => false end) os = [Some 0; Some 1; Some 2] /\ length (pool s) = 1.
Proof. vm_compute. auto. Qed.
