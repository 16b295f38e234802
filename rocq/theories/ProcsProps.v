(* Reports on processes (C106). *)
Require Import List Arith Lia Bool Permutation.
From Verif Require Import Procs.
Import ListNotations.

Section All.
Context {Proc Info : Type}.
Variable populate : Proc -> Info.
Notation state := (@qstate Proc Info).
Notation worker := (@qworker Proc Info).

Definition weight (w : worker) : nat := match w with QNext => 1 | QWork _ => 4 | QSend _ => 3 | QGone => 0 end.
Definition weights (ws : list worker) : nat := list_sum (map weight ws).
Definition size (s : state) : nat :=
  5 * length (q_procs s) + weights (q_workers s) + length (q_infos s) +
  match q_main s with QWait => 3 | QRange _ => 2 | QReturned _ => 1 | QPanicked => 0 end.

Lemma set_worker (ws : list worker) i w w' : nth_error ws i = Some w ->
  exists a b, ws = a ++ w :: b /\ set_at ws i w' = a ++ w' :: b.
Proof.
  intros H. destruct (nth_error_split ws i H) as (a & b & -> & <-). exists a, b. split; [reflexivity|]. unfold set_at.
  rewrite firstn_app, firstn_all, Nat.sub_diag, firstn_O, app_nil_r. do 2 f_equal. clear. induction a; auto.
Qed.
Lemma weights_mid a w b : weights (a ++ w :: b) = weights a + weight w + weights b.
Proof. unfold weights. rewrite map_app, list_sum_app. cbn [map]. change (list_sum (weight w :: map weight b)) with (weight w + list_sum (map weight b)). lia. Qed.

Definition at_work (w : worker) : list Proc := match w with QWork p => [p] | _ => [] end.
Definition to_send (w : worker) : list Info := match w with QSend i => [i] | _ => [] end.
Definition received (m : @qmain Info) : list Info := match m with QRange r | QReturned r => r | _ => [] end.
Record accounted (procs : list Proc) (s : state) : Prop := MkAcc {
  ac_all : Permutation (map populate procs)
     (map populate (q_procs s) ++ map populate (flat_map at_work (q_workers s)) ++ flat_map to_send (q_workers s) ++ q_infos s ++ received (q_main s));
  ac_gone : In QGone (q_workers s) -> q_procs s = [];
  ac_some : q_workers s = [] -> procs = [];
  ac_main : match q_main s with
            | QWait => q_closed s = false
            | QPanicked => False
            | _ => forallb is_gone (q_workers s) = true /\ q_closed s = true
            end }.
Lemma gone_mid a (w : worker) b : forallb is_gone (a ++ w :: b) = true -> is_gone w = false -> False.
Proof. intros H G. rewrite forallb_app in H. cbn in H. rewrite G, andb_false_r in H. discriminate. Qed.
Lemma not_nil {A} (a : list A) w b : a ++ w :: b <> [].
Proof. destruct a; discriminate. Qed.

Lemma accounted_step procs cap s s' : accounted procs s -> qstep populate cap s s' -> accounted procs s'.
Proof.
  intros [P G N M] S. destruct S as [p r is b ws m i W|is b ws m i W|ps is b ws m i p W|ps is ws m i x W L|ps is ws m i x W|ps is ws A|ps x is b ws res|ps ws res];
    cbn [q_procs q_infos q_closed q_workers q_main] in *.
  - destruct (set_worker _ _ _ (QWork p) W) as (u & v & -> & ->). split; cbn [q_procs q_infos q_closed q_workers q_main].
    + rewrite P. rewrite !flat_map_app. cbn [flat_map at_work to_send app]. rewrite !map_app. cbn [map]. rewrite <- !app_assoc. cbn [app].
      rewrite !app_assoc. rewrite <- !(app_assoc (map populate r ++ map populate (flat_map at_work u))). cbn [app]. apply Permutation_middle.
    + intros I. exfalso. assert (p :: r = []) by (apply G; rewrite in_app_iff in *; cbn in *; intuition discriminate). discriminate.
    + intros E. exfalso; exact (not_nil _ _ _ E).
    + destruct m; auto; destruct M as [M _]; exfalso; exact (gone_mid _ _ _ M eq_refl).
  - destruct (set_worker _ _ _ QGone W) as (u & v & -> & ->). split; cbn [q_procs q_infos q_closed q_workers q_main]; auto.
    + rewrite P. rewrite !flat_map_app. reflexivity.
    + intros E. exfalso; exact (not_nil _ _ _ E).
    + destruct m; auto; destruct M as [M _]; exfalso; exact (gone_mid _ _ _ M eq_refl).
  - destruct (set_worker _ _ _ (QSend (populate p)) W) as (u & v & -> & ->). split; cbn [q_procs q_infos q_closed q_workers q_main].
    + rewrite P. rewrite !flat_map_app. cbn [flat_map at_work to_send app]. rewrite !map_app. cbn [map]. apply Permutation_app_head.
      rewrite <- !app_assoc. apply Permutation_app_head. cbn [app]. rewrite !(app_assoc (map populate (flat_map at_work v)) (flat_map to_send u)).
      apply Permutation_middle.
    + intros I. apply G. rewrite in_app_iff in *. cbn in *. intuition discriminate.
    + intros E. exfalso; exact (not_nil _ _ _ E).
    + destruct m; auto; destruct M as [M _]; exfalso; exact (gone_mid _ _ _ M eq_refl).
  - destruct (set_worker _ _ _ QNext W) as (u & v & -> & ->). split; cbn [q_procs q_infos q_closed q_workers q_main].
    + rewrite P. rewrite !flat_map_app. cbn [flat_map at_work to_send app]. rewrite <- !app_assoc. do 3 apply Permutation_app_head. cbn [app].
      rewrite !(app_assoc (flat_map to_send v)). apply Permutation_middle.
    + intros I. apply G. rewrite in_app_iff in *. cbn in *. intuition discriminate.
    + intros E. exfalso; exact (not_nil _ _ _ E).
    + destruct m; auto; destruct M as [M _]; exfalso; exact (gone_mid _ _ _ M eq_refl).
  - exfalso. destruct (set_worker _ _ _ QNext W) as (u & v & -> & _). destruct m; [discriminate| | |exact M]; destruct M as [M _]; exfalso; exact (gone_mid _ _ _ M eq_refl).
  - split; cbn [q_procs q_infos q_closed q_workers q_main]; auto.
  - split; cbn [q_procs q_infos q_closed q_workers q_main]; auto. rewrite P. cbn [received]. do 3 apply Permutation_app_head. cbn [app].
    rewrite app_assoc. apply Permutation_cons_append.
  - split; cbn [q_procs q_infos q_closed q_workers q_main]; auto.
Qed.
Lemma accounted_run procs cap s : qsteps populate cap (new_collect procs) s -> accounted procs s.
Proof.
  intros R. remember (new_collect procs) as s0 eqn:E. induction R as [s|s s1 s2 R IH S].
  - subst. assert (X : forall n, flat_map at_work (repeat QNext n) = [] /\ flat_map to_send (repeat QNext n) = []) by (induction n; cbn; auto).
    unfold new_collect. destruct (X (Nat.min 32 (length procs))) as [X1 X2]. split; cbn [q_procs q_infos q_closed q_workers q_main received].
    + rewrite X1, X2. cbn. now rewrite app_nil_r.
    + intros I. apply repeat_spec in I. discriminate.
    + intros N. destruct procs; [reflexivity|]. discriminate.
    + reflexivity.
  - eapply accounted_step; eauto.
Qed.

(* Every schedule of CollectAllProcesses comes to an end ... *)
Theorem C106_ends : forall cap s s', qstep populate cap s s' -> q_main s <> QPanicked -> size s' < size s.
Proof.
  intros cap s s' S NP. destruct S as [p r is b ws m i W|is b ws m i W|ps is b ws m i p W|ps is ws m i x W L|ps is ws m i x W|ps is ws A|ps x is b ws res|ps ws res];
    unfold size; cbn [q_procs q_infos q_closed q_workers q_main length] in *; try lia.
  - destruct (set_worker _ _ _ (QWork p) W) as (u & v & -> & ->). rewrite !weights_mid. cbn. lia.
  - destruct (set_worker _ _ _ QGone W) as (u & v & -> & ->). rewrite !weights_mid. cbn. lia.
  - destruct (set_worker _ _ _ (QSend (populate p)) W) as (u & v & -> & ->). rewrite !weights_mid. cbn. lia.
  - destruct (set_worker _ _ _ QNext W) as (u & v & -> & ->). rewrite !weights_mid, app_length. cbn. lia.
  - destruct m; try lia. congruence.
Qed.
(* ... without a panic, and then it has returned one report for each process. *)
Theorem C106_all : forall procs s, qsteps populate (length procs) (new_collect procs) s ->
  q_main s <> QPanicked /\
  ((forall s', ~ qstep populate (length procs) s s') ->
   exists res, q_main s = QReturned res /\ Permutation (map populate procs) res).
Proof.
  intros procs s R. pose proof (accounted_run _ _ _ R) as [P G N M]. split; [intros E; now rewrite E in M|]. intros Stop.
  destruct s as [ps is b ws m]. cbn [q_procs q_infos q_closed q_workers q_main] in *.
  assert (Gone : forall i w, nth_error ws i = Some w -> w = QGone).
  { intros i w W. destruct w as [|p|x|]; [| | |reflexivity]; exfalso.
    - destruct ps as [|p ps]; eapply Stop; [eapply q_end|eapply q_take]; exact W.
    - eapply Stop. eapply q_work. exact W.
    - destruct b; [eapply Stop; eapply q_panic; exact W|]. eapply Stop. eapply q_send; [exact W|].
      apply Permutation_length in P. destruct (set_worker _ _ _ QGone W) as (u & v & -> & _). rewrite !flat_map_app in P. cbn [flat_map to_send app] in P.
      rewrite !map_length, !app_length in P. rewrite !map_length in P. cbn [length] in P. lia. }
  assert (All : forallb is_gone ws = true).
  { apply forallb_forall. intros w I. apply In_nth_error in I as [i W]. now rewrite (Gone _ _ W). }
  assert (Idle : flat_map at_work ws = [] /\ flat_map to_send ws = []).
  { clear -All. induction ws as [|w ws IH]; [auto|]. cbn in All. apply andb_prop in All as [A1 A2]. destruct (IH A2). destruct w; try discriminate. auto. }
  destruct Idle as [I1 I2]. rewrite I1, I2 in P. cbn [map app] in P.
  assert (Q : ps = []).
  { destruct ws as [|w ws]; [|apply G; left; apply (Gone 0 w); reflexivity].
    rewrite (N eq_refl) in P. apply Permutation_length in P. rewrite app_length, map_length in P. cbn in P. destruct ps; [reflexivity|cbn in P; lia]. }
  subst ps. cbn [map app] in P.
  destruct m as [|res|res|].
  - subst b. exfalso. eapply Stop. apply q_wait. exact All.
  - destruct M as [_ ->]. exfalso. destruct is as [|x is]; eapply Stop; [apply q_return|apply q_recv].
  - exists res. split; [reflexivity|]. cbn [received] in P. destruct is as [|x is]; [exact P|].
    exfalso. clear -R. remember (MkQ [] (x :: is) b ws (QReturned res)) as s eqn:E.
    assert (X : forall t, qsteps populate (length procs) (new_collect procs) t -> forall r, q_main t = QReturned r -> q_infos t = [] /\ forallb is_gone (q_workers t) = true).
    { clear. intros t R. remember (new_collect procs) as s0 eqn:E0. induction R as [t|t t1 t2 R IH S]; intros r Em; [subst; discriminate|].
      pose proof (IH E0) as IH0. assert (A : accounted procs t1) by (subst; eapply accounted_run; eauto).
      destruct A as [_ _ _ M].
      destruct S as [p q is b ws m i W|is b ws m i W|ps is b ws m i p W|ps is ws m i x W L|ps is ws m i x W|ps is ws A|ps x is b ws res|ps ws res];
        cbn [q_procs q_infos q_closed q_workers q_main] in *; try discriminate; subst.
      - destruct (IH0 r eq_refl) as [_ X]. destruct (set_worker _ _ _ QNext W) as (u & v & -> & _). exfalso; exact (gone_mid _ _ _ X eq_refl).
      - destruct (IH0 r eq_refl) as [_ X]. destruct (set_worker _ _ _ QNext W) as (u & v & -> & _). exfalso; exact (gone_mid _ _ _ X eq_refl).
      - destruct (IH0 r eq_refl) as [_ X]. destruct (set_worker _ _ _ QNext W) as (u & v & -> & _). exfalso; exact (gone_mid _ _ _ X eq_refl).
      - destruct (IH0 r eq_refl) as [_ X]. destruct (set_worker _ _ _ QNext W) as (u & v & -> & _). exfalso; exact (gone_mid _ _ _ X eq_refl).
      - destruct M. auto. }
    destruct (X s R res) as [Xi _]; subst; [reflexivity|discriminate].
  - destruct M.
Qed.
End All.
Print Assumptions C106_ends.
Print Assumptions C106_all.

(* ------------------------------------------------------------------- descendants *)
(* q is listed as a child of p, or as a child of a descendant of p. *)
Inductive descends {P} (kids : P -> option (list P)) (p : P) : P -> Prop :=
| d_child q cs : kids p = Some cs -> In q cs -> descends kids p q
| d_more q r cs : descends kids p q -> kids q = Some cs -> In r cs -> descends kids p r.

Section Kids.
Context {P : Type}.
Variable kids : P -> option (list P).

Fixpoint each (rec : P -> option (list P)) (cs : list P) : option (list P) :=
  match cs with
  | [] => Some []
  | c :: r => match rec c, each rec r with Some l, Some x => Some (c :: l ++ x) | _, _ => None end
  end.
Lemma loop_acc rec cs : forall out, gather rec cs out = match each rec cs with Some x => Some (out ++ x) | None => None end.
Proof.
  induction cs as [|c r IH]; intros out; cbn [gather each]; [now rewrite app_nil_r|]. destruct (rec c) as [l|]; [|reflexivity].
  rewrite IH. destruct (each rec r); [|reflexivity]. cbn [app]. now rewrite <- app_assoc.
Qed.
Inductive lists : P -> list P -> Prop :=
| l_node p cs ls : match kids p with Some cs => cs | None => [] end = cs -> Forall2 lists cs ls ->
    lists p (concat (map (fun cl => fst cl :: snd cl) (combine cs ls))).
Lemma children_lists n : forall p l, children kids n p = Some l -> lists p l.
Proof.
  induction n as [|n IH]; intros p l E; [discriminate|]. cbn [children] in E.
  assert (X : exists cs, match kids p with Some cs => cs | None => [] end = cs /\
    each (children kids n) cs = Some l).
  { destruct (kids p) as [[|c cs]|].
    - exists []. now injection E as <-.
    - exists (c :: cs). split; [reflexivity|]. rewrite loop_acc in E.
      destruct (each (children kids n) (c :: cs)); [exact E|discriminate].
    - exists []. now injection E as <-. }
  destruct X as (cs & Ek & X). clear E. revert l X. intros l X.
  assert (Y : exists ls, Forall2 lists cs ls /\ l = concat (map (fun cl => fst cl :: snd cl) (combine cs ls))).
  { clear Ek. revert l X. induction cs as [|c cs IHc]; intros l X.
    - injection X as <-. exists []. split; [constructor|reflexivity].
    - cbn [each] in X. destruct (children kids n c) as [lc|] eqn:Ec; [|discriminate].
      match type of X with match ?y with _ => _ end = _ => destruct y as [x|] eqn:Er; [|discriminate] end.
      injection X as <-. destruct (IHc x eq_refl) as (ls & F & ->). exists (lc :: ls). split; [|reflexivity]. constructor; auto. }
  destruct Y as (ls & F & ->). now constructor.
Qed.

(* The recursion ends if no chain of children is longer than depth. *)
Inductive bounded : nat -> P -> Prop :=
| b_node n p : (forall cs c, kids p = Some cs -> In c cs -> bounded n c) -> bounded (S n) p.
Lemma children_ends n : forall p, bounded n p -> exists l, children kids n p = Some l.
Proof.
  induction n as [|n IH]; intros p B; [inversion B|]. inversion_clear B as [? ? K]. cbn [children].
  destruct (kids p) as [[|c cs]|]; [eauto| |eauto]. rewrite loop_acc.
  specialize (K (c :: cs)). generalize dependent (c :: cs). clear c cs. intros cs K.
  assert (K' : forall c, In c cs -> exists l, children kids n c = Some l) by (intros; apply IH; eauto). clear K.
  assert (X : exists l, each (children kids n) cs = Some l).
  { induction cs as [|c cs IHc]; [exists []; reflexivity|]. cbn [each]. destruct (K' c (or_introl eq_refl)) as [l ->].
    destruct IHc as [x ->]; [intros; apply K'; now right|]. eauto. }
  destruct X as [l ->]. eauto.
Qed.
Lemma descends_under p c q cs : kids p = Some cs -> In c cs -> c = q \/ descends kids c q -> descends kids p q.
Proof.
  intros K I [<-|D]; [econstructor; eauto|]. induction D as [q cs' K' I'|q r cs' D IH K' I'].
  - eapply d_more; [eapply d_child; eauto|eauto|eauto].
  - eapply d_more; eauto.
Qed.
Lemma descends_step p q : descends kids p q -> exists cs c, kids p = Some cs /\ In c cs /\ (c = q \/ descends kids c q).
Proof.
  induction 1 as [q cs K I|q r cs D IH K I]; [exists cs, q; auto|].
  destruct IH as (cs0 & c & K0 & I0 & [->|D0]); exists cs0; [exists q|exists c]; repeat (split; [assumption|]); right.
  - eapply d_child; eauto.
  - eapply d_more; eauto.
Qed.
Fixpoint lists_in p l (H : lists p l) {struct H} : forall q, In q l <-> descends kids p q.
Proof.
  destruct H as [p cs ls Ek F]. intros q.
  assert (X : In q (concat (map (fun cl => fst cl :: snd cl) (combine cs ls))) <-> exists c, In c cs /\ (c = q \/ descends kids c q)).
  { clear Ek. induction F as [|c l cs ls Hc F IH]; cbn [combine map concat].
    - split; [contradiction|intros (? & [] & _)].
    - rewrite in_app_iff, IH. cbn [fst snd In]. rewrite (lists_in c l Hc q). clear. split.
      + intros [[->|D]|(c' & I & D)]; [exists q|exists c|exists c']; auto.
      + intros (c' & [->|I] & D); [tauto|]. right. eauto. }
  rewrite X. split.
  - intros (c & I & D). destruct (kids p) as [k|] eqn:K; [|subst; contradiction]. subst. eapply descends_under; eauto.
  - intros D. destruct (descends_step _ _ D) as (cs0 & c & K & I & Q). rewrite K in Ek. subst. eauto.
Defined.
End Kids.

(* A table of processes: each is listed once, by one parent, and none descends from itself. *)
Definition forest {P} (kids : P -> option (list P)) : Prop :=
  (forall p cs, kids p = Some cs -> NoDup cs) /\
  (forall p p' cs cs' c, kids p = Some cs -> kids p' = Some cs' -> In c cs -> In c cs' -> p = p') /\
  (forall p, ~ descends kids p p).

Section Forest.
Context {P : Type}.
Variable kids : P -> option (list P).
Lemma descends_trans a b c : descends kids a b -> descends kids b c -> descends kids a c.
Proof. intros D E. induction E as [c cs K I|c d cs E IH K I]; eapply d_more; eauto. Qed.
Lemma comparable a b q : forest kids -> descends kids a q -> descends kids b q -> a = b \/ descends kids a b \/ descends kids b a.
Proof.
  intros (_ & U & _) D. revert b. induction D as [q cs K I|q r cs D IH K I]; intros b E.
  - inversion E as [? cs' K' I'|q' ? cs' E' K' I']; subst.
    + left. exact (U a b cs cs' q K K' I I').
    + right. right. now rewrite (U a q' cs cs' q K K' I I').
  - inversion E as [? cs' K' I'|q' ? cs' E' K' I']; subst.
    + right. left. now rewrite (U b q cs' cs r K' K I' I).
    + apply IH. now rewrite (U q q' cs cs' r K K' I I').
Qed.
Lemma siblings p cs c d q : forest kids -> kids p = Some cs -> In c cs -> In d cs ->
  c = q \/ descends kids c q -> d = q \/ descends kids d q -> c = d.
Proof.
  intros F K Ic Id Dc Dd. pose proof F as (_ & U & A).
  assert (X : forall a b, In a cs -> In b cs -> descends kids a b -> False).
  { intros a b Ia Ib D. inversion D as [? cs' K' I'|q' ? cs' D' K' I']; subst.
    - rewrite (U p a cs cs' b K K' Ib I') in K. apply (A a). exact (d_child _ _ _ cs K Ia).
    - rewrite <- (U p q' cs cs' b K K' Ib I') in D'. apply (A a). exact (d_more _ _ _ _ cs D' K Ia). }
  destruct Dc as [->|Dc], Dd as [->|Dd].
  - reflexivity.
  - exfalso. eauto.
  - exfalso. eauto.
  - destruct (comparable _ _ _ F Dc Dd) as [E|[D|D]]; [exact E| |]; exfalso; eauto.
Qed.
Fixpoint lists_nodup p l (F : forest kids) (H : lists kids p l) {struct H} : NoDup l.
Proof.
  destruct H as [p cs ls Ek H].
  assert (Sib : forall c d q, In c cs -> In d cs -> c = q \/ descends kids c q -> d = q \/ descends kids d q -> c = d).
  { intros c d q Ic Id. destruct (kids p) as [k|] eqn:K; [|subst; contradiction]. subst k. eapply siblings; eauto. }
  assert (Nd : NoDup cs).
  { destruct (kids p) as [k|] eqn:K; subst; [|constructor]. exact (proj1 F p cs K). }
  clear Ek. induction H as [|c l cs ls Hc H IH]; cbn [combine map concat]; [constructor|]. inversion_clear Nd as [|? ? Nc Nd'].
  assert (Dis : forall q, c = q \/ In q l -> ~ In q (concat (map (fun cl => fst cl :: snd cl) (combine cs ls)))).
  { intros q Q I. assert (X : exists d, In d cs /\ (d = q \/ descends kids d q)).
    { clear -H I. induction H as [|d m cs ls Hd H IH]; cbn [combine map concat] in I; [contradiction|]. apply in_app_iff in I as [[E|I]|I].
      - exists d. cbn. auto.
      - exists d. cbn in *. split; [auto|]. right. now apply (lists_in kids d m Hd q).
      - destruct (IH I) as (d' & ? & ?). exists d'. cbn. auto. }
    destruct X as (d & Id & Dd). apply Nc. rewrite (Sib c d q (or_introl eq_refl) (or_intror Id)); [exact Id| |exact Dd].
    destruct Q as [Q|Q]; [auto|]. right. now apply (lists_in kids c l Hc q). }
  cbn [fst snd app]. constructor.
  - rewrite in_app_iff. intros [I|I]; [|exact (Dis c (or_introl eq_refl) I)].
    apply (lists_in kids c l Hc c) in I. exact (proj2 (proj2 F) c I).
  - pose proof (lists_nodup c l F Hc) as Nl.
    assert (Nr : NoDup (concat (map (fun cl => fst cl :: snd cl) (combine cs ls)))).
    { apply IH; [|exact Nd']. intros a b q Ia Ib. apply Sib; now right. }
    clear -Nl Nr Dis. induction l as [|x l IHl]; [exact Nr|]. inversion_clear Nl as [|? ? Nx Nl']. cbn [app]. constructor.
    + rewrite in_app_iff. intros [I|I]; [auto|]. exact (Dis x (or_intror (or_introl eq_refl)) I).
    + apply IHl; [|exact Nl']. intros q [Q|Q]; apply Dis; [auto|right; now right].
Defined.
Lemma children_bounded n : forall p l, children kids n p = Some l -> bounded kids n p.
Proof.
  induction n as [|n IH]; intros p l E; [discriminate|]. cbn [children] in E. constructor. intros cs c K I. rewrite K in E.
  destruct cs as [|c0 cs]; [contradiction|]. rewrite loop_acc in E.
  match type of E with match ?y with _ => _ end = _ => destruct y as [x|] eqn:Er; [|discriminate] end. clear E K.
  revert x Er I. generalize (c0 :: cs). clear c0 cs. intros cs. induction cs as [|d cs IHc]; intros x Er I; [contradiction|].
  cbn [each] in Er. destruct (children kids n d) as [ld|] eqn:Ed; [|discriminate].
  match type of Er with match ?y with _ => _ end = _ => destruct y as [x'|] eqn:Er'; [|discriminate] end.
  destruct I as [->|I]; eauto.
Qed.
Lemma bounded_below n p q : bounded kids n p -> descends kids p q -> exists m, m < n /\ bounded kids m q.
Proof.
  intros B D. induction D as [q cs K I|q r cs D IH K I].
  - inversion B as [m ? H]; subst. exists m. split; [lia|eauto].
  - destruct IH as (m & L & Bm). inversion Bm as [m' ? H]; subst. exists m'. split; [lia|eauto].
Qed.
End Forest.

(* C106.  Where chains of children end, CollectProcessInfoWithChildren reports on the
   process, first, and then on exactly its descendants; in a forest, on each once. *)
Theorem C106_children : forall (Proc Info : Type) (populate : Proc -> Info) kids depth p, bounded kids depth p ->
  exists l, with_children populate kids depth (Some p) = Some (populate p :: map populate l) /\
    (forall q, In q l <-> descends kids p q) /\ (forest kids -> NoDup (p :: l)).
Proof.
  intros Proc Info populate kids depth p B. destruct (children_ends kids depth p B) as [l E]. exists l.
  unfold with_children. rewrite E. pose proof (children_lists kids depth p l E) as L. split; [reflexivity|]. split; [now apply lists_in|].
  intros F. constructor; [|now apply (lists_nodup kids p l F L)]. intros I. apply (lists_in kids p l L p) in I. exact (proj2 (proj2 F) p I).
Qed.
Print Assumptions C106_children.
(* Where they do not end, it does not return: the recursion does not look for processes it
   has seen, and some systems list process 0 as its own child. *)
Theorem C106_cycle_refuted : forall (Proc Info : Type) (populate : Proc -> Info) kids p, descends kids p p ->
  forall fuel, with_children populate kids fuel (Some p) = None.
Proof.
  intros Proc Info populate kids p D fuel. unfold with_children. destruct (children kids fuel p) as [l|] eqn:E; [|reflexivity]. exfalso.
  apply children_bounded in E. revert E. induction fuel as [n IH] using lt_wf_ind. intros B.
  destruct (bounded_below kids n p p B D) as (m & L & Bm). exact (IH m L Bm).
Qed.
Print Assumptions C106_cycle_refuted.

(* A case: process 1 has children 2 and 3, and 2 has 4. *)
Definition nv_kids (p : nat) : option (list nat) := match p with 1 => Some [2; 3] | 2 => Some [4] | 3 => None | _ => Some [] end.
Example C106_nonvacuous : bounded nv_kids 3 1 /\ forest nv_kids /\ descends nv_kids 1 4 /\
  with_children (fun p => p) nv_kids 3 (Some 1) = Some [1; 2; 4; 3] /\
  exists s, qsteps (fun p : nat => p) 2 (new_collect [7; 8]) s /\ q_main s = QReturned [8; 7] /\ (forall s', ~ qstep (fun p => p) 2 s s').
Proof.
  assert (K : forall p cs c, nv_kids p = Some cs -> In c cs -> (p = 1 /\ cs = [2; 3] /\ (c = 2 \/ c = 3)) \/ (p = 2 /\ cs = [4] /\ c = 4)).
  { intros [|[|[|[|p]]]] cs c E I; cbn in E; try discriminate; injection E as <-; cbn in I; intuition. }
  split; [|split; [|split; [|split; [reflexivity|]]]].
  - constructor. intros cs c E I. destruct (K _ _ _ E I) as [(_ & _ & [-> | ->])|(X & _)]; try discriminate; constructor; intros cs' c' E' I';
      destruct (K _ _ _ E' I') as [(X & _)|(X & _ & ->)]; try discriminate.
    constructor. intros cs2 c2 E2 I2. destruct (K _ _ _ E2 I2) as [(Y & _)|(Y & _)]; discriminate.
  - split; [|split].
    + intros [|[|[|[|p]]]] cs E; cbn in E; try discriminate; injection E as <-; repeat constructor; cbn; intuition discriminate.
    + intros p p' cs cs' c E E' I I'. destruct (K _ _ _ E I) as [(-> & _ & Q)|(-> & _ & Q)], (K _ _ _ E' I') as [(-> & _ & Q')|(-> & _ & Q')]; auto; intuition congruence.
    + assert (L : forall p q, descends nv_kids p q -> p < q).
      { intros p q D. induction D as [q cs E I|q r cs D IH E I]; destruct (K _ _ _ E I) as [(-> & _ & [-> | ->])|(-> & _ & ->)]; lia. }
      intros p D. apply L in D. lia.
  - eapply d_more; [eapply d_child; [reflexivity|left; reflexivity]|reflexivity|left; reflexivity].
  - exists (MkQ [] [] true [QGone; QGone] (QReturned [8; 7])). split; [|split; [reflexivity|]].
    + pose (f := fun p : nat => p).
      eapply qs_more; [eapply qs_more; [eapply qs_more; [eapply qs_more; [eapply qs_more; [eapply qs_more;
        [eapply qs_more; [eapply qs_more; [eapply qs_more; [eapply qs_more; [eapply qs_more; [eapply qs_more; [apply qs_refl|]|]|]|]|]|]|]|]|]|]|]|].
      * exact (q_take f 2 7 [8] [] false [QNext; QNext] QWait 0 eq_refl).
      * exact (q_take f 2 8 [] [] false [QWork 7; QNext] QWait 1 eq_refl).
      * exact (q_work f 2 [] [] false [QWork 7; QWork 8] QWait 1 8 eq_refl).
      * exact (q_send f 2 [] [] [QWork 7; QSend 8] QWait 1 8 eq_refl ltac:(cbn; lia)).
      * exact (q_work f 2 [] [8] false [QWork 7; QNext] QWait 0 7 eq_refl).
      * exact (q_send f 2 [] [8] [QSend 7; QNext] QWait 0 7 eq_refl ltac:(cbn; lia)).
      * exact (q_end f 2 [8; 7] false [QNext; QNext] QWait 0 eq_refl).
      * exact (q_end f 2 [8; 7] false [QGone; QNext] QWait 1 eq_refl).
      * exact (q_wait f 2 [] [8; 7] [QGone; QGone] eq_refl).
      * exact (q_recv f 2 [] 8 [7] true [QGone; QGone] []).
      * exact (q_recv f 2 [] 7 [] true [QGone; QGone] [8]).
      * exact (q_return f 2 [] [QGone; QGone] [8; 7]).
    + intros s' S. inversion S as [| ? ? ? ? i W|? ? ? ? ? i ? W|? ? ? ? i ? W|? ? ? ? i ? W| | |]; subst;
        destruct i as [|[|[|i]]]; discriminate.
Qed.
