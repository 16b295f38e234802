(* Properties of the registry and of the dispatch of messages (C34, C72). *)
Require Import ZArith List Bool Lia ZifyBool ZifyNat.
From Verif Require Import Base BSpec Elements Value Codec CodecRead CodecRep Api ApiProofs Tree GetterProofs ReaderOps CodecProps
  Search Stream Wire WireSpec WireProofs WireProps Lin Registry.
Import ListNotations.
Open Scope Z_scope.

(* ----------------------------------------------------------------------------- C34 *)

(* which scopes can be registered *)
Definition valid_scope (s : scope) : Prop :=
  (In (sc_type s) [2010; 2013] /\ sc_command s <> []) \/
  (In (sc_type s) [2001; 2002; 2004; 2005; 2006] /\ sc_context s <> [] /\ sc_command s = []) \/
  (sc_type s = 2007 /\ sc_context s = [] /\ sc_command s = []).

Section C34.
Variable H : Type.
(* What Add and Get do to a map from scopes to handlers. *)
Definition reg_spec (o : rop H) (m : scope -> option H) (res : rres H) (m' : scope -> option H) : Prop :=
  match o with
  | RegAdd s h =>
      (exists hd, res = AddResult None /\ valid_scope s /\ h = Some hd /\ m s = None /\
         m' s = Some hd /\ forall x, x <> s -> m' x = m x) \/
      (exists e, res = AddResult (Some e) /\ (~ valid_scope s \/ h = None \/ m s <> None) /\ forall x, m' x = m x)
  | RegGet (Some s) =>
      res = GetResult (match m s with
                       | Some h => Some h
                       | None => m (MkScope (sc_type s) [] (sc_command s) (sc_payload s))
                       end) /\ forall x, m' x = m x
  | RegGet None => res = GetPanic /\ forall x, m' x = m x
  end.
Definition reg_does (o : rop H) (r : registry H) (res : rres H) (r' : registry H) : Prop :=
  reg_spec o (reg_find r) res (reg_find r').

Lemma scope_eqb_eq a b : scope_eqb a b = true <-> a = b.
Proof.
  destruct a as [t c m p], b as [t' c' m' p']. unfold scope_eqb. cbn. rewrite !andb_true_iff, Z.eqb_eq, !bytes_eqb_eq.
  split; [|intros E; injection E as -> -> -> ->; repeat split; destruct p'; auto; apply Nat.eqb_refl].
  intros [[[-> ->] ->] E]. destruct p, p'; try discriminate; [|reflexivity]. apply Nat.eqb_eq in E. now subst.
Qed.
Lemma validate_spec s : scope_validate s = None <-> valid_scope s.
Proof.
  destruct s as [t c m p]. unfold scope_validate, valid_scope. cbn.
  destruct (t =? 2010) eqn:E1; [destruct m; cbn; intuition (try congruence; try lia)|].
  destruct ((t =? 2006) || (t =? 2001)) eqn:E2; [destruct c, m; cbn; intuition (try congruence; try lia)|].
  destruct (t =? 2007) eqn:E3; [destruct c, m; cbn; intuition (try congruence; try lia)|].
  destruct ((t =? 2004) || (t =? 2002) || (t =? 2005)) eqn:E4; [destruct c, m; cbn; intuition (try congruence; try lia)|].
  destruct (t =? 2013) eqn:E5; [destruct m; cbn; intuition (try congruence; try lia)|].
  intuition (try congruence; try lia).
Qed.
Lemma reg_find_cons (s : scope) (h : H) r x : reg_find ((s, h) :: r) x = if scope_eqb s x then Some h else reg_find r x.
Proof. reflexivity. Qed.

Lemma reg_alone o r res r' : alone reg_start (@reg_step H) o r res r' -> reg_does o r res r'.
Proof.
  unfold alone, reg_does. intros A. destruct o as [s h|[s|]]; cbn [reg_start] in A.
  - inversion A as [? ? ? ? E|? ? l' s1 ? ? E B]; subst; cbn [reg_step] in E.
    + cbn [reg_spec]. right. destruct (scope_validate s) as [e|] eqn:V.
      { injection E as <- <-. exists e. split; [reflexivity|]. split; [left; intros Q; apply validate_spec in Q; congruence|auto]. }
      destruct h as [h|].
      2:{ injection E as <- <-. eexists. split; [reflexivity|]. split; auto. }
      destruct (reg_find r s) eqn:F; [|discriminate]. injection E as <- <-. eexists. split; [reflexivity|]. split; [|auto].
      right. right. congruence.
    + destruct (scope_validate s) as [e|] eqn:V; [discriminate|]. destruct h as [h|]; [|discriminate].
      destruct (reg_find r s) eqn:F; [discriminate|]. injection E as <- <-.
      inversion B as [? ? ? ? E2|? ? ? ? ? ? E2 ?]; subst; cbn [reg_step] in E2; [|discriminate]. injection E2 as <- <-.
      left. exists h. rewrite validate_spec in V. split; [reflexivity|]. split; [exact V|]. split; [reflexivity|]. split; [exact F|].
      split; [rewrite reg_find_cons; now rewrite (proj2 (scope_eqb_eq s s) eq_refl)|].
      intros x N. rewrite reg_find_cons. destruct (scope_eqb s x) eqn:Q; [|reflexivity]. apply scope_eqb_eq in Q. congruence.
  - inversion A as [? ? ? ? E|? ? l' s1 ? ? E B]; subst; cbn [reg_step] in E; destruct (reg_find r s) eqn:F; try discriminate.
    + injection E as <- <-. cbn [reg_spec]. rewrite F. auto.
    + injection E as <- <-. inversion B as [? ? ? ? E2|? ? ? ? ? ? E2 ?]; subst; cbn [reg_step] in E2; [|discriminate].
      injection E2 as <- <-. cbn [reg_spec]. rewrite F. auto.
  - inversion A as [? ? ? ? E|? ? l' s1 ? ? E B]; subst; cbn [reg_step] in E; try discriminate. injection E as <- <-. cbn. auto.
Qed.

(* Every concurrent history of Add and Get calls is one in which each call takes effect at
   one instant, and then does what it would to a map; and calls never block each other for
   ever. *)
Theorem C34_registry h c : crun reg_rlock reg_start (@reg_step H) (fresh []) h c ->
  (exists es s' ts', visible es = h /\ atomic reg_does [] (fun _ => AIdle) es s' ts' /\
     ((forall t, c_ts c t = Idle) -> c_st c = s')) /\
  (forall t, c_ts c t <> Idle -> exists e c', cstep reg_rlock reg_start (@reg_step H) c e c' /\ forall u o, ~ In (Call u o) e).
Proof.
  intros R. set (reading := fun l : rloc H => match l with LGet _ | LGet2 _ => True | _ => False end).
  assert (R0 : forall o : rop H, reg_rlock o = true -> reading (reg_start o)) by (intros []; cbn; congruence || auto).
  assert (R1 : forall l s x s', reading l -> @reg_step H l s = (x, s') ->
    s' = s /\ match x with MRun l' => reading l' | MDone _ => True end).
  { intros [? ?|? ?|[s|]|s] r x r' Rd E; cbn in Rd; try contradiction; cbn [reg_step] in E.
    - destruct (reg_find r s); injection E as <- <-; cbn; auto.
    - injection E as <- <-. auto.
    - injection E as <- <-. auto. }
  split.
  - exact (rwmutex_linearizable _ _ _ reading R0 R1 reg_does [] h c reg_alone R).
  - intros t N. exact (rwmutex_progress _ _ _ reading R0 R1 [] h c t R N).
Qed.

(* A handler stays: once a scope is bound it is bound to the same handler in every later
   state, and no second Add of the scope succeeds. *)
Theorem C34_handlers_stay s ts es s' ts' sc hd : atomic reg_does s ts es s' ts' ->
  reg_find s sc = Some hd -> reg_find s' sc = Some hd.
Proof.
  induction 1 as [s ts|s ts t o es s' ts' E A IH|s ts t o r s1 es s' ts' E Do A IH|s ts t r es s' ts' E A IH]; auto.
  intros F. apply IH. unfold reg_does, reg_spec in Do. destruct o as [x h|[x|]].
  - destruct Do as [(h0 & _ & _ & _ & N & _ & K)|(e & _ & _ & K)]; [|now rewrite K].
    rewrite K; [exact F|]. congruence.
  - destruct Do as [_ K]. now rewrite K.
  - destruct Do as [_ K]. now rewrite K.
Qed.
End C34.
Print Assumptions C34_registry.
Print Assumptions C34_handlers_stay.

(* a case: an Add and an overlapping Get that finds the handler by its command alone *)
Definition ping (db : bytes) : scope := MkScope 2013 db [112] None.
Example C34_nonvacuous : exists c, crun reg_rlock reg_start (@reg_step nat) (fresh [])
    [Call 1%nat (RegAdd (ping []) (Some 7%nat)); Call 2%nat (RegGet (Some (ping [97])));
     Return 1%nat (AddResult None); Return 2%nat (GetResult (Some 7%nat))] c /\ (forall t, c_ts c t = Idle).
Proof.
  assert (T : forall c c' es c'', cstep reg_rlock reg_start (@reg_step nat) c [] c' -> crun reg_rlock reg_start (@reg_step nat) c' es c'' ->
    crun reg_rlock reg_start (@reg_step nat) c es c'') by (intros ? ? ? ? A B; exact (r_step _ _ _ _ _ _ _ _ A B)).
  assert (V : forall c e c' es c'', cstep reg_rlock reg_start (@reg_step nat) c [e] c' -> crun reg_rlock reg_start (@reg_step nat) c' es c'' ->
    crun reg_rlock reg_start (@reg_step nat) c (e :: es) c'') by (intros ? ? ? ? ? A B; exact (r_step _ _ _ _ _ _ _ _ A B)).
  eexists. split.
  - unfold fresh.
    eapply V; [apply (s_call _ _ _ _ _ _ _ 1%nat); reflexivity|].
    eapply V; [apply (s_call _ _ _ _ _ _ _ 2%nat); reflexivity|].
    eapply T; [apply (s_lock _ _ _ _ _ 1%nat); reflexivity|].
    eapply T; [eapply (s_body _ _ _ _ _ _ _ 1%nat); reflexivity|].
    eapply T; [eapply (s_unlock _ _ _ _ _ _ 1%nat); reflexivity|].
    eapply T; [apply (s_rlock _ _ _ _ _ _ 2%nat); reflexivity|].
    eapply V; [eapply (s_return _ _ _ _ _ _ _ 1%nat); reflexivity|].
    eapply T; [eapply (s_body _ _ _ _ _ _ _ 2%nat); reflexivity|].
    eapply T; [eapply (s_runlock _ _ _ _ _ _ _ 2%nat); reflexivity|].
    eapply V; [eapply (s_return _ _ _ _ _ _ _ 2%nat); reflexivity|].
    apply r_nil.
  - intros t. cbn. unfold set. repeat (destruct (Nat.eqb t _); [reflexivity|]). reflexivity.
Qed.

(* ----------------------------------------------------------------------------- C72 *)

(* what a request is about *)
Definition string_of (t : option bval) : bytes := match t with Some (BString s) => s | _ => [] end.
Fixpoint lookup_first (k : bytes) (fs : fields) : option bval :=
  match fs with [] => None | (k', t) :: r => if bytes_eqb k k' then Some t else lookup_first k r end.
Fixpoint body_section (items : list ssec) : option fields :=
  match items with [] => None | SBody d :: _ => Some d | SSeq _ _ :: r => body_section r end.
Inductive wants : smsg -> scope -> Prop :=
| w_update f ns d u : wants (SUpdate f ns d u) (MkScope 2001 ns [] None)
| w_insert f ns ds : wants (SInsert f ns ds) (MkScope 2002 ns [] None)
| w_query f sk n ns q p : ~ command_ns ns -> wants (SQuery f sk n ns q p) (MkScope 2004 ns [] None)
| w_query_command f sk n db rest k v tl p : Forall (fun c => c <> 46) db ->
    wants (SQuery f sk n (db ++ 46 :: 36 :: rest) ((k, v) :: tl) p) (MkScope 2010 db k None)
| w_get_more n c ns : wants (SGetMore n c ns) (MkScope 2005 ns [] None)
| w_delete f ns d : wants (SDelete f ns d) (MkScope 2006 ns [] None)
| w_kill ids : wants (SKill ids) (MkScope 2007 [] [] None)
| w_command db cmd a m ins : wants (SCommand db cmd a m ins) (MkScope 2010 db cmd None)
| w_op f items c k v tl : body_section items = Some ((k, v) :: tl) ->
    wants (SOp f items c) (MkScope 2013 (string_of (lookup_first [36; 100; 98] ((k, v) :: tl))) k None).

Lemma v_string_ok_rep k v t : rep k v t -> v_string_ok (Some v) = Ret (match t with BString s => Some s | _ => None end).
Proof.
  intros R. apply rep_inv in R as (_ & pre & post & [(-> & F)|Q]).
  - change (MkValue (zlen pre) (zlen pre + zlen k + 2) (Some (pre ++ tag t :: enc_cstring k ++ enc_body t ++ post)) None)
      with (lz pre k t post). unfold v_string_ok.
    destruct t; try (apply getter_ok_lz_no; cbn; discriminate). apply getter_ok_lz; [reflexivity|]. now apply v_string_lz.
  - unfold v_string_ok. assert (N : forall tg rest off d, tg <> 2 -> getter_ok 2 v_string (Some (MkValue (zlen pre) off (Some (pre ++ tg :: rest)) d)) = Ret None).
    { intros tg rest off d N. cbn [getter_ok]. destruct (off =? 0); [reflexivity|]. rewrite (goindex_app pre tg) by reflexivity. cbn [bind].
      replace (tg =? 2) with false by lia. reflexivity. }
    destruct Q as [(fs & es & -> & -> & _)|[(vs & es & -> & -> & _)|(c & fs & es & l4 & -> & _ & -> & _)]]; apply N; discriminate.
Qed.
Lemma first_key_lookup k fs : ReaderOps.first_key k fs = lookup_first k fs.
Proof. induction fs as [|[k' t] fs IH]; cbn; [reflexivity|]. now rewrite IH. Qed.
Lemma body_db_ok d fs : holds d fs -> wf_fields fs -> small fs -> body_db d = Ret (string_of (lookup_first [36; 100; 98] fs)).
Proof.
  intros (N & D) W L.
  assert (F : enough (S (Z.to_nat (zlen (enc_doc fs)))) (zlen (enc_doc fs))) by (unfold enough; posl; lia).
  destruct (doc_obtained_good _ N _ d W L F D) as (R & _). unfold body_db.
  pose proof (find_elem_rep [36; 100; 98] fs d R) as E. rewrite first_key_lookup in E. destruct (lookup_first _ fs) as [t|].
  - destruct E as (v & -> & Rv & _). cbn [bind]. rewrite (v_string_ok_rep _ _ _ Rv). destruct t; reflexivity.
  - rewrite E. reflexivity.
Qed.

Lemma holds_small_sec items d : body_section items = Some d -> Forall sec_ok items -> zlen (concat (map sec_bytes items)) < 2147483648 ->
  wf_fields d /\ small d.
Proof.
  intros E F L. induction items as [|[d'|i ds] items IH]; cbn [body_section] in E; [discriminate| |]; inversion F as [|? ? F1 F2]; subst;
    cbn [map concat] in L; zlens_in L; posl.
  - injection E as ->. split; [exact F1|]. cbn [sec_bytes] in L. zlens_in L. unfold small. pose proof (zlen_nonneg (concat (map sec_bytes items))). lia.
  - apply IH; auto. pose proof (zlen_nonneg (sec_bytes (SSeq i ds))). lia.
Qed.
Lemma shows_body items items' d : Forall2 shows_sec items items' -> body_section items' = Some d ->
  exists d0, first_body items = Some (Some d0) /\ holds d0 d.
Proof.
  induction 1 as [|x y items items' S F IH]; cbn [body_section]; [discriminate|].
  destruct x as [[d0|]|n i ds], y as [fs|i' fss]; cbn in S; try contradiction; cbn [body_section first_body].
  - intros E. injection E as ->. eauto.
  - exact IH.
Qed.
Lemma received_scope h s m sc : smsg_ok s -> h_op h = op_of s -> received h s m -> wants s sc -> msg_scope m = Ret (Some sc).
Proof.
  intros W Ho R Q.
  inversion Q; subst; cbn [received] in R.
  1,2,5,6,7,8: destruct R as [Sh Eh]; destruct m; cbn [shows_msg] in Sh; try contradiction; cbn [msg_scope]; rewrite Eh, Ho; cbn [op_of];
    repeat match goal with H : _ /\ _ |- _ => destruct H end; subst; reflexivity.
  - destruct R as [(_ & Sh & Eh)|(db & rest & k & v & tl & d & En & Fd & _)].
    + destruct m; cbn [shows_msg] in Sh; try contradiction; cbn [msg_scope]; rewrite Eh, Ho; cbn [op_of].
      repeat match goal with H : _ /\ _ |- _ => destruct H end; subst; reflexivity.
    + exfalso. match goal with H : ~ command_ns _ |- _ => apply H end. exists db, rest. auto.
  - destruct R as [(N & _)|(db' & rest' & k' & v' & tl' & d & En & Fd & Eq & Hd & ->)].
    + exfalso. apply N. exists db, rest. auto.
    + injection Eq as <- <- <-. cbn [msg_scope msg_header new_header h_op].
      assert (Ed : db' = db).
      { clear - En H Fd. revert db' Fd En. induction db as [|x db IH]; intros [|y db'] Fd En; cbn in En.
        - reflexivity.
        - injection En as <- _. now inversion Fd.
        - injection En as -> _. now inversion H.
        - injection En as -> En. inversion H; inversion Fd; subst. f_equal. now apply IH. }
      now subst.
  - destruct R as [Sh Eh]. destruct m as [| | | | | | | | |h0 ser fl items' ck]; cbn [shows_msg] in Sh; try contradiction.
    destruct Sh as (_ & _ & Si & _). destruct W as [Lw (_ & Fs & _)].
    match goal with E : body_section items = _ |- _ => destruct (shows_body _ _ _ Si E) as (d0 & Ef & Hd);
      destruct (holds_small_sec _ _ E Fs) as [Wd Ld] end.
    { cbn [body_of] in Lw. zlens_in Lw. posl. lia. }
    cbn [msg_scope]. rewrite Ef, Eh. cbn [msg_header h_op]. cbn [msg_header] in *. erewrite WireProofs.first_key_ok by eauto. cbn [bind].
    rewrite (body_db_ok _ _ Hd Wd Ld). cbn [bind]. now rewrite Ho.
Qed.

(* a request as it reaches the service: its ids, its content and the pieces in which the
   connection hands it over, of which the last ends with the message *)
Record arrival := MkArrival { a_req : Z; a_resp : Z; a_msg : smsg; a_first : nat; a_mid : list nat; a_last : nat }.
Definition a_wire (a : arrival) : bytes := wire (a_req a) (a_resp a) (a_msg a).
Definition a_pieces (a : arrival) : list nat := a_first a :: a_mid a ++ [a_last a].
Definition a_header (a : arrival) : header := MkHdr (zlen (a_wire a)) (a_req a) (a_resp a) (op_of (a_msg a)).
Definition arrival_ok (fuel : nat) (a : arrival) : Prop :=
  is_i32 (a_req a) /\ is_i32 (a_resp a) /\ smsg_ok (a_msg a) /\ names_command (a_msg a) /\
  zlen (a_wire a) <= 209715200 /\ enough fuel (zlen (a_wire a)) /\
  4 <= Z.of_nat (a_first a) /\ 0 < Z.of_nat (a_last a) /\ 4 + total (a_mid a) + Z.of_nat (a_last a) = zlen (a_wire a).
Definition connection (l : list arrival) : stream :=
  MkStream (concat (map a_wire l)) (concat (map a_pieces l)) EEOF false.

Section C72.
Variable H : Type.
(* the handler for a scope: the one added for it, or else the one added for the scope without
   its database *)
Definition handles (r : registry H) (sc : scope) (h : H) : Prop :=
  reg_find r sc = Some h \/
  (reg_find r sc = None /\ reg_find r (MkScope (sc_type sc) [] (sc_command sc) (sc_payload sc)) = Some h).
(* what a connection causes *)
Inductive serves (r : registry H) : list arrival -> list (H * wmsg) -> ended -> Prop :=
| sv_end : serves r [] [] EndQuiet
| sv_handler a l sc h m out e : wants (a_msg a) sc -> handles r sc h -> received (a_header a) (a_msg a) m ->
    serves r l out e -> serves r (a :: l) ((h, m) :: out) e
| sv_none a l : (forall sc h, wants (a_msg a) sc -> ~ handles r sc h) -> serves r (a :: l) [] EndError.

Lemma reg_get_handles (r : registry H) sc : match reg_get r sc with Some h => handles r sc h | None => forall h, ~ handles r sc h end.
Proof.
  unfold reg_get, no_context. destruct (reg_find r sc) as [h|] eqn:E; [now left|].
  destruct (reg_find r (MkScope _ _ _ _)) as [h|] eqn:E2; [right; auto|]. intros h [K|[_ K]]; congruence.
Qed.
Lemma wants_dec s : (exists sc, wants s sc) \/ (forall sc, ~ wants s sc).
Proof.
  destruct s; try (left; eexists; constructor; fail); try (right; intros sc W; inversion W; fail).
  - destruct (is_command_spec ns) as (b & _ & Hb). destruct b.
    + destruct Hb as [Hb _]. destruct (Hb eq_refl) as (db & rest & -> & F). destruct query as [|[k v] tl].
      * right. intros sc W. inversion W; subst. match goal with K : ~ command_ns _ |- _ => apply K end. exists db, rest. auto.
      * left. eexists. now apply w_query_command.
    + left. eexists. apply w_query. intros C. apply Hb in C. discriminate.
  - destruct (body_section items) as [[|[k v] tl]|] eqn:E; [right|left; eexists; eapply w_op; eauto|right]; intros sc W; inversion W; congruence.
Qed.
(* no scope without a command in the registry *)
Lemma no_empty_command (r : registry H) c : (forall sc h, reg_find r sc = Some h -> valid_scope sc) -> reg_find r (MkScope 2013 c [] None) = None.
Proof.
  intros V. destruct (reg_find r _) as [h|] eqn:E; [|reflexivity]. apply V in E. exfalso.
  unfold valid_scope in E. cbn in E. intuition (try lia; try congruence).
Qed.
Lemma unwanted (r : registry H) h s m : (forall sc h, reg_find r sc = Some h -> valid_scope sc) -> smsg_ok s -> names_command s -> h_op h = op_of s ->
  received h s m -> (forall sc, ~ wants s sc) ->
  match msg_scope m with Ret (Some sc) => reg_get r sc = None | _ => True end.
Proof.
  intros V W N Ho R NW. destruct s; try (exfalso; eapply NW; constructor; fail); cbn [received] in R.
  - destruct R as [Sh _]. destruct m; cbn [shows_msg] in Sh; try contradiction. exact I.
  - destruct R as [(NC & _)|(db & rest & k & v & tl & d & -> & Fd & -> & _)]; exfalso; eapply NW; [now apply w_query|now apply w_query_command].
  - destruct R as [Sh _]. destruct m; cbn [shows_msg] in Sh; try contradiction. exact I.
  - destruct R as [Sh Eh]. destruct m as [| | | | | | | | |h0 ser fl items' ck]; cbn [shows_msg] in Sh; try contradiction.
    destruct Sh as (_ & _ & Si & _). cbn [msg_scope]. cbn [msg_header] in Eh.
    destruct (body_section items) as [[|[k v] tl]|] eqn:E.
    + destruct (shows_body _ _ _ Si E) as (d0 & Ef & Hd). rewrite Ef. destruct Hd as (M & D).
      assert (F : enough (S (Z.to_nat (zlen (enc_doc [])))) (zlen (enc_doc []))) by (unfold enough; posl; lia).
      destruct (doc_obtained_good _ M [] d0 ltac:(constructor) ltac:(vm_compute; reflexivity) F D) as (Rd & _).
      destruct d0 as [|? ?]; [exact I|]. cbn [rep_doc] in Rd. destruct o; contradiction.
    + exfalso. eapply NW. eapply w_op. eauto.
    + assert (first_body items' = None) as ->.
      { clear - E Si. induction Si as [|x y a b S F IH]; [reflexivity|]. destruct x as [[d0|]|n i ds], y as [fs|i' fss]; cbn in S, E |- *; try contradiction; try discriminate. auto. }
      unfold reg_get, no_context. cbn [msg_header]. subst h0. cbn [h_op sc_type sc_context sc_command sc_payload]. rewrite Ho. cbn [op_of].
      now rewrite no_empty_command.
Qed.

(* C72, in part.  If every message arrives in pieces of which the first holds its size and the
   last ends with it, then the service starts, in order, the handler for each message, on the
   message that was sent, up to the first message that has none, which ends the connection
   with an error. *)
Theorem C72_dispatch_partial fuel (r : registry H) l : (forall sc h, reg_find r sc = Some h -> valid_scope sc) -> Forall (arrival_ok fuel) l ->
  exists started how, dispatch (S (length l)) fuel r (connection l) = (started, how) /\ serves r l started how.
Proof.
  intros V. induction 1 as [|a l (I1 & I2 & W & N & L & F & P1 & P2 & P3) Fl IH].
  - exists [], EndQuiet. split; [reflexivity|constructor].
  - destruct (C31_read_next_partial fuel (a_req a) (a_resp a) (a_msg a) (concat (map a_wire l)) (a_first a) (a_mid a) (a_last a)
      (concat (map a_pieces l)) EEOF false I1 I2 W N L F P1 P2 P3 (or_intror eq_refl)) as (m & Em & R).
    destruct IH as (started & how & Ed & Sv).
    assert (Ec : connection (a :: l) = MkStream (wire (a_req a) (a_resp a) (a_msg a) ++ concat (map a_wire l))
      (a_first a :: a_mid a ++ a_last a :: concat (map a_pieces l)) EEOF false).
    { unfold connection. cbn [map concat]. unfold a_wire at 1, a_pieces at 1. cbn [app]. now rewrite <- app_assoc. }
    rewrite Ec. cbn [length]. remember (S (length l)) as n. cbn [dispatch]. rewrite Em. fold (connection l).
    destruct (wants_dec (a_msg a)) as [(sc & Hw)|NW].
    + rewrite (received_scope (a_header a) _ _ _ W eq_refl R Hw). pose proof (reg_get_handles r sc) as G. destruct (reg_get r sc) as [h|].
      * change (MkStream (concat (map a_wire l)) (concat (map a_pieces l)) EEOF false) with (connection l).
        rewrite Ed. exists ((h, m) :: started), how. split; [reflexivity|]. eapply sv_handler; eauto.
      * exists [], EndError. split; [reflexivity|]. apply sv_none. intros sc' h' Hw'.
        assert (sc' = sc) as ->; [|apply G].
        pose proof (received_scope (a_header a) _ _ _ W eq_refl R Hw) as E1. rewrite (received_scope (a_header a) _ _ _ W eq_refl R Hw') in E1. congruence.
    + pose proof (unwanted r (a_header a) _ _ V W N eq_refl R NW) as U. exists [], EndError. split; [|apply sv_none; intros sc h' Hw'; exfalso; eapply NW; eauto].
      destruct (msg_scope m) as [[sc|]| |]; try reflexivity. now rewrite U.
Qed.
End C72.
Print Assumptions C72_dispatch_partial.

(* the registries built by Add satisfy the hypothesis *)
Theorem C72_registries H ts es (s' : registry H) ts' sc hd : atomic (@reg_does H) [] ts es s' ts' ->
  reg_find s' sc = Some hd -> valid_scope sc.
Proof.
  intros A. assert (G : forall sc hd, @reg_find H [] sc = Some hd -> valid_scope sc) by discriminate. revert G sc hd.
  induction A as [s ts|s ts t o es s' ts' E A IH|s ts t o r s1 es s' ts' E Do A IH|s ts t r es s' ts' E A IH]; auto.
  intros G. apply IH. intros sc hd. unfold reg_does, reg_spec in Do. destruct o as [x h|[x|]].
  - destruct Do as [(h0 & _ & V & _ & N & K1 & K)|(e & _ & _ & K)]; [|rewrite K; apply G].
    destruct (scope_eqb sc x) eqn:Q.
    + apply scope_eqb_eq in Q. now subst.
    + rewrite K; [apply G|]. intros ->. rewrite (proj2 (scope_eqb_eq x x) eq_refl) in Q. discriminate.
  - destruct Do as [_ K]. rewrite K. apply G.
  - destruct Do as [_ K]. rewrite K. apply G.
Qed.
Print Assumptions C72_registries.
(* C72 fails when a piece goes past the end of a message: the beginning of the next one is
   lost, and no handler is started for it. *)
Theorem C72_refuted : exists sched how,
  let r := [(MkScope 2005 [97] [] None, 7%nat)] in
  map fst (fst (dispatch 5 100 r (MkStream (wire 1 0 (gm 5) ++ wire 2 0 (gm 6)) sched EEOF false))) = [7%nat] /\
  snd (dispatch 5 100 r (MkStream (wire 1 0 (gm 5) ++ wire 2 0 (gm 6)) sched EEOF false)) = how /\
  map fst (fst (dispatch 5 100 r (MkStream (wire 1 0 (gm 5) ++ wire 2 0 (gm 6)) [] EEOF false))) <> [7%nat].
Proof. exists [4; 1]%nat. eexists. vm_compute. repeat split. discriminate. Qed.

Print Assumptions C72_refuted.

(* a case: two messages in pieces, of which the second has no handler *)
Example C72_nonvacuous : exists m,
  let a := MkArrival 1 0 (gm 5) 4 [7; 20]%nat 3 in
  let b := MkArrival 2 0 (SDelete 0 [98] []) 9 []%nat 27 in
  arrival_ok 200 a /\ arrival_ok 200 b /\
  dispatch 3 200 [(MkScope 2005 [97] [] None, 7%nat)] (connection [a; b]) = ([(7%nat, m)], EndError).
Proof.
  eexists. cbv zeta. split; [|split].
  - refine (conj _ (conj _ (conj (gm_ok _ _) (conj I (conj _ (conj _ (conj _ (conj _ _)))))))); vm_compute; repeat split; congruence.
  - assert (smsg_ok (SDelete 0 [98] [])).
    { split; [vm_compute; reflexivity|]. split; [vm_compute; split; congruence|]. split; [repeat (constructor; try lia)|constructor]. }
    refine (conj _ (conj _ (conj H (conj I (conj _ (conj _ (conj _ (conj _ _)))))))); vm_compute; repeat split; congruence.
  - vm_compute. reflexivity.
Qed.
