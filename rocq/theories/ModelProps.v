(* C101 and C102: the structure GetModel makes of a message, and HasResponse, against the
   message's content and the protocol's flag bits. *)
Require Import ZArith List Bool Lia ZifyBool ZifyNat.
From Verif Require Import Base BSpec Elements Value Codec CodecRead CodecRep Api ApiProofs Tree
  GetterProofs ReaderOps ReadSafe CodecProps Search Wire WireSpec WireProofs WireProps Model.
Import ListNotations.
Open Scope Z_scope.

(* m is a message with the content s that a client has: built by a constructor, or parsed from
   the bytes of the format under a header naming the kind *)
Inductive held (fuel : nat) (s : smsg) (m : wmsg) : Prop :=
| held_built : built_msg fuel s m -> held fuel s m
| held_parsed h : h_op h = op_of s -> names_command s -> enough fuel (zlen (body_of s)) ->
    parse fuel h (body_of s) = Ret (Some m, None) -> held fuel s m.

(* The protocol's flag bits.  OP_MSG: 0 checksum present, 1 more to come; OP_UPDATE: 0 upsert,
   1 multi; OP_REPLY: 0 cursor not found, 1 query failure. *)
Definition bit0 (f : Z) : bool := Z.testbit f 0.
Definition bit1 (f : Z) : bool := Z.testbit f 1.

(* the kinds of message that have a structure *)
Definition has_model (s : smsg) : Prop :=
  match s with SGetMore _ _ _ | SKill _ | SCommandReply _ _ _ => False | _ => True end.
(* every body section of an OP_MSG has a first field: its name is the command *)
Definition sec_named (t : ssec) : Prop := match t with SBody [] => False | _ => True end.
Definition bodies_named (s : smsg) : Prop :=
  match s with SOp _ items _ => Forall sec_named items | _ => True end.

Definition shows_item (i : seq_item) (t : ssec) : Prop :=
  match t with
  | SBody [] => False
  | SBody ((k, v) :: tl) => si_name i = k /\ exists d, si_docs i = [d] /\ holds d ((k, v) :: tl)
  | SSeq ident fss => si_name i = ident /\ Forall2 holds (si_docs i) fss
  end.

(* the structure has the content of the message, flags aside; a query on a command namespace is
   the command it stands for *)
Definition tells (s : smsg) (o : wmodel) (op : Z) : Prop :=
  match s, o with
  | SReply _ c st _ fss, OReply ds c' st' _ _ => op = 1 /\ c' = c /\ st' = st /\ Forall2 holds ds fss
  | SUpdate _ ns fd fu, OUpdate ns' d u _ _ =>
      op = 2001 /\ ns' = ns /\ holds_opt d (Some fd) /\ holds_opt u (Some fu)
  | SInsert _ ns fss, OInsert ns' ds => op = 2002 /\ ns' = ns /\ Forall2 holds ds fss
  | SQuery _ sk n ns fq fp, OQuery ns' sk' n' q p =>
      op = 2004 /\ ns' = ns /\ sk' = sk /\ n' = n /\ holds_opt q (Some fq) /\ holds_opt p fp
  | SQuery _ _ _ ns fq _, OCommand db cmd a m ins conv =>
      op = 2010 /\ conv = true /\ m = None /\ ins = [] /\ holds_opt a (Some fq) /\
      (exists v tl, fq = (cmd, v) :: tl) /\
      (exists rest, ns = db ++ 46 :: 36 :: rest) /\ Forall (fun c => c <> 46) db
  | SDelete _ ns fd, ODelete ns' d => op = 2006 /\ ns' = ns /\ holds_opt d (Some fd)
  | SCommand db cmd fa fm fins, OCommand db' cmd' a m ins conv =>
      op = 2010 /\ conv = false /\ db' = db /\ cmd' = cmd /\ holds_opt a (Some fa) /\ holds_opt m (Some fm) /\
      Forall2 holds ins fins
  | SOp _ items _, OMessage db coll oper _ _ its =>
      op = 2013 /\ db = [] /\ coll = [] /\ oper = [] /\ Forall2 shows_item its items
  | _, _ => False
  end.

Lemma holds_nil d : holds d [] -> d = [].
Proof.
  intros (N & D).
  assert (W : wf_fields []) by constructor.
  assert (SM : small []) by (vm_compute; reflexivity).
  assert (F : enough (S (Z.to_nat (zlen (enc_doc [])))) (zlen (enc_doc []))) by (unfold enough; posl; lia).
  destruct (doc_obtained_good _ N _ d W SM F D) as (R & _). destruct d as [|[w|] d]; [reflexivity| |]; contradiction R.
Qed.

Lemma body_small s d : In (SBody d) s -> zlen (enc_doc d) <= zlen (concat (map sec_bytes s)).
Proof.
  induction s as [|t s IH]; [easy|]. intros [->|I]; cbn [map concat]; rewrite zlen_app.
  - cbn [sec_bytes]. rewrite zlen_cons. posl. lia.
  - specialize (IH I). posl. lia.
Qed.

Lemma items_ok secs : forall ts, Forall2 shows_sec secs ts -> Forall sec_ok ts -> Forall sec_named ts ->
  (forall d, In (SBody d) ts -> small d) ->
  exists its, model_items secs = Ret its /\ Forall2 shows_item its ts.
Proof.
  induction secs as [|s secs IH]; intros ts H W N S; inversion H as [|? t ? ts' Hs Ht]; subst; [exists []; split; [reflexivity|constructor]|].
  inversion W as [|? ? Wt Wts]; inversion N as [|? ? Nt Nts]; subst.
  destruct (IH ts' Ht Wts Nts) as (its & E & Q); [intros d I; apply S; now right|].
  cbn [model_items]. destruct s as [[d|]|sz i ds], t as [fs|i' fss]; cbn [shows_sec] in Hs; try contradiction.
  - destruct fs as [|[k v] tl]; [contradiction Nt|]. cbn [sec_name sec_docs bind].
    rewrite (first_key_ok d k v tl Hs Wt) by (apply S; now left). cbn [bind]. rewrite E. cbn [bind].
    eexists. split; [reflexivity|]. constructor; [|exact Q]. cbn. eauto.
  - destruct Hs as [-> F]. cbn [sec_name sec_docs bind]. rewrite E. cbn [bind].
    eexists. split; [reflexivity|]. constructor; [|exact Q]. cbn. auto.
Qed.

Lemma op_small f items c d : smsg_ok (SOp f items c) -> In (SBody d) items -> small d.
Proof.
  intros [L _] I. cbn [body_of] in L. rewrite !zlen_app in L. pose proof (body_small items d I).
  unfold small. posl. lia.
Qed.

Lemma held_shows fuel s m : held fuel s m -> smsg_ok s -> shows_msg m s \/ (exists h, received_query h s m).
Proof.
  intros [B|h Ho N F P] W.
  - left. now apply (built_shows fuel s m B W).
  - destruct (parse_ok fuel h s W N Ho F) as (m' & E & R). rewrite P in E. injection E as <-.
    destruct s; cbn [received] in R; try (left; now apply R). right. eauto.
Qed.

(* C101.  GetModel of any message a client has -- built, or parsed from the format -- of a kind
   with a structure returns the structure with the message's names, numbers and documents, and
   the kind.  A query on a command namespace that was parsed is given as the command it stands
   for. *)
Theorem C101_model fuel s m : held fuel s m -> smsg_ok s -> has_model s -> bodies_named s ->
  exists o op, get_model m = Ret (Some o, op) /\ tells s o op.
Proof.
  intros H W M B. destruct (held_shows fuel s m H W) as [S|(h & R)].
  - destruct s, m; cbn [shows_msg] in S; try contradiction; cbn [has_model] in M; try contradiction; cbn [get_model].
    1: destruct S as (_ & -> & -> & _ & F); do 2 eexists; split; [reflexivity|cbn; auto].
    1: destruct S as (_ & _ & -> & F & G); do 2 eexists; split; [reflexivity|cbn; auto].
    1: destruct S as (_ & -> & F); do 2 eexists; split; [reflexivity|cbn; auto].
    1: destruct S as (_ & -> & -> & -> & F & G); do 2 eexists; split; [reflexivity|cbn; auto 8].
    1: destruct S as (_ & _ & -> & F); do 2 eexists; split; [reflexivity|cbn; auto].
    1: destruct S as (-> & -> & F & G & I & ->); do 2 eexists; split; [reflexivity|cbn; auto 8].
    destruct S as (_ & _ & F & _). pose proof W as (_ & _ & Wi & _).
    destruct (items_ok _ _ F Wi B) as (its & E & Q); [intros d I; eapply op_small; eauto|].
    rewrite E. cbn [bind]. do 2 eexists. split; [reflexivity|cbn; auto].
  - destruct s; try contradiction R. cbn [received_query] in R. destruct R as [(_ & S & _)|R].
    + destruct m; cbn [shows_msg] in S; try contradiction. destruct S as (_ & -> & -> & -> & F & G).
      do 2 eexists; split; [reflexivity|cbn; auto 8].
    + destruct R as (db & rest & k & v & tl & d & -> & Fd & -> & Hd & ->).
      do 2 eexists; split; [reflexivity|cbn]. repeat split; eauto.
Qed.

(* The fields a handler would ask for first are missing: the database, collection and operation
   of every OP_MSG's structure are empty, whatever the message says. *)
Theorem C101_names_refuted fuel flags items c m o op : held fuel (SOp flags items c) m -> smsg_ok (SOp flags items c) ->
  get_model m = Ret (Some o, op) -> exists more ck its, o = OMessage [] [] [] more ck its.
Proof.
  intros H W E. destruct (held_shows _ _ _ H W) as [S|(h & R)]; [|contradiction R].
  destruct m; cbn [shows_msg] in S; try contradiction. cbn [get_model] in E.
  destruct (model_items items0); cbn [bind] in E; try discriminate. injection E as <- _. eauto.
Qed.

(* The flags.  For an update they are right exactly when they are among 0..3 or neither bit is
   set; for a reply only when neither bit is set and the flags are not 0; for an OP_MSG only for
   both bits and nothing else, or for neither bit and something else. *)
Lemma bits_small f : 0 <= f <= 3 ->
  (f = 0 \/ f = 1 \/ f = 2 \/ f = 3).
Proof. lia. Qed.

Theorem C101_update_flags fuel flags ns fd fu m : held fuel (SUpdate flags ns fd fu) m -> smsg_ok (SUpdate flags ns fd fu) ->
  exists d u up mu, get_model m = Ret (Some (OUpdate ns d u up mu), 2001) /\
    ((up = bit0 flags /\ mu = bit1 flags) <-> (0 <= flags <= 3 \/ (bit0 flags = false /\ bit1 flags = false))).
Proof.
  intros H W. destruct (held_shows _ _ _ H W) as [S|(h & R)]; [|contradiction R].
  destruct m; cbn [shows_msg] in S; try contradiction. destruct S as (_ & -> & -> & _).
  do 4 eexists. split; [reflexivity|]. unfold update_flags.
  destruct (Z.eqb_spec flags 1) as [->|]; [cbn; intuition lia|].
  destruct (Z.eqb_spec flags 2) as [->|]; [cbn; intuition lia|].
  destruct (Z.eqb_spec flags 3) as [->|]; [cbn; intuition lia|].
  cbn [fst snd]. split; [intros [<- <-]; auto|].
  intros [L|[-> ->]]; [|auto]. assert (flags = 0) as -> by lia. auto.
Qed.

Theorem C101_reply_flags_refuted fuel flags c st n fss m : held fuel (SReply flags c st n fss) m -> smsg_ok (SReply flags c st n fss) ->
  exists ds nf qf, get_model m = Ret (Some (OReply ds c st nf qf), 1) /\
    ((nf = bit0 flags /\ qf = bit1 flags) <-> (flags <> 0 /\ bit0 flags = false /\ bit1 flags = false)).
Proof.
  intros H W. destruct (held_shows _ _ _ H W) as [S|(h & R)]; [|contradiction R].
  destruct m; cbn [shows_msg] in S; try contradiction. destruct S as (-> & -> & -> & _).
  do 3 eexists. split; [reflexivity|]. unfold reply_flags.
  destruct (Z.eqb_spec flags 1) as [->|]; [cbn; intuition discriminate|].
  destruct (Z.eqb_spec flags 0) as [->|]; [cbn; intuition discriminate|].
  cbn [fst snd]. split; [intros [<- <-]; auto|]. intros (_ & -> & ->). auto.
Qed.

Theorem C101_msg_flags_refuted fuel flags items c m : held fuel (SOp flags items c) m -> smsg_ok (SOp flags items c) ->
  Forall sec_named items ->
  exists more ck its, get_model m = Ret (Some (OMessage [] [] [] more ck its), 2013) /\
    ((ck = bit0 flags /\ more = bit1 flags) <-> (flags = 3 \/ (flags <> 0 /\ bit0 flags = false /\ bit1 flags = false))).
Proof.
  intros H W B. destruct (held_shows _ _ _ H W) as [S|(h & R)]; [|contradiction R].
  destruct m; cbn [shows_msg] in S; try contradiction. destruct S as (_ & -> & F & _).
  pose proof W as (_ & _ & Wi & _).
  destruct (items_ok _ _ F Wi B) as (its & E & _); [intros d I; eapply op_small; eauto|].
  cbn [get_model]. rewrite E. cbn [bind]. do 3 eexists. split; [reflexivity|]. unfold op_flags.
  destruct (Z.eqb_spec flags 0) as [->|]; [cbn; intuition discriminate|].
  destruct (Z.eqb_spec flags 1) as [->|]; [cbn; intuition discriminate|].
  destruct (Z.eqb_spec flags 3) as [->|]; [cbn; intuition|].
  cbn [fst snd]. split; [intros [<- <-]; auto|]. intros [?|(_ & -> & ->)]; [contradiction|auto].
Qed.

(* Get-more, kill-cursors and command-reply messages have no structure: nil and kind 0. *)
Theorem C101_kinds_refuted fuel s m : held fuel s m -> smsg_ok s -> ~ has_model s -> get_model m = Ret (None, 0).
Proof.
  intros H W M. destruct (held_shows _ _ _ H W) as [S|(h & R)].
  - destruct s; cbn [has_model] in M; try (exfalso; now apply M); destruct m; cbn [shows_msg] in S; try contradiction; reflexivity.
  - destruct s; try contradiction R. exfalso. now apply M.
Qed.

Lemma items_panic secs : forall ts, Forall2 shows_sec secs ts -> Forall sec_ok ts ->
  (forall d, In (SBody d) ts -> small d) -> In (SBody []) ts -> model_items secs = Panic PIndex.
Proof.
  induction secs as [|s secs IH]; intros ts H W S I; inversion H as [|? t ? ts' Hs Ht]; subst; [contradiction I|].
  inversion W as [|? ? Wt Wts]; subst.
  cbn [model_items]. destruct s as [[d|]|sz i ds], t as [fs|i' fss]; cbn [shows_sec] in Hs; try contradiction.
  - destruct fs as [|[k v] tl]; [now rewrite (holds_nil d Hs)|]. cbn [sec_name sec_docs].
    rewrite (first_key_ok d k v tl Hs Wt) by (apply S; now left). cbn [bind].
    destruct I as [I|I]; [discriminate|]. now rewrite (IH ts' Ht Wts (fun d J => S d (or_intror J)) I).
  - cbn [sec_name sec_docs bind]. destruct I as [I|I]; [discriminate|].
    now rewrite (IH ts' Ht Wts (fun d J => S d (or_intror J)) I).
Qed.

(* An OP_MSG with an empty body section anywhere panics, though it is a message of the format
   and parses. *)
Theorem C101_empty_body_refuted fuel flags items c m : held fuel (SOp flags items c) m -> smsg_ok (SOp flags items c) ->
  In (SBody []) items -> get_model m = Panic PIndex.
Proof.
  intros H W I. destruct (held_shows _ _ _ H W) as [S|(h & R)]; [|contradiction R].
  destruct m; cbn [shows_msg] in S; try contradiction. destruct S as (_ & _ & F & _).
  pose proof W as (_ & _ & Wi & _). cbn [get_model].
  rewrite (items_panic _ _ F Wi (fun d J => op_small _ _ _ d W J) I). reflexivity.
Qed.

(* ------------------------------------------------------------------ C102 responses *)

(* the protocol: queries, get-mores, commands and every OP_MSG that does not announce more
   messages are answered, nothing else is *)
Definition answered (s : smsg) : bool :=
  match s with
  | SQuery _ _ _ _ _ _ | SGetMore _ _ _ | SCommand _ _ _ _ _ => true
  | SOp flags _ _ => negb (bit1 flags)
  | _ => false
  end.

(* C102.  HasResponse is the protocol's answer for every message but OP_MSG ... *)
Theorem C102_has_response fuel s m : held fuel s m -> smsg_ok s -> op_of s <> 2013 -> has_response m = answered s.
Proof.
  intros H W O. destruct (held_shows _ _ _ H W) as [S|(h & R)].
  - destruct s, m; cbn [shows_msg] in S; try contradiction; try reflexivity.
  - destruct s; try contradiction R. cbn [received_query] in R. destruct R as [(_ & S & _)|R].
    + destruct m; cbn [shows_msg] in S; try contradiction. reflexivity.
    + destruct R as (db & rest & k & v & tl & d & -> & Fd & -> & Hd & ->). reflexivity.
Qed.

(* ... and for an OP_MSG it is right exactly when the flags are at least 4 with bit 1 clear: it
   is the wrong answer for every message with no other flags than the two required ones. *)
Theorem C102_msg_refuted fuel flags items c m : held fuel (SOp flags items c) m -> smsg_ok (SOp flags items c) ->
  (has_response m = answered (SOp flags items c) <-> (4 <= flags /\ bit1 flags = false)).
Proof.
  intros H W. destruct (held_shows _ _ _ H W) as [S|(h & R)]; [|contradiction R].
  destruct m; cbn [shows_msg] in S; try contradiction. destruct S as (_ & -> & _).
  destruct W as (_ & U & _). unfold is_u32 in U. cbn [has_response answered].
  destruct (Z.ltb_spec 1 flags) as [L|L].
  - assert (flags = 2 \/ flags = 3 \/ 4 <= flags) as [->|[->|G]] by lia; [cbn; intuition lia..|].
    destruct (bit1 flags); cbn; intuition discriminate.
  - assert (flags = 0 \/ flags = 1) as [-> | ->] by lia; cbn; intuition (lia || discriminate).
Qed.

(* An update with both flags, an OP_MSG asking for a reply, and one with an empty body. *)
Example C101_nonvacuous : exists d m1 m2 m3 fuel,
  smsg_ok (SUpdate 3 [97] d7 d7) /\ held fuel (SUpdate 3 [97] d7 d7) m1 /\
  get_model m1 = Ret (Some (OUpdate [97] (Some d) (Some d) true true), 2001) /\
  smsg_ok (SOp 0 [SBody d7; SSeq [98] [d7]] None) /\ held fuel (SOp 0 [SBody d7; SSeq [98] [d7]] None) m2 /\
  get_model m2 = Ret (Some (OMessage [] [] [] false true [MkItem [97] [d]; MkItem [98] [d]]), 2013) /\
  has_response m2 = false /\ answered (SOp 0 [SBody d7; SSeq [98] [d7]] None) = true /\
  smsg_ok (SOp 0 [SBody []] None) /\ held fuel (SOp 0 [SBody []] None) m3 /\ get_model m3 = Panic PIndex.
Proof.
  destruct d7_held as (d & Hd).
  assert (W : wf_fields d7) by apply d7_wf.
  exists d, (new_update [97] 3 (Some d) (Some d)).
  assert (Hn : holds [] []) by (eexists; apply do_built; vm_compute; reflexivity).
  assert (F : Forall2 holds [d] [d7]) by (constructor; [exact Hd|constructor]).
  set (fuel := S (Z.to_nat (zlen (enc_doc d7)))).
  assert (SM : small d7) by (vm_compute; reflexivity).
  assert (FU : enough fuel (zlen (enc_doc d7))) by (unfold enough, fuel; posl; lia).
  destruct (holds_size fuel d d7 Hd W SM FU) as [Z1 _].
  assert (SQ : exists n, new_seqs fuel [([98], [d])] = Ret [Seq n [98] [d]]).
  { cbn [new_seqs]. unfold new_seq. cbn [docs_size snd fst]. rewrite Z1. cbn [bind]. eexists. reflexivity. }
  destruct SQ as (n & SQ).
  eexists (MOp _ _ _ [Body (Some d); Seq n [98] [d]] _), (MOp _ _ _ [Body (Some [])] _), fuel.
  assert (K : first_key d = Ret [97]) by (eapply first_key_ok; eauto).
  split; [split; [vm_compute; reflexivity|]; unfold is_i32; repeat split; try lia; auto; repeat constructor; discriminate|].
  split; [apply held_built; now apply bm_update|].
  split; [reflexivity|].
  split; [split; [vm_compute; reflexivity|]; unfold is_u32; repeat split; try lia; auto;
    repeat (constructor; auto); cbn; repeat (constructor; auto); discriminate|].
  split; [apply held_built; apply (bm_op fuel false [d] [d7] [([98], [d])] [([98], [d7])]); auto;
    unfold new_op_message; rewrite SQ; reflexivity|].
  split; [cbn; rewrite K; reflexivity|]. split; [reflexivity|]. split; [reflexivity|].
  split; [split; [vm_compute; reflexivity|]; unfold is_u32; repeat split; try lia; auto; repeat (constructor; auto)|].
  split; [apply held_built; apply (bm_op fuel false [[]] [[]] [] []); auto; reflexivity|reflexivity].
Qed.

Print Assumptions C101_model.
Print Assumptions C101_names_refuted.
Print Assumptions C101_update_flags.
Print Assumptions C101_reply_flags_refuted.
Print Assumptions C101_msg_flags_refuted.
Print Assumptions C101_kinds_refuted.
Print Assumptions C101_empty_body_refuted.
Print Assumptions C102_has_response.
Print Assumptions C102_msg_refuted.
Print Assumptions C101_nonvacuous.
