(* The properties of the wire protocol package: round trips, sizes, parsing hostile bytes,
   framing, sending and namespaces.  Documents are those a client can hold (holds: built by
   the constructors or read from their encoding), messages those the constructors return,
   and the byte format is WireSpec.v's. *)
Require Import ZArith List Bool Lia ZifyBool ZifyNat.
From Verif Require Import Base BSpec Elements Value Codec CodecRead Itoa CodecRep Api ApiProofs Tree
  GetterProofs ReaderOps ReadSafe CodecProps DocOps Search Stream Wire WireSpec WireProofs.
Import ListNotations.
Open Scope Z_scope.

(* ------------------------------------------------------------- C28 round trip *)

(* s is the content of a message m returned by a constructor of the package *)
Inductive built_msg (fuel : nat) : smsg -> wmsg -> Prop :=
| bm_reply flags cursor start nret ds fss : Forall2 holds ds fss ->
    built_msg fuel (SReply flags cursor start nret fss) (new_reply cursor flags start nret ds)
| bm_update ns flags d fd u fu : holds d fd -> holds u fu ->
    built_msg fuel (SUpdate flags ns fd fu) (new_update ns flags (Some d) (Some u))
| bm_insert ns ds fss m : Forall2 holds ds fss -> new_insert ns (map Some ds) = Ret m ->
    built_msg fuel (SInsert 0 ns fss) m
| bm_query ns flags skip nret q fq p fp : holds q fq -> holds_opt p fp ->
    built_msg fuel (SQuery flags skip nret ns fq fp) (new_query ns flags skip nret (Some q) p)
| bm_get_more ns nret cursor : built_msg fuel (SGetMore nret cursor ns) (new_get_more ns nret cursor)
| bm_delete ns flags d fd : holds d fd -> built_msg fuel (SDelete flags ns fd) (new_delete ns flags (Some d))
| bm_kill ids : built_msg fuel (SKill ids) (new_kill_cursors ids)
| bm_command db cmd a fa m fm ins fins : holds a fa -> holds m fm -> Forall2 holds ins fins ->
    built_msg fuel (SCommand db cmd fa fm fins) (new_command db cmd (Some a) (Some m) ins)
| bm_command_reply r fr m fm os fos : holds r fr -> holds m fm -> Forall2 holds os fos ->
    built_msg fuel (SCommandReply fr fm fos) (new_command_reply (Some r) (Some m) os)
| bm_op more ds fss items its m : Forall2 holds ds fss ->
    Forall2 (fun i j => fst i = fst j /\ Forall2 holds (snd i) (snd j)) items its ->
    new_op_message fuel more ds items = Ret m ->
    built_msg fuel (SOp 0 (map SBody fss ++ map (fun j => SSeq (fst j) (snd j)) its) None) m.

Lemma deref_somes ds : deref_docs (map Some ds) = Ret ds.
Proof. induction ds as [|d ds IH]; [reflexivity|]. cbn [map deref_docs]. now rewrite IH. Qed.

Lemma new_seqs_shows fuel items its : Forall2 (fun i j => fst i = fst j /\ Forall2 holds (snd i) (snd j)) items its ->
  forall ss, new_seqs fuel items = Ret ss -> Forall2 shows_sec ss (map (fun j => SSeq (fst j) (snd j)) its).
Proof.
  induction 1 as [|i j items its [E H] _ IH]; intros ss Es; cbn [new_seqs] in Es; [injection Es as <-; constructor|].
  unfold new_seq in Es. destruct (docs_size fuel (snd i)); cbn [bind] in Es; try discriminate.
  destruct (new_seqs fuel items) as [l| |]; cbn [bind] in Es; try discriminate. injection Es as <-.
  constructor; [split; auto|auto].
Qed.

Lemma built_shows fuel s m : built_msg fuel s m -> smsg_ok s ->
  shows_msg m s /\ h_op (msg_header m) = op_of s /\ h_req (msg_header m) = 19 /\ h_resp (msg_header m) = 0.
Proof.
  intros B W. destruct B as [| |? ? ? ? F E| | | | | | |? ? ? ? ? ? F1 F2 E]; cbn; auto 10.
  - unfold new_insert in E. rewrite deref_somes in E. cbn [bind] in E. injection E as <-. cbn. auto 8.
  - destruct W as [L _]. cbn [body_of] in L. zlens_in L. rewrite zlen_ids in L.
    rewrite i32_id by (unfold is_i32; posl; lia). auto.
  - unfold new_op_message in E. destruct (new_seqs fuel items) as [ss| |] eqn:Es; cbn [bind] in E; try discriminate.
    injection E as <-. cbn. split; [|auto]. split; [reflexivity|]. split; [now destruct more|]. split; [|reflexivity].
    apply Forall2_app; [|now apply (new_seqs_shows fuel items)].
    clear W. induction F1; cbn [map]; constructor; auto.
Qed.

(* C28.  A message built by a constructor, from documents, names and numbers that fit the
   format, serializes to the bytes of the format; parsing those bytes with the header they
   carry gives back the message: the same kind and fields, or for a query on a command
   namespace the command it stands for. *)
Theorem C28_wire_round_trip fuel s m : built_msg fuel s m -> smsg_ok s -> names_command s ->
  enough fuel (zlen (wire 19 0 s)) ->
  exists m1 m2, serialize fuel m = Ret (wire 19 0 s, m1) /\
    parse fuel (MkHdr (zlen (wire 19 0 s)) 19 0 (op_of s)) (skipn 16 (wire 19 0 s)) = Ret (Some m2, None) /\
    received (MkHdr (zlen (wire 19 0 s)) 19 0 (op_of s)) s m2.
Proof.
  intros B W N F. destruct (built_shows fuel s m B W) as (S & Ho & Hq & Hr).
  unfold enough in F. rewrite zlen_wire in F.
  destruct (serialize_facts fuel m s S W Ho) as (m1 & E & _); [unfold enough; lia|]. rewrite Hq, Hr in E.
  replace (skipn 16 (wire 19 0 s)) with (body_of s) by reflexivity.
  destruct (parse_ok fuel (MkHdr (zlen (wire 19 0 s)) 19 0 (op_of s)) s W N eq_refl) as (m2 & E2 & R2); [unfold enough; lia|].
  exists m1, m2. auto.
Qed.

(* The same for any message a client holds, such as one it has parsed: Serialize writes its
   content in the format under the message's own request and response numbers. *)
Theorem C28_serialize_content fuel s m : shows_msg m s -> smsg_ok s -> h_op (msg_header m) = op_of s ->
  enough fuel (zlen (body_of s)) ->
  exists m1, serialize fuel m = Ret (wire (h_req (msg_header m)) (h_resp (msg_header m)) s, m1) /\
    same_content m m1.
Proof. intros S W Ho F. destruct (serialize_facts fuel m s S W Ho F) as (m1 & E & C & _). eauto. Qed.

(* {"a": 7} *)
Definition d7 : fields := [([97], BInt32 7)].
Lemma d7_wf : wf_fields d7.
Proof. repeat constructor; unfold is_u8, is_i32; lia. Qed.
Lemma d7_held : exists d, holds d d7.
Proof. eexists. eexists. apply do_built. vm_compute. reflexivity. Qed.

(* an update, a command query and a message with a body and a sequence *)
Example C28_nonvacuous : exists m1 m2 m3,
  (built_msg 200 (SUpdate 1 [97; 46; 98] d7 d7) m1 /\ smsg_ok (SUpdate 1 [97; 46; 98] d7 d7)) /\
  (built_msg 200 (SQuery 0 0 1 [97; 46; 36; 99; 109; 100] d7 None) m2 /\
   smsg_ok (SQuery 0 0 1 [97; 46; 36; 99; 109; 100] d7 None) /\
   names_command (SQuery 0 0 1 [97; 46; 36; 99; 109; 100] d7 None)) /\
  (built_msg 200 (SOp 0 ([SBody d7] ++ [SSeq [120] [d7; d7]]) None) m3 /\
   smsg_ok (SOp 0 [SBody d7; SSeq [120] [d7; d7]] None)) /\
  enough 200 (zlen (wire 19 0 (SOp 0 [SBody d7; SSeq [120] [d7; d7]] None))).
Proof.
  destruct d7_held as (d & H). pose proof d7_wf as W.
  assert (L : zlen (enc_doc d7) = 12) by reflexivity.
  destruct (docs_facts 200 [d; d] [d7; d7]) as (Sz & _); [auto|auto|vm_compute; reflexivity|vm_compute; reflexivity|].
  assert (exists m3, new_op_message 200 false [d] [([120], [d; d])] = Ret m3) as (m3 & E3).
  { unfold new_op_message. cbn [new_seqs]. unfold new_seq. cbn [snd fst]. rewrite Sz. cbn [bind]. eauto. }
  eexists _, _, m3. split; [|split; [|split]].
  - split; [apply bm_update; exact H|].
    split; [reflexivity|]. repeat split; try exact W; unfold is_i32; try lia; repeat (constructor; try lia).
  - split; [apply bm_query with (p := None); [exact H|exact I]|].
    split; [|intros _; discriminate].
    split; [reflexivity|]. repeat split; try exact W; unfold is_i32; try lia; repeat (constructor; try lia).
  - split.
    + eapply (bm_op 200 false [d] [d7] [([120], [d; d])] [([120], [d7; d7])]);
        [auto|constructor; [split; [reflexivity|cbn; auto]|auto]|exact E3].
    + split; [reflexivity|]. split; [unfold is_u32; lia|]. split; [|reflexivity].
      constructor; [exact W|]. constructor; [split; [repeat (constructor; try lia)|auto]|constructor].
  - vm_compute. reflexivity.
Qed.
Print Assumptions C28_wire_round_trip.
Print Assumptions C28_serialize_content.

(* -------------------------------------------------------- C57 the flag of OP_MSG *)

(* C57.  False: NewOpMessage(true, ...) is meant to set moreToCome, bit 1 of the flags, but
   "msg.Flags & 1" sets nothing, so the receiver never sees the flag (nor any other). *)
Theorem C57_more_to_come_refuted fuel docs items m : new_op_message fuel true docs items = Ret m ->
  new_op_message fuel false docs items = Ret m /\
  exists h items', m = MOp h [] 0 items' 0 /\ Z.testbit 0 1 = false.
Proof.
  unfold new_op_message. destruct (new_seqs fuel items) as [ss| |]; cbn [bind]; try discriminate.
  intros [= <-]. split; [reflexivity|]. eauto.
Qed.
Example C57_nonvacuous : exists m, new_op_message 10 true [[]] [] = Ret m.
Proof. eexists. reflexivity. Qed.
Print Assumptions C57_more_to_come_refuted.

(* -------------------------------------------------- C58 the size of a parsed message *)

(* C58.  Every message but OP_MSG keeps the header it arrived with. *)
Theorem C58_parsed_header_partial fuel h s : smsg_ok s -> h_op h = op_of s ->
  (match s with SOp _ _ _ => False | SQuery _ _ _ ns _ _ => ~ command_ns ns | _ => True end) ->
  enough fuel (zlen (body_of s)) ->
  exists m, parse fuel h (body_of s) = Ret (Some m, None) /\ msg_header m = h.
Proof.
  intros W Ho NO F. destruct (parse_ok fuel h s W) as (m & E & R); auto.
  { destruct s; cbn in *; auto. }
  exists m. split; [exact E|]. destruct s; cbn in R; try contradiction; try apply R.
  destruct R as [(_ & _ & R)|(db & rest & k & v & tl & d & -> & Fd & _)]; [exact R|].
  contradiction NO. exists db, rest. auto.
Qed.
(* C58.  False for OP_MSG: the parser overwrites the size with the length of the body, which
   is 16 less than the length of the message. *)
Theorem C58_parsed_header_refuted fuel s req resp : smsg_ok s -> h_op (MkHdr 0 0 0 (op_of s)) = 2013 ->
  enough fuel (zlen (body_of s)) ->
  exists m, parse fuel (MkHdr (zlen (wire req resp s)) req resp (op_of s)) (body_of s) = Ret (Some m, None) /\
    h_size (msg_header m) = zlen (wire req resp s) - 16.
Proof.
  intros W Ho F. cbn in Ho. destruct s; cbn [op_of] in Ho; try discriminate.
  destruct (parse_ok fuel (MkHdr (zlen (wire req resp (SOp flags items checksum))) req resp 2013) _ W I eq_refl F) as (m & E & R).
  exists m. split; [exact E|]. destruct R as [_ ->]. cbn [h_size]. rewrite zlen_wire. lia.
Qed.
Example C58_nonvacuous : smsg_ok (SOp 0 [SBody d7] None) /\ smsg_ok (SDelete 0 [97] d7).
Proof.
  pose proof d7_wf as W. split.
  - split; [reflexivity|]. split; [unfold is_u32; lia|]. split; [constructor; [exact W|constructor]|reflexivity].
  - split; [reflexivity|]. repeat split; try exact W; unfold is_i32; try lia; repeat (constructor; try lia).
Qed.
Print Assumptions C58_parsed_header_partial.
Print Assumptions C58_parsed_header_refuted.

(* ------------------------------------------- C59 the size of a document sequence *)

(* the message with the sizes of document sequences as MongoDB defines them: the size field,
   the name and the documents, not the kind byte *)
Definition mongodb_body (flags : Z) (items : list ssec) (checksum : option Z) : bytes :=
  le32 flags ++
  concat (map (fun s => match s with
    | SBody d => 0 :: enc_doc d
    | SSeq ident docs => 1 :: le32 (4 + zlen (cstring ident ++ enc_docs docs)) ++ cstring ident ++ enc_docs docs
    end) items) ++
  (match checksum with Some c => le32 c | None => [] end).

(* C59.  Messages in MongoDB's format are read correctly ... *)
Theorem C59_sequence_size_partial fuel h flags items checksum : smsg_ok (SOp flags items checksum) ->
  h_op h = 2013 -> enough fuel (zlen (mongodb_body flags items checksum)) ->
  exists m, parse fuel h (mongodb_body flags items checksum) = Ret (Some m, None) /\
    shows_msg m (SOp flags items checksum).
Proof.
  intros W Ho F. change (mongodb_body flags items checksum) with (op_body_with 4 flags items checksum) in *.
  rewrite zlen_op_body in F. destruct (parse_msg_ok fuel h 4 flags items checksum ltac:(lia) W F) as (m & E & S & _).
  exists m. split; [|exact S]. unfold parse. rewrite Ho. exact E.
Qed.
(* ... but what Serialize writes for a message with a document sequence is never in it. *)
Theorem C59_sequence_size_refuted fuel s m flags items checksum i docs : shows_msg m s -> smsg_ok s ->
  s = SOp flags items checksum -> h_op (msg_header m) = 2013 -> enough fuel (zlen (body_of s)) ->
  In (SSeq i docs) items ->
  exists b m1, serialize fuel m = Ret (b, m1) /\ skipn 16 b <> mongodb_body flags items checksum /\
    zlen (skipn 16 b) = zlen (mongodb_body flags items checksum).
Proof.
  intros S W -> Ho F HI. destruct (serialize_facts fuel m _ S W Ho F) as (m1 & E & _).
  eexists _, m1. split; [exact E|].
  replace (skipn 16 (wire (h_req (msg_header m)) (h_resp (msg_header m)) (SOp flags items checksum)))
    with (body_of (SOp flags items checksum)) by reflexivity.
  change (mongodb_body flags items checksum) with (op_body_with 4 flags items checksum). rewrite zlen_op_body.
  split; [|reflexivity]. rewrite op_body_5. unfold op_body_with. intros Eq. apply app_inv_head in Eq.
  destruct W as [L _]. cbn [body_of] in L. zlens_in L. change (map sec_bytes items) with (map (sec_bytes_with 5) items) in L.
  apply app_inv_tail in Eq. clear -HI Eq L. posl.
  induction items as [|t items IH]; [easy|]. cbn [map concat] in *. zlens_in L. posl.
  assert (zlen (sec_bytes_with 5 t) = zlen (sec_bytes_with 4 t)) by now rewrite !zlen_sec.
  assert (sec_bytes_with 5 t = sec_bytes_with 4 t /\ concat (map (sec_bytes_with 5) items) = concat (map (sec_bytes_with 4) items)) as [E1 E2].
  { destruct (take _ _ _ _ Eq ltac:(lia)) as (T & E1 & E2). assert (T = []) as ->.
    { apply (f_equal zlen) in E1. zlens_in E1. posl. apply zlen_nil_inv. lia. }
    rewrite app_nil_r in E1. auto. }
  destruct HI as [->|HI]; [|apply IH; auto; lia]. cbn [sec_bytes_with] in *. zlens_in L. posl.
  injection E1 as E1. set (n := zlen (cstring i ++ enc_docs docs)) in *.
  clear -E1. clearbody n. Z.div_mod_to_equations. lia.
Qed.
Example C59_nonvacuous : exists d, shows_msg (MOp (new_header 2013) [] 0 [Body (Some d); Seq 0 [120] [d]] 0)
    (SOp 0 [SBody d7; SSeq [120] [d7]] None) /\ smsg_ok (SOp 0 [SBody d7; SSeq [120] [d7]] None) /\
  mongodb_body 0 [SBody d7; SSeq [120] [d7]] None <> body_of (SOp 0 [SBody d7; SSeq [120] [d7]] None).
Proof.
  pose proof d7_wf as W. destruct d7_held as (d & H). exists d. split; [|split].
  - cbn [shows_msg]. repeat (split; [reflexivity|]). split; [|reflexivity].
    constructor; [exact H|]. constructor; [|constructor]. split; [reflexivity|auto].
  - split; [reflexivity|]. split; [unfold is_u32; lia|]. split; [|reflexivity].
    constructor; [exact W|]. constructor; [split; [repeat (constructor; try lia)|auto]|constructor].
  - vm_compute. discriminate.
Qed.
Print Assumptions C59_sequence_size_partial.
Print Assumptions C59_sequence_size_refuted.

(* ------------------------------------------------------------------- C29 sizes *)

(* MarshalBSON succeeds on every document of the message *)
Definition docs_marshal (fuel : nat) (m : wmsg) : Prop :=
  match m with
  | MReply _ _ _ _ _ ds | MInsert _ _ _ ds => Forall (marshals fuel) ds
  | MUpdate _ _ _ _ a b | MQuery _ _ _ _ _ a b => marshals_opt fuel a /\ marshals_opt fuel b
  | MDelete _ _ _ _ a => marshals_opt fuel a
  | MGetMore _ _ _ _ _ | MKill _ _ _ _ => True
  | MCommand _ _ _ a b ds _ | MCommandReply _ a b ds =>
      marshals_opt fuel a /\ marshals_opt fuel b /\ Forall (marshals fuel) ds
  | MOp _ _ _ items _ => Forall (fun s => match s with
      | Body d => marshals_opt fuel d | Seq _ _ ds => Forall (marshals fuel) ds end) items
  end.
(* the message was not parsed with a count of cursors that is not their number, and holds no
   bytes from an earlier Serialize *)
Definition plain_msg (m : wmsg) : Prop :=
  match m with
  | MKill _ _ num ids => num = zlen ids
  | MOp _ ser _ _ _ => ser = []
  | _ => True
  end.

Ltac seq_step E H :=
  match type of H with
  | bind ?x _ = Ret _ => destruct x as [?v| |] eqn:E; cbn [bind] in H; try discriminate H
  end.

Lemma sections_sizes fuel ss : Forall (fun s => match s with
      | Body d => marshals_opt fuel d | Seq _ _ ds => Forall (marshals fuel) ds end) ss ->
  forall b ss' n, ser_sections fuel ss = Ret (b, ss', n) -> zlen b < 2147483648 -> n = zlen b.
Proof.
  induction 1 as [|s ss M _ IH]; intros b ss' n E L; cbn [ser_sections] in E; [injection E as <- <- <-; reflexivity|].
  destruct (ser_section fuel s) as [[[b1 s1] n1]| |] eqn:E1; cbn [bind] in E; try discriminate.
  destruct (ser_sections fuel ss) as [[[b2 s2] n2]| |] eqn:E2; cbn [bind] in E; try discriminate.
  injection E as <- <- <-. zlens_in L. posl. rewrite (IH b2 s2 n2 eq_refl) by lia. zlens. f_equal.
  unfold ser_section in E1. destruct s as [d|sz i ds].
  - destruct (get_doc_size fuel d) eqn:A; cbn [bind] in E1; try discriminate.
    destruct (make_buf (1 + a)); cbn [bind] in E1; try discriminate.
    destruct (write_doc fuel d) eqn:B; cbn [bind] in E1; try discriminate. injection E1 as <- <- <-.
    rewrite (opt_sizes fuel d a a1 M A B). zl.
  - destruct (docs_size fuel ds) eqn:A; cbn [bind] in E1; try discriminate. cbv zeta in E1.
    destruct (make_buf (1 + 4 + (zlen i + 1) + a)); cbn [bind] in E1; try discriminate.
    destruct (write_docs fuel ds) eqn:B; cbn [bind] in E1; try discriminate. injection E1 as <- <- <-.
    rewrite (docs_sizes fuel ds M a a1 A B) in *. unfold write_cstring in *. zlens_in L. posl.
    rewrite i32_id by (unfold is_i32; lia). zl.
Qed.

Lemma size_head h n b : n = zlen (write_header (with_size h n) ++ b) -> n < 2147483648 ->
  h_size (with_size h n) = n /\ firstn 4 (write_header (with_size h n) ++ b) = le32 n.
Proof.
  intros E L. assert (0 <= n) by (rewrite E; posl; lia). unfold with_size, write_header. cbn [h_size h_req h_resp h_op].
  rewrite i32_id by (unfold is_i32; lia). auto.
Qed.

(* C29.  Whatever the fields of the message: if its documents can be marshalled and Serialize
   returns fewer than 2^31 bytes, the size in its header is their number, and the first four
   bytes hold it. *)
Theorem C29_header_size fuel m b m1 : docs_marshal fuel m -> plain_msg m -> serialize fuel m = Ret (b, m1) ->
  zlen b < 2147483648 -> h_size (msg_header m1) = zlen b /\ firstn 4 b = le32 (zlen b).
Proof.
  intros M P E L.
  assert (K : forall h n x, b = write_header (with_size h n) ++ x -> msg_header m1 = with_size h n ->
    n = 16 + zlen x -> h_size (msg_header m1) = zlen b /\ firstn 4 b = le32 (zlen b)).
  { intros h n x Eb -> Hn. assert (Z16 : n = zlen b) by (rewrite Eb; unfold write_header; zl).
    rewrite <- Z16, Eb. apply size_head; [rewrite <- Eb; exact Z16|lia]. }
  destruct m; cbn [serialize docs_marshal plain_msg] in *; cbv zeta in E.
  - seq_step A E. seq_step A1 E. seq_step A2 E. injection E as <- <-.
    rewrite (docs_sizes _ _ M _ _ A A2) in *. eapply K; [reflexivity|reflexivity|]. zl.
  - destruct M as [M1 M2]. seq_step A E. seq_step A1 E. seq_step A2 E. seq_step A3 E. seq_step A4 E. injection E as <- <-.
    rewrite (opt_sizes _ _ _ _ M1 A A3), (opt_sizes _ _ _ _ M2 A1 A4) in *.
    eapply K; [reflexivity|reflexivity|]. unfold write_cstring. zl.
  - seq_step A E. seq_step A1 E. seq_step A2 E. injection E as <- <-.
    rewrite (docs_sizes _ _ M _ _ A A2) in *. eapply K; [reflexivity|reflexivity|]. unfold write_cstring. zl.
  - destruct M as [M1 M2]. seq_step A E. seq_step A1 E. seq_step A2 E. seq_step A3 E. seq_step A4 E. injection E as <- <-.
    rewrite (opt_sizes _ _ _ _ M1 A A3), (opt_sizes _ _ _ _ M2 A1 A4) in *.
    eapply K; [reflexivity|reflexivity|]. unfold write_cstring. zl.
  - seq_step A E. injection E as <- <-. eapply K; [reflexivity|reflexivity|]. unfold write_cstring. zl.
  - seq_step A E. seq_step A1 E. seq_step A2 E. injection E as <- <-.
    rewrite (opt_sizes _ _ _ _ M A A2) in *. eapply K; [reflexivity|reflexivity|]. unfold write_cstring. zl.
  - seq_step A E. injection E as <- <-. eapply K; [reflexivity|reflexivity|]. zlens. rewrite zlen_ids. lia.
  - destruct M as (M1 & M2 & M3). seq_step A E. seq_step A1 E. seq_step A2 E. seq_step A3 E. seq_step A4 E. seq_step A5 E.
    seq_step A6 E. injection E as <- <-.
    rewrite (opt_sizes _ _ _ _ M1 A A4), (opt_sizes _ _ _ _ M2 A1 A5), (docs_sizes _ _ M3 _ _ A2 A6) in *.
    eapply K; [reflexivity|reflexivity|]. unfold write_cstring. zl.
  - destruct M as (M1 & M2 & M3). seq_step A E. seq_step A1 E. seq_step A2 E. seq_step A3 E. seq_step A4 E. seq_step A5 E.
    seq_step A6 E. injection E as <- <-.
    rewrite (opt_sizes _ _ _ _ M1 A A4), (opt_sizes _ _ _ _ M2 A1 A5), (docs_sizes _ _ M3 _ _ A2 A6) in *.
    eapply K; [reflexivity|reflexivity|]. zl.
  - subst serialized. change (0 <? zlen []) with false in E. cbv iota in E.
    destruct (ser_sections fuel items) as [[[bs ss] n]| |] eqn:A; cbn [bind] in E; try discriminate.
    set (sum := negb (checksum =? 0) && (Z.land flags 1 =? 1)) in *.
    destruct (make_buf (16 + 4 + n + (if sum then 4 else 0))); cbn [bind] in E; try discriminate. injection E as <- <-.
    zlens_in L. posl. rewrite (sections_sizes _ _ M _ _ _ A) in * by lia.
    eapply K; [reflexivity|reflexivity|]. destruct sum; zl.
Qed.

(* The hypotheses are met by every message of C28, for which Serialize does return. *)
Theorem C29_header_size_reached fuel s m : built_msg fuel s m -> smsg_ok s -> enough fuel (zlen (wire 19 0 s)) ->
  exists b m1, serialize fuel m = Ret (b, m1) /\ h_size (msg_header m1) = zlen b /\ firstn 4 b = le32 (zlen b).
Proof.
  intros B W F. destruct (built_shows fuel s m B W) as (S & Ho & Hq & Hr).
  unfold enough in F. rewrite zlen_wire in F.
  destruct (serialize_facts fuel m s S W Ho) as (m1 & E & _ & Hz); [unfold enough; lia|].
  eexists _, m1. split; [exact E|]. split; [rewrite Hz; reflexivity|]. rewrite zlen_wire. reflexivity.
Qed.
Print Assumptions C29_header_size.
Print Assumptions C29_header_size_reached.

(* ---------------------------------------------------------- C30 hostile messages *)

(* C30.  False: a hostile peer can make the parser panic, in four ways. *)
(* a delete whose filter has a string without its terminator passes ReadDocument, and
   getDocSize panics *)
Theorem C30_parse_panics_refuted_string :
  exists body, parse 100 (MkHdr 0 1 0 2006) body = Panic (PErr EInvalidString).
Proof.
  exists (le32 0 ++ [97; 0] ++ le32 0 ++ le32 13 ++ [2; 107; 0] ++ le32 1 ++ [120; 0]). vm_compute. reflexivity.
Qed.
(* a negative number of cursors *)
Theorem C30_parse_panics_refuted_cursors :
  exists body, parse 100 (MkHdr 0 1 0 2007) body = Panic PMake.
Proof. exists (le32 0 ++ le32 (-1)). vm_compute. reflexivity. Qed.
(* a command query with an empty document *)
Theorem C30_parse_panics_refuted_command :
  exists body, parse 100 (MkHdr 0 1 0 2004) body = Panic PIndex.
Proof.
  exists (le32 0 ++ [97; 46; 36; 99; 109; 100; 0] ++ le32 0 ++ le32 0 ++ le32 5 ++ [0]). vm_compute. reflexivity.
Qed.
(* a section whose document has a negative length *)
Theorem C30_parse_panics_refuted_section :
  exists body, parse 100 (MkHdr 0 1 0 2013) body = Panic PIndex.
Proof. exists (le32 0 ++ [0] ++ le32 (-1) ++ [0; 0; 0; 0]). vm_compute. reflexivity. Qed.

Definition returns {A} (r : go A) : Prop := exists a, r = Ret a.

(* What does hold: a get-more message of any bytes is parsed or rejected, *)
Theorem C30_get_more_total_partial fuel h body : h_op h = 2005 -> returns (parse fuel h body).
Proof.
  intros Ho. unfold parse. rewrite Ho. cbn [Z.eqb Pos.eqb]. unfold parse_get_more, returns.
  destruct (zlen body <? 4) eqn:E; [unfold perr; eauto|].
  assert (I4 : forall b : bytes, 4 <= zlen b -> exists z, w_i32 b = Ret z).
  { intros b L. unfold w_i32. destruct b as [|x0 [|x1 [|x2 [|x3 b]]]]; try (zlens_in L; change (zlen (@nil Z)) with 0 in L; lia). eexists. reflexivity. }
  assert (I8 : forall b : bytes, 8 <= zlen b -> exists z, w_i64 b = Ret z).
  { intros b L. unfold w_i64. destruct b as [|x0 [|x1 [|x2 [|x3 [|x4 [|x5 [|x6 [|x7 b]]]]]]]]; try (zlens_in L; change (zlen (@nil Z)) with 0 in L; lia). eexists. reflexivity. }
  assert (FR : forall k, 0 <= k <= zlen body -> from body k = Ret (skipn (Z.to_nat k) body)).
  { intros k Hk. rewrite <- (firstn_skipn (Z.to_nat k) body) at 1. apply from_app. now rewrite zlen_firstn_le. }
  destruct (I4 body) as (r & ->); [lia|]. cbn [bind]. rewrite FR by lia. cbn [bind].
  destruct (read_cstring (skipn (Z.to_nat 4) body)) as [ns|e]; [|eauto]. cbv zeta. posl.
  destruct (zlen body <? 4 + (zlen ns + 1) + 12) eqn:E2; [unfold perr; eauto|].
  rewrite FR by lia. cbn [bind].
  destruct (I4 (skipn (Z.to_nat (4 + (zlen ns + 1))) body)) as (r2 & ->); [rewrite zlen_skipn_le by lia; lia|]. cbn [bind].
  rewrite FR by lia. cbn [bind].
  destruct (I8 (skipn (Z.to_nat (4 + (zlen ns + 1) + 4)) body)) as (r3 & ->); [rewrite zlen_skipn_le by lia; lia|]. cbn [bind]. eauto.
Qed.
(* an unknown operation is rejected, *)
Theorem C30_unknown_op_total_partial fuel h body :
  ~ In (h_op h) [1; 2001; 2002; 2004; 2005; 2006; 2007; 2010; 2011; 2013] ->
  exists e, parse fuel h body = Ret (None, Some e).
Proof.
  intros N. cbn [In] in N. unfold parse.
  repeat match goal with |- context [if h_op h =? ?k then _ else _] =>
    destruct (Z.eqb_spec (h_op h) k); [exfalso; apply N; auto 12|] end.
  unfold perr. eauto.
Qed.
(* and a message of any other kind but OP_MSG that was cut anywhere, or is complete, is
   parsed or rejected; what is returned without an error for the complete one is the message. *)
Theorem C30_truncated_total_partial fuel h s n : smsg_ok s -> names_command s -> h_op h = op_of s ->
  op_of s <> 2013 -> enough fuel (zlen (body_of s)) ->
  exists r, parse fuel h (firstn n (body_of s)) = Ret r /\
    ((length (body_of s) <= n)%nat -> exists m, r = (Some m, None) /\ received h s m).
Proof.
  intros W N Ho NO F.
  assert (NO' : not_op s) by (destruct s; cbn in *; auto).
  destruct (parse_prefix fuel h s (firstn n (body_of s)) (skipn n (body_of s)) W N NO' Ho) as [(m & E & R)|(Y & m & e & E)];
    auto; [apply firstn_skipn| |]; rewrite E; eexists; (split; [reflexivity|]); intros L; rewrite skipn_all2 in * by auto.
  - eauto.
  - easy.
Qed.
Example C30_nonvacuous : smsg_ok (SDelete 0 [97] d7) /\ names_command (SDelete 0 [97] d7) /\
  length (body_of (SDelete 0 [97] d7)) = 22%nat.
Proof.
  pose proof d7_wf as W. split; [|split; [exact I|reflexivity]].
  split; [reflexivity|]. repeat split; try exact W; unfold is_i32; try lia; repeat (constructor; try lia).
Qed.
Print Assumptions C30_parse_panics_refuted_string.
Print Assumptions C30_parse_panics_refuted_cursors.
Print Assumptions C30_parse_panics_refuted_command.
Print Assumptions C30_parse_panics_refuted_section.
Print Assumptions C30_get_more_total_partial.
Print Assumptions C30_unknown_op_total_partial.
Print Assumptions C30_truncated_total_partial.

(* ----------------------------------------------------------------- C31 framing *)

(* C31, in part.  When the first Read delivers the four size bytes, the rest may come in any
   pieces if nothing follows the message and the end of the stream is not reported together
   with its last bytes; *)
Theorem C31_read_last_partial fuel req resp s sched e : is_i32 req -> is_i32 resp -> smsg_ok s -> names_command s ->
  zlen (wire req resp s) <= 209715200 -> enough fuel (zlen (wire req resp s)) -> first_read sched ->
  exists s' m, read_message fuel (MkStream (wire req resp s) sched e false) = (s', Ret (Some m, None)) /\
    st_data s' = [] /\ received (MkHdr (zlen (wire req resp s)) req resp (op_of s)) s m.
Proof.
  intros I1 I2 W N L F Fr. destruct (read_message_all fuel req resp s sched e I1 I2 W L Fr) as (sc & E).
  unfold enough in F. rewrite zlen_wire in F.
  destruct (parse_ok fuel (MkHdr (zlen (wire req resp s)) req resp (op_of s)) s W N eq_refl) as (m & Em & R); [unfold enough; lia|].
  rewrite Em in E. eauto.
Qed.
(* and if something follows, the pieces have a boundary at the end of the message. *)
Theorem C31_read_next_partial fuel req resp s rest c l k sched2 e last :
  is_i32 req -> is_i32 resp -> smsg_ok s -> names_command s ->
  zlen (wire req resp s) <= 209715200 -> enough fuel (zlen (wire req resp s)) ->
  4 <= Z.of_nat c -> 0 < Z.of_nat k -> 4 + total l + Z.of_nat k = zlen (wire req resp s) -> rest <> [] \/ last = false ->
  exists m, read_message fuel (MkStream (wire req resp s ++ rest) (c :: l ++ k :: sched2) e last) =
      (MkStream rest sched2 e last, Ret (Some m, None)) /\
    received (MkHdr (zlen (wire req resp s)) req resp (op_of s)) s m.
Proof.
  intros I1 I2 W N L F H1 H2 H3 H4.
  pose proof (read_message_cut fuel req resp s rest c l k sched2 e last I1 I2 W L H1 H2 H3 H4) as E.
  unfold enough in F. rewrite zlen_wire in F.
  destruct (parse_ok fuel (MkHdr (zlen (wire req resp s)) req resp (op_of s)) s W N eq_refl) as (m & Em & R); [unfold enough; lia|].
  rewrite Em in E. eauto.
Qed.

Definition gm (cursor : Z) : smsg := SGetMore 1 cursor [97].
Lemma gm_ok c : is_i64 c -> smsg_ok (gm c).
Proof.
  intros H. split; [vm_compute; reflexivity|]. cbn [gm]. split; [unfold is_i32; lia|]. split; [exact H|].
  repeat (constructor; try lia).
Qed.

(* C31.  False in general.  Each Read asks for the whole remaining size again, so a message
   split after its fifth byte makes the next Read take a byte of the following message, which
   is lost; *)
Theorem C31_read_message_refuted_overread : exists sched s' m,
  read_message 100 (MkStream (wire 1 0 (gm 5) ++ wire 2 0 (gm 6)) sched EEOF false) = (s', Ret (Some m, None)) /\
  first_read sched /\ st_data s' = skipn 1 (wire 2 0 (gm 6)).
Proof. exists [4; 1]%nat. eexists _, _. vm_compute. repeat split; discriminate. Qed.
(* a first Read of fewer than four bytes is an error; *)
Theorem C31_read_message_refuted_short : exists sched s' e,
  read_message 100 (MkStream (wire 1 0 (gm 5)) sched EEOF false) = (s', Ret (None, Some e)).
Proof. exists [2]%nat. eexists _, _. vm_compute. reflexivity. Qed.
(* and bytes delivered together with io.EOF, as io.Reader allows, are dropped. *)
Theorem C31_read_message_refuted_eof : exists sched s' e,
  read_message 100 (MkStream (wire 1 0 (gm 5)) sched EEOF true) = (s', Ret (None, Some e)) /\ first_read sched.
Proof. exists []. eexists _, _. vm_compute. repeat split. Qed.

Example C31_nonvacuous : exists s' m,
  read_message 100 (MkStream (wire 1 0 (gm 5) ++ wire 2 0 (gm 6)) [4; 7; 20; 3]%nat EEOF false) = (s', Ret (Some m, None)) /\
  st_data s' = wire 2 0 (gm 6) /\ smsg_ok (gm 5) /\ 4 + total [7; 20]%nat + 3 = zlen (wire 1 0 (gm 5)).
Proof.
  eexists _, _. split; [vm_compute; reflexivity|]. split; [reflexivity|].
  split; [apply gm_ok; unfold is_i64; lia|reflexivity].
Qed.
Print Assumptions C31_read_last_partial.
Print Assumptions C31_read_next_partial.
Print Assumptions C31_read_message_refuted_overread.
Print Assumptions C31_read_message_refuted_short.
Print Assumptions C31_read_message_refuted_eof.

(* ----------------------------------------------------------------- C32 sending *)

Lemma send_loop_prefix turns : forall buf out o r, send_loop turns buf out = (o, r) ->
  exists sent rest, o = out ++ sent /\ buf = sent ++ rest /\ (r = SentOk -> rest = []).
Proof.
  induction turns as [|[n e|n] turns IH]; intros buf out o r E; cbn [send_loop] in E.
  - injection E as <- <-. exists [], buf. rewrite app_nil_r. repeat split; auto. discriminate.
  - destruct e as [e|].
    { injection E as <- <-. exists (firstn (Z.to_nat n) buf), (skipn (Z.to_nat n) buf). rewrite firstn_skipn. repeat split; auto. discriminate. }
    destruct (n =? zlen buf) eqn:En.
    { injection E as <- <-. exists buf, []. rewrite firstn_all_z by lia. rewrite app_nil_r. auto. }
    destruct (goslice buf n (zlen buf)) as [buf'| |] eqn:Es.
    2,3: injection E as <- <-; exists (firstn (Z.to_nat n) buf), (skipn (Z.to_nat n) buf); rewrite firstn_skipn; repeat split; auto; discriminate.
    assert (buf' = skipn (Z.to_nat n) buf) as ->.
    { pose proof (goslice_inv _ _ _ _ Es) as (H1 & H2 & H3 & _).
      rewrite (goslice_eq buf n (zlen buf) (firstn (Z.to_nat n) buf) (skipn (Z.to_nat n) buf) []) in Es; [congruence|..].
      - now rewrite app_nil_r, firstn_skipn.
      - now rewrite zlen_firstn_le by lia.
      - rewrite zlen_firstn_le, zlen_skipn_le by lia. lia. }
    destruct (IH _ _ _ _ E) as (sent & rest & -> & Er & Ok).
    exists (firstn (Z.to_nat n) buf ++ sent), rest. rewrite <- !app_assoc, <- Er, firstn_skipn. auto.
  - injection E as <- <-. exists (firstn (Z.to_nat n) buf), (skipn (Z.to_nat n) buf). rewrite firstn_skipn. repeat split; auto. discriminate.
Qed.

(* C32.  Whatever the writer and the scheduler do - partial writes, errors, cancellation at
   any point - the writer has been handed a beginning of Serialize(), and if SendMessage
   returns nil, all of it. *)
Theorem C32_send_writes_message fuel turns m out r : send_message fuel turns m = Ret (out, r) ->
  exists b m1 rest, serialize fuel m = Ret (b, m1) /\ b = out ++ rest /\ (r = SentOk -> out = b).
Proof.
  unfold send_message. destruct (serialize fuel m) as [[b m1]| |]; cbn [bind]; try discriminate. intros [= E].
  destruct (send_loop_prefix _ _ _ _ _ E) as (sent & rest & -> & -> & Ok). exists (sent ++ rest), m1, rest.
  split; [reflexivity|]. split; [reflexivity|]. intros H. now rewrite (Ok H), app_nil_r.
Qed.

(* a writer that keeps to the io.Writer contract for what it is handed *)
Fixpoint honest (turns : list wturn) (left : Z) : Prop :=
  match turns with
  | [] => True
  | WCancel n :: _ => 0 <= n <= left
  | WDone n e :: r => 0 <= n <= left /\ (e = None -> n <> left -> honest r (left - n))
  end.
(* C32.  With a writer that reports at most what it was handed, SendMessage does not panic, *)
Theorem C32_send_no_panic fuel turns m b m1 : serialize fuel m = Ret (b, m1) -> honest turns (zlen b) ->
  exists out r, send_message fuel turns m = Ret (out, r) /\ r <> SentPanic.
Proof.
  intros E H. unfold send_message. rewrite E. cbn [bind].
  assert (G : forall turns buf out, honest turns (zlen buf) -> snd (send_loop turns buf out) <> SentPanic).
  { clear. induction turns as [|[n e|n] turns IH]; intros buf out H; cbn [send_loop]; [discriminate| |discriminate].
    destruct H as [Hn H]. destruct e; [discriminate|]. destruct (n =? zlen buf) eqn:En; [discriminate|].
    rewrite (goslice_eq buf n (zlen buf) (firstn (Z.to_nat n) buf) (skipn (Z.to_nat n) buf) []).
    - apply IH. rewrite zlen_skipn_le by lia. apply H; auto. lia.
    - now rewrite app_nil_r, firstn_skipn.
    - now rewrite zlen_firstn_le.
    - rewrite zlen_firstn_le, zlen_skipn_le by lia. lia. }
  specialize (G turns b [] H). destruct (send_loop turns b []) as [out r]. eauto.
Qed.
(* and if it also makes progress with every Write, never fails and is never cancelled,
   SendMessage returns nil. *)
Theorem C32_send_completes fuel turns m b m1 : serialize fuel m = Ret (b, m1) -> honest turns (zlen b) ->
  Forall (fun t => exists n, t = WDone n None /\ 1 <= n) turns -> 0 < zlen b <= Z.of_nat (length turns) ->
  send_message fuel turns m = Ret (b, SentOk).
Proof.
  intros E H P L. unfold send_message. rewrite E. cbn [bind]. f_equal.
  assert (G : forall turns buf out, honest turns (zlen buf) -> Forall (fun t => exists n, t = WDone n None /\ 1 <= n) turns ->
    0 < zlen buf <= Z.of_nat (length turns) -> send_loop turns buf out = (out ++ buf, SentOk)).
  { clear. induction turns as [|t turns IH]; intros buf out H P L; [cbn in L; lia|].
    inversion P as [|? ? (n & -> & Hn) P']; subst. cbn [send_loop honest length] in *. destruct H as [Hl H].
    destruct (n =? zlen buf) eqn:En; [now rewrite firstn_all_z by lia|].
    rewrite (goslice_eq buf n (zlen buf) (firstn (Z.to_nat n) buf) (skipn (Z.to_nat n) buf) []).
    - rewrite IH; [now rewrite <- app_assoc, firstn_skipn| |auto|rewrite zlen_skipn_le by lia; lia].
      rewrite zlen_skipn_le by lia. apply H; auto. lia.
    - now rewrite app_nil_r, firstn_skipn.
    - now rewrite zlen_firstn_le by lia.
    - rewrite zlen_firstn_le, zlen_skipn_le by lia. lia. }
  now rewrite (G turns b [] H P L).
Qed.
Example C32_nonvacuous : let turns := map (fun n => WDone n None) (30 :: repeat 1 40) in
  exists b m1, serialize 10 (new_get_more [97] 1 5) = Ret (b, m1) /\ honest turns (zlen b) /\ zlen b = 34 /\
  send_message 10 turns (new_get_more [97] 1 5) = Ret (b, SentOk) /\
  send_message 10 [WDone 3 None; WCancel 2] (new_get_more [97] 1 5) = Ret (firstn 5 b, SentCancelled).
Proof.
  eexists _, _. split; [vm_compute; reflexivity|]. split; [|split; [reflexivity|split; vm_compute; reflexivity]].
  match goal with |- honest _ (zlen ?b) => change (zlen b) with 34 end.
  cbn. repeat (split; [lia|intros _ ?]). exfalso. lia.
Qed.
Print Assumptions C32_send_writes_message.
Print Assumptions C32_send_no_panic.
Print Assumptions C32_send_completes.

(* -------------------------------------------------------------- C33 namespaces *)

(* C33.  A namespace splits at its first dot, *)
Theorem C33_namespace_splits db coll : ~ In 46 db ->
  namespace_to_db (db ++ 46 :: coll) = Ret db /\ namespace_to_collection (db ++ 46 :: coll) = Ret coll /\
  (namespace_is_command (db ++ 46 :: coll) = Ret true <-> exists r, coll = 36 :: r) /\
  returns (namespace_is_command (db ++ 46 :: coll)).
Proof.
  intros N. assert (F : Forall (fun c => c <> 46) db) by (apply Forall_forall; intros x Hx ->; auto).
  split; [now apply namespace_to_db_spec|]. split; [|].
  - unfold namespace_to_collection.
    assert (E : index_byte (db ++ 46 :: coll) 46 = Some (zlen db)) by (apply index_byte_some; eauto).
    rewrite E. rewrite (from_app' _ (db ++ [46]) coll); auto; [now rewrite <- app_assoc|zl].
  - destruct (is_command_spec (db ++ 46 :: coll)) as (b & -> & Hb). split; [|unfold returns; eauto]. split.
    + intros [= ->]. destruct (proj1 Hb eq_refl) as (db' & rest & E & F').
      assert (E1 : index_byte (db ++ 46 :: coll) 46 = Some (zlen db)) by (apply index_byte_some; eauto).
      assert (E2 : index_byte (db ++ 46 :: coll) 46 = Some (zlen db')) by (rewrite E; apply index_byte_some; eauto).
      assert (L : zlen db = zlen db') by congruence.
      destruct (take _ _ _ _ E ltac:(lia)) as (T & ET & EX). assert (T = []) as ->
        by (apply zlen_nil_inv; rewrite ET in L; zlens_in L; lia).
      cbn in EX. injection EX as ->. eauto.
    + intros (r & ->). f_equal. apply Hb. exists db, r. auto.
Qed.
(* a name without a dot is a database without a collection, *)
Theorem C33_namespace_no_dot ns : ~ In 46 ns ->
  namespace_to_db ns = Ret ns /\ namespace_to_collection ns = Ret [] /\ namespace_is_command ns = Ret false.
Proof.
  intros N. assert (E : index_byte ns 46 = None) by (apply index_byte_none, Forall_forall; intros x Hx ->; auto).
  unfold namespace_to_db, namespace_to_collection, namespace_is_command. rewrite E. auto.
Qed.
(* and the parts join to the namespace, for every string. *)
Theorem C33_namespace_rejoins ns : exists db coll,
  namespace_to_db ns = Ret db /\ namespace_to_collection ns = Ret coll /\ ~ In 46 db /\
  ns = (if existsb (Z.eqb 46) ns then db ++ [46] ++ coll else db).
Proof.
  destruct (existsb (Z.eqb 46) ns) eqn:E.
  - destruct (index_byte ns 46) as [i|] eqn:Ei.
    + apply index_byte_some in Ei as (a & b & -> & F & ->).
      assert (N : ~ In 46 a) by (rewrite Forall_forall in F; intros H; now apply (F 46 H)).
      destruct (C33_namespace_splits a b N) as (A & B & _). exists a, b. auto.
    + apply index_byte_none in Ei. apply existsb_exists in E as (x & Hx & Ex).
      rewrite Forall_forall in Ei. specialize (Ei x Hx). lia.
  - assert (N : ~ In 46 ns).
    { intros H. assert (existsb (Z.eqb 46) ns = true) by (apply existsb_exists; eauto using Z.eqb_refl). congruence. }
    destruct (C33_namespace_no_dot ns N) as (A & B & _). exists ns, []. auto.
Qed.
(* False: NamespaceIsCommand holds for other collections than $cmd. *)
Theorem C33_is_command_refuted : exists ns coll, namespace_to_collection ns = Ret coll /\
  coll <> [36; 99; 109; 100] /\ namespace_is_command ns = Ret true.
Proof. exists [97; 46; 36; 120], [36; 120]. repeat split. discriminate. Qed.
Example C33_nonvacuous : ~ In 46 [97] /\ namespace_to_db [97; 46; 98; 46; 99] = Ret [97] /\
  namespace_to_collection [97; 46; 98; 46; 99] = Ret [98; 46; 99].
Proof. split; [cbn; intuition lia|]. split; reflexivity. Qed.
Print Assumptions C33_namespace_splits.
Print Assumptions C33_namespace_no_dot.
Print Assumptions C33_namespace_rejoins.
Print Assumptions C33_is_command_refuted.
