(* Properties of x/mrpc/shell: documents sent as requests and responses, the responses of the
   shell commands, and a service with the shell's handlers. *)
Require Import ZArith String List Bool Lia ZifyBool ZifyNat Permutation.
From Verif Require Import Base BSpec Elements Value Codec CodecRead Itoa CodecRep Api ApiProofs Tree
  GetterProofs ReaderOps CodecProps Search Stream Wire WireSpec WireProofs WireProps Lin Registry RegistryProps Events EventsProps Shell.
Import List ListNotations.
Open Scope Z_scope.

(* ----------------------------------------------------------------------------- C87 *)

(* the messages that carry a request and a response *)
Definition asks (t : Z) (fs : fields) : smsg :=
  if t =? 2013 then SOp 0 [SBody fs] None else SQuery 0 0 1 [109; 114; 112; 99; 46; 36; 99; 109; 100] fs (Some []).
Definition answers (t : Z) (fs : fields) : smsg :=
  if t =? 2013 then SOp 0 [SBody fs] None else SReply 0 0 0 1 [fs].
(* a document that can be sent: of values in range and of a size the reader of messages takes *)
Definition sendable (fs : fields) : Prop := wf_fields fs /\ zlen (enc_doc fs) <= 209715000.

Lemma asks_ok t fs : sendable fs -> smsg_ok (asks t fs) /\ zlen (wire 19 0 (asks t fs)) <= zlen (enc_doc fs) + 100.
Proof.
  intros (W & L). rewrite zlen_wire. unfold asks. destruct (t =? 2013); unfold smsg_ok; cbn [body_of map concat sec_bytes].
  - zlens. split; [|lia]. split; [lia|]. split; [unfold is_u32; lia|]. split; [|reflexivity].
    constructor; [exact W|constructor].
  - unfold cstring. cbn [enc_opt app]. change (zlen (enc_doc [])) with 5. zlens. change (zlen (enc_doc [])) with 5. split; [|lia]. split; [lia|]. unfold is_i32. repeat (split; try lia); auto; repeat (constructor; try lia).
Qed.
Lemma answers_ok t fs : sendable fs -> smsg_ok (answers t fs) /\ zlen (wire 19 0 (answers t fs)) <= zlen (enc_doc fs) + 100.
Proof.
  intros (W & L). rewrite zlen_wire. unfold answers. destruct (t =? 2013); unfold smsg_ok; cbn [body_of map concat sec_bytes].
  - zlens. split; [|lia]. split; [lia|]. split; [unfold is_u32; lia|]. split; [|reflexivity].
    constructor; [exact W|constructor].
  - unfold enc_docs. cbn [map concat]. zlens. split; [|lia]. split; [lia|].
    unfold is_i32, is_i64. repeat (split; try lia). auto.
Qed.
Lemma command_name t fs : t = 2013 \/ fs <> [] -> names_command (asks t fs).
Proof. unfold asks. destruct (Z.eqb_spec t 2013); cbn; [auto|]. intros [E|E] _; [contradiction|exact E]. Qed.
Lemma holds_nil : holds [] [].
Proof. eexists. apply do_built. reflexivity. Qed.

Lemma received_request h t fs m : received h (asks t fs) m -> 
  exists d, request_message_to_document m = Ret (inl (Some d)) /\ holds d fs.
Proof.
  unfold asks. destruct (t =? 2013); cbn [received]; intros R.
  - destruct R as (Sh & _). destruct m as [| | | | | | | | |h0 ser fl items' ck]; cbn [shows_msg] in Sh; try contradiction.
    destruct Sh as (_ & _ & Si & _). destruct (shows_body _ _ fs Si eq_refl) as (d & E & Hd).
    exists d. cbn [request_message_to_document]. unfold op_body. rewrite E. auto.
  - destruct R as [(N & _)|(db & rest & k & v & tl & d & _ & _ & _ & Hd & ->)].
    + exfalso. apply N. exists [109; 114; 112; 99], [99; 109; 100]. split; [reflexivity|]. repeat (constructor; try lia).
    + exists d. auto.
Qed.
Lemma received_response h t fs m : received h (answers t fs) m ->
  exists d, response_message_to_document m = Ret (inl (Some d)) /\ holds d fs.
Proof.
  unfold answers. destruct (t =? 2013); cbn [received]; intros (Sh & _).
  - destruct m as [| | | | | | | | |h0 ser fl items' ck]; cbn [shows_msg] in Sh; try contradiction.
    destruct Sh as (_ & _ & Si & _). destruct (shows_body _ _ fs Si eq_refl) as (d & E & Hd).
    exists d. cbn [response_message_to_document]. unfold op_body. rewrite E. auto.
  - destruct m; cbn [shows_msg] in Sh; try contradiction. destruct Sh as (_ & _ & _ & _ & Sd).
    inversion Sd as [|d ? ? ? Hd Sd']; subst. exists d. cbn. auto.
Qed.

(* C87.  A document made into a request, sent in any pieces, and read by the other side comes
   back as the same document, for OP_MSG and for every other kind (which are sent as command
   queries and must name a command). *)
Theorem C87_request fuel t doc fs sched e : holds doc fs -> sendable fs -> t = 2013 \/ fs <> [] ->
  enough fuel (zlen (enc_doc fs) + 100) -> first_read sched ->
  exists m w m1 s' m2 d, request_to_message fuel t doc = Ret m /\ serialize fuel m = Ret (w, m1) /\
    read_message fuel (MkStream w sched e false) = (s', Ret (Some m2, None)) /\ st_data s' = [] /\
    request_message_to_document m2 = Ret (inl (Some d)) /\ holds d fs.
Proof.
  intros H S NE F Fr. destruct (asks_ok t fs S) as (W & Lw). pose proof (command_name t fs NE) as N. unfold enough in F.
  assert (Fw : enough fuel (zlen (wire 19 0 (asks t fs)))) by (unfold enough; lia).
  assert (exists m, request_to_message fuel t doc = Ret m /\ built_msg fuel (asks t fs) m) as (m & Em & B).
  { unfold request_to_message, asks. destruct (t =? 2013).
    - eexists. split; [reflexivity|]. eapply (bm_op fuel false [doc] [fs] [] []); [auto|constructor|reflexivity].
    - eexists. split; [reflexivity|]. apply bm_query; [exact H|exact holds_nil]. }
  destruct (C28_wire_round_trip fuel _ m B W N Fw) as (m1 & _ & Es & _).
  destruct (C31_read_last_partial fuel 19 0 _ sched e ltac:(unfold is_i32; lia) ltac:(unfold is_i32; lia) W N) as (s' & m2 & Er & Ed & R); auto.
  { destruct S. lia. }
  destruct (received_request _ _ _ _ R) as (d & E & Hd). exists m, (wire 19 0 (asks t fs)), m1, s', m2, d. auto 10.
Qed.
(* C87.  The same for a response. *)
Theorem C87_response fuel t doc fs sched e : holds doc fs -> sendable fs ->
  enough fuel (zlen (enc_doc fs) + 100) -> first_read sched ->
  exists m w m1 s' m2 d, response_to_message fuel t doc = Ret m /\ serialize fuel m = Ret (w, m1) /\
    read_message fuel (MkStream w sched e false) = (s', Ret (Some m2, None)) /\ st_data s' = [] /\
    response_message_to_document m2 = Ret (inl (Some d)) /\ holds d fs.
Proof.
  intros H S F Fr. destruct (answers_ok t fs S) as (W & Lw). unfold enough in F.
  assert (N : names_command (answers t fs)) by (unfold answers; destruct (t =? 2013); exact I).
  assert (Fw : enough fuel (zlen (wire 19 0 (answers t fs)))) by (unfold enough; lia).
  assert (exists m, response_to_message fuel t doc = Ret m /\ built_msg fuel (answers t fs) m) as (m & Em & B).
  { unfold response_to_message, answers. destruct (t =? 2013).
    - eexists. split; [reflexivity|]. eapply (bm_op fuel false [doc] [fs] [] []); [auto|constructor|reflexivity].
    - eexists. split; [reflexivity|]. apply bm_reply. auto. }
  destruct (C28_wire_round_trip fuel _ m B W N Fw) as (m1 & _ & Es & _).
  destruct (C31_read_last_partial fuel 19 0 _ sched e ltac:(unfold is_i32; lia) ltac:(unfold is_i32; lia) W N) as (s' & m2 & Er & Ed & R); auto.
  { destruct S. lia. }
  destruct (received_response _ _ _ _ R) as (d & E & Hd). exists m, (wire 19 0 (answers t fs)), m1, s', m2, d. auto 10.
Qed.

(* C87 is false of the rest.  A request of a kind other than OP_MSG is not read back before it
   has been sent: its own message is refused; *)
Theorem C87_unsent_refuted fuel t doc m : t <> 2013 -> request_to_message fuel t doc = Ret m ->
  exists e, request_message_to_document m = Ret (inr e).
Proof. intros N. unfold request_to_message. replace (t =? 2013) with false by lia. intros [= <-]. cbn. eauto. Qed.
(* an empty document sent so makes the receiver panic; *)
Theorem C87_empty_refuted t : t <> 2013 -> exists m w m1, request_to_message 100 t [] = Ret m /\ serialize 100 m = Ret (w, m1) /\
  snd (read_message 100 (MkStream w [] EEOF false)) = Panic PIndex.
Proof.
  intros N. unfold request_to_message. replace (t =? 2013) with false by lia. eexists _, _, _.
  split; [reflexivity|]. split; [vm_compute; reflexivity|]. vm_compute. reflexivity.
Qed.
(* and a reply without documents, which a peer can send, makes the reader of it panic. *)
Theorem C87_no_documents_refuted req resp flags cursor start nret : is_i32 req -> is_i32 resp -> is_i32 flags -> is_i64 cursor -> is_i32 start -> is_i32 nret ->
  exists s' m, read_message 100 (MkStream (wire req resp (SReply flags cursor start nret [])) [] EEOF false) = (s', Ret (Some m, None)) /\
    response_message_to_document m = Panic PIndex.
Proof.
  intros I1 I2 I3 I4 I5 I6.
  assert (L : zlen (wire req resp (SReply flags cursor start nret [])) = 36) by reflexivity.
  assert (W : smsg_ok (SReply flags cursor start nret [])) by (split; [reflexivity|cbn; auto 10]).
  destruct (C31_read_last_partial 100 req resp _ [] EEOF I1 I2 W I) as (s' & m & Er & Ed & R).
  { rewrite L. lia. } { unfold enough. rewrite L. lia. } { exact I. }
  exists s', m. split; [exact Er|]. destruct R as (Sh & _). destruct m; cbn [shows_msg] in Sh; try contradiction.
  destruct Sh as (_ & _ & _ & _ & Sd). inversion Sd. reflexivity.
Qed.
Example C87_nonvacuous : exists d, holds d d7 /\ sendable d7 /\ enough 200 (zlen (enc_doc d7) + 100) /\ first_read [7%nat].
Proof.
  destruct d7_held as (d & H). exists d. split; [exact H|]. split; [split; [exact d7_wf|vm_compute; discriminate]|].
  split; [vm_compute; reflexivity|]. cbn. lia.
Qed.
Print Assumptions C87_request.
Print Assumptions C87_response.
Print Assumptions C87_unsent_refuted.
Print Assumptions C87_empty_refuted.
Print Assumptions C87_no_documents_refuted.

(* ----------------------------------------------------------------------------- C88 *)

(* the fields of the documents of the responses *)
Definition int_val (i : Z) : bval := if i <? 2147483647 then BInt32 i else BInt64 i.
Definition err_fields (r : err_resp) : fields := [(str "ok", int_val (er_ok r)); (str "errmsg", BString (er_msg r))].
Definition im_fields (r : im_resp) : fields :=
  err_fields (im_err r) ++ [(str "minWireVersion", int_val (im_min r)); (str "maxWireVersion", int_val (im_max r))].
Definition you_fields (r : str_resp) : fields := err_fields (sr_err r) ++ [(str "you", BString (sr_str r))].
Definition version_fields (r : str_resp) : fields := err_fields (sr_err r) ++ [(str "version", BString (sr_str r))].
Definition log_fields (r : log_resp) : fields := err_fields (lr_err r) ++ [(str "log", BArray (map BString (lr_log r)))].

(* an int that EC.Int keeps (C47) *)
Definition kept (i : Z) : Prop := -2147483648 <= i < 9223372036854775808.
Definition err_ok (r : err_resp) : Prop := kept (er_ok r) /\ bytes_ok (er_msg r).

Lemma keys_ok s t : (forall c, In c (list_ascii_of_string s) -> c <> Ascii.zero) -> wf t -> wf_field (str s, t).
Proof. intros H W. split; [now apply str_ok|exact W]. Qed.
Lemma int_wf i : kept i -> wf (int_val i).
Proof. unfold kept, int_val. intros H. destruct (Z.ltb_spec i 2147483647); cbn; unfold is_i32, is_i64; lia. Qed.
Ltac nozero := cbn; intuition (subst; discriminate).
Lemma err_wf r : err_ok r -> wf_fields (err_fields r).
Proof.
  intros (H1 & H2). apply Forall_cons; [apply keys_ok; [nozero|now apply int_wf]|]. apply Forall_cons; [apply keys_ok; [nozero|exact H2]|constructor].
Qed.

Lemma ec_int_build k i : kept i -> ec_int k i = build k (int_val i).
Proof.
  unfold kept, ec_int, int_val. intros H. destruct (i <? 2147483647) eqn:E; [|reflexivity]. cbn [build]. 
  rewrite i32_id by (unfold is_i32; lia). reflexivity.
Qed.
Lemma int_ok_rep k v i : rep k v (int_val i) -> kept i -> v_int_ok (Some v) = Ret (Some i).
Proof.
  unfold kept, int_val. intros R H. destruct (Z.ltb_spec i 2147483647).
  - destruct (rep_scalar _ _ _ R) as (p & q & -> & F); try discriminate. apply v_int_ok_lz; [auto|]. apply v_int_int32; auto. unfold is_i32. lia.
  - destruct (rep_scalar _ _ _ R) as (p & q & -> & F); try discriminate. apply v_int_ok_lz; [auto|]. apply v_int_int64; auto. unfold is_i64. lia.
Qed.
Lemma str_ok_rep k v s : rep k v (BString s) -> v_string_ok (Some v) = Ret (Some s).
Proof. intros R. now rewrite (v_string_ok_rep _ _ _ R). Qed.
Lemma each_err_rep {P} (f : bytes -> elem -> P -> go (P * option gerr)) k v t es p : rep k v t ->
  each_err f (Some v :: es) p = (x <- f k (Some v) p ;; match x with (p, None) => each_err f es p | (p, Some e) => Ret (p, Some e) end).
Proof. intros R. cbn [each_err]. rewrite (elem_key_rep _ _ _ R). reflexivity. Qed.
Lemma each_err_nil {P} (f : bytes -> elem -> P -> go (P * option gerr)) p : each_err f [] p = Ret (p, None).
Proof. reflexivity. Qed.
Lemma held_rep d fs : holds d fs -> wf_fields fs -> small fs -> rep_doc d fs.
Proof.
  intros (N & D) W L. assert (F : enough (S (Z.to_nat (zlen (enc_doc fs)))) (zlen (enc_doc fs))) by (unfold enough; posl; lia).
  now destruct (doc_obtained_good _ N _ d W L F D).
Qed.

(* C88.  The documents of the responses are those of their fields. *)
Theorem C88_documents r im sr lr : err_ok r ->
  (err_ok (im_err im) -> kept (im_min im) -> kept (im_max im) -> im_document im = build_doc (im_fields im)) /\
  (err_ok (sr_err sr) -> sr_document k_you sr = build_doc (you_fields sr) /\ sr_document k_version sr = build_doc (version_fields sr)) /\
  (err_ok (lr_err lr) -> lr_document lr = build_doc (log_fields lr)) /\
  er_document r = build_doc (err_fields r).
Proof.
  assert (E : forall r, err_ok r -> er_document r = build_doc (err_fields r)).
  { intros r0 (H & _). unfold er_document, err_fields. cbn [build_doc build]. rewrite (ec_int_build _ _ H). 
    destruct (build _ (int_val _)); cbn [bind]; try reflexivity. destruct (ec_string _ _); reflexivity. }
  assert (B : forall fs gs, build_doc (fs ++ gs) = (a <- build_doc fs ;; b <- build_doc gs ;; Ret (a ++ b))).
  { induction fs as [|[k t] fs IH]; intros gs; cbn [app build_doc]; [cbn [bind]; destruct (build_doc gs); reflexivity|].
    destruct (build k t); cbn [bind]; try reflexivity. rewrite IH. destruct (build_doc fs); cbn [bind]; try reflexivity.
    destruct (build_doc gs); reflexivity. }
  intros H. split; [|split; [|split]].
  - intros H0 H1 H2. unfold im_document, im_fields. rewrite (E _ H0), B. destruct (build_doc (err_fields _)); cbn [bind]; try reflexivity.
    cbn [build_doc]. rewrite (ec_int_build _ _ H1), (ec_int_build _ _ H2).
    destruct (build _ (int_val (im_min _))); cbn [bind]; try reflexivity. destruct (build _ (int_val (im_max _))); reflexivity.
  - intros H0. unfold sr_document, you_fields, version_fields, k_you, k_version. rewrite (E _ H0), !B. 
    split; (destruct (build_doc (err_fields _)); cbn [bind]; try reflexivity; cbn [build_doc build];
      match goal with |- context [ec_string ?a ?b] => destruct (ec_string a b) end; reflexivity).
  - intros H0. unfold lr_document, log_fields. rewrite (E _ H0), B. destruct (build_doc (err_fields _)); cbn [bind]; try reflexivity.
    cbn [build_doc]. rewrite build_BArray.
    assert (Es : strings (lr_log lr) = build_arr (map BString (lr_log lr))).
    { induction (lr_log lr) as [|s l IH]; [reflexivity|]. cbn [strings map]. rewrite IH. reflexivity. }
    rewrite Es. destruct (build_arr _) as [es| |]; cbn [bind]; try reflexivity; destruct (ec_array (str "log") es); reflexivity.
  - now apply E.
Qed.

Ltac step R := rewrite (each_err_rep _ _ _ _ _ _ R); unfold er_field, im_field, sr_field, lr_field, k_you, k_version; keys.
Lemma er_unmarshal_prefix r v1 v2 d r0 : err_ok r -> rep (str "ok") v1 (int_val (er_ok r)) -> rep (str "errmsg") v2 (BString (er_msg r)) ->
  er_unmarshal (Some v1 :: Some v2 :: d) r0 = er_unmarshal d r.
Proof.
  intros (H & _) R1 R2. unfold er_unmarshal. step R1. unfold take_int. rewrite (int_ok_rep _ _ _ R1 H). cbn [bind].
  step R2. unfold take_str. rewrite (str_ok_rep _ _ _ R2). destruct r. reflexivity.
Qed.

(* C88.  A response read from its document, whether the document was just made or came over
   the wire, is the response; whatever it is read into. *)
Theorem C88_error_response r r0 d : err_ok r -> small (err_fields r) -> holds d (err_fields r) -> er_unmarshal d r0 = Ret (r, None).
Proof.
  intros H L D. pose proof (held_rep _ _ D (err_wf _ H) L) as R. unfold err_fields in R.
  destruct d as [|[e1|] [|[e2|] [|[?|] ?]]]; cbn [rep_doc] in R; try (exfalso; tauto). destruct R as (R1 & R2 & _).
  rewrite (er_unmarshal_prefix r) by auto. reflexivity.
Qed.
Theorem C88_is_master r r0 d : err_ok (im_err r) -> kept (im_min r) -> kept (im_max r) -> small (im_fields r) -> holds d (im_fields r) ->
  im_unmarshal d r0 = Ret (r, None).
Proof.
  intros H H1 H2 L D.
  assert (W : wf_fields (im_fields r)).
  { apply Forall_app. split; [now apply err_wf|]. apply Forall_cons; [apply keys_ok; [nozero|now apply int_wf]|].
    apply Forall_cons; [apply keys_ok; [nozero|now apply int_wf]|constructor]. }
  pose proof (held_rep _ _ D W L) as R. unfold im_fields, err_fields in R. cbn [app] in R.
  destruct d as [|[e1|] [|[e2|] [|[e3|] [|[e4|] [|[?|] ?]]]]]; cbn [rep_doc] in R; try (exfalso; tauto). destruct R as (R1 & R2 & R3 & R4 & _).
  unfold im_unmarshal. rewrite (er_unmarshal_prefix (im_err r)) by auto. unfold er_unmarshal. step R3. cbn [bind]. step R4. cbn [bind]. rewrite each_err_nil. cbn [bind fst snd].
  step R1. cbn [bind]. step R2. cbn [bind]. step R3. unfold take_int. rewrite (int_ok_rep _ _ _ R3 H1). cbn [bind].
  step R4. unfold take_int. rewrite (int_ok_rep _ _ _ R4 H2). destruct r. reflexivity.
Qed.
Theorem C88_whats_my_uri r r0 d : err_ok (sr_err r) -> bytes_ok (sr_str r) -> small (you_fields r) -> holds d (you_fields r) ->
  sr_unmarshal k_you d r0 = Ret (r, None).
Proof.
  intros H H1 L D.
  assert (W : wf_fields (you_fields r)).
  { apply Forall_app. split; [now apply err_wf|]. apply Forall_cons; [apply keys_ok; [nozero|exact H1]|constructor]. }
  pose proof (held_rep _ _ D W L) as R. unfold you_fields, err_fields in R. cbn [app] in R.
  destruct d as [|[e1|] [|[e2|] [|[e3|] [|[?|] ?]]]]; cbn [rep_doc] in R; try (exfalso; tauto). destruct R as (R1 & R2 & R3 & _).
  unfold sr_unmarshal. rewrite (er_unmarshal_prefix (sr_err r)) by auto. unfold er_unmarshal. step R3. cbn [bind]. rewrite each_err_nil. cbn [bind fst snd].
  step R1. cbn [bind]. step R2. cbn [bind]. step R3. unfold take_str. rewrite (str_ok_rep _ _ _ R3). destruct r. reflexivity.
Qed.
Theorem C88_build_info r r0 d : err_ok (sr_err r) -> bytes_ok (sr_str r) -> small (version_fields r) -> holds d (version_fields r) ->
  sr_unmarshal k_version d r0 = Ret (r, None).
Proof.
  intros H H1 L D.
  assert (W : wf_fields (version_fields r)).
  { apply Forall_app. split; [now apply err_wf|]. apply Forall_cons; [apply keys_ok; [nozero|exact H1]|constructor]. }
  pose proof (held_rep _ _ D W L) as R. unfold version_fields, err_fields in R. cbn [app] in R.
  destruct d as [|[e1|] [|[e2|] [|[e3|] [|[?|] ?]]]]; cbn [rep_doc] in R; try (exfalso; tauto). destruct R as (R1 & R2 & R3 & _).
  unfold sr_unmarshal. rewrite (er_unmarshal_prefix (sr_err r)) by auto. unfold er_unmarshal. step R3. cbn [bind]. rewrite each_err_nil. cbn [bind fst snd].
  step R1. cbn [bind]. step R2. cbn [bind]. step R3. unfold take_str. rewrite (str_ok_rep _ _ _ R3). destruct r. reflexivity.
Qed.

(* C88 is false of getLog: reading a response leaves the log as it was, so that no lines of any
   response are ever read. *)
Lemma log_wf r : err_ok (lr_err r) -> Forall bytes_ok (lr_log r) -> wf_fields (log_fields r).
Proof.
  intros H H1. apply Forall_app. split; [now apply err_wf|]. apply Forall_cons; [apply keys_ok; [nozero|]|constructor].
  cbn [wf]. induction H1; cbn [map]; auto.
Qed.
Theorem C88_get_log_refuted fuel r log d e0 : err_ok (lr_err r) -> Forall bytes_ok (lr_log r) -> small (log_fields r) -> holds d (log_fields r) ->
  lr_unmarshal fuel d (MkLR e0 log) = Ret (MkLR (lr_err r) log, None) /\
  (lr_log r <> log -> lr_unmarshal fuel d (MkLR e0 log) <> Ret (r, None)).
Proof.
  intros H H1 L D.
  pose proof (held_rep _ _ D (log_wf _ H H1) L) as R. unfold log_fields, err_fields in R. cbn [app] in R.
  destruct d as [|[e1|] [|[e2|] [|[e3|] [|[?|] ?]]]]; cbn [rep_doc] in R; try (exfalso; tauto). destruct R as (R1 & R2 & R3 & _).
  assert (E : lr_unmarshal fuel [Some e1; Some e2; Some e3] (MkLR e0 log) = Ret (MkLR (lr_err r) log, None)).
  { unfold lr_unmarshal. rewrite (er_unmarshal_prefix (lr_err r)) by auto. unfold er_unmarshal. step R3. cbn [bind]. rewrite each_err_nil. cbn [bind fst snd].
    step R1. cbn [bind]. step R2. cbn [bind]. step R3. reflexivity. }
  split; [exact E|]. intros N. rewrite E. intros K. injection K as K. apply N. now rewrite <- K.
Qed.

(* C88.  A response is a success exactly if it has no message and is not 0; otherwise the error
   is its message, if it has one. *)
Theorem C88_success r :
  (success_or_error r = None <-> er_msg r = [] /\ er_ok r <> 0) /\
  (er_msg r <> [] -> success_or_error r = Some (er_msg r)).
Proof.
  destruct r as [ok [|c m]]; unfold success_or_error; cbn; [|split; [split; [discriminate|intros [K _]; discriminate]|auto]].
  destruct (Z.eqb_spec ok 0); split; try split; try discriminate; try tauto.
Qed.
Theorem C88_made ok err : (match err with Some s => s <> [] | None => True end) ->
  (success_or_error (make_error_response ok err) = None <-> ok = true /\ err = None) /\
  (forall s, err = Some s -> success_or_error (make_error_response ok err) = Some s).
Proof.
  intros N. destruct err as [s|].
  - destruct s; [contradiction|]. destruct ok; cbn; (split; [split; [discriminate|intros [_ K]; discriminate]|auto]).
  - destruct ok; cbn; (split; [split; [|intros [K _]]|]; try discriminate; auto).
Qed.

(* {"ok": 1, "errmsg": "x"} and what it is part of *)
Definition an_err : err_resp := MkER 1 [120].
Lemma an_err_ok : err_ok an_err.
Proof. split; [unfold kept; cbn; lia|repeat constructor; unfold is_u8; lia]. Qed.
Example C88_nonvacuous : err_ok an_err /\ kept 6 /\ small (err_fields an_err) /\ small (im_fields (MkIM an_err 0 6)) /\
  small (you_fields (MkSR an_err [120])) /\ small (version_fields (MkSR an_err [120])) /\ small (log_fields (MkLR an_err [[120]; [121]])) /\
  (exists d, holds d (im_fields (MkIM an_err 0 6)) /\ im_document (MkIM an_err 0 6) = Ret d) /\
  (exists d, holds d (log_fields (MkLR an_err [[120]; [121]]))).
Proof.
  split; [exact an_err_ok|]. split; [unfold kept; lia|]. do 5 (split; [reflexivity|]). split.
  - eexists. split; [eexists; apply do_built; vm_compute; reflexivity|vm_compute; reflexivity].
  - eexists. eexists. apply do_built. vm_compute. reflexivity.
Qed.
Print Assumptions C88_documents.
Print Assumptions C88_error_response.
Print Assumptions C88_is_master.
Print Assumptions C88_whats_my_uri.
Print Assumptions C88_build_info.
Print Assumptions C88_get_log_refuted.
Print Assumptions C88_success.
Print Assumptions C88_made.

(* ----------------------------------------------------------------------------- C89 *)

Definition shell_scope (t : Z) (c : shell_cmd) : scope := MkScope t [] (cmd_name c) None.
Definition shell_op (t : Z) : Prop := t = 2010 \/ t = 2013.
Lemma cmd_name_inj a b : cmd_name a = cmd_name b -> a = b.
Proof. intros E. destruct a, b; (reflexivity || (vm_compute in E; discriminate)). Qed.
Lemma cmd_name_ne c : cmd_name c <> [].
Proof. destruct c; discriminate. Qed.
Lemma shell_valid t c : shell_op t -> valid_scope (shell_scope t c).
Proof.
  intros T. apply validate_spec. unfold scope_validate, shell_scope. cbn [sc_type sc_context sc_command].
  assert (E : empty (cmd_name c) = false) by (destruct c; reflexivity). rewrite E. destruct T as [-> | ->]; reflexivity.
Qed.
Lemma every_cmd c : In c all_cmds.
Proof. destruct c; cbn; auto 12. Qed.

Section C89.
Variable H : Type.
Variable handler : shell_cmd -> H.

Lemma reg_add_free (r : registry H) s h : valid_scope s -> reg_find r s = None -> reg_add r s h = ((s, h) :: r, None).
Proof. intros V E. unfold reg_add, reg_step. apply validate_spec in V. now rewrite V, E. Qed.
Lemma reg_add_taken (r : registry H) s h h0 : reg_find r s = Some h0 -> exists e, reg_add r s h = (r, Some e).
Proof. intros E. unfold reg_add, reg_step. destruct (scope_validate s); [eauto|]. rewrite E. eauto. Qed.
Lemma reg_add_keeps (r : registry H) s h sc h0 : reg_find r sc = Some h0 -> reg_find (fst (reg_add r s h)) sc = Some h0.
Proof.
  intros E. unfold reg_add, reg_step. destruct (scope_validate s); [exact E|]. destruct (reg_find r s) eqn:Es; [exact E|]. cbn [fst].
  rewrite reg_find_cons. destruct (scope_eqb s sc) eqn:Q; [|exact E]. apply scope_eqb_eq in Q. congruence.
Qed.
Lemma add_all_keeps l (r : registry H) sc h0 : reg_find r sc = Some h0 -> reg_find (fst (add_all r l)) sc = Some h0.
Proof.
  revert r. induction l as [|[s h] l IH]; intros r E; cbn [add_all]; [exact E|]. pose proof (reg_add_keeps r s h sc h0 E) as K.
  destruct (reg_add r s h) as [r1 [e|]]; cbn [fst] in *; auto.
Qed.
Lemma add_all_free l (r : registry H) : NoDup (map fst l) -> Forall (fun x => valid_scope (fst x) /\ reg_find r (fst x) = None) l ->
  exists r', add_all r l = (r', None) /\
    forall sc, (forall h, In (sc, h) l -> reg_find r' sc = Some h) /\ (~ In sc (map fst l) -> reg_find r' sc = reg_find r sc).
Proof.
  revert r. induction l as [|[s h] l IH]; intros r N F; cbn [add_all].
  - exists r. split; [reflexivity|]. intros sc. split; [contradiction|auto].
  - inversion F as [|? ? [V E] F']; subst. inversion N as [|? ? N1 N2]; subst. cbn [fst] in *. rewrite (reg_add_free r s h V E).
    destruct (IH ((s, h) :: r) N2) as (r' & E' & P).
    { apply Forall_forall. intros [s' h'] I. rewrite Forall_forall in F'. destruct (F' _ I) as (V' & E'). split; [exact V'|]. cbn [fst] in *.
      rewrite reg_find_cons. destruct (scope_eqb s s') eqn:Q; [|exact E']. apply scope_eqb_eq in Q as ->. exfalso. apply N1.
      apply (in_map fst) in I. exact I. }
    exists r'. split; [exact E'|]. intros sc. destruct (P sc) as (P1 & P2). split.
    + intros h' [K|K]; [|now apply P1]. injection K as <- <-. rewrite P2 by exact N1. rewrite reg_find_cons.
      replace (scope_eqb s s) with true; [reflexivity|]. symmetry. now apply scope_eqb_eq.
    + intros K. rewrite P2 by (intros K'; apply K; now right). rewrite reg_find_cons. destruct (scope_eqb s sc) eqn:Q; [|reflexivity].
      apply scope_eqb_eq in Q as ->. exfalso. apply K. now left.
Qed.
Lemma add_all_taken l (r : registry H) s h h0 : In (s, h) l -> reg_find r s = Some h0 -> exists e, snd (add_all r l) = Some e.
Proof.
  revert r. induction l as [|[s' h'] l IH]; intros r I E; [contradiction|]. cbn [add_all]. destruct I as [K|I].
  - injection K as -> ->. destruct (reg_add_taken r s h h0 E) as (e & ->). cbn. eauto.
  - pose proof (reg_add_keeps r s' h' s h0 E) as K. destruct (reg_add r s' h') as [r1 [e|]]; cbn [fst snd] in *; eauto.
Qed.
Lemma in_scopes cmds s h : In (s, h) (cmd_scopes handler cmds) <-> exists t c, shell_op t /\ In c cmds /\ s = shell_scope t c /\ h = handler c.
Proof.
  unfold cmd_scopes. rewrite in_flat_map. split.
  - intros (c & Ic & I). cbn [map In] in I. destruct I as [K|[K|[]]]; injection K as <- <-.
    + exists 2010, c. repeat split; auto. now left.
    + exists 2013, c. repeat split; auto. now right.
  - intros (t & c & T & Ic & -> & ->). exists c. split; [exact Ic|]. destruct T as [-> | ->]; cbn; auto.
Qed.
Lemma scopes_nodup cmds : NoDup cmds -> NoDup (map fst (cmd_scopes handler cmds)).
Proof.
  induction 1 as [|c cmds Nc N IH]; cbn; [constructor|].
  assert (A : forall t, ~ In (MkScope t [] (cmd_name c) None) (map fst (cmd_scopes handler cmds))).
  { intros t I. apply in_map_iff in I as ([s h] & E & I). cbn in E. subst s. apply in_scopes in I as (t' & c' & _ & Ic & E & _).
    unfold shell_scope in E. injection E as _ E. apply cmd_name_inj in E as ->. contradiction. }
  constructor; [|constructor; [apply A|exact IH]]. intros [K|K]; [discriminate|now apply A in K].
Qed.
Lemma all_nodup cmds : Permutation cmds all_cmds -> NoDup cmds.
Proof. intros P. eapply Permutation_NoDup; [apply Permutation_sym; exact P|]. unfold all_cmds. repeat (constructor; [cbn; intuition discriminate|]). constructor. Qed.

(* C89.  Adding the shell's handlers to a service, in whatever order the map is iterated: if no
   handler is there for any of the ten commands and two kinds, all twenty are there afterwards
   and the others are as before; otherwise it fails, and the handlers that were there stay. *)
Theorem C89_register (r : registry H) cmds : Permutation cmds all_cmds ->
  ((forall t c, shell_op t -> reg_find r (shell_scope t c) = None) ->
    exists r', add_all r (cmd_scopes handler cmds) = (r', None) /\
      (forall t c, shell_op t -> reg_find r' (shell_scope t c) = Some (handler c)) /\
      (forall sc, (forall t c, shell_op t -> sc <> shell_scope t c) -> reg_find r' sc = reg_find r sc)) /\
  (forall t c h, shell_op t -> reg_find r (shell_scope t c) = Some h ->
    exists r' e, add_all r (cmd_scopes handler cmds) = (r', Some e) /\
      forall sc h, reg_find r sc = Some h -> reg_find r' sc = Some h).
Proof.
  intros P. assert (A : forall c, In c cmds) by (intros c; eapply Permutation_in; [apply Permutation_sym; exact P|apply every_cmd]). split.
  - intros F. destruct (add_all_free (cmd_scopes handler cmds) r) as (r' & E & Q).
    { now apply scopes_nodup, all_nodup. }
    { apply Forall_forall. intros [s h] I. apply in_scopes in I as (t & c & T & _ & -> & _). cbn [fst]. split; [now apply shell_valid|now apply F]. }
    exists r'. split; [exact E|]. split.
    + intros t c T. apply (Q (shell_scope t c)). apply in_scopes. exists t, c. auto.
    + intros sc N. apply (Q sc). intros I. apply in_map_iff in I as ([s h] & Es & I). cbn in Es. subst s.
      apply in_scopes in I as (t & c & T & _ & K & _). now apply (N t c T).
  - intros t c h T E. destruct (add_all_taken (cmd_scopes handler cmds) r (shell_scope t c) (handler c) h) as (e & Ee); [|exact E|].
    { apply in_scopes. exists t, c. auto. }
    pose proof (fun sc h => add_all_keeps (cmd_scopes handler cmds) r sc h) as K.
    destruct (add_all r (cmd_scopes handler cmds)) as [r' e']. cbn [fst snd] in *. subst e'. eauto.
Qed.

End C89.

(* what the commands respond *)
Definition cmd_fields (addr : bytes) (c : shell_cmd) : fields :=
  let ok := [(str "ok", BInt32 1); (str "errmsg", BString [])] in
  match c with
  | CIsMaster => ok ++ [(str "minWireVersion", BInt32 0); (str "maxWireVersion", BInt32 6)]
  | CWhatsMyURI => ok ++ [(str "you", BString addr)]
  | CBuildinfo | CBuildInfo => ok ++ [(str "version", BString (str "0.0.0"))]
  | CGetLog => ok ++ [(str "log", BArray [])]
  | CEndSessions | CGetCmdLineOpts | CGetFreeMonitoringStatus | CReplSetGetStatus | CListCollections =>
      [(str "ok", BInt32 0); (str "errmsg", BString [])]
  end.
Lemma ok_err i : i = 0 \/ i = 1 -> err_ok (MkER i []).
Proof. intros D. split; [unfold kept; cbn; lia|constructor]. Qed.
Lemma cmd_fields_len addr c : zlen (enc_doc (cmd_fields addr c)) <= zlen addr + 100.
Proof.
  pose proof (zlen_nonneg addr) as P. destruct c; cbn [cmd_fields app].
  2: { assert (E : zlen (enc_doc (cmd_fields addr CWhatsMyURI)) = 36 + zlen addr); [|cbn [cmd_fields app] in E; lia].
       unfold enc_doc. cbn [cmd_fields app]. rewrite zlen_enc_frame. cbn [enc_elems]. unfold enc_elem. cbn [enc_body]. zlens. cbn [str list_ascii_of_string map]. zlens. lia. }
  all: match goal with |- zlen ?x <= _ => let n := eval vm_compute in (zlen x) in change (zlen x) with n end; lia.
Qed.
Lemma cmd_fields_ok addr c : bytes_ok addr -> zlen addr <= 209714000 ->
  sendable (cmd_fields addr c) /\ zlen (enc_doc (cmd_fields addr c)) <= zlen addr + 100.
Proof.
  intros B L. pose proof (zlen_nonneg addr). split; [split|].
  - destruct c; cbn [cmd_fields app];
    repeat (apply Forall_cons; [apply keys_ok; [nozero|try exact B; try exact I; cbn; unfold is_i32; try lia; repeat constructor; unfold is_u8; lia]|]);
    constructor.
  - pose proof (cmd_fields_len addr c). lia.
  - apply cmd_fields_len.
Qed.

Lemma cmd_document_built addr c : bytes_ok addr -> cmd_document addr c = build_doc (cmd_fields addr c).
Proof.
  intros B. pose proof (ok_err 1 (or_intror eq_refl)) as O1. pose proof (ok_err 0 (or_introl eq_refl)) as O0.
  assert (K : kept 0 /\ kept 6) by (unfold kept; lia). destruct K as (K0 & K6).
  destruct (C88_documents (MkER 0 []) (MkIM (MkER 1 []) 0 6) (MkSR (MkER 1 []) addr) (MkLR (MkER 1 []) []) O0) as (D1 & D2 & D3 & D4).
  destruct (C88_documents (MkER 0 []) (MkIM (MkER 1 []) 0 6) (MkSR (MkER 1 []) (str "0.0.0")) (MkLR (MkER 1 []) []) O0) as (_ & D5 & _).
  destruct c; cbn [cmd_document]; try exact D4.
  - exact (D1 O1 K0 K6).
  - exact (proj1 (D2 O1)).
  - exact (proj2 (D5 O1)).
  - exact (proj2 (D5 O1)).
  - exact (D3 O1).
Qed.

Section C89_service.
Variable H : Type.
Variable handler : shell_cmd -> H.
(* C89.  A service with the shell's handlers, and none for the command in a database of its
   own, answers a request for any of the commands, as any client makes it, of any content
   after the command's name and in any pieces: the command's handler is started with what was
   asked, and what it sends is read by the client as the command's response. *)
Theorem C89_served fuel (r r' : registry H) cmds t c v tl a addr sched e : Permutation cmds all_cmds ->
  add_all r (cmd_scopes handler cmds) = (r', None) -> (forall sc h, reg_find r sc = Some h -> valid_scope sc) ->
  (forall t c, shell_op t -> reg_find r (shell_scope t c) = None) ->
  (forall op db, reg_find r (MkScope op db (cmd_name c) None) = None) ->
  a_msg a = asks t ((cmd_name c, v) :: tl) -> arrival_ok fuel a ->
  bytes_ok addr -> zlen addr <= 209714000 -> enough fuel (zlen addr + 200) -> first_read sched ->
  exists m d resp w m1 s' m2 d',
    dispatch 2 fuel r' (connection [a]) = ([(handler c, m)], EndQuiet) /\
    request_message_to_document m = Ret (inl (Some d)) /\ holds d ((cmd_name c, v) :: tl) /\
    cmd_response fuel addr (h_op (msg_header m)) c = Ret resp /\ serialize fuel resp = Ret (w, m1) /\
    read_message fuel (MkStream w sched e false) = (s', Ret (Some m2, None)) /\
    response_message_to_document m2 = Ret (inl (Some d')) /\ holds d' (cmd_fields addr c).
Proof.
  intros P Er V Fr Nd Ea Ok B L F Fs.
  destruct (proj1 (C89_register H handler r cmds P) Fr) as (r1 & Er1 & Fn & Rest). rewrite Er in Er1. injection Er1 as <-.
  assert (V' : forall sc h, reg_find r' sc = Some h -> valid_scope sc).
  { intros sc h E. destruct (sc_context sc) eqn:Ec.
    - destruct (scope_validate sc) eqn:Q; [|now apply validate_spec]. exfalso.
      assert (N : forall t c, shell_op t -> sc <> shell_scope t c).
      { intros t0 c0 T ->. pose proof (proj2 (validate_spec _) (shell_valid t0 c0 T)). congruence. }
      rewrite (Rest sc N) in E. apply V, validate_spec in E. congruence.
    - apply (V sc h). rewrite <- (Rest sc); [exact E|]. intros t0 c0 T ->. discriminate. }
  destruct (C72_dispatch_partial H fuel r' [a] V') as (started & how & Ed & Sv); [apply Forall_cons; [exact Ok|apply Forall_nil]|].
  assert (exists op db, shell_op op /\ wants (a_msg a) (MkScope op db (cmd_name c) None)) as (op & db & T & Wa).
  { rewrite Ea. unfold asks. destruct (t =? 2013).
    - eexists _, _. split; [right; reflexivity|]. eapply w_op. reflexivity.
    - exists 2010, [109; 114; 112; 99]. split; [left; reflexivity|].
      apply (w_query_command 0 0 1 [109; 114; 112; 99] [99; 109; 100]). repeat (constructor; try lia). }
  assert (Hh : forall h, handles H r' (MkScope op db (cmd_name c) None) h -> h = handler c).
  { intros h [K|[K1 K2]].
    - destruct db as [|x db].
      + pose proof (Fn op c T) as K'. unfold shell_scope in K'. congruence.
      + rewrite (Rest _) in K; [rewrite Nd in K; discriminate|]. intros t0 c0 T0 Q. discriminate.
    - cbn in K2. pose proof (Fn op c T) as K'. unfold shell_scope in K'. congruence. }
  assert (Hx : handles H r' (MkScope op db (cmd_name c) None) (handler c)).
  { destruct (reg_find r' (MkScope op db (cmd_name c) None)) as [h|] eqn:E; [left; rewrite E; f_equal; apply Hh; now left|].
    right. split; [exact E|]. apply (Fn op c T). }
  inversion Sv as [|a' l' sc h m out e' W1 H1 R1 S1|a' l' N1]; subst; [|exfalso; eapply N1; eauto].
  inversion S1; subst. rewrite Ea in R1.
  assert (R2 : msg_scope m = Ret (Some (MkScope op db (cmd_name c) None))).
  { rewrite <- Ea in R1. destruct Ok as (_ & _ & Wm & _). eapply received_scope; [exact Wm| |exact R1|exact Wa]. reflexivity. }
  assert (R3 : msg_scope m = Ret (Some sc)).
  { rewrite <- Ea in R1. destruct Ok as (_ & _ & Wm & _). eapply received_scope; [exact Wm| |exact R1|exact W1]. reflexivity. }
  assert (sc = MkScope op db (cmd_name c) None) as -> by congruence. rewrite (Hh _ H1) in *.
  destruct (received_request _ _ _ _ R1) as (d & Em & Hd).
  destruct (cmd_fields_ok addr c B L) as (S & Lc).
  assert (Sm : small (cmd_fields addr c)) by (unfold small; lia).
  destruct (build_doc_rep (cmd_fields addr c) (proj1 S) Sm) as (rd & Bd & _).
  assert (Hr : holds rd (cmd_fields addr c)) by (eexists; apply do_built; exact Bd). unfold enough in F.
  destruct (C87_response fuel (h_op (msg_header m)) rd _ sched e Hr S) as (resp & w & m1 & s' & m2 & d' & E1 & E2 & E3 & _ & E4 & E5); auto.
  { unfold enough. lia. }
  exists m, d, resp, w, m1, s', m2, d'. split; [exact Ed|]. do 2 (split; [assumption|]). split.
  - unfold cmd_response. rewrite cmd_document_built, Bd by exact B. exact E1.
  - auto.
Qed.
End C89_service.

(* C89.  And the client takes from the response: the versions 0 and 6, the address of the
   service, the version "0.0.0", success, or the error of a response that is not ok. *)
Theorem C89_client addr c d r1 r2 r3 : bytes_ok addr -> zlen addr <= 209714000 -> holds d (cmd_fields addr c) ->
  match c with
  | CIsMaster => im_unmarshal d r1 = Ret (MkIM (MkER 1 []) 0 6, None)
  | CWhatsMyURI => sr_unmarshal k_you d r2 = Ret (MkSR (MkER 1 []) addr, None)
  | CBuildinfo | CBuildInfo => sr_unmarshal k_version d r2 = Ret (MkSR (MkER 1 []) (str "0.0.0"), None)
  | CGetLog => lr_unmarshal 100 d (MkLR r3 []) = Ret (MkLR (MkER 1 []) [], None)
  | _ => er_unmarshal d r3 = Ret (MkER 0 [], None) /\ success_or_error (MkER 0 []) <> None
  end.
Proof.
  intros B L D. destruct (cmd_fields_ok addr c B L) as (S & Lc). pose proof (ok_err 1 (or_intror eq_refl)) as O1. pose proof (ok_err 0 (or_introl eq_refl)) as O0.
  assert (Sm : small (cmd_fields addr c)) by (unfold small; lia).
  assert (B0 : bytes_ok (str "0.0.0")) by (repeat constructor; unfold is_u8; lia).
  assert (K : kept 0 /\ kept 6) by (unfold kept; lia). destruct K as (K0 & K6).
  destruct c; try (split; [exact (C88_error_response (MkER 0 []) r3 d O0 Sm D)|discriminate]).
  - exact (C88_is_master (MkIM (MkER 1 []) 0 6) r1 d O1 K0 K6 Sm D).
  - exact (C88_whats_my_uri (MkSR (MkER 1 []) addr) r2 d O1 B Sm D).
  - exact (C88_build_info (MkSR (MkER 1 []) (str "0.0.0")) r2 d O1 B0 Sm D).
  - exact (C88_build_info (MkSR (MkER 1 []) (str "0.0.0")) r2 d O1 B0 Sm D).
  - exact (proj1 (C88_get_log_refuted 100 (MkLR (MkER 1 []) []) [] d r3 O1 (Forall_nil _) Sm D)).
Qed.

(* an isMaster request of either kind, in two pieces, to a new service *)
Definition im_ask : fields := [(cmd_name CIsMaster, BInt32 1)].
Definition im_arrival (t : Z) : arrival := MkArrival 19 0 (asks t im_ask) 4 [] (Z.to_nat (zlen (wire 19 0 (asks t im_ask)) - 4)).
Example C89_nonvacuous : arrival_ok 200 (im_arrival 2013) /\ arrival_ok 200 (im_arrival 2010) /\
  (exists r', add_all [] (cmd_scopes (fun c => c) all_cmds) = (r', None)) /\
  (exists r' e, add_all [(shell_scope 2013 CGetLog, CGetLog)] (cmd_scopes (fun c => c) all_cmds) = (r', Some e)).
Proof.
  assert (S : sendable im_ask).
  { split; [apply Forall_cons; [apply keys_ok; [nozero|cbn; unfold is_i32; lia]|constructor]|vm_compute; discriminate]. }
  assert (A : forall t, zlen (wire 19 0 (asks t im_ask)) <= 120 -> 20 <= zlen (wire 19 0 (asks t im_ask)) -> arrival_ok 200 (im_arrival t)).
  { intros t L1 L2. destruct (asks_ok t _ S) as (W & _). unfold arrival_ok, im_arrival, a_wire. cbn [a_req a_resp a_msg a_first a_mid a_last WireProofs.total].
    split; [unfold is_i32; lia|]. split; [unfold is_i32; lia|]. split; [exact W|]. split; [apply command_name; right; discriminate|].
    unfold enough. split; [lia|]. split; [lia|]. lia. }
  split; [apply A; vm_compute; discriminate|]. split; [apply A; vm_compute; discriminate|].
  split; [eexists; vm_compute; reflexivity|]. eexists _, _. vm_compute. reflexivity.
Qed.
Print Assumptions C89_register.
Print Assumptions C89_served.
Print Assumptions C89_client.
