(* Lemmas about the wire protocol model: sizes of written documents, reading back what was
   serialized, truncated bodies, framing. *)
Require Import ZArith List Bool Lia ZifyBool ZifyNat.
From Verif Require Import Base BSpec Elements Value Codec CodecRead Itoa CodecRep Api ApiProofs Tree
  GetterProofs ReaderOps ReadSafe CodecProps DocOps Search Stream Wire WireSpec.
Import ListNotations.
Open Scope Z_scope.

(* --------------------------------------- writing never changes a buffer's length *)

Lemma put_len {A} (b x : list A) s : 0 <= s -> s + zlen x <= zlen b -> zlen (put b s x) = zlen b.
Proof.
  intros H1 H2. unfold put, zlen in *. rewrite !app_length, firstn_length, skipn_length. lia.
Qed.
Lemma copy_at_len b start src b' n : 0 <= start -> copy_at b start src = Ret (b', n) ->
  zlen b' = zlen b /\ 0 <= n.
Proof.
  unfold copy_at. intros H. destruct (zlen b <? start) eqn:E; [discriminate|]. intros Q. injection Q as <- <-.
  split; [|apply zlen_nonneg]. apply put_len; [auto|]. unfold zlen in *. rewrite firstn_length. lia.
Qed.
Lemma writes_len bs start w b' n e : 0 <= start -> writes bs start w (b', n, e) ->
  zlen b' = zlen w /\ (e = None -> 0 <= n).
Proof.
  intros H [W1 W2]. destruct (Z_le_gt_dec (start + zlen bs) (zlen w)) as [L|L].
  - injection (W1 L) as -> -> ->. split; [now apply put_len|]. intros. apply zlen_nonneg.
  - destruct W2 as (w' & m & E & L' & _); [lia|]. injection E as -> -> ->. split; auto. discriminate.
Qed.

Definition keeps (wr : Z -> Z -> bytes -> go wres) : Prop :=
  forall start size b b' n e, 0 <= start -> wr start size b = Ret (b', n, e) ->
    zlen b' = zlen b /\ (e = None -> 0 <= n).
Definition keeps_we (we : elem -> Z -> bytes -> go wres) (x : elem) : Prop :=
  forall start b b' n e, 0 <= start -> we x start b = Ret (b', n, e) ->
    zlen b' = zlen b /\ (e = None -> 0 <= n).

Lemma doc_write_loop_len we es : Forall (keeps_we we) es -> forall pos total b b' p' t' e,
  0 <= pos -> 0 <= total -> doc_write_loop we es pos total b = Ret (b', p', t', e) ->
  zlen b' = zlen b /\ (e = None -> 0 <= p' /\ 0 <= t').
Proof.
  induction 1 as [|x es Hx _ IH]; intros pos total b b' p' t' e Hp Ht H; cbn [doc_write_loop] in H.
  - injection H as <- <- <- <-. auto.
  - destruct (we x pos b) as [[[b1 n] er]| |] eqn:E; cbn [bind] in H; try discriminate.
    destruct (Hx _ _ _ _ _ Hp E) as [L N]. destruct er.
    + injection H as <- <- <- <-. split; auto. discriminate.
    + specialize (N eq_refl). apply IH in H; try lia. rewrite L in H. exact H.
Qed.
Lemma doc_write_with_keeps we es : Forall (keeps_we we) es -> keeps (doc_write_with we es).
Proof.
  intros F start size b b' n e Hs H. unfold doc_write_with in H.
  destruct (zlen b <? start + size). { injection H as <- <- <-. split; [auto|discriminate]. }
  destruct (int32_encode start b (i32 size)) as [[b1 m] er] eqn:E.
  pose proof (int32_writes start b (i32 size) Hs) as W. rewrite E in W. apply writes_len in W as [L N]; auto.
  destruct er. { injection H as <- <- <-. split; [auto|discriminate]. }
  specialize (N eq_refl).
  destruct (doc_write_loop we es (start + m) m b1) as [[[[b2 pos] total] er]| |] eqn:E2; cbn [bind] in H; try discriminate.
  apply doc_write_loop_len in E2 as [L2 N2]; auto; try lia.
  destruct er. { injection H as <- <- <-. split; [lia|discriminate]. }
  destruct (N2 eq_refl) as [P2 T2].
  destruct (byte_encode pos b2 0) as [[b3 n3] e3] eqn:E3.
  pose proof (byte_writes pos b2 0 P2) as W. rewrite E3 in W. apply writes_len in W as [L3 N3]; auto.
  injection H as <- <- <-. split; [lia|]. intros Q. specialize (N3 Q). lia.
Qed.

Lemma arr_write_loop_len we es : Forall (keeps_we we) es -> forall i pos total b b' p' t' e,
  0 <= pos -> 0 <= total -> arr_write_loop we i es pos total b = Ret (b', p', t', e) ->
  zlen b' = zlen b /\ (e = None -> 0 <= p' /\ 0 <= t').
Proof.
  induction 1 as [|x es Hx _ IH]; intros i pos total b b' p' t' e Hp Ht H; cbn [arr_write_loop] in H.
  - injection H as <- <- <- <-. auto.
  - destruct x as [v|]; [|discriminate].
    destruct (match v_data v with None => Panic PIndex | Some data => goindex data (v_start v) end)
      as [t| |] eqn:Et; cbn [bind] in H; try discriminate.
    destruct (zlen b <=? pos) eqn:Eb; [discriminate|].
    destruct (copy_at (put b pos [t]) (pos + 1) (itoa i ++ [0])) as [[b2 m]| |] eqn:Ec; cbn [bind] in H; try discriminate.
    apply copy_at_len in Ec as [L2 _]; [|lia]. rewrite put_len in L2 by (zlens; lia).
    set (q := zlen (itoa i ++ [0])) in *. assert (0 <= q) by apply zlen_nonneg.
    destruct (we (Some v) (pos + 1 + q) b2) as [[[b3 n] er]| |] eqn:E; cbn [bind] in H; try discriminate.
    destruct (Hx (pos + 1 + q) b2 b3 n er ltac:(lia) E) as [L3 N]. destruct er.
    + injection H as <- <- <- <-. split; [lia|discriminate].
    + specialize (N eq_refl). apply IH in H; try lia. destruct H. split; [lia|auto].
Qed.
Lemma arr_write_with_keeps we es : Forall (keeps_we we) es -> keeps (arr_write_with we es).
Proof.
  intros F start size b b' n e Hs H. unfold arr_write_with in H.
  destruct (zlen b <? start + size). { injection H as <- <- <-. split; [auto|discriminate]. }
  destruct (int32_encode start b (i32 size)) as [[b1 m] er] eqn:E.
  pose proof (int32_writes start b (i32 size) Hs) as W. rewrite E in W. apply writes_len in W as [L N]; auto.
  destruct er. { injection H as <- <- <-. split; [auto|discriminate]. }
  specialize (N eq_refl).
  destruct (arr_write_loop we 0 es (start + m) m b1) as [[[[b2 pos] total] er]| |] eqn:E2; cbn [bind] in H; try discriminate.
  apply arr_write_loop_len in E2 as [L2 N2]; auto; try lia.
  destruct er. { injection H as <- <- <-. split; [lia|discriminate]. }
  destruct (N2 eq_refl) as [P2 T2].
  destruct (byte_encode pos b2 0) as [[b3 n3] e3] eqn:E3.
  pose proof (byte_writes pos b2 0 P2) as W. rewrite E3 in W. apply writes_len in W as [L3 N3]; auto.
  injection H as <- <- <-. split; [lia|]. intros Q. specialize (N3 Q). lia.
Qed.

Lemma write_element_keeps ev wb v : (forall start size b b' n e, 0 <= start ->
    wb v start size b = Ret (b', n, e) -> zlen b' = zlen b /\ (e = None -> 0 <= n)) ->
  keeps_we (write_element_with ev wb) (Some v).
Proof.
  intros H start b b' n e Hs Q. unfold write_element_with in Q.
  destruct (ev (Some v)) as [[size er]| |]; cbn [bind] in Q; try discriminate. destruct er.
  - injection Q as <- <- <-. split; [auto|discriminate].
  - destruct (wb v start size b) as [[[b1 m] er]| |] eqn:E; cbn [bind] in Q; try discriminate.
    destruct (H _ _ _ _ _ _ Hs E) as [L N]. destruct er; injection Q as <- <- <-; auto.
    split; [auto|discriminate].
Qed.

Lemma write_core_keeps dw key vstart offset data :
  match dw with Some (docw, arrw, _) => keeps docw /\ keeps arrw | None => True end ->
  keeps (write_core dw key vstart offset data).
Proof.
  intros D start size b b' n e Hs H. unfold write_core in H.
  match type of H with (if ?c then _ else _) = _ => destruct c end.
  { injection H as <- <- <-. split; [auto|discriminate]. }
  destruct (offset =? 0); [discriminate|].
  destruct (goindex data vstart) as [t| |]; cbn [bind] in H; try discriminate.
  assert (PL : forall dat, (src <- goslice dat (if key then vstart else offset) (u32 (vstart + size)) ;;
    '(b1, n) <- copy_at b start src ;; Ret (b1, n, None)) = Ret (b', n, e) ->
    zlen b' = zlen b /\ (e = None -> 0 <= n)).
  { intros dat Q. destruct (goslice dat _ _); cbn [bind] in Q; try discriminate.
    destruct (copy_at b start a) as [[b1 m]| |] eqn:E; cbn [bind] in Q; try discriminate.
    injection Q as <- <- <-. apply copy_at_len in E as [? ?]; auto. }
  assert (NE : forall wr, keeps wr ->
    ('(b1, n) <- (if key then src <- goslice data (if key then vstart else offset) offset ;; copy_at b start src
                 else Ret (b, 0)) ;;
    '(b2, n2, er) <- wr (start + n) (u32 (size - u32 (offset - vstart))) b1 ;;
    Ret (b2, n + n2, er)) = Ret (b', n, e) -> zlen b' = zlen b /\ (e = None -> 0 <= n)).
  { intros wr K Q. assert (P : exists b1 m, (if key then src <- goslice data (if key then vstart else offset) offset ;; copy_at b start src
                 else Ret (b, 0)) = Ret (b1, m)).
    { destruct (if key then _ else _) as [[b1 m]| |]; try discriminate. eauto. }
    destruct P as (b1 & m & P). rewrite P in Q. cbn [bind] in Q.
    assert (PK : zlen b1 = zlen b /\ 0 <= m).
    { destruct key.
      - destruct (goslice data vstart offset); cbn [bind] in P; try discriminate. now apply copy_at_len in P.
      - injection P as <- <-. lia. }
    destruct (wr _ _ b1) as [[[b2 n2] er]| |] eqn:E; cbn [bind] in Q; try discriminate.
    injection Q as <- <- <-. apply K in E as [? N]; [|lia]. split; [lia|]. intros Q. specialize (N Q). lia. }
  destruct (t =? 3). { destruct dw as [[[docw arrw] docv]|]; [apply (NE docw); [apply D|exact H]|now apply (PL data)]. }
  destruct (t =? 4). { destruct dw as [[[docw arrw] docv]|]; [apply (NE arrw); [apply D|exact H]|now apply (PL data)]. }
  destruct (t =? 15); [|now apply (PL data)].
  destruct (goslice data _ _) as [s| |]; cbn [bind] in H; try discriminate.
  destruct (readi32 s) as [cl| |]; cbn [bind] in H; try discriminate.
  destruct dw as [[[docw arrw] docv]|].
  - destruct (docv tt) as [[scl er]| |]; cbn [bind] in H; try discriminate. destruct er.
    { injection H as <- <- <-. split; [auto|discriminate]. }
    destruct (int32_encode offset data _) as [[data1 q] er]. destruct er.
    { injection H as <- <- <-. split; [auto|discriminate]. }
    destruct (goslice data1 _ _) as [src| |]; cbn [bind] in H; try discriminate.
    destruct (copy_at b start src) as [[b1 m]| |] eqn:E; cbn [bind] in H; try discriminate.
    apply copy_at_len in E as [? ?]; [|auto].
    destruct (docw (start + m) scl b1) as [[[b2 n2] er]| |] eqn:E; cbn [bind] in H; try discriminate.
    injection H as <- <- <-. destruct D as [D _]. apply D in E as [? N]; [|lia].
    split; [lia|]. intros Q. specialize (N Q). lia.
  - destruct (goslice data _ _) as [s2| |]; cbn [bind] in H; try discriminate.
    destruct (readi32 s2) as [scl| |]; cbn [bind] in H; try discriminate.
    destruct (int32_encode offset data _) as [[data1 q] er]. destruct er.
    { injection H as <- <- <-. split; [auto|discriminate]. }
    now apply (PL data1).
Qed.

Lemma write_none ev wb : keeps_we (write_element_with ev wb) None.
Proof.
  intros start b b' n e _ Q. unfold write_element_with in Q.
  destruct (ev None) as [[size er]| |]; cbn [bind] in Q; try discriminate.
  destruct er; [|discriminate]. injection Q as <- <- <-. split; [auto|discriminate].
Qed.

Lemma val_write_keeps fuel v : forall key, keeps (val_write fuel key v).
Proof.
  induction v as [st off data|st off data es IH] using value_ind'; intros key.
  - destruct data as [data|]; [|intros ? ? ? ? ? ? ? H; discriminate].
    cbn [val_write]. now apply write_core_keeps.
  - destruct data as [data|]; [|intros ? ? ? ? ? ? ? H; discriminate].
    cbn [val_write]. apply write_core_keeps.
    assert (K : forall key, Forall (keeps_we (fun e => write_element_with (elem_validate fuel) (fun v => val_write fuel key v) e)) es).
    { intros k. apply Forall_impl with (2 := IH). intros [v|] Hv.
      - apply (write_element_keeps (elem_validate fuel) (fun v => val_write fuel k v)). intros. eapply (Hv k); eauto.
      - apply (write_none (elem_validate fuel) (fun v => val_write fuel k v)). }
    split; [apply doc_write_with_keeps|apply arr_write_with_keeps]; apply K.
Qed.

Lemma doc_write_keeps fuel es : keeps (doc_write fuel es).
Proof.
  apply doc_write_with_keeps. apply Forall_forall. intros [v|] _.
  - apply write_element_keeps. intros. eapply val_write_keeps; eauto.
  - apply write_none.
Qed.

Lemma doc_validate_loop_nonneg ev es : forall acc n e, 0 <= acc ->
  doc_validate_with ev acc es = Ret (n, e) -> 0 <= n.
Proof.
  induction es as [|x es IH]; intros acc n e Ha H; cbn [doc_validate_with] in H.
  - injection H as <- <-. auto.
  - destruct (ev x) as [[m er]| |]; cbn [bind] in H; try discriminate. destruct er.
    + injection H as <- <-. lia.
    + apply IH in H; auto. apply u32_range.
Qed.

(* MarshalBSON returns exactly as many bytes as Validate says, for any document. *)
Lemma marshal_len fuel es b : doc_marshal fuel es = Ret (inl b) ->
  doc_validate fuel es = Ret (zlen b, None).
Proof.
  unfold doc_marshal. intros H. destruct (doc_validate fuel es) as [[n er]| |] eqn:E; cbn [bind] in H; try discriminate.
  destruct er; [discriminate|].
  destruct (doc_write fuel es 0 n (zeros n)) as [[[b' m] er]| |] eqn:W; cbn [bind] in H; try discriminate.
  destruct er; [discriminate|]. injection H as <-. apply doc_write_keeps in W as [L _]; [|lia].
  apply doc_validate_loop_nonneg in E as Hn; [|lia]. rewrite zlen_zeros in L by auto. congruence.
Qed.

(* ------------------------------------------- what the parts of a message contain *)

(* the document d holds the fields fs *)
Definition holds (d : document) (fs : fields) : Prop := exists N, doc_obtained fs d N.
Definition holds_opt (d : option document) (fs : option fields) : Prop :=
  match d, fs with
  | Some d, Some fs => holds d fs
  | None, None => True
  | _, _ => False
  end.
Definition shows_sec (s : section) (t : ssec) : Prop :=
  match s, t with
  | Body (Some d), SBody fs => holds d fs
  | Seq _ i ds, SSeq i' fss => i = i' /\ Forall2 holds ds fss
  | _, _ => False
  end.
(* the message m has the content s; the header is not looked at *)
Definition shows_msg (m : wmsg) (s : smsg) : Prop :=
  match m, s with
  | MReply _ f c st n ds, SReply f' c' st' n' fss =>
      f = f' /\ c = c' /\ st = st' /\ n = n' /\ Forall2 holds ds fss
  | MUpdate _ r f ns d u, SUpdate f' ns' fd fu =>
      r = 0 /\ f = f' /\ ns = ns' /\ holds_opt d (Some fd) /\ holds_opt u (Some fu)
  | MInsert _ f ns ds, SInsert f' ns' fss => f = f' /\ ns = ns' /\ Forall2 holds ds fss
  | MQuery _ f sk n ns q p, SQuery f' sk' n' ns' fq fp =>
      f = f' /\ sk = sk' /\ n = n' /\ ns = ns' /\ holds_opt q (Some fq) /\ holds_opt p fp
  | MGetMore _ r n c ns, SGetMore n' c' ns' => r = 0 /\ n = n' /\ c = c' /\ ns = ns'
  | MDelete _ r f ns d, SDelete f' ns' fd => r = 0 /\ f = f' /\ ns = ns' /\ holds_opt d (Some fd)
  | MKill _ r n ids, SKill ids' => r = 0 /\ n = zlen ids /\ ids = ids'
  | MCommand _ db cmd a m ins up, SCommand db' cmd' fa fm fins =>
      db = db' /\ cmd = cmd' /\ holds_opt a (Some fa) /\ holds_opt m (Some fm) /\ Forall2 holds ins fins /\ up = false
  | MCommandReply _ r m os, SCommandReply fr fm fos =>
      holds_opt r (Some fr) /\ holds_opt m (Some fm) /\ Forall2 holds os fos
  | MOp _ ser f items c, SOp f' items' c' =>
      ser = [] /\ f = f' /\ Forall2 shows_sec items items' /\ c = (match c' with Some c => c | None => 0 end)
  | _, _ => False
  end.

Lemma holds_facts fuel d fs : holds d fs -> wf_fields fs -> small fs -> enough fuel (zlen (enc_doc fs)) ->
  doc_validate fuel d = Ret (zlen (enc_doc fs), None) /\ doc_marshal fuel d = Ret (inl (enc_doc fs)).
Proof.
  intros (N & D) W S F. destruct (doc_obtained_good fuel N fs d W S F D) as (R & _).
  split; [now apply doc_validate_rep|now apply doc_marshal_rep].
Qed.
Lemma holds_size fuel d fs : holds d fs -> wf_fields fs -> small fs -> enough fuel (zlen (enc_doc fs)) ->
  get_doc_size fuel (Some d) = Ret (zlen (enc_doc fs)) /\ write_doc fuel (Some d) = Ret (enc_doc fs).
Proof.
  intros H W S F. destruct (holds_facts fuel d fs H W S F) as [V M]. unfold get_doc_size, write_doc.
  rewrite V, M. auto.
Qed.

Lemma app_split {A} (T Y B X : list A) : T ++ Y = B ++ X ->
  (exists T', T = B ++ T' /\ X = T' ++ Y) \/ (exists B', B = T ++ B' /\ B' <> [] /\ Y = B' ++ X).
Proof.
  revert B. induction T as [|t T IH]; intros B H.
  - destruct B as [|b B]; [left; exists []; auto|right; exists (b :: B); auto]. split; auto. split; [discriminate|exact H].
  - destruct B as [|b B]; cbn in H.
    + left. exists (t :: T). auto.
    + injection H as -> H. destruct (IH B H) as [(T' & -> & E)|(B' & -> & N & E)]; [left; exists T'|right; exists B']; auto.
Qed.

Lemma doc_min fs : 5 <= zlen (enc_doc fs).
Proof. unfold enc_doc, enc_frame. zl. Qed.
Lemma doc_head fs : exists r, enc_doc fs = le32 (zlen (enc_doc fs)) ++ r.
Proof. unfold enc_doc, enc_frame. exists (enc_elems fs ++ [0]). f_equal. f_equal. zl. Qed.

Lemma read_doc_prefix fuel fs T X Y : wf_fields fs -> T ++ Y = enc_doc fs ++ X ->
  zlen (T ++ Y) < 2147483648 -> enough fuel (zlen (enc_doc fs)) ->
  (exists d T', T = enc_doc fs ++ T' /\ X = T' ++ Y /\ read_document fuel T = Ret (inl d) /\ holds d fs) \/
  (Y <> [] /\ zlen T < zlen (enc_doc fs) /\ exists e, read_document fuel T = Ret (inr e)).
Proof.
  intros W E L F. destruct (app_split _ _ _ _ E) as [(T' & -> & ->)|(B' & EB & NB & ->)].
  - left. zlens_in L. destruct (read_document_wf fs T' fuel W) as (d & Rd & R); [zl|exact F|].
    exists d, T'. repeat split; auto. exists (zlen (enc_doc fs ++ T')). apply (do_read fs d fuel T'); auto. zl.
  - right. assert (LB : 0 < zlen B') by (destruct B'; [easy|zl]).
    assert (LT : zlen (enc_doc fs) = zlen T + zlen B') by (rewrite EB; apply zlen_app).
    split; [destruct B'; [easy|discriminate]|]. split; [lia|].
    unfold read_document, doc_unmarshal. destruct (zlen T <? 5) eqn:E5; [cbn [bind]; eauto|].
    destruct (doc_head fs) as (r & Er).
    assert (ET : exists T4, T = le32 (zlen (enc_doc fs)) ++ T4).
    { assert (Q : T ++ B' = le32 (zlen (enc_doc fs)) ++ r) by congruence.
      destruct (app_split _ _ _ _ Q) as [(T' & -> & _)|(B2 & E2 & N2 & _)]; [eauto|].
      exfalso. assert (zlen (le32 (zlen (enc_doc fs))) = zlen T + zlen B2) by (rewrite E2 at 1; apply zlen_app).
      rewrite zlen_le32 in H. destruct B2; [easy|]. rewrite zlen_cons in H. posl. lia. }
    destruct ET as (T4 & ET).
    rewrite (goslice_eq T 0 4 [] (le32 (zlen (enc_doc fs))) T4) by (exact ET || reflexivity). cbn [bind].
    zlens_in L. rewrite readi32_le by (unfold is_i32; posl; lia). cbn [bind].
    replace (zlen T <? zlen (enc_doc fs)) with true by lia. cbn [bind]. eauto.
Qed.

(* ----------------------------------------------------------------- serializing *)

Lemma zlen_docs_cons d ds : zlen (enc_docs (d :: ds)) = zlen (enc_doc d) + zlen (enc_docs ds).
Proof. unfold enc_docs. cbn [map concat]. apply zlen_app. Qed.

Lemma docs_facts fuel ds fss : Forall2 holds ds fss -> Forall wf_fields fss ->
  zlen (enc_docs fss) < 2147483648 -> enough fuel (zlen (enc_docs fss)) ->
  docs_size fuel ds = Ret (zlen (enc_docs fss)) /\ write_docs fuel ds = Ret (enc_docs fss).
Proof.
  induction 1 as [|d fs ds fss H _ IH]; intros W L F; [split; reflexivity|].
  inversion W as [|? ? W1 W2]; subst. rewrite zlen_docs_cons in *. unfold enough in *.
  pose proof (zlen_nonneg (enc_docs fss)). pose proof (doc_min fs).
  destruct (holds_size fuel d fs H W1) as [E1 E2]; [unfold small; lia|unfold enough; lia|].
  destruct IH as [E3 E4]; auto; try lia.
  cbn [docs_size write_docs]. rewrite E1, E2. cbn [bind]. rewrite E3, E4. cbn [bind]. auto.
Qed.

Lemma le32_i32 z : le32 (i32 z) = le32 z.
Proof. rewrite <- le32_u32, <- (le32_u32 z). f_equal. unfold u32, i32. lia. Qed.

Lemma section_facts fuel s t : shows_sec s t -> sec_ok t -> zlen (sec_bytes t) < 2147483648 ->
  enough fuel (zlen (sec_bytes t)) ->
  exists s', ser_section fuel s = Ret (sec_bytes t, s', zlen (sec_bytes t)) /\ shows_sec s' t.
Proof.
  intros H W L F. destruct s as [[d|]|size i ds], t as [fs|i' fss]; cbn in H; try contradiction.
  - cbn [sec_bytes] in *. cbn in W. zlens_in L. unfold enough in F. zlens_in F.
    destruct (holds_size fuel d fs H W) as [E1 E2]; [unfold small; lia|unfold enough; lia|].
    unfold ser_section. rewrite E1. cbn [bind]. unfold make_buf. replace (1 + zlen (enc_doc fs) <? 0) with false by zl.
    cbn [bind]. rewrite E2. cbn [bind]. eexists. split; [do 3 f_equal; zl|exact H].
  - destruct H as [<- H]. destruct W as [Ni W]. unfold sec_bytes in *. cbv zeta in *. unfold enough in F.
    zlens_in L. zlens_in F. unfold cstring in *. zlens_in L. zlens_in F. posl.
    destruct (docs_facts fuel ds fss H W) as [E1 E2]; [lia|unfold enough; lia|].
    unfold ser_section. rewrite E1. cbn [bind]. unfold make_buf.
    replace (1 + 4 + (zlen i + 1) + zlen (enc_docs fss) <? 0) with false by lia. cbn [bind]. rewrite E2. cbn [bind].
    rewrite i32_id by (unfold is_i32; lia).
    eexists (Seq _ i ds). split; [|split; [reflexivity|exact H]]. unfold write_cstring, cstring. do 3 f_equal.
    + f_equal. rewrite <- app_assoc. f_equal; f_equal; zl.
    + zl.
Qed.

Lemma sections_facts fuel ss ts : Forall2 shows_sec ss ts -> Forall sec_ok ts ->
  zlen (concat (map sec_bytes ts)) < 2147483648 -> enough fuel (zlen (concat (map sec_bytes ts))) ->
  exists ss', ser_sections fuel ss = Ret (concat (map sec_bytes ts), ss', zlen (concat (map sec_bytes ts))) /\
    Forall2 shows_sec ss' ts.
Proof.
  induction 1 as [|s t ss ts H _ IH]; intros W L F; [exists []; split; [reflexivity|constructor]|].
  inversion W as [|? ? W1 W2]; subst. cbn [map concat] in *. unfold enough in *. zlens_in L. zlens_in F. posl.
  destruct (section_facts fuel s t H W1) as (s' & E1 & S1); [lia|unfold enough; lia|].
  destruct IH as (ss' & E2 & S2); auto; try lia.
  exists (s' :: ss'). cbn [ser_sections]. rewrite E1. cbn [bind]. rewrite E2. cbn [bind].
  split; [do 3 f_equal; symmetry; apply zlen_app|now constructor].
Qed.

Lemma opt_facts fuel d fs : holds_opt d fs -> (match fs with Some p => wf_fields p | None => True end) ->
  zlen (enc_opt fs) < 2147483648 -> enough fuel (zlen (enc_opt fs)) ->
  get_doc_size fuel d = Ret (zlen (enc_opt fs)) /\ write_doc fuel d = Ret (enc_opt fs).
Proof.
  intros H W L F. destruct d as [d|], fs as [fs|]; cbn in H; try contradiction.
  - now apply holds_size.
  - split; reflexivity.
Qed.

(* m with the header and section sizes Serialize leaves behind *)
Definition same_content (m m' : wmsg) : Prop :=
  match m, m' with
  | MOp _ _ f items c, MOp _ _ f' items' c' =>
      f = f' /\ c = c' /\ Forall2 (fun s s' => match s, s' with
        | Body d, Body d' => d = d'
        | Seq _ i ds, Seq _ i' ds' => i = i' /\ ds = ds'
        | _, _ => False end) items items'
  | MReply _ a b c d e, MReply _ a' b' c' d' e' => (a, b, c, d, e) = (a', b', c', d', e')
  | MUpdate _ a b c d e, MUpdate _ a' b' c' d' e' => (a, b, c, d, e) = (a', b', c', d', e')
  | MInsert _ a b c, MInsert _ a' b' c' => (a, b, c) = (a', b', c')
  | MQuery _ a b c d e f, MQuery _ a' b' c' d' e' f' => (a, b, c, d, e, f) = (a', b', c', d', e', f')
  | MGetMore _ a b c d, MGetMore _ a' b' c' d' => (a, b, c, d) = (a', b', c', d')
  | MDelete _ a b c d, MDelete _ a' b' c' d' => (a, b, c, d) = (a', b', c', d')
  | MKill _ a b c, MKill _ a' b' c' => (a, b, c) = (a', b', c')
  | MCommand _ a b c d e f, MCommand _ a' b' c' d' e' f' => (a, b, c, d, e, f) = (a', b', c', d', e', f')
  | MCommandReply _ a b c, MCommandReply _ a' b' c' => (a, b, c) = (a', b', c')
  | _, _ => False
  end.

Lemma ser_sections_same fuel ss : forall b ss' n, ser_sections fuel ss = Ret (b, ss', n) ->
  Forall2 (fun s s' => match s, s' with
        | Body d, Body d' => d = d'
        | Seq _ i ds, Seq _ i' ds' => i = i' /\ ds = ds'
        | _, _ => False end) ss ss'.
Proof.
  induction ss as [|s ss IH]; intros b ss' n H; cbn [ser_sections] in H; [injection H as <- <- <-; constructor|].
  destruct (ser_section fuel s) as [[[b1 s'] n1]| |] eqn:E; cbn [bind] in H; try discriminate.
  destruct (ser_sections fuel ss) as [[[b2 r'] n2]| |] eqn:E2; cbn [bind] in H; try discriminate.
  injection H as <- <- <-. constructor; [|eapply IH; eauto].
  unfold ser_section in E. destruct s as [d|z i ds].
  - destruct (get_doc_size fuel d); cbn [bind] in E; try discriminate. destruct (make_buf _); cbn [bind] in E; try discriminate.
    destruct (write_doc fuel d); cbn [bind] in E; try discriminate. now injection E as <- <- <-.
  - destruct (docs_size fuel ds); cbn [bind] in E; try discriminate. destruct (make_buf _); cbn [bind] in E; try discriminate.
    destruct (write_docs fuel ds); cbn [bind] in E; try discriminate. now injection E as <- <- <-.
Qed.

Lemma zlen_wire req resp s : zlen (wire req resp s) = 16 + zlen (body_of s).
Proof. unfold wire. zl. Qed.

Lemma make_buf_ok n : 0 <= n -> make_buf n = Ret tt.
Proof. intros. unfold make_buf. now replace (n <? 0) with false by lia. Qed.

Lemma wire_eq h s n b : h_op h = op_of s -> n = 16 + zlen (body_of s) -> n < 2147483648 -> b = body_of s ->
  write_header (with_size h n) ++ b = wire (h_req h) (h_resp h) s /\
  with_size h n = MkHdr (zlen (wire (h_req h) (h_resp h) s)) (h_req h) (h_resp h) (h_op h).
Proof.
  intros Ho -> Hn ->. unfold wire, write_header, with_size. cbn [h_size h_req h_resp h_op].
  rewrite i32_id by (unfold is_i32; posl; lia). rewrite Ho. split; [|f_equal; zl].
  now rewrite <- !app_assoc.
Qed.

Ltac wlen := unfold enough, cstring, write_cstring in *;
  repeat match goal with H : context [zlen _] |- _ => progress zlens_in H end; zlens; posl; try lia.

Lemma zlen_ids ids : zlen (concat (map le64 ids)) = 8 * zlen ids.
Proof. induction ids as [|x r IH]; [reflexivity|]. cbn [map concat]. zlens. rewrite IH. lia. Qed.

Lemma serialize_facts fuel m s : shows_msg m s -> smsg_ok s -> h_op (msg_header m) = op_of s ->
  enough fuel (zlen (body_of s)) ->
  exists m', serialize fuel m = Ret (wire (h_req (msg_header m)) (h_resp (msg_header m)) s, m') /\
    same_content m m' /\
    msg_header m' = MkHdr (zlen (wire (h_req (msg_header m)) (h_resp (msg_header m)) s))
      (h_req (msg_header m)) (h_resp (msg_header m)) (h_op (msg_header m)).
Proof.
  intros Sh (L & W) Ho F.
  destruct m, s; cbn in Sh; try contradiction; cbn [msg_header] in *.
  - (* reply *)
    destruct Sh as (<- & <- & <- & <- & H). destruct W as (_ & _ & _ & _ & W). cbn [body_of] in *.
    destruct (docs_facts fuel docs docs0 H W) as [E1 E2]; try (clear Ho; wlen; fail).
    cbn [serialize]. rewrite E1, E2. cbn [bind]. rewrite make_buf_ok by zl. cbn [bind].
    edestruct (wire_eq h (SReply flags cursor start nret docs0)) as [Q1 Q2]; [exact Ho| | |reflexivity|];
      [instantiate (1 := 16 + 20 + zlen (enc_docs docs0)); cbn [body_of]; zl|zl|].
    eexists. split; [rewrite <- Q1; reflexivity|]. cbn [msg_header]. split; [reflexivity|exact Q2].
  - (* update *)
    destruct Sh as (-> & <- & <- & H1 & H2). destruct W as (_ & _ & W1 & W2). cbn [body_of] in *.
    destruct (opt_facts fuel filter (Some filter0) H1 W1) as [E1 E2]; try (cbn [enc_opt]; clear Ho; wlen; fail).
    destruct (opt_facts fuel update (Some update0) H2 W2) as [E3 E4]; try (cbn [enc_opt]; clear Ho; wlen; fail).
    cbn [serialize]. rewrite E1, E3, E2, E4. cbn [bind enc_opt]. rewrite make_buf_ok by zl. cbn [bind].
    edestruct (wire_eq h (SUpdate flags ns filter0 update0)) as [Q1 Q2]; [exact Ho| | |reflexivity|];
      [instantiate (1 := 16 + 8 + (zlen ns + 1) + zlen (enc_doc filter0) + zlen (enc_doc update0)); cbn [body_of]; unfold cstring; zl|unfold cstring in L; zl|].
    eexists. split; [rewrite <- Q1; reflexivity|]. cbn [msg_header]. split; [reflexivity|exact Q2].
  - (* insert *)
    destruct Sh as (<- & <- & H). destruct W as (_ & _ & W). cbn [body_of] in *.
    destruct (docs_facts fuel docs docs0 H W) as [E1 E2]; try (clear Ho; wlen; fail).
    cbn [serialize]. rewrite E1, E2. cbn [bind]. rewrite make_buf_ok by zl. cbn [bind].
    edestruct (wire_eq h (SInsert flags ns docs0)) as [Q1 Q2]; [exact Ho| | |reflexivity|];
      [instantiate (1 := 16 + 4 + (zlen ns + 1) + zlen (enc_docs docs0)); cbn [body_of]; unfold cstring; zl|unfold cstring in L; zl|].
    eexists. split; [rewrite <- Q1; reflexivity|]. cbn [msg_header]. split; [reflexivity|exact Q2].
  - (* query *)
    destruct Sh as (<- & <- & <- & <- & H1 & H2). destruct W as (_ & _ & _ & _ & W1 & W2). cbn [body_of] in *.
    destruct (opt_facts fuel query (Some query0) H1 W1) as [E1 E2]; try (cbn [enc_opt]; clear Ho; wlen; fail).
    destruct (opt_facts fuel project project0 H2 W2) as [E3 E4]; try (clear Ho; wlen; fail).
    cbn [serialize]. rewrite E1, E3, E2, E4. cbn [bind]. rewrite make_buf_ok by zl. cbn [bind]. cbn [enc_opt].
    edestruct (wire_eq h (SQuery flags skip nret ns query0 project0)) as [Q1 Q2]; [exact Ho| | |reflexivity|];
      [instantiate (1 := 16 + 12 + (zlen ns + 1) + zlen (enc_doc query0) + zlen (enc_opt project0)); cbn [body_of]; unfold cstring; zl|unfold cstring in L; zl|].
    eexists. split; [rewrite <- Q1; reflexivity|]. cbn [msg_header]. split; [reflexivity|exact Q2].
  - (* get more *)
    destruct Sh as (-> & <- & <- & <-). cbn [body_of] in *.
    cbn [serialize]. rewrite make_buf_ok by zl. cbn [bind].
    edestruct (wire_eq h (SGetMore nret cursor ns)) as [Q1 Q2]; [exact Ho| | |reflexivity|];
      [instantiate (1 := 16 + 16 + (zlen ns + 1)); cbn [body_of]; unfold cstring; zl|unfold cstring in L; zl|].
    eexists. split; [rewrite <- Q1; reflexivity|]. cbn [msg_header]. split; [reflexivity|exact Q2].
  - (* delete *)
    destruct Sh as (-> & <- & <- & H1). destruct W as (_ & _ & W1). cbn [body_of] in *.
    destruct (opt_facts fuel filter (Some filter0) H1 W1) as [E1 E2]; try (cbn [enc_opt]; clear Ho; wlen; fail).
    cbn [serialize]. rewrite E1, E2. cbn [bind enc_opt]. rewrite make_buf_ok by zl. cbn [bind].
    edestruct (wire_eq h (SDelete flags ns filter0)) as [Q1 Q2]; [exact Ho| | |reflexivity|];
      [instantiate (1 := 16 + 8 + (zlen ns + 1) + zlen (enc_doc filter0)); cbn [body_of]; unfold cstring; zl|unfold cstring in L; zl|].
    eexists. split; [rewrite <- Q1; reflexivity|]. cbn [msg_header]. split; [reflexivity|exact Q2].
  - (* kill cursors *)
    destruct Sh as (-> & -> & <-). cbn [body_of] in *.
    cbn [serialize]. rewrite make_buf_ok by zl. cbn [bind].
    edestruct (wire_eq h (SKill ids)) as [Q1 Q2]; [exact Ho| | |reflexivity|];
      [instantiate (1 := 16 + 8 + 8 * zlen ids); cbn [body_of]; zlens; rewrite zlen_ids; lia|zlens_in L; rewrite zlen_ids in L; lia|].
    eexists. split; [rewrite <- Q1; reflexivity|]. cbn [msg_header]. split; [reflexivity|exact Q2].
  - (* command *)
    destruct Sh as (<- & <- & H1 & H2 & H3 & ->). destruct W as (_ & _ & W1 & W2 & W3). cbn [body_of] in *.
    destruct (opt_facts fuel args (Some args0) H1 W1) as [E1 E2]; try (cbn [enc_opt]; clear Ho; wlen; fail).
    destruct (opt_facts fuel meta (Some meta0) H2 W2) as [E3 E4]; try (cbn [enc_opt]; clear Ho; wlen; fail).
    destruct (docs_facts fuel inputs inputs0 H3 W3) as [E5 E6]; try (clear Ho; wlen; fail).
    cbn [serialize]. rewrite E1, E2, E3, E4, E5, E6. cbn [bind enc_opt]. rewrite make_buf_ok by zl. cbn [bind].
    edestruct (wire_eq h (SCommand db cmd args0 meta0 inputs0)) as [Q1 Q2]; [exact Ho| | |reflexivity|];
      [instantiate (1 := 16 + (zlen db + 1) + (zlen cmd + 1) + zlen (enc_doc args0) + zlen (enc_doc meta0) + zlen (enc_docs inputs0)); cbn [body_of]; unfold cstring; zl|unfold cstring in L; zl|].
    eexists. split; [rewrite <- Q1; reflexivity|]. cbn [msg_header]. split; [reflexivity|exact Q2].
  - (* command reply *)
    destruct Sh as (H1 & H2 & H3). destruct W as (W1 & W2 & W3). cbn [body_of] in *.
    destruct (opt_facts fuel reply (Some reply0) H1 W1) as [E1 E2]; try (cbn [enc_opt]; clear Ho; wlen; fail).
    destruct (opt_facts fuel meta (Some meta0) H2 W2) as [E3 E4]; try (cbn [enc_opt]; clear Ho; wlen; fail).
    destruct (docs_facts fuel outs outs0 H3 W3) as [E5 E6]; try (clear Ho; wlen; fail).
    cbn [serialize]. rewrite E1, E2, E3, E4, E5, E6. cbn [bind enc_opt]. rewrite make_buf_ok by zl. cbn [bind].
    edestruct (wire_eq h (SCommandReply reply0 meta0 outs0)) as [Q1 Q2]; [exact Ho| | |reflexivity|];
      [instantiate (1 := 16 + zlen (enc_doc reply0) + zlen (enc_doc meta0) + zlen (enc_docs outs0)); cbn [body_of]; zl|zl|].
    eexists. split; [rewrite <- Q1; reflexivity|]. cbn [msg_header]. split; [reflexivity|exact Q2].
  - (* op msg *)
    destruct Sh as (-> & <- & H & ->). destruct W as (Wf & W & Wc). cbn [body_of] in *.
    destruct (sections_facts fuel items items0 H W) as (ss' & E1 & Hs'); try (clear Ho; wlen; fail).
    cbn [serialize]. change (0 <? zlen (@nil Z)) with false. cbn iota. rewrite E1. cbn [bind].
    set (sum := negb _ && _).
    assert (Hsum : (if sum then le32 match checksum0 with Some c => c | None => 0 end else [])
        = match checksum0 with Some c => le32 c | None => [] end /\
      (if sum then 4 else 0) = zlen (match checksum0 with Some c => le32 c | None => [] end)).
    { subst sum. destruct checksum0 as [c|].
      - destruct Wc as (_ & Nc & ->). replace (c =? 0) with false by lia. auto.
      - rewrite Wc. auto. }
    destruct Hsum as [-> Hz]. rewrite Hz. rewrite make_buf_ok by zl. cbn [bind].
    edestruct (wire_eq h (SOp flags items0 checksum0)) as [Q1 Q2]; [exact Ho| | |reflexivity|];
      [instantiate (1 := 16 + 4 + zlen (concat (map sec_bytes items0)) + zlen (match checksum0 with Some c => le32 c | None => [] end)); cbn [body_of]; zl|zl|].
    eexists. split; [rewrite le32_i32, <- Q1; reflexivity|]. cbn [msg_header]. split; [|exact Q2].
    cbn. repeat split; auto. eapply ser_sections_same; eauto.
Qed.

(* ------------------------------------------------------------------- parsing *)

(* The outcome of parsing T when T ++ Y is a well-formed body: a message, which satisfies P
   when T is the whole body, or an error when it is not. *)
Definition outcome (Y : bytes) (P : wmsg -> Prop) (r : pres) : Prop :=
  (exists m, r = Ret (Some m, None) /\ (Y = [] -> P m)) \/
  (Y <> [] /\ exists m e, r = Ret (m, Some e)).

Lemma from_app p q loc : loc = zlen p -> from (p ++ q) loc = Ret q.
Proof.
  intros ->. unfold from. rewrite <- (app_nil_r q) at 1. apply goslice_app; zl.
Qed.
Lemma from_app' b p q loc : b = p ++ q -> loc = zlen p -> from b loc = Ret q.
Proof. intros -> ?. now apply from_app. Qed.
Lemma from_0 b : from b 0 = Ret b.
Proof. apply (from_app [] b). reflexivity. Qed.
Lemma w_i32_le z tl : is_i32 z -> w_i32 (le32 z ++ tl) = Ret z.
Proof. intros. unfold w_i32. rewrite <- le32_u32. now apply readi32_le32. Qed.
Lemma le64_u64 z : le64 (u64 z) = le64 z.
Proof. unfold le64, u64. f_equal; f_equal; lia. Qed.
Lemma w_i64_le z tl : is_i64 z -> w_i64 (le64 z ++ tl) = Ret z.
Proof.
  intros. unfold w_i64. rewrite <- le64_u64. rewrite rdu64_le64 by apply u64_range. cbn [bind].
  now rewrite i64_u64.
Qed.

(* T ++ Y starts with A: T is too short for A, or starts with it *)
Lemma take {A} (T Y B X : list A) : T ++ Y = B ++ X -> zlen B <= zlen T ->
  exists T', T = B ++ T' /\ T' ++ Y = X.
Proof.
  intros E L. destruct (app_split _ _ _ _ E) as [(T' & -> & ->)|(B' & -> & N & _)]; [eauto|].
  exfalso. destruct B'; [easy|]. zl.
Qed.
Lemma short_rest {A} (T Y B X : list A) : T ++ Y = B ++ X -> zlen T < zlen B -> Y <> [].
Proof. intros E L ->. rewrite app_nil_r in E. subst T. zlens_in L. posl. lia. Qed.

Lemma cstring_prefix ns T Y X : nul_free ns -> T ++ Y = cstring ns ++ X ->
  (exists T', T = cstring ns ++ T' /\ T' ++ Y = X /\ read_cstring T = inl ns) \/
  (Y <> [] /\ exists e, read_cstring T = inr e).
Proof.
  intros N E. destruct (app_split _ _ _ _ E) as [(T' & -> & ->)|(B' & EB & NB & ->)].
  - left. exists T'. repeat split; auto. unfold read_cstring, cstring. rewrite <- app_assoc. cbn [app].
    rewrite find_nul_cstr by auto. rewrite to_nat_zlen, firstn_app, firstn_all, Nat.sub_diag. cbn [firstn].
    now rewrite app_nil_r.
  - right. split; [destruct B'; [easy|discriminate]|]. unfold read_cstring.
    assert (NT : nul_free T).
    { unfold cstring in EB. destruct (app_split _ _ _ _ EB) as [(T' & -> & E2)|(B2 & E2 & N2 & E3)].
      - exact N || (unfold nul_free in *; apply Forall_app in N; apply N).
      - destruct B2 as [|b B2]; [easy|]. destruct B2; cbn in E3; [|discriminate].
        destruct B'; [easy|]. injection E3 as _ E3. discriminate. }
    rewrite find_nul_none by auto. eauto.
Qed.

Lemma outcome_err Y P m e : Y <> [] -> outcome Y P (Ret (m, Some e)).
Proof. intros. right. eauto. Qed.

Lemma read_then_prefix fuel fs T X Y P k : wf_fields fs -> T ++ Y = enc_doc fs ++ X ->
  zlen (T ++ Y) < 2147483648 -> enough fuel (zlen (enc_doc fs)) ->
  (forall d T', T = enc_doc fs ++ T' -> T' ++ Y = X -> holds d fs ->
     get_doc_size fuel (Some d) = Ret (zlen (enc_doc fs)) -> doc_validate fuel d = Ret (zlen (enc_doc fs), None) ->
     outcome Y P (k d)) ->
  outcome Y P (read_doc_then fuel T k).
Proof.
  intros W E L F H. unfold read_doc_then.
  destruct (read_doc_prefix fuel fs T X Y W E L F) as [(d & T' & -> & -> & R & Hd)|(N & _ & e & R)]; rewrite R; cbn [bind].
  - zlens_in L. assert (S : small fs) by (unfold small; posl; lia). apply (H d T'); auto.
    + now apply holds_size.
    + now apply holds_facts.
  - now apply outcome_err.
Qed.

Lemma parse_docs_prefix fuel P k fss : forall n pre T Y acc, Forall wf_fields fss -> T ++ Y = enc_docs fss ->
  zlen (T ++ Y) < 2147483648 -> enough fuel (zlen (enc_docs fss)) -> zlen T <= Z.of_nat n ->
  (forall ds, (Y = [] -> exists ds', ds = acc ++ ds' /\ Forall2 holds ds' fss) -> outcome Y P (k ds)) ->
  outcome Y P (parse_docs n fuel (pre ++ T) (zlen pre) acc k).
Proof.
  induction fss as [|fs fss IH]; intros n pre T Y acc W E L F Hn H.
  - cbn in E. apply app_eq_nil in E as [-> ->]. destruct n; cbn [parse_docs]; replace (zlen pre <? zlen (pre ++ [])) with false by zl;
    apply H; intros _; exists []; rewrite app_nil_r; auto.
  - inversion W as [|? ? W1 W2]; subst. unfold enc_docs in E. cbn [map concat] in E. fold (enc_docs fss) in E.
    rewrite zlen_docs_cons in F. unfold enough in F. pose proof (zlen_nonneg (enc_docs fss)). pose proof (doc_min fs).
    destruct T as [|t T].
    + destruct n; cbn [parse_docs]; replace (zlen pre <? zlen (pre ++ [])) with false by zl; apply H; intros ->; cbn in E;
        apply (f_equal zlen) in E; zlens_in E; posl; lia.
    + destruct n as [|n]; [zlens_in Hn; posl; lia|]. cbn [parse_docs].
      replace (zlen pre <? zlen (pre ++ t :: T)) with true by zl.
      rewrite from_app by reflexivity. cbn [bind]. set (T0 := t :: T) in *.
      eapply (read_then_prefix fuel fs T0 (enc_docs fss) Y); eauto; [unfold enough; lia|].
      intros d T' ET EX Hd Sz V. rewrite Sz. cbn [bind]. rewrite ET, app_assoc.
      replace (zlen pre + zlen (enc_doc fs)) with (zlen (pre ++ enc_doc fs)) by zl.
      apply (IH n (pre ++ enc_doc fs) T' Y (acc ++ [d])); auto.
      * rewrite ET in L. zlens_in L. zlens. posl. lia.
      * unfold enough. lia.
      * rewrite ET in Hn. zlens_in Hn. lia.
      * intros ds Hds. apply H. intros EY. destruct (Hds EY) as (ds' & -> & Hh).
        exists (d :: ds'). rewrite <- app_assoc. split; [reflexivity|constructor; auto].
Qed.

Lemma command_docs_prefix fuel P k fss : forall n T Y acc, Forall wf_fields fss -> T ++ Y = enc_docs fss ->
  zlen (T ++ Y) < 2147483648 -> enough fuel (zlen (enc_docs fss)) -> zlen T <= Z.of_nat n ->
  (forall ds, (Y = [] -> exists ds', ds = acc ++ ds' /\ Forall2 holds ds' fss) -> outcome Y P (k ds)) ->
  outcome Y P (command_docs n fuel T acc k) /\ outcome Y P (reply_docs n fuel T acc k).
Proof.
  induction fss as [|fs fss IH]; intros n T Y acc W E L F Hn H.
  - cbn in E. apply app_eq_nil in E as [-> ->].
    destruct n; cbn [command_docs reply_docs]; change (0 <? zlen []) with false; split;
    apply H; intros _; exists []; rewrite app_nil_r; auto.
  - inversion W as [|? ? W1 W2]; subst. unfold enc_docs in E. cbn [map concat] in E. fold (enc_docs fss) in E.
    rewrite zlen_docs_cons in F. unfold enough in F. pose proof (zlen_nonneg (enc_docs fss)). pose proof (doc_min fs).
    destruct T as [|t T].
    + destruct n; cbn [command_docs reply_docs]; change (0 <? zlen []) with false; split; apply H; intros ->; cbn in E;
        apply (f_equal zlen) in E; zlens_in E; posl; lia.
    + destruct n as [|n]; [zlens_in Hn; posl; lia|]. cbn [command_docs reply_docs].
      replace (0 <? zlen (t :: T)) with true by zl. set (T0 := t :: T) in *.
      assert (Q : forall d T', T0 = enc_doc fs ++ T' -> T' ++ Y = enc_docs fss -> holds d fs ->
        outcome Y P (command_docs n fuel T' (acc ++ [d]) k) /\ outcome Y P (reply_docs n fuel T' (acc ++ [d]) k)).
      { intros d T' ET EX Hd. apply IH; auto.
        - rewrite ET in L. zlens_in L. zlens. posl. lia.
        - unfold enough. lia.
        - rewrite ET in Hn. zlens_in Hn. lia.
        - intros ds Hds. apply H. intros EY. destruct (Hds EY) as (ds' & -> & Hh).
          exists (d :: ds'). rewrite <- app_assoc. split; [reflexivity|constructor; auto]. }
      split; (eapply (read_then_prefix fuel fs T0 (enc_docs fss) Y); eauto; [unfold enough; lia|]);
        intros d T' ET EX Hd Sz V.
      * rewrite V. cbn [bind]. rewrite ET, from_app by reflexivity. cbn [bind]. now apply (Q d T').
      * rewrite Sz. cbn [bind]. rewrite ET, from_app by reflexivity. cbn [bind]. now apply (Q d T').
Qed.

Lemma i32_of_small fs : zlen (enc_doc fs) < 2147483648 -> is_i32 (zlen (enc_doc fs)).
Proof. unfold is_i32. posl. lia. Qed.

(* namespaces *)
Lemma index_byte_none s c : index_byte s c = None <-> Forall (fun x => x <> c) s.
Proof.
  induction s as [|x s IH]; cbn; [split; auto|]. destruct (x =? c) eqn:E.
  - split; [discriminate|]. inversion 1; subst. lia.
  - destruct (index_byte s c) eqn:Ei; cbn.
    + split; [discriminate|]. inversion 1; subst. apply IH in H3. discriminate.
    + split; auto. intros _. constructor; [lia|]. now apply IH.
Qed.
Lemma index_byte_some s c i : index_byte s c = Some i <->
  exists a b, s = a ++ c :: b /\ Forall (fun x => x <> c) a /\ i = zlen a.
Proof.
  revert i. induction s as [|x s IH]; intros i; cbn.
  - split; [discriminate|]. intros (a & b & E & _). destruct a; discriminate.
  - destruct (x =? c) eqn:E.
    + assert (x = c) by lia. subst x. split.
      * intros [= <-]. exists [], s. auto.
      * intros (a & b & Ea & F & ->). destruct a as [|y a]; [reflexivity|]. injection Ea as <- _.
        inversion F; subst. congruence.
    + split.
      * destruct (index_byte s c) as [j|] eqn:Ej; cbn; [|discriminate]. intros [= <-].
        destruct (proj1 (IH j) eq_refl) as (a & b & -> & F & ->). exists (x :: a), b. repeat split; [constructor; [lia|auto]|zl].
      * intros (a & b & Ea & F & ->). destruct a as [|y a]; injection Ea as -> Ea; [lia|].
        inversion F; subst. assert (Hj : index_byte (a ++ c :: b) c = Some (zlen a)) by (apply IH; eauto).
        rewrite Hj. cbn. f_equal. zl.
Qed.
Lemma is_command_spec ns : exists b, namespace_is_command ns = Ret b /\ (b = true <-> command_ns ns).
Proof.
  unfold namespace_is_command, command_ns. destruct (index_byte ns 46) as [i|] eqn:E.
  - apply index_byte_some in E as (a & b & -> & F & ->). destruct b as [|c b].
    + replace (zlen (a ++ [46]) <=? zlen a + 1) with true by zl. exists false. split; auto. split; [discriminate|].
      intros (db & rest & E & Fd). exfalso.
      assert (zlen a = zlen db).
      { assert (I1 : index_byte (a ++ [46]) 46 = Some (zlen a)) by (apply index_byte_some; eauto).
        assert (I2 : index_byte (a ++ [46]) 46 = Some (zlen db)) by (apply index_byte_some; eauto). congruence. }
      apply (f_equal zlen) in E. zlens_in E. posl. lia.
    + replace (zlen (a ++ 46 :: c :: b) <=? zlen a + 1) with false by zl.
      replace (a ++ 46 :: c :: b) with ((a ++ [46]) ++ c :: b) by (rewrite <- app_assoc; reflexivity).
      rewrite goindex_app by zl. cbn [bind]. exists (c =? 36). split; auto. split.
      * intros Ec. assert (c = 36) by lia. subst c. exists a, b. rewrite <- app_assoc. auto.
      * intros (db & rest & Ed & Fd). rewrite <- app_assoc in Ed. cbn [app] in Ed.
        assert (I1 : index_byte (a ++ 46 :: c :: b) 46 = Some (zlen a)) by (apply index_byte_some; eauto).
        assert (I2 : index_byte (a ++ 46 :: c :: b) 46 = Some (zlen db)) by (apply index_byte_some; rewrite Ed; eauto).
        assert (Ez : zlen a = zlen db) by congruence.
        destruct (app_split _ _ _ _ Ed) as [(T' & -> & E2)|(B' & -> & N & _)].
        -- assert (T' = []) by (apply zlen_zero; zl). subst T'. cbn in E2. injection E2 as <- _. reflexivity.
        -- exfalso. destruct B'; [easy|zl].
  - exists false. split; auto. split; [discriminate|]. intros (db & rest & -> & F). apply index_byte_none in E.
    apply Forall_app in E as [_ E]. inversion E; subst. congruence.
Qed.

Ltac takes T E L T' ET E' :=
  match type of E with
  | T ++ ?Y = ?B ++ ?X =>
      destruct (take T Y B X E) as (T' & ET & E'); [zlens; unfold cstring in *; zl|]
  end.

Lemma docs_k_reply h flags cursor start nret fss Y :
  forall ds, (Y = [] -> exists ds', ds = [] ++ ds' /\ Forall2 holds ds' fss) ->
  outcome Y (fun m => shows_msg m (SReply flags cursor start nret fss) /\ msg_header m = h)
    (Ret (Some (MReply h flags cursor start nret ds), None)).
Proof.
  intros ds H. left. eexists. split; [reflexivity|]. intros E. destruct (H E) as (ds' & -> & F).
  cbn [app]. split; [cbn; auto 8|reflexivity].
Qed.

Definition not_op (s : smsg) : Prop := match s with SOp _ _ _ => False | _ => True end.
Definition plain_query (s : smsg) : Prop := match s with SQuery _ _ _ ns _ _ => ~ command_ns ns | _ => True end.

Lemma parse_reply_prefix fuel h flags cursor start nret docs T Y :
  smsg_ok (SReply flags cursor start nret docs) -> T ++ Y = body_of (SReply flags cursor start nret docs) ->
  enough fuel (zlen (body_of (SReply flags cursor start nret docs))) ->
  outcome Y (fun m => shows_msg m (SReply flags cursor start nret docs) /\ msg_header m = h) (parse_reply fuel h T).
Proof.
  intros (L & I1 & I2 & I3 & I4 & W) E F. cbn [body_of] in *. unfold parse_reply.
  assert (E20 : T ++ Y = (le32 flags ++ le64 cursor ++ le32 start ++ le32 nret) ++ enc_docs docs) by (rewrite E, <- !app_assoc; reflexivity).
  destruct (zlen T <? 20) eqn:E5.
  { apply outcome_err. eapply short_rest; [exact E20|zlens; lia]. }
  destruct (take _ _ _ _ E20) as (T1 & -> & E1); [zlens; lia|].
  rewrite from_0. cbn [bind]. rewrite <- !app_assoc. rewrite w_i32_le by auto. cbn [bind].
  rewrite from_app by reflexivity. cbn [bind]. rewrite w_i64_le by auto. cbn [bind].
  rewrite (from_app' _ (le32 flags ++ le64 cursor) (le32 start ++ le32 nret ++ T1)) by (zlens; auto; now rewrite <- ?app_assoc).
  cbn [bind]. rewrite w_i32_le by auto. cbn [bind].
  rewrite (from_app' _ (le32 flags ++ le64 cursor ++ le32 start) (le32 nret ++ T1)) by (zlens; auto; now rewrite <- ?app_assoc).
  cbn [bind]. rewrite w_i32_le by auto. cbn [bind].
  set (pre := le32 flags ++ le64 cursor ++ le32 start ++ le32 nret).
  replace (le32 flags ++ le64 cursor ++ le32 start ++ le32 nret ++ T1) with (pre ++ T1) by (subst pre; rewrite <- !app_assoc; reflexivity).
  change 20 with (zlen pre). unfold enough in F. zlens_in F. zlens_in L. posl.
  eapply parse_docs_prefix; [exact W|exact E1|rewrite E1; lia|unfold enough; lia|rewrite app_length; unfold zlen; lia|].
  apply docs_k_reply.
Qed.

Lemma parse_update_prefix fuel h flags ns filter update T Y :
  smsg_ok (SUpdate flags ns filter update) -> T ++ Y = body_of (SUpdate flags ns filter update) ->
  enough fuel (zlen (body_of (SUpdate flags ns filter update))) ->
  outcome Y (fun m => shows_msg m (SUpdate flags ns filter update) /\ msg_header m = h) (parse_update fuel h T).
Proof.
  intros (L & I1 & N & W1 & W2) E F. cbn [body_of] in *. unfold parse_update.
  unfold enough in F. zlens_in F. zlens_in L. posl.
  destruct (zlen T <? 4) eqn:E5.
  { apply outcome_err. eapply short_rest; [exact E|zlens; lia]. }
  destruct (take _ _ _ _ E) as (T1 & -> & E1); [zlens; lia|]. clear E E5.
  rewrite from_0. cbn [bind]. rewrite w_i32_le by (unfold is_i32; lia). cbn [bind].
  rewrite from_app by reflexivity. cbn [bind].
  destruct (cstring_prefix ns T1 Y _ N E1) as [(T2 & -> & E2 & ->)|(NY & e & ->)]; [|now apply outcome_err].
  set (pre := le32 0 ++ cstring ns). replace (le32 0 ++ cstring ns ++ T2) with (pre ++ T2) by (subst pre; now rewrite <- app_assoc).
  replace (4 + (zlen ns + 1)) with (zlen pre) by (subst pre; unfold cstring; zl). cbv zeta. rewrite zlen_app.
  destruct (zlen pre + zlen T2 <? zlen pre + 4) eqn:E5.
  { apply outcome_err. eapply short_rest; [exact E2|zlens; lia]. }
  destruct (take _ _ _ _ E2) as (T3 & -> & E3); [zlens; lia|].
  rewrite from_app by reflexivity. cbn [bind]. rewrite w_i32_le by auto. cbn [bind].
  rewrite (from_app' _ (pre ++ le32 flags) T3) by (zlens; auto; now rewrite <- app_assoc). cbn [bind].
  eapply (read_then_prefix fuel filter T3 _ Y); [exact W1|exact E3|rewrite E3; zlens; lia|unfold enough; lia|].
  intros d T' ET EX Hd Sz V. rewrite Sz. cbn [bind]. rewrite ET.
  replace (zlen pre + zlen (le32 flags ++ enc_doc filter ++ T') <? zlen pre + 4 + zlen (enc_doc filter)) with false by zl.
  rewrite (from_app' _ (pre ++ le32 flags ++ enc_doc filter) T') by (zlens; try lia; now rewrite <- !app_assoc). cbn [bind].
  eapply (read_then_prefix fuel update T' [] Y); [exact W2|now rewrite app_nil_r|rewrite EX; zlens; lia|unfold enough; lia|].
  intros d2 T'' ET2 EX2 Hd2 Sz2 V2. rewrite Sz2. cbn [bind]. left. eexists. split; [reflexivity|]. intros _.
  split; [cbn; auto 8|reflexivity].
Qed.

Lemma parse_insert_prefix fuel h flags ns docs T Y :
  smsg_ok (SInsert flags ns docs) -> T ++ Y = body_of (SInsert flags ns docs) ->
  enough fuel (zlen (body_of (SInsert flags ns docs))) ->
  outcome Y (fun m => shows_msg m (SInsert flags ns docs) /\ msg_header m = h) (parse_insert fuel h T).
Proof.
  intros (L & I1 & N & W) E F. cbn [body_of] in *. unfold parse_insert.
  unfold enough in F. zlens_in F. zlens_in L. posl.
  destruct (zlen T <? 4) eqn:E5.
  { apply outcome_err. eapply short_rest; [exact E|zlens; lia]. }
  destruct (take _ _ _ _ E) as (T1 & -> & E1); [zlens; lia|].
  rewrite from_0. cbn [bind]. rewrite w_i32_le by auto. cbn [bind].
  rewrite from_app by reflexivity. cbn [bind].
  destruct (cstring_prefix ns T1 Y _ N E1) as [(T2 & -> & E2 & ->)|(NY & e & ->)]; [|now apply outcome_err].
  set (pre := le32 flags ++ cstring ns). replace (le32 flags ++ cstring ns ++ T2) with (pre ++ T2) by (subst pre; now rewrite <- app_assoc).
  replace (4 + (zlen ns + 1)) with (zlen pre) by (subst pre; unfold cstring; zl).
  eapply parse_docs_prefix; [exact W|exact E2|rewrite E2; lia|unfold enough; lia|rewrite app_length; unfold zlen; lia|].
  intros ds Hds. left. eexists. split; [reflexivity|]. intros EY. destruct (Hds EY) as (ds' & -> & Hh).
  split; [cbn; auto|reflexivity].
Qed.

Lemma parse_get_more_prefix h nret cursor ns T Y :
  smsg_ok (SGetMore nret cursor ns) -> T ++ Y = body_of (SGetMore nret cursor ns) ->
  outcome Y (fun m => shows_msg m (SGetMore nret cursor ns) /\ msg_header m = h) (parse_get_more h T).
Proof.
  intros (L & I1 & I2 & N) E. cbn [body_of] in *. unfold parse_get_more.
  destruct (zlen T <? 4) eqn:E5.
  { apply outcome_err. eapply short_rest; [exact E|zlens; lia]. }
  destruct (take _ _ _ _ E) as (T1 & -> & E1); [zlens; lia|].
  rewrite w_i32_le by (unfold is_i32; lia). cbn [bind]. rewrite from_app by reflexivity. cbn [bind].
  destruct (cstring_prefix ns T1 Y _ N E1) as [(T2 & -> & E2 & ->)|(NY & e & ->)]; [|now apply outcome_err].
  set (pre := le32 0 ++ cstring ns). replace (le32 0 ++ cstring ns ++ T2) with (pre ++ T2) by (subst pre; now rewrite <- app_assoc).
  replace (4 + (zlen ns + 1)) with (zlen pre) by (subst pre; unfold cstring; zl). cbv zeta. rewrite zlen_app.
  destruct (zlen pre + zlen T2 <? zlen pre + 12) eqn:E6.
  { apply outcome_err. eapply (short_rest _ _ (le32 nret ++ le64 cursor) []); [rewrite app_nil_r; exact E2|zlens; lia]. }
  destruct (take T2 Y (le32 nret ++ le64 cursor) []) as (T3 & -> & E3); [rewrite app_nil_r; exact E2|zlens; lia|].
  rewrite from_app by reflexivity. cbn [bind]. rewrite <- app_assoc, w_i32_le by auto. cbn [bind].
  rewrite (from_app' _ (pre ++ le32 nret) (le64 cursor ++ T3)) by (zlens; auto; now rewrite <- app_assoc). cbn [bind].
  rewrite w_i64_le by auto. cbn [bind]. left. eexists. split; [reflexivity|]. intros _. split; [cbn; auto|reflexivity].
Qed.

Lemma parse_delete_prefix fuel h flags ns filter T Y :
  smsg_ok (SDelete flags ns filter) -> T ++ Y = body_of (SDelete flags ns filter) ->
  enough fuel (zlen (body_of (SDelete flags ns filter))) ->
  outcome Y (fun m => shows_msg m (SDelete flags ns filter) /\ msg_header m = h) (parse_delete fuel h T).
Proof.
  intros (L & I1 & N & W1) E F. cbn [body_of] in *. unfold parse_delete.
  unfold enough in F. zlens_in F. zlens_in L. posl.
  destruct (zlen T <? 4) eqn:E5.
  { apply outcome_err. eapply short_rest; [exact E|zlens; lia]. }
  destruct (take _ _ _ _ E) as (T1 & -> & E1); [zlens; lia|].
  rewrite from_0. cbn [bind]. rewrite w_i32_le by (unfold is_i32; lia). cbn [bind].
  rewrite from_app by reflexivity. cbn [bind].
  destruct (cstring_prefix ns T1 Y _ N E1) as [(T2 & -> & E2 & ->)|(NY & e & ->)]; [|now apply outcome_err].
  set (pre := le32 0 ++ cstring ns). replace (le32 0 ++ cstring ns ++ T2) with (pre ++ T2) by (subst pre; now rewrite <- app_assoc).
  replace (4 + (zlen ns + 1)) with (zlen pre) by (subst pre; unfold cstring; zl). cbv zeta. rewrite zlen_app.
  destruct (zlen pre + zlen T2 <? zlen pre + 4) eqn:E6.
  { apply outcome_err. eapply short_rest; [exact E2|zlens; lia]. }
  destruct (take _ _ _ _ E2) as (T3 & -> & E3); [zlens; lia|].
  rewrite from_app by reflexivity. cbn [bind]. rewrite w_i32_le by auto. cbn [bind].
  rewrite (from_app' _ (pre ++ le32 flags) T3) by (zlens; auto; now rewrite <- app_assoc). cbn [bind].
  eapply (read_then_prefix fuel filter T3 [] Y); [exact W1|now rewrite app_nil_r|rewrite E3; zlens; lia|unfold enough; lia|].
  intros d T' ET EX Hd Sz V. rewrite Sz. cbn [bind]. left. eexists. split; [reflexivity|]. intros _.
  split; [cbn; auto 8|reflexivity].
Qed.

Lemma read_ids_ok ids : Forall is_i64 ids -> forall pre post,
  read_ids (length ids) (pre ++ concat (map le64 ids) ++ post) (zlen pre) = Ret ids.
Proof.
  induction 1 as [|x ids Hx _ IH]; intros pre post; [reflexivity|]. cbn [length read_ids map concat].
  rewrite from_app by reflexivity. cbn [bind]. rewrite <- app_assoc. rewrite w_i64_le by auto. cbn [bind].
  replace (pre ++ le64 x ++ concat (map le64 ids) ++ post) with ((pre ++ le64 x) ++ concat (map le64 ids) ++ post) by now rewrite <- app_assoc.
  replace (zlen pre + 8) with (zlen (pre ++ le64 x)) by zl. rewrite IH. reflexivity.
Qed.

Lemma parse_kill_prefix h ids T Y : smsg_ok (SKill ids) -> T ++ Y = body_of (SKill ids) ->
  outcome Y (fun m => shows_msg m (SKill ids) /\ msg_header m = h) (parse_kill_cursors h T).
Proof.
  intros (L & W) E. cbn [body_of] in *. unfold parse_kill_cursors. zlens_in L. rewrite zlen_ids in L.
  assert (E8 : T ++ Y = (le32 0 ++ le32 (zlen ids)) ++ concat (map le64 ids)) by (rewrite E, <- app_assoc; reflexivity).
  destruct (zlen T <? 8) eqn:E5.
  { apply outcome_err. eapply short_rest; [exact E8|zlens; lia]. }
  destruct (take _ _ _ _ E8) as (T1 & -> & E1); [zlens; lia|]. rewrite <- app_assoc.
  rewrite w_i32_le by (unfold is_i32; lia). cbn [bind]. rewrite from_app by reflexivity. cbn [bind].
  rewrite w_i32_le by (unfold is_i32; posl; lia). cbn [bind].
  rewrite (from_app' _ (le32 0 ++ le32 (zlen ids)) T1) by (zlens; auto; now rewrite <- app_assoc). cbn [bind].
  destruct (zlen T1 <? zlen ids * 8) eqn:E6.
  { apply outcome_err. intros ->. rewrite app_nil_r in E1. subst T1. rewrite zlen_ids in E6. lia. }
  assert (T1 = concat (map le64 ids) /\ Y = []) as [-> ->].
  { destruct (take T1 Y (concat (map le64 ids)) []) as (T' & -> & E'); [now rewrite app_nil_r|rewrite zlen_ids; lia|].
    apply app_eq_nil in E' as [-> ->]. now rewrite app_nil_r. }
  replace (zlen ids <? 0) with false by zl. rewrite to_nat_zlen.
  replace (le32 0 ++ le32 (zlen ids) ++ concat (map le64 ids)) with ((le32 0 ++ le32 (zlen ids)) ++ concat (map le64 ids) ++ []) by (rewrite app_nil_r, <- app_assoc; reflexivity).
  change 8 with (zlen (le32 0 ++ le32 (zlen ids))). rewrite read_ids_ok by auto. cbn [bind].
  left. eexists. split; [reflexivity|]. intros _. split; [cbn; auto|reflexivity].
Qed.

Lemma command_doc_prefix fuel fs T X Y P early k : wf_fields fs -> T ++ Y = enc_doc fs ++ X ->
  zlen (T ++ Y) < 2147483648 -> enough fuel (zlen (enc_doc fs)) ->
  (forall d T', T' ++ Y = X -> holds d fs -> outcome Y P (k d T')) ->
  outcome Y P (command_doc fuel T early k).
Proof.
  intros W E L F H. unfold command_doc.
  eapply (read_then_prefix fuel fs T X Y); [exact W|exact E|exact L|exact F|]; intros d T' -> EX Hd Sz V.
  rewrite V. cbn [bind]. replace (zlen (enc_doc fs ++ T') <? zlen (enc_doc fs)) with false by zl.
  rewrite from_app by reflexivity. cbn [bind]. auto.
Qed.

Lemma reply_doc_prefix fuel fs T X Y P k : wf_fields fs -> T ++ Y = enc_doc fs ++ X ->
  zlen (T ++ Y) < 2147483648 -> enough fuel (zlen (enc_doc fs)) ->
  (forall d T', T' ++ Y = X -> holds d fs -> outcome Y P (k d T')) ->
  outcome Y P (reply_doc fuel T k).
Proof.
  intros W E L F H. unfold reply_doc.
  eapply (read_then_prefix fuel fs T X Y); [exact W|exact E|exact L|exact F|]; intros d T' -> EX Hd Sz V.
  rewrite Sz. cbn [bind]. replace (zlen (enc_doc fs ++ T') <? zlen (enc_doc fs)) with false by zl.
  rewrite from_app by reflexivity. cbn [bind]. auto.
Qed.

Lemma parse_command_prefix fuel h db cmd args meta inputs T Y :
  smsg_ok (SCommand db cmd args meta inputs) -> T ++ Y = body_of (SCommand db cmd args meta inputs) ->
  enough fuel (zlen (body_of (SCommand db cmd args meta inputs))) ->
  outcome Y (fun m => shows_msg m (SCommand db cmd args meta inputs) /\ msg_header m = h) (parse_command fuel h T).
Proof.
  intros (L & N1 & N2 & W1 & W2 & W3) E F. cbn [body_of] in *. unfold parse_command.
  unfold enough in F. zlens_in F. zlens_in L. posl.
  destruct (cstring_prefix db T Y _ N1 E) as [(T2 & -> & E2 & ->)|(NY & e & ->)]; [|now apply outcome_err].
  replace (zlen (cstring db ++ T2) <? zlen db + 1) with false by (unfold cstring; zl).
  rewrite from_app by (unfold cstring; zl). cbn [bind].
  destruct (cstring_prefix cmd T2 Y _ N2 E2) as [(T3 & -> & E3 & ->)|(NY & e & ->)]; [|now apply outcome_err].
  replace (zlen (cstring cmd ++ T3) <? zlen cmd + 1) with false by (unfold cstring; zl).
  rewrite from_app by (unfold cstring; zl). cbn [bind].
  eapply command_doc_prefix; [exact W1|exact E3|rewrite E3; zlens; lia|unfold enough; lia|].
  intros d T4 E4 Hd.
  eapply command_doc_prefix; [exact W2|exact E4|rewrite E4; zlens; lia|unfold enough; lia|].
  intros d2 T5 E5 Hd2.
  eapply command_docs_prefix; [exact W3|exact E5|rewrite E5; lia|unfold enough; lia|unfold zlen; lia|].
  intros ds Hds. left. eexists. split; [reflexivity|]. intros EY. destruct (Hds EY) as (ds' & -> & Hh).
  split; [cbn; auto 8|reflexivity].
Qed.

Lemma parse_command_reply_prefix fuel h reply meta outs T Y :
  smsg_ok (SCommandReply reply meta outs) -> T ++ Y = body_of (SCommandReply reply meta outs) ->
  enough fuel (zlen (body_of (SCommandReply reply meta outs))) ->
  outcome Y (fun m => shows_msg m (SCommandReply reply meta outs) /\ msg_header m = h) (parse_command_reply fuel h T).
Proof.
  intros (L & W1 & W2 & W3) E F. cbn [body_of] in *. unfold parse_command_reply.
  unfold enough in F. zlens_in F. zlens_in L. posl.
  eapply reply_doc_prefix; [exact W1|exact E|rewrite E; zlens; lia|unfold enough; lia|].
  intros d T4 E4 Hd.
  eapply reply_doc_prefix; [exact W2|exact E4|rewrite E4; zlens; lia|unfold enough; lia|].
  intros d2 T5 E5 Hd2.
  eapply command_docs_prefix; [exact W3|exact E5|rewrite E5; lia|unfold enough; lia|unfold zlen; lia|].
  intros ds Hds. left. eexists. split; [reflexivity|]. intros EY. destruct (Hds EY) as (ds' & -> & Hh).
  split; [cbn; auto 8|reflexivity].
Qed.

(* what a query message becomes when it is received: itself, or the command it stands for *)
Definition received_query (h : header) (s : smsg) (m : wmsg) : Prop :=
  match s with
  | SQuery flags skip nret ns query project =>
      (~ command_ns ns /\ shows_msg m s /\ msg_header m = h) \/
      (exists db rest k v tl d, ns = db ++ 46 :: 36 :: rest /\ Forall (fun c => c <> 46) db /\
         query = (k, v) :: tl /\ holds d query /\
         m = MCommand (new_header 2010) db k (Some d) None [] true)
  | _ => False
  end.

Lemma namespace_to_db_spec db rest : Forall (fun c => c <> 46) db ->
  namespace_to_db (db ++ 46 :: rest) = Ret db.
Proof.
  intros F. unfold namespace_to_db.
  assert (E : index_byte (db ++ 46 :: rest) 46 = Some (zlen db)) by (apply index_byte_some; eauto).
  rewrite E. rewrite (goslice_eq _ 0 (zlen db) [] db (46 :: rest)); auto.
Qed.

Lemma first_key_ok d k v tl : holds d ((k, v) :: tl) -> wf_fields ((k, v) :: tl) -> small ((k, v) :: tl) ->
  first_key d = Ret k.
Proof.
  intros (N & D) W L. set (fs := (k, v) :: tl) in *.
  assert (F : enough (S (Z.to_nat (zlen (enc_doc fs)))) (zlen (enc_doc fs))) by (unfold enough; posl; lia).
  destruct (doc_obtained_good _ N _ d W L F D) as (R & _). subst fs.
  destruct d as [|[w|] d]; cbn [rep_doc] in R; try contradiction. destruct R as [R _].
  cbn [first_key]. eapply elem_key_rep; eauto.
Qed.

Lemma finish_query_ok h flags skip nret ns q fq fp p :
  wf_fields fq -> small fq -> holds q fq -> holds_opt p fp -> (command_ns ns -> fq <> []) ->
  exists m, finish_query h flags skip nret ns q p = Ret (Some m, None) /\
    received_query h (SQuery flags skip nret ns fq fp) m.
Proof.
  intros W L Hq Hp NE. unfold finish_query. destruct (is_command_spec ns) as (b & -> & Hb). cbn [bind].
  destruct b.
  - assert (C : command_ns ns) by now apply Hb. pose proof (NE C) as NE'. destruct C as (db & rest & -> & Fd).
    destruct fq as [|[k v] tl]; [easy|]. unfold convert_to_command.
    rewrite namespace_to_db_spec by auto. cbn [bind]. erewrite first_key_ok by eauto. cbn [bind].
    eexists. split; [reflexivity|]. cbn. right. exists db, rest, k, v, tl, q. auto 8.
  - eexists. split; [reflexivity|]. left. split; [intros C; apply Hb in C; discriminate|]. split; [cbn; auto 8|reflexivity].
Qed.

Lemma parse_query_prefix fuel h flags skip nret ns query project T Y :
  smsg_ok (SQuery flags skip nret ns query project) -> (command_ns ns -> query <> []) ->
  T ++ Y = body_of (SQuery flags skip nret ns query project) ->
  enough fuel (zlen (body_of (SQuery flags skip nret ns query project))) ->
  outcome Y (received_query h (SQuery flags skip nret ns query project)) (parse_query fuel h T).
Proof.
  intros (L & I1 & I2 & I3 & N & W1 & W2) NE E F. cbn [body_of] in *. unfold parse_query.
  unfold enough in F. zlens_in F. zlens_in L. posl.
  destruct (zlen T <? 4) eqn:E5.
  { apply outcome_err. eapply short_rest; [exact E|zlens; lia]. }
  destruct (take _ _ _ _ E) as (T1 & -> & E1); [zlens; lia|]. clear E E5.
  rewrite w_i32_le by auto. cbn [bind].
  rewrite from_app by reflexivity. cbn [bind].
  destruct (cstring_prefix ns T1 Y _ N E1) as [(T2 & -> & E2 & ->)|(NY & e & ->)]; [|now apply outcome_err].
  set (pre := le32 flags ++ cstring ns). replace (le32 flags ++ cstring ns ++ T2) with (pre ++ T2) by (subst pre; now rewrite <- app_assoc).
  replace (4 + (zlen ns + 1)) with (zlen pre) by (subst pre; unfold cstring; zl). cbv zeta. rewrite zlen_app.
  assert (E20 : T2 ++ Y = (le32 skip ++ le32 nret) ++ enc_doc query ++ enc_opt project) by (rewrite E2, <- !app_assoc; reflexivity).
  destruct (zlen pre + zlen T2 <? zlen pre + 8) eqn:E5.
  { apply outcome_err. eapply short_rest; [exact E20|zlens; lia]. }
  destruct (take _ _ _ _ E20) as (T3 & -> & E3); [zlens; lia|].
  rewrite from_app by reflexivity. cbn [bind]. rewrite <- app_assoc, w_i32_le by auto. cbn [bind].
  rewrite (from_app' _ (pre ++ le32 skip) (le32 nret ++ T3)) by (zlens; auto; now rewrite <- app_assoc). cbn [bind].
  rewrite w_i32_le by auto. cbn [bind].
  rewrite (from_app' _ (pre ++ le32 skip ++ le32 nret) T3) by (zlens; try lia; now rewrite <- !app_assoc). cbn [bind].
  eapply (read_then_prefix fuel query T3 _ Y); [exact W1|exact E3|rewrite E3; zlens; lia|unfold enough; lia|].
  intros d T' ET EX Hd Sz V. rewrite Sz. cbn [bind]. rewrite ET.
  assert (Sq : small query) by (unfold small; lia).
  destruct T' as [|t T'].
  - replace (zlen pre + 8 + zlen (enc_doc query) <? zlen pre + zlen (le32 skip ++ le32 nret ++ enc_doc query ++ [])) with false by zl.
    destruct project as [p|].
    + destruct (finish_query_ok h flags skip nret ns d query None None W1 Sq Hd I NE) as (m & Em & _).
      rewrite Em. left. eexists. split; [reflexivity|]. intros ->. exfalso. cbn in EX.
      pose proof (doc_min p) as Hm. rewrite <- EX in Hm. zlens_in Hm. lia.
    + destruct (finish_query_ok h flags skip nret ns d query None None W1 Sq Hd I NE) as (m & Em & Rm).
      rewrite Em. left. eexists. split; [reflexivity|]. auto.
  - replace (zlen pre + 8 + zlen (enc_doc query) <? zlen pre + zlen (le32 skip ++ le32 nret ++ enc_doc query ++ t :: T')) with true by zl.
    rewrite (from_app' _ (pre ++ le32 skip ++ le32 nret ++ enc_doc query) (t :: T')) by (zlens; try lia; now rewrite <- !app_assoc). cbn [bind].
    destruct project as [p|]; [|discriminate EX]. cbn [enc_opt] in *.
    eapply (read_then_prefix fuel p (t :: T') [] Y); [exact W2|now rewrite app_nil_r|rewrite EX; zlens; lia|unfold enough; lia|].
    intros d2 T'' ET2 EX2 Hd2 Sz2 V2. rewrite Sz2. cbn [bind].
    destruct (finish_query_ok h flags skip nret ns d query (Some p) (Some d2) W1 Sq Hd Hd2 NE) as (m & Em & Rm).
    rewrite Em. left. eexists. split; [reflexivity|]. auto.
Qed.

(* ------------------------------------------------------------------------ OP_MSG *)

Ltac fold_zlen := match goal with |- context [Z.of_nat (length ?l)] => change (Z.of_nat (length l)) with (zlen l) end.

Lemma seq_docs_ok fuel fss : forall n pre post acc remaining,
  Forall wf_fields fss -> zlen (enc_docs fss) < 2147483648 -> enough fuel (zlen (enc_docs fss)) ->
  zlen (enc_docs fss) <= Z.of_nat n -> zlen (enc_docs fss) - 1 <= remaining <= zlen (enc_docs fss) ->
  exists ds, seq_docs n fuel (pre ++ enc_docs fss ++ post) (zlen pre) remaining acc =
      Ret (inl (acc ++ ds, zlen pre + zlen (enc_docs fss))) /\ Forall2 holds ds fss.
Proof.
  induction fss as [|fs fss IH]; intros n pre post acc remaining W L F Hn Hr.
  - change (zlen (enc_docs [])) with 0 in *. exists []. split; [|constructor].
    destruct n; cbn [seq_docs]; replace (0 <? remaining) with false by lia; now rewrite app_nil_r, Z.add_0_r.
  - inversion W as [|? ? W1 W2]; subst. rewrite zlen_docs_cons in *. unfold enough in F.
    pose proof (zlen_nonneg (enc_docs fss)). pose proof (doc_min fs).
    destruct n as [|n]; [lia|]. cbn [seq_docs]. replace (0 <? remaining) with true by lia.
    replace (enc_docs (fs :: fss)) with (enc_doc fs ++ enc_docs fss) by reflexivity. rewrite <- app_assoc.
    rewrite from_app by reflexivity. cbn [bind]. destruct (doc_head fs) as (r & Er).
    assert (E4 : w_i32 (enc_doc fs ++ enc_docs fss ++ post) = Ret (zlen (enc_doc fs))).
    { rewrite Er at 1. rewrite <- app_assoc. apply w_i32_le. apply i32_of_small. lia. }
    rewrite E4. cbn [bind].
    rewrite (goslice_eq _ (zlen pre) (zlen pre + zlen (enc_doc fs)) pre (enc_doc fs) (enc_docs fss ++ post)) by auto. cbn [bind].
    destruct (read_doc_prefix fuel fs (enc_doc fs) [] [] W1) as [(d & T' & _ & _ & R & Hd)|(N & _)];
      [reflexivity|zlens; lia|unfold enough; lia| |easy].
    rewrite R. cbn [bind].
    destruct (IH n (pre ++ enc_doc fs) post (acc ++ [d]) (remaining - zlen (enc_doc fs))) as (ds & E & HF); auto;
      [lia|unfold enough; lia|lia|lia|].
    exists (d :: ds). split; [|now constructor]. rewrite <- app_assoc in E. rewrite zlen_app in E. rewrite E.
    do 3 f_equal; [now rewrite <- app_assoc|lia].
Qed.

(* the sections as MongoDB defines them count the four bytes of the size and what follows; this
   package also counts the kind byte.  k is what is counted besides name and documents. *)
Definition sec_bytes_with (k : Z) (s : ssec) : bytes :=
  match s with
  | SBody d => 0 :: enc_doc d
  | SSeq ident docs => 1 :: le32 (k + zlen (cstring ident ++ enc_docs docs)) ++ cstring ident ++ enc_docs docs
  end.
Lemma sec_bytes_5 s : sec_bytes s = sec_bytes_with 5 s.
Proof. destruct s; reflexivity. Qed.
Lemma zlen_sec k s : zlen (sec_bytes_with k s) = zlen (sec_bytes s).
Proof. destruct s; cbn [sec_bytes sec_bytes_with]; zl. Qed.
Lemma sec_min k s : 6 <= zlen (sec_bytes_with k s).
Proof. destruct s as [d|i ds]; cbn [sec_bytes_with]; unfold cstring; [pose proof (doc_min d)|]; zl. Qed.

Lemma parse_section_ok fuel k t pre post : 4 <= k <= 5 -> sec_ok t -> zlen (sec_bytes t) < 2147483647 ->
  enough fuel (zlen (sec_bytes t)) ->
  exists s, parse_section fuel (pre ++ sec_bytes_with k t ++ post) (zlen pre) =
      Ret (inl (s, zlen pre + zlen (sec_bytes_with k t))) /\ shows_sec s t.
Proof.
  intros Hk W L F. unfold parse_section. destruct t as [fs|i fss].
  - cbn [sec_bytes sec_bytes_with sec_ok] in *. unfold enough in F. zlens_in L. zlens_in F.
    rewrite <- app_comm_cons. rewrite goindex_app by reflexivity. cbn [bind]. change (0 =? 0) with true. cbv iota zeta.
    rewrite (from_app' _ (pre ++ [0]) (enc_doc fs ++ post)) by (zlens; auto; now rewrite <- app_assoc). cbn [bind].
    destruct (doc_head fs) as (r & Er).
    assert (E4 : w_i32 (enc_doc fs ++ post) = Ret (zlen (enc_doc fs))).
    { rewrite Er at 1. rewrite <- app_assoc. apply w_i32_le. apply i32_of_small. lia. }
    rewrite E4. cbn [bind].
    rewrite (goslice_eq _ (zlen pre + 1) (zlen pre + 1 + zlen (enc_doc fs)) (pre ++ [0]) (enc_doc fs) post)
      by (zlens; auto; now rewrite <- app_assoc). cbn [bind].
    destruct (read_doc_prefix fuel fs (enc_doc fs) [] [] W) as [(d & T' & _ & _ & R & Hd)|(N & _)];
      [reflexivity|zlens; lia|unfold enough; lia| |easy].
    rewrite R. cbn [bind]. destruct (holds_size fuel d fs Hd W) as [-> _]; [unfold small; lia|unfold enough; lia|].
    cbn [bind]. eexists. split; [do 3 f_equal; zl|exact Hd].
  - cbn [sec_bytes sec_bytes_with sec_ok] in *. cbv zeta in *. destruct W as [Ni W]. unfold enough in F. zlens_in L. zlens_in F.
    unfold cstring in L, F. zlens_in L. zlens_in F. posl.
    rewrite <- app_comm_cons. rewrite goindex_app by reflexivity. cbn [bind]. change (1 =? 0) with false. change (1 =? 1) with true. cbv iota zeta.
    set (sz := k + zlen (cstring i ++ enc_docs fss)).
    assert (Esz : sz = k + zlen i + 1 + zlen (enc_docs fss)) by (subst sz; unfold cstring; zl).
    rewrite (from_app' _ (pre ++ [1]) (le32 sz ++ cstring i ++ enc_docs fss ++ post)) by (try (zlens; lia); lst). cbn [bind].
    rewrite w_i32_le by (unfold is_i32; lia). cbn [bind].
    rewrite (from_app' _ (pre ++ 1 :: le32 sz) (cstring i ++ enc_docs fss ++ post)) by (try (zlens; lia); lst). cbn [bind].
    destruct (cstring_prefix i (cstring i ++ enc_docs fss ++ post) [] (enc_docs fss ++ post) Ni) as [(T2 & E2 & _ & ->)|(NY & _)];
      [now rewrite app_nil_r| |easy].
    destruct (seq_docs_ok fuel fss (length (pre ++ 1 :: (le32 sz ++ cstring i ++ enc_docs fss) ++ post))
      (pre ++ 1 :: le32 sz ++ cstring i) post [] (sz - 1 - 4 - zlen i - 1) W) as (ds & E & HF).
    { lia. } { unfold enough; lia. } { fold_zlen. unfold cstring. zl. } { lia. }
    replace (zlen (pre ++ 1 :: le32 sz ++ cstring i)) with (zlen pre + 1 + 4 + (zlen i + 1)) in E by (unfold cstring; zl).
    replace ((pre ++ 1 :: le32 sz ++ cstring i) ++ enc_docs fss ++ post) with (pre ++ 1 :: (le32 sz ++ cstring i ++ enc_docs fss) ++ post) in E
      by lst.
    rewrite E. cbn [bind app]. eexists (Seq sz i ds). split; [|split; [reflexivity|exact HF]]. do 3 f_equal. unfold cstring. zl.
Qed.

Lemma parse_sections_ok fuel k ts : 4 <= k <= 5 -> forall n pre post acc, Forall sec_ok ts ->
  zlen (concat (map (sec_bytes_with k) ts)) < 2147483647 -> enough fuel (zlen (concat (map (sec_bytes_with k) ts))) ->
  zlen (concat (map (sec_bytes_with k) ts)) <= Z.of_nat n -> zlen post = 0 \/ zlen post = 4 ->
  exists ss, parse_sections n fuel (pre ++ concat (map (sec_bytes_with k) ts) ++ post) (zlen pre) acc =
     Ret (inl (acc ++ ss, zlen pre + zlen (concat (map (sec_bytes_with k) ts)))) /\ Forall2 shows_sec ss ts.
Proof.
  intros Hk. induction ts as [|t ts IH]; intros n pre post acc W L F Hn Hp.
  - exists []. split; [|constructor]. cbn [map concat app]. rewrite app_nil_r.
    destruct n; cbn [parse_sections]; replace (zlen pre <? zlen (pre ++ post) - 4) with false by zl; do 3 f_equal; zl.
  - inversion W as [|? ? W1 W2]; subst. cbn [map concat] in *. unfold enough in F. zlens_in L. zlens_in F. zlens_in Hn.
    pose proof (sec_min k t). pose proof (zlen_sec k t). posl.
    destruct n as [|n]; [lia|]. cbn [parse_sections].
    replace (zlen pre <? zlen (pre ++ (sec_bytes_with k t ++ concat (map (sec_bytes_with k) ts)) ++ post) - 4) with true by zl.
    rewrite <- !app_assoc.
    destruct (parse_section_ok fuel k t pre (concat (map (sec_bytes_with k) ts) ++ post) Hk W1) as (s & E & Hs);
      [lia|unfold enough; lia|].
    rewrite E. cbn [bind].
    destruct (IH n (pre ++ sec_bytes_with k t) post (acc ++ [s])) as (ss & E2 & HF); auto; [lia|unfold enough; lia|lia|].
    rewrite <- app_assoc in E2. rewrite zlen_app in E2. rewrite E2. exists (s :: ss). split; [|now constructor].
    do 3 f_equal; [now rewrite <- app_assoc|zl].
Qed.

Lemma land1_u32 f : Z.land (u32 f) 1 = Z.land f 1.
Proof. change 1 with (Z.ones 1). rewrite !Z.land_ones by lia. unfold u32. change (2 ^ 1) with 2. lia. Qed.
Lemma le32_of_u32 f : is_u32 f -> w_i32 (le32 f) = Ret (i32 f) /\ u32 (i32 f) = f.
Proof.
  intros H. split; [|unfold i32, u32, is_u32 in *; lia].
  rewrite <- (app_nil_r (le32 f)). rewrite <- le32_i32. apply w_i32_le. apply i32_range.
Qed.

Definition op_body_with (k flags : Z) (items : list ssec) (checksum : option Z) : bytes :=
  le32 flags ++ concat (map (sec_bytes_with k) items) ++ (match checksum with Some c => le32 c | None => [] end).
Lemma op_body_5 flags items checksum : body_of (SOp flags items checksum) = op_body_with 5 flags items checksum.
Proof. reflexivity. Qed.
Lemma zlen_op_body k flags items checksum :
  zlen (op_body_with k flags items checksum) = zlen (body_of (SOp flags items checksum)).
Proof.
  unfold op_body_with. cbn [body_of]. zlens. f_equal. f_equal.
  induction items as [|t ts IH]; [reflexivity|]. cbn [map concat]. zlens. now rewrite IH, zlen_sec.
Qed.

Lemma parse_msg_ok fuel h k flags items checksum : 4 <= k <= 5 -> smsg_ok (SOp flags items checksum) ->
  enough fuel (zlen (body_of (SOp flags items checksum))) ->
  exists m, parse_msg fuel h (op_body_with k flags items checksum) = Ret (Some m, None) /\
    shows_msg m (SOp flags items checksum) /\
    msg_header m = with_size h (zlen (op_body_with k flags items checksum)).
Proof.
  intros Hk (L & I1 & W & C) F. rewrite <- (zlen_op_body k) in L, F. unfold op_body_with in *. unfold parse_msg.
  unfold enough in F. zlens_in L. zlens_in F. posl.
  set (post := match checksum with Some c => le32 c | None => [] end) in *.
  set (secs := concat (map (sec_bytes_with k) items)) in *.
  replace (zlen (le32 flags ++ secs ++ post) <? 4) with false by zl.
  rewrite from_0. cbn [bind]. rewrite <- le32_i32. rewrite w_i32_le by apply i32_range. cbn [bind].
  destruct (le32_of_u32 flags I1) as [_ ->].
  destruct (parse_sections_ok fuel k items Hk (length (le32 (i32 flags) ++ secs ++ post)) (le32 (i32 flags)) post [] W) as (ss & E & HF).
  { fold secs. lia. } { fold secs. unfold enough. lia. } { fold secs. fold_zlen. zl. }
  { subst post. destruct checksum; [right|left]; reflexivity. }
  fold secs in E. change (zlen (le32 (i32 flags))) with 4 in E. rewrite E. cbn [bind app].
  destruct checksum as [c|].
  - destruct C as (Ic & Nc & Lf). rewrite Lf. change (1 =? 1) with true. cbn [andb].
    replace (4 + zlen secs =? zlen (le32 (i32 flags) ++ secs ++ post) - 4) with true by (subst post; zl).
    rewrite (from_app' _ (le32 (i32 flags) ++ secs) post) by (zlens; auto; now rewrite <- app_assoc). cbn [bind].
    subst post. replace (w_i32 (le32 c)) with (Ret c) by (symmetry; rewrite <- (app_nil_r (le32 c)); now apply w_i32_le). cbn [bind].
    eexists. split; [reflexivity|]. split; [cbn; auto|]. cbn. f_equal. zl.
  - rewrite C. change (0 =? 1) with false. cbn [andb bind].
    eexists. split; [reflexivity|]. split; [cbn; auto|]. cbn. f_equal. subst post. zl.
Qed.

(* -------------------------------------------------------------- all messages *)

(* what the receiver of s, with header h, is handed *)
Definition received (h : header) (s : smsg) (m : wmsg) : Prop :=
  match s with
  | SQuery _ _ _ _ _ _ => received_query h s m
  | SOp _ _ _ => shows_msg m s /\ msg_header m = MkHdr (zlen (body_of s)) (h_req h) (h_resp h) (h_op h)
  | _ => shows_msg m s /\ msg_header m = h
  end.
(* a query on a command namespace names a command *)
Definition names_command (s : smsg) : Prop :=
  match s with SQuery _ _ _ ns query _ => command_ns ns -> query <> [] | _ => True end.

Lemma parse_prefix fuel h s T Y : smsg_ok s -> names_command s -> not_op s -> h_op h = op_of s ->
  T ++ Y = body_of s -> enough fuel (zlen (body_of s)) -> outcome Y (received h s) (parse fuel h T).
Proof.
  intros W N NO Ho E F. unfold parse. rewrite Ho. destruct s; try contradiction NO; cbn [op_of Z.eqb Pos.eqb received].
  - now apply parse_reply_prefix.
  - now apply parse_update_prefix.
  - now apply parse_insert_prefix.
  - now apply parse_query_prefix.
  - now apply parse_get_more_prefix.
  - now apply parse_delete_prefix.
  - now apply parse_kill_prefix.
  - now apply parse_command_prefix.
  - now apply parse_command_reply_prefix.
Qed.

Lemma parse_ok fuel h s : smsg_ok s -> names_command s -> h_op h = op_of s -> enough fuel (zlen (body_of s)) ->
  exists m, parse fuel h (body_of s) = Ret (Some m, None) /\ received h s m.
Proof.
  intros W N Ho F.
  assert (D : not_op s \/ exists f i c, s = SOp f i c) by (destruct s; cbn; eauto).
  destruct D as [NO|(f & i & c & ->)].
  - destruct (parse_prefix fuel h s (body_of s) [] W N NO Ho) as [(m & E & R)|(C & _)]; auto; [apply app_nil_r| |easy]. eauto.
  - destruct (parse_msg_ok fuel h 5 f i c ltac:(lia) W F) as (m & E & S & Hh). rewrite <- op_body_5 in E, Hh.
    exists m. split; [|split; [exact S|]].
    + unfold parse. rewrite Ho. exact E.
    + rewrite Hh. unfold with_size. rewrite i32_id; [reflexivity|]. destruct W as [L _]. unfold is_i32. posl. lia.
Qed.

(* ------------------------------------------------------------------- framing *)

Lemma zlen_firstn_le {A} (l : list A) n : 0 <= n <= zlen l -> zlen (firstn (Z.to_nat n) l) = n.
Proof. intros. unfold zlen in *. rewrite firstn_length. lia. Qed.
Lemma zlen_skipn_le {A} (l : list A) n : 0 <= n <= zlen l -> zlen (skipn (Z.to_nat n) l) = zlen l - n.
Proof. intros. unfold zlen in *. rewrite skipn_length. lia. Qed.
Lemma firstn_all_z {A} (l : list A) n : zlen l <= n -> firstn (Z.to_nat n) l = l.
Proof. intros. apply firstn_all2. unfold zlen in *. lia. Qed.
Lemma skipn_all_z {A} (l : list A) n : zlen l <= n -> skipn (Z.to_nat n) l = [].
Proof. intros. apply skipn_all2. unfold zlen in *. lia. Qed.
Lemma zlen_nil_inv {A} (l : list A) : zlen l = 0 -> l = [].
Proof. destruct l; [reflexivity|]. zlens. posl. lia. Qed.
Lemma firstn_app_len {A} (p q : list A) : firstn (length p) (p ++ q) = p.
Proof. rewrite firstn_app, firstn_all, Nat.sub_diag. apply app_nil_r. Qed.
Lemma skipn_app_len {A} (p q : list A) : skipn (length p) (p ++ q) = q.
Proof. rewrite skipn_app, skipn_all, Nat.sub_diag. reflexivity. Qed.
Lemma empty_pos (b : bytes) : 0 < zlen b -> empty b = false.
Proof. destruct b; [change (zlen (@nil Z)) with 0; lia|reflexivity]. Qed.

(* nothing follows the message: any splitting will do *)
Lemma rm_all e size : size < 2147483648 -> forall n D sched acc rd,
  zlen D = size - rd -> 0 <= rd -> (length sched < n)%nat ->
  exists sched', rm_loop n (MkStream D sched e false) size rd acc = Ret (MkStream [] sched' e false, inl (acc ++ D)).
Proof.
  intros L. induction n as [|n IH]; intros D sched acc rd Hz Hr Hn; [lia|]. pose proof (zlen_nonneg D).
  cbn [rm_loop]. rewrite i32_id by (unfold is_i32; lia).
  destruct (rd <? size) eqn:E.
  2: { assert (D = []) by (apply zlen_nil_inv; lia). subst D. rewrite app_nil_r. eauto. }
  unfold st_read. cbn [st_data st_sched st_err st_last]. rewrite empty_pos by lia. rewrite andb_false_r.
  destruct sched as [|c sched].
  - rewrite firstn_all_z, skipn_all_z by lia. cbn [tl].
    destruct n; cbn [rm_loop]; replace (i32 (rd + zlen D) <? size) with false by (rewrite i32_id by (unfold is_i32; lia); lia); eauto.
  - cbn [tl length] in *. set (k := Z.min (Z.of_nat c) size).
    destruct (Z_le_gt_dec (zlen D) k) as [Hk|Hk].
    + rewrite firstn_all_z, skipn_all_z by lia.
      destruct (IH [] sched (acc ++ D) (rd + zlen D)) as (sc & E2); [change (zlen []) with 0; lia|lia|lia|].
      rewrite E2, app_nil_r. eauto.
    + destruct (IH (skipn (Z.to_nat k) D) sched (acc ++ firstn (Z.to_nat k) D) (rd + k)) as (sc & E2);
        [rewrite zlen_skipn_le by lia; lia|lia|lia|].
      rewrite zlen_firstn_le by lia. rewrite E2. rewrite <- app_assoc, firstn_skipn. eauto.
Qed.

Fixpoint total (l : list nat) : Z := match l with [] => 0 | c :: l => Z.of_nat c + total l end.
Lemma total_nonneg l : 0 <= total l.
Proof. induction l; cbn [total]; lia. Qed.

(* the splitting has a cut at the end of the message *)
Lemma rm_cut e last size k rest sched2 : size < 2147483648 -> 0 < Z.of_nat k -> rest <> [] \/ last = false ->
  forall l n D acc rd, zlen D = size - rd -> 0 <= rd -> total l + Z.of_nat k = zlen D -> (length l < n)%nat ->
  rm_loop n (MkStream (D ++ rest) (l ++ k :: sched2) e last) size rd acc =
    Ret (MkStream rest sched2 e last, inl (acc ++ D)).
Proof.
  intros L Hk Hl. assert (Hz : 0 < zlen rest \/ last = false).
  { destruct Hl as [Hl|]; auto. left. destruct rest; [easy|zl]. }
  induction l as [|c l IH]; intros n D acc rd Hd Hr Ht Hn; (destruct n as [|n]; [cbn in Hn; lia|]);
    pose proof (zlen_nonneg D); cbn [rm_loop]; rewrite i32_id by (unfold is_i32; lia); cbn [total] in Ht.
  - replace (rd <? size) with true by lia. unfold st_read. cbn [st_data st_sched st_err st_last app tl].
    rewrite empty_pos by zl. replace (Z.min (Z.of_nat k) size) with (zlen D) by lia.
    rewrite to_nat_zlen, firstn_app_len, skipn_app_len.
    replace (empty rest && last) with false
      by (destruct Hz as [Hz| ->]; [rewrite empty_pos by auto; reflexivity|now rewrite andb_false_r]).
    destruct n; cbn [rm_loop]; replace (i32 (rd + zlen D) <? size) with false by (rewrite i32_id by (unfold is_i32; lia); lia); eauto.
  - pose proof (total_nonneg l). replace (rd <? size) with true by lia. unfold st_read. cbn [st_data st_sched st_err st_last app tl].
    rewrite empty_pos by zl. replace (Z.min (Z.of_nat c) size) with (Z.of_nat c) by lia.
    rewrite firstn_app, skipn_app. replace (Z.to_nat (Z.of_nat c) - length D)%nat with 0%nat by (unfold zlen in *; lia).
    cbn [firstn skipn]. rewrite app_nil_r.
    rewrite empty_pos by (rewrite zlen_app, zlen_skipn_le by lia; posl; lia). cbn [andb].
    cbn [length] in Hn. rewrite IH; [|rewrite zlen_skipn_le, zlen_firstn_le by lia; lia|posl; lia|rewrite zlen_skipn_le by lia; lia|lia].
    now rewrite <- app_assoc, firstn_skipn.
Qed.

Lemma read_message_body fuel s1 s2 size req resp op body :
  is_i32 req -> is_i32 resp -> is_i32 op -> st_data s1 <> [] -> 16 <= size <= 209715200 ->
  forall s, (exists got, st_read s 4 = (s1, got, None) /\ got = le32 size) ->
  rm_loop (length (st_sched s1) + 3) s1 (size - 4) 0 [] = Ret (s2, inl (le32 req ++ le32 resp ++ le32 op ++ body)) ->
  read_message fuel s = (s2, parse fuel (MkHdr size req resp op) body).
Proof.
  intros I1 I2 I3 _ L s (got & E & ->) E2. unfold read_message. rewrite E.
  change (negb (zlen (le32 size) =? 4)) with false. cbv iota.
  replace (w_i32 (le32 size)) with (Ret size) by (symmetry; rewrite <- (app_nil_r (le32 size)); apply w_i32_le; unfold is_i32; lia).
  replace (209715200 <? size) with false by lia. replace (size <? 0) with false by lia. rewrite E2.
  f_equal. replace (zlen (le32 req ++ le32 resp ++ le32 op ++ body) <? 12) with false by zl.
  rewrite w_i32_le by auto. cbn [bind]. rewrite from_app by reflexivity. cbn [bind]. rewrite w_i32_le by auto. cbn [bind].
  rewrite (from_app' _ (le32 req ++ le32 resp) (le32 op ++ body)) by (zlens; auto; now rewrite <- app_assoc). cbn [bind].
  rewrite w_i32_le by auto. cbn [bind].
  rewrite (from_app' _ (le32 req ++ le32 resp ++ le32 op) body) by (zlens; auto; now rewrite <- !app_assoc). reflexivity.
Qed.

Definition first_read (sched : list nat) : Prop :=
  match sched with [] => True | c :: _ => 4 <= Z.of_nat c end.

Lemma first_four size X sched e last : X <> [] -> first_read sched ->
  st_read (MkStream (le32 size ++ X) sched e last) 4 = (MkStream X (tl sched) e last, le32 size, None).
Proof.
  intros N F. unfold st_read. cbn [st_data st_sched st_err st_last]. rewrite empty_pos by zl.
  replace (match sched with [] => 4 | c :: _ => Z.min (Z.of_nat c) 4 end) with 4 by (destruct sched; cbn in *; lia).
  rewrite (firstn_app_len (le32 size) X : firstn (Z.to_nat 4) _ = _), (skipn_app_len (le32 size) X : skipn (Z.to_nat 4) _ = _).
  destruct X; [easy|reflexivity].
Qed.

Lemma wire_body_ne req resp s : le32 req ++ le32 resp ++ le32 (op_of s) ++ body_of s <> [].
Proof. discriminate. Qed.

Lemma op_i32 s : is_i32 (op_of s).
Proof. destruct s; unfold is_i32; cbn; lia. Qed.

Lemma read_message_all fuel req resp s sched e :
  is_i32 req -> is_i32 resp -> smsg_ok s -> zlen (wire req resp s) <= 209715200 -> first_read sched ->
  exists sched', read_message fuel (MkStream (wire req resp s) sched e false) =
    (MkStream [] sched' e false, parse fuel (MkHdr (zlen (wire req resp s)) req resp (op_of s)) (body_of s)).
Proof.
  intros I1 I2 W L F. rewrite zlen_wire in *. pose proof (zlen_nonneg (body_of s)) as Hp. set (size := 16 + zlen (body_of s)) in *.
  destruct (rm_all e (size - 4) ltac:(lia) (length (tl sched) + 3) (le32 req ++ le32 resp ++ le32 (op_of s) ++ body_of s) (tl sched) [] 0)
    as (sc & E); [zlens; lia|lia|lia|].
  exists sc. eapply read_message_body; [auto|auto|apply op_i32| |lia| |exact E].
  - cbn. discriminate.
  - eexists. split; [apply first_four; [apply wire_body_ne|exact F]|reflexivity].
Qed.

Lemma read_message_cut fuel req resp s rest c l k sched2 e last :
  is_i32 req -> is_i32 resp -> smsg_ok s -> zlen (wire req resp s) <= 209715200 ->
  4 <= Z.of_nat c -> 0 < Z.of_nat k -> 4 + total l + Z.of_nat k = zlen (wire req resp s) -> rest <> [] \/ last = false ->
  read_message fuel (MkStream (wire req resp s ++ rest) (c :: l ++ k :: sched2) e last) =
    (MkStream rest sched2 e last, parse fuel (MkHdr (zlen (wire req resp s)) req resp (op_of s)) (body_of s)).
Proof.
  intros I1 I2 W L F Hk Ht Hl. rewrite zlen_wire in *. pose proof (zlen_nonneg (body_of s)) as Hp. set (size := 16 + zlen (body_of s)) in *.
  pose proof (rm_cut e last (size - 4) k rest sched2 ltac:(lia) Hk Hl l (length (l ++ k :: sched2) + 3)
    (le32 req ++ le32 resp ++ le32 (op_of s) ++ body_of s) [] 0) as E.
  specialize (E ltac:(zlens; lia) ltac:(lia) ltac:(zlens; lia) ltac:(rewrite app_length; cbn [length]; lia)).
  eapply read_message_body; [auto|auto|apply op_i32| |lia| |exact E].
  - cbn. discriminate.
  - eexists. unfold wire. rewrite <- app_assoc. split; [apply first_four; [discriminate|exact F]|reflexivity].
Qed.

(* -------------------------------------------------------------------- sizes *)

Definition marshals (fuel : nat) (d : document) : Prop := exists b, doc_marshal fuel d = Ret (inl b).
Definition marshals_opt (fuel : nat) (d : option document) : Prop :=
  match d with Some d => marshals fuel d | None => True end.

Lemma opt_sizes fuel d n b : marshals_opt fuel d -> get_doc_size fuel d = Ret n -> write_doc fuel d = Ret b -> n = zlen b.
Proof.
  destruct d as [d|]; cbn [marshals_opt get_doc_size write_doc]; [|now intros _ [= <-] [= <-]].
  intros (x & M). rewrite M. rewrite (marshal_len _ _ _ M). cbn [bind]. intros [= <-] [= <-]. reflexivity.
Qed.
Lemma docs_sizes fuel ds : Forall (marshals fuel) ds -> forall n b, docs_size fuel ds = Ret n -> write_docs fuel ds = Ret b -> n = zlen b.
Proof.
  induction 1 as [|d ds M _ IH]; intros n b.
  - now intros [= <-] [= <-].
  - cbn [docs_size write_docs]. intros E1 E2.
    destruct (get_doc_size fuel (Some d)) as [x| |] eqn:A; cbn [bind] in E1; try discriminate.
    destruct (docs_size fuel ds) as [y| |] eqn:B; cbn [bind] in E1; try discriminate. injection E1 as <-.
    destruct (write_doc fuel (Some d)) as [x2| |] eqn:A2; cbn [bind] in E2; try discriminate.
    destruct (write_docs fuel ds) as [y2| |] eqn:B2; cbn [bind] in E2; try discriminate. injection E2 as <-.
    rewrite (opt_sizes fuel (Some d) x x2 M A A2), (IH y y2 eq_refl eq_refl). zl.
Qed.
