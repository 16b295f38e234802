(* Reading documents from an io.Reader: document.go:305-333 ReadFrom, reader.go:32-69
   NewFromIOReader, x_constructor.go:79-92 DCE.ReadFrom, over a model of the io.Reader
   contract and of io.ReadFull.  Proofs about any way the reader chops its answers. *)
Require Import ZArith List Bool Lia ZifyBool ZifyNat.
From Verif Require Import Base BSpec Elements Value Codec CodecRead Itoa CodecRep Api ApiProofs Tree
  GetterProofs ReaderOps CodecProps DocOps.
Import ListNotations.
Open Scope Z_scope.

(* -------------------------------------------------------------------- model *)

(* An io.Reader over the bytes st_data.  Each Read delivers at most the next number of
   st_sched (0 is a read of no bytes and no error), or all that is asked when st_sched is
   exhausted.  At the end of the data it reports st_err, together with the last bytes when
   st_last, else on the following call.  st_sched is any finite list: a terminating
   execution uses finitely many reads.  A reader that answers (0, nil) for ever is not
   modelled. *)
Record stream := MkStream { st_data : bytes; st_sched : list nat; st_err : gerr; st_last : bool }.

Definition empty (b : bytes) : bool := match b with [] => true | _ => false end.

(* io.Reader.Read(p), 0 < len(p) = want *)
Definition st_read (s : stream) (want : Z) : stream * bytes * option gerr :=
  if empty (st_data s) then (s, [], Some (st_err s)) else
  let n := match st_sched s with [] => want | c :: _ => Z.min (Z.of_nat c) want end in
  let got := firstn (Z.to_nat n) (st_data s) in
  let rest := skipn (Z.to_nat n) (st_data s) in
  (MkStream rest (tl (st_sched s)) (st_err s) (st_last s), got,
   if empty rest && st_last s then Some (st_err s) else None).

(* io.ReadFull(r, buf) = io.ReadAtLeast(r, buf, len(buf)): the bytes read and the error *)
Fixpoint rf_loop (fuel : nat) (s : stream) (want : Z) (acc : bytes) : go (stream * bytes * option gerr) :=
  if want <=? zlen acc then Ret (s, acc, None) else
  match fuel with
  | O => Fuel
  | S k =>
      let '(s', got, e) := st_read s (want - zlen acc) in
      let acc' := acc ++ got in
      match e with
      | None => rf_loop k s' want acc'
      | Some e =>
          if want <=? zlen acc' then Ret (s', acc', None) else
          Ret (s', acc', Some (match e with
            | EEOF => if zlen acc' =? 0 then EEOF else EUnexpectedEOF
            | e => e end))
      end
  end.
Definition read_full (s : stream) (want : Z) : go (stream * bytes * option gerr) :=
  rf_loop (length (st_sched s) + 3) s want [].

(* document.go:305-333 Document.ReadFrom: the stream afterwards, the count returned, the
   elements of the document when UnmarshalBSON was reached, and the error.  bufpool.Get and
   Slice.Grow are the fun library's: Grow(n) makes an empty slice have length n, and does
   nothing for n <= 0, so b[4:] panics for a declared length below 4. *)
Definition doc_read_from (fuel : nat) (s : stream) : stream * go (Z * option (list elem) * option gerr) :=
  match read_full s 4 with
  | Panic p => (s, Panic p)
  | Fuel => (s, Fuel)
  | Ret (s1, h, Some e) => (s1, Ret (zlen h, None, Some e))
  | Ret (s1, h, None) =>
      match readi32 h with
      | Panic p => (s1, Panic p)
      | Fuel => (s1, Fuel)
      | Ret l =>
          if l <? 4 then (s1, Panic PIndex) else
          match read_full s1 (l - 4) with
          | Panic p => (s1, Panic p)
          | Fuel => (s1, Fuel)
          | Ret (s2, b, Some e) => (s2, Ret (zlen h + zlen b, None, Some e))
          | Ret (s2, b, None) =>
              let '(es, o) := um_elems fuel (h ++ b) in
              (s2, e <- o ;; Ret (zlen h + zlen b, Some es, e))
          end
      end
  end.

(* x_constructor.go:79-92: the document or the error *)
Definition dce_read_from (fuel : nat) (s : stream) : stream * go (list elem + gerr) :=
  let '(s', r) := doc_read_from fuel s in
  (s', match r with
       | Ret (_, _, Some e) => Ret (inr e)
       | Ret (_, Some es, None) => Ret (inl es)
       | Ret (_, None, None) => Ret (inl [])
       | Panic p => Panic p
       | Fuel => Fuel
       end).

(* reader.go:32-69 NewFromIOReader of a non-nil reader: make([]byte, length) with
   length < 4 makes reader[4:] panic *)
Definition new_from_io_reader (s : stream) : stream * go (bytes + gerr) :=
  match read_full s 4 with
  | Panic p => (s, Panic p)
  | Fuel => (s, Fuel)
  | Ret (s1, h, Some e) => (s1, Ret (inr e))
  | Ret (s1, h, None) =>
      if zlen h <? 4 then (s1, Ret (inr ETooSmall)) else
      match readi32 h with
      | Panic p => (s1, Panic p)
      | Fuel => (s1, Fuel)
      | Ret l =>
          if l <? 0 then (s1, Ret (inr EInvalidLength)) else
          if l <? 4 then (s1, Panic PIndex) else
          match read_full s1 (l - 4) with
          | Panic p => (s1, Panic p)
          | Fuel => (s1, Fuel)
          | Ret (s2, b, Some e) => (s2, Ret (inr e))
          | Ret (s2, b, None) =>
              if negb (i32 (zlen b) =? l - 4) then (s2, Ret (inr EInvalidLength))
              else (s2, Ret (inl (h ++ b)))
          end
      end
  end.

(* A client that reads documents until an error. *)
Fixpoint read_docs (n fuel : nat) (s : stream) : list (list elem) * stream * go (option gerr) :=
  match n with
  | O => ([], s, Fuel)
  | S k =>
      match dce_read_from fuel s with
      | (s', Ret (inl es)) => let '(l, s'', e) := read_docs k fuel s' in (es :: l, s'', e)
      | (s', Ret (inr e)) => ([], s', Ret (Some e))
      | (s', Panic p) => ([], s', Panic p)
      | (s', Fuel) => ([], s', Fuel)
      end
  end.
Fixpoint read_readers (n : nat) (s : stream) : list bytes * stream * go (option gerr) :=
  match n with
  | O => ([], s, Fuel)
  | S k =>
      match new_from_io_reader s with
      | (s', Ret (inl b)) => let '(l, s'', e) := read_readers k s' in (b :: l, s'', e)
      | (s', Ret (inr e)) => ([], s', Ret (Some e))
      | (s', Panic p) => ([], s', Panic p)
      | (s', Fuel) => ([], s', Fuel)
      end
  end.

(* ---------------------------------------------------------------- io.ReadFull *)

Definition short (e : gerr) (acc : bytes) : gerr :=
  match e with EEOF => if zlen acc =? 0 then EEOF else EUnexpectedEOF | e => e end.

Lemma empty_zlen b : empty b = (zlen b =? 0).
Proof. destruct b; [reflexivity|]. cbn. symmetry. apply Z.eqb_neq. zlens. posl. lia. Qed.
Lemma zlen_firstn_skipn (b : bytes) n : 0 <= n <= zlen b ->
  zlen (firstn (Z.to_nat n) b) = n /\ zlen (skipn (Z.to_nat n) b) = zlen b - n.
Proof. intros H. unfold zlen in *. rewrite firstn_length, skipn_length. lia. Qed.

(* the outcome of reading want bytes, whatever the schedule *)
Definition read_outcome (s : stream) (want : Z) (acc : bytes) (s' : stream) (b : bytes) (e : option gerr) : Prop :=
  st_err s' = st_err s /\ st_last s' = st_last s /\
  if want <=? zlen acc + zlen (st_data s)
  then e = None /\ st_data s = skipn (length acc) b ++ st_data s' /\ b = acc ++ skipn (length acc) b /\ zlen b = Z.max want (zlen acc)
  else e = Some (short (st_err s) (acc ++ st_data s)) /\ b = acc ++ st_data s /\ st_data s' = [].

Lemma skipn_self {A} (a b : list A) : skipn (length a) (a ++ b) = b.
Proof. rewrite skipn_app, skipn_all, Nat.sub_diag. reflexivity. Qed.

Lemma rf_loop_spec fuel : forall s want acc, zlen acc <= want ->
  (length (st_sched s) + 2 < fuel)%nat ->
  exists s' b e, rf_loop fuel s want acc = Ret (s', b, e) /\ read_outcome s want acc s' b e.
Proof.
  induction fuel as [|fuel IH]; intros s want acc La Hf; [lia|].
  cbn [rf_loop]. destruct (want <=? zlen acc) eqn:Ew.
  { exists s, acc, None. split; [reflexivity|]. split; [reflexivity|]. split; [reflexivity|].
    replace (want <=? zlen acc + zlen (st_data s)) with true by (pose proof (zlen_nonneg (st_data s)); lia).
    rewrite skipn_all. cbn. rewrite app_nil_r. repeat split; auto. lia. }
  unfold st_read. rewrite (empty_zlen (st_data s)). destruct (zlen (st_data s) =? 0) eqn:Ed.
  { rewrite app_nil_r, Ew. eexists _, _, _. split; [reflexivity|].
    assert (st_data s = []) as E0 by (destruct (st_data s); [auto|exfalso; zlens_in Ed; posl; lia]).
    split; [reflexivity|]. split; [reflexivity|]. rewrite E0. change (zlen []) with 0.
    replace (want <=? zlen acc + 0) with false by lia. rewrite app_nil_r. repeat split; auto. }
  set (n := match st_sched s with [] => want - zlen acc | c :: _ => Z.min (Z.of_nat c) (want - zlen acc) end).
  assert (Hn : 0 <= n <= want - zlen acc) by (unfold n; destruct (st_sched s); lia).
  rewrite (empty_zlen (skipn _ _)).
  set (m := Z.min n (zlen (st_data s))).
  assert (F1 : firstn (Z.to_nat n) (st_data s) = firstn (Z.to_nat m) (st_data s)).
  { unfold m. destruct (Z.leb_spec n (zlen (st_data s))); [now rewrite Z.min_l by lia|].
    rewrite Z.min_r by lia. rewrite !firstn_all2; auto; unfold zlen in *; lia. }
  assert (F2 : skipn (Z.to_nat n) (st_data s) = skipn (Z.to_nat m) (st_data s)).
  { unfold m. destruct (Z.leb_spec n (zlen (st_data s))); [now rewrite Z.min_l by lia|].
    rewrite Z.min_r by lia. rewrite !skipn_all2; auto; unfold zlen in *; lia. }
  rewrite F1, F2. destruct (zlen_firstn_skipn (st_data s) m) as [L1 L2]; [unfold m; posl; lia|].
  set (got := firstn (Z.to_nat m) (st_data s)) in *. set (rest := skipn (Z.to_nat m) (st_data s)) in *.
  assert (Esplit : st_data s = got ++ rest) by (symmetry; apply firstn_skipn).
  assert (Lacc : zlen (acc ++ got) = zlen acc + m) by (zlens; lia).
  destruct ((zlen rest =? 0) && st_last s) eqn:El.
  - assert (rest = []) as Er by (destruct rest; [auto|exfalso; zlens_in El; posl; lia]).
    rewrite Er, app_nil_r in Esplit. rewrite <- Esplit.
    destruct (want <=? zlen (acc ++ st_data s)) eqn:Ef.
    + eexists _, _, _. split; [reflexivity|]. split; [reflexivity|]. split; [reflexivity|].
      zlens_in Ef. rewrite Ef. rewrite skipn_self. cbn [st_data]. rewrite Er, app_nil_r. rewrite <- Esplit in *.
      repeat split; auto. zlens. lia.
    + eexists _, _, _. split; [reflexivity|]. split; [reflexivity|]. split; [reflexivity|].
      zlens_in Ef. rewrite Ef. cbn [st_data]. auto.
  - destruct (st_sched s) as [|c cs] eqn:Es.
    + (* everything asked for was delivered, or the data ended *)
      destruct (Z.leb_spec (want - zlen acc) (zlen (st_data s))).
      * assert (m = want - zlen acc) by (unfold m, n; lia).
        assert (rf_loop fuel (MkStream rest (tl []) (st_err s) (st_last s)) want (acc ++ got)
          = Ret (MkStream rest (tl []) (st_err s) (st_last s), acc ++ got, None)) as ->.
        { destruct fuel; cbn [rf_loop]; now replace (want <=? zlen (acc ++ got)) with true by lia. }
        eexists _, _, _. split; [reflexivity|]. split; [reflexivity|]. split; [reflexivity|].
        replace (want <=? zlen acc + zlen (st_data s)) with true by lia.
        rewrite skipn_self. cbn [st_data]. repeat split; auto. lia.
      * assert (m = zlen (st_data s)) by (unfold m, n; lia).
        assert (rest = []) as Er by (destruct rest; [auto|exfalso; zlens_in L2; posl; lia]).
        destruct fuel as [|fuel]; [cbn in Hf; lia|]. cbn [rf_loop].
        replace (want <=? zlen (acc ++ got)) with false by lia.
        unfold st_read. cbn [st_data st_err]. rewrite Er. cbn [empty]. rewrite app_nil_r.
        replace (want <=? zlen (acc ++ got)) with false by lia.
        eexists _, _, _. split; [reflexivity|]. split; [reflexivity|]. split; [reflexivity|].
        replace (want <=? zlen acc + zlen (st_data s)) with false by lia.
        rewrite Er, app_nil_r in Esplit. rewrite Esplit. cbn [st_data]. auto.
    + destruct (IH (MkStream rest cs (st_err s) (st_last s)) want (acc ++ got)) as (s' & b & e & E & O); try lia.
      { cbn [st_sched]. cbn in Hf. lia. }
      cbn [tl]. rewrite E. exists s', b, e. split; [reflexivity|].
      destruct O as (O1 & O2 & O3). cbn [st_err st_last st_data] in *. split; [auto|]. split; [auto|].
      replace (want <=? zlen acc + zlen (st_data s)) with (want <=? zlen (acc ++ got) + zlen rest) by (rewrite Lacc; lia).
      destruct (want <=? zlen (acc ++ got) + zlen rest).
      * destruct O3 as (-> & O4 & O5 & O6). split; [reflexivity|].
        assert (Eb : skipn (length acc) b = got ++ skipn (length (acc ++ got)) b).
        { rewrite O5 at 1. rewrite <- app_assoc. now rewrite skipn_self. }
        rewrite Eb. repeat split.
        -- rewrite Esplit, O4, app_assoc. reflexivity.
        -- rewrite O5 at 1. now rewrite <- app_assoc.
        -- lia.
      * destruct O3 as (-> & -> & ->). rewrite <- app_assoc, <- Esplit. auto.
Qed.

Lemma app_inj_len {A} (a b c d : list A) : length a = length c -> a ++ b = c ++ d -> a = c /\ b = d.
Proof.
  revert c. induction a as [|x a IH]; intros [|y c] L E; cbn in *; try lia; [auto|].
  injection E as -> E. destruct (IH c) as [-> ->]; auto.
Qed.

Lemma read_full_enough s want a rest : 0 <= want -> st_data s = a ++ rest -> zlen a = want ->
  exists s', read_full s want = Ret (s', a, None) /\ st_data s' = rest /\ st_err s' = st_err s.
Proof.
  intros H E L. unfold read_full.
  destruct (rf_loop_spec (length (st_sched s) + 3) s want [] ltac:(zl) ltac:(lia)) as (s' & b & e & Er & O1 & O2 & O3).
  rewrite E in O3. change (zlen (@nil Z)) with 0 in O3.
  replace (want <=? 0 + zlen (a ++ rest)) with true in O3 by (zlens; posl; lia).
  destruct O3 as (-> & E2 & E3 & E4). cbn [length skipn app] in *.
  assert (b = a /\ st_data s' = rest) as [-> Hd].
  { apply app_inj_len in E2; [destruct E2; auto|]. unfold zlen in *. lia. }
  exists s'. auto.
Qed.
Lemma read_full_short s want : 0 <= want -> zlen (st_data s) < want ->
  exists s', read_full s want = Ret (s', st_data s, Some (short (st_err s) (st_data s))) /\
    st_data s' = [] /\ st_err s' = st_err s.
Proof.
  intros H L. unfold read_full.
  destruct (rf_loop_spec (length (st_sched s) + 3) s want [] ltac:(zl) ltac:(lia)) as (s' & b & e & Er & O1 & O2 & O3).
  change (zlen (@nil Z)) with 0 in O3. replace (want <=? 0 + zlen (st_data s)) with false in O3 by lia.
  destruct O3 as (-> & -> & Hd). cbn [app] in *. exists s'. auto.
Qed.
Lemma read_full_total s want : 0 <= want ->
  exists s' b e, read_full s want = Ret (s', b, e) /\ st_data s = b ++ st_data s' /\ (e = None -> zlen b = want).
Proof.
  intros H. unfold read_full.
  destruct (rf_loop_spec (length (st_sched s) + 3) s want [] ltac:(zl) ltac:(lia)) as (s' & b & e & Er & O1 & O2 & O3).
  exists s', b, e. split; [exact Er|]. change (zlen (@nil Z)) with 0 in O3.
  destruct (want <=? 0 + zlen (st_data s)).
  - destruct O3 as (-> & E2 & E3 & E4). cbn [length skipn app] in *. split; [auto|]. lia.
  - destruct O3 as (-> & -> & ->). cbn. rewrite app_nil_r. split; [auto|discriminate].
Qed.

(* ------------------------------------------------------------ UnmarshalBSON *)

Lemma um_loop_iter f : forall r pos ende,
  match iter_loop f r pos ende with
  | Ret (es, e) => um_loop f r pos ende = (es, Ret e)
  | Panic p => snd (um_loop f r pos ende) = Panic p
  | Fuel => snd (um_loop f r pos ende) = Fuel
  end.
Proof.
  induction f as [|f IH]; intros r pos ende; [reflexivity|]. cbn.
  destruct (rd_step r pos ende) as [[q x|q|q v]| |]; cbn; auto.
  specialize (IH r q ende). destruct (iter_loop f r q ende) as [[es e]| |]; cbn.
  - now rewrite IH.
  - destruct (um_loop f r q ende). exact IH.
  - destruct (um_loop f r q ende). exact IH.
Qed.
Lemma um_elems_unmarshal f r :
  match doc_unmarshal f r with
  | Ret (es, e) => um_elems f r = (es, Ret e)
  | Panic p => snd (um_elems f r) = Panic p
  | Fuel => snd (um_elems f r) = Fuel
  end.
Proof.
  unfold doc_unmarshal, um_elems. destruct (zlen r <? 5); [reflexivity|].
  destruct (goslice r 0 4) as [h| |]; cbn; auto. destruct (readi32 h) as [l| |]; cbn; auto.
  destruct (zlen r <? l); [reflexivity|]. apply um_loop_iter.
Qed.
Lemma um_elems_read f r es : read_document f r = Ret (inl es) -> um_elems f r = (es, Ret None).
Proof.
  unfold read_document. pose proof (um_elems_unmarshal f r) as H.
  destruct (doc_unmarshal f r) as [[es' [e|]]| |]; cbn; try discriminate. intros E. injection E as <-. exact H.
Qed.

(* ------------------------------------------------------------ whole documents *)

Lemma enc_doc_split fs : small fs -> exists h b, enc_doc fs = h ++ b /\ zlen h = 4 /\
  readi32 h = Ret (zlen (enc_doc fs)) /\ zlen b = zlen (enc_doc fs) - 4 /\ 5 <= zlen (enc_doc fs).
Proof.
  intros S. unfold small in S.
  assert (L : zlen (enc_doc fs) = 5 + zlen (enc_elems fs)) by (unfold enc_doc; zlens; lia).
  exists (le32 (zlen (enc_doc fs))), (enc_elems fs ++ [0]). posl.
  split; [|split; [|split; [|split]]]; [|zl| | |lia].
  - unfold enc_doc at 1, enc_frame. do 2 f_equal. rewrite L. lia.
  - rewrite <- (u32_id (zlen (enc_doc fs))) at 1 by (unfold is_u32; lia).
    apply readi32_le32'. unfold is_i32. lia.
  - rewrite L. zlens. lia.
Qed.

Lemma doc_read_from_wf fuel s fs rest : wf_fields fs -> small fs -> enough fuel (zlen (enc_doc fs)) ->
  st_data s = enc_doc fs ++ rest ->
  exists s' es, doc_read_from fuel s = (s', Ret (zlen (enc_doc fs), Some es, None)) /\
    read_document fuel (enc_doc fs) = Ret (inl es) /\ st_data s' = rest /\ st_err s' = st_err s.
Proof.
  intros W S F E. destruct (enc_doc_split fs S) as (h & b & Eh & Lh & Rh & Lb & L5).
  rewrite Eh, <- app_assoc in E.
  destruct (read_full_enough s 4 h (b ++ rest) ltac:(lia) E Lh) as (s1 & R1 & D1 & G1).
  destruct (read_full_enough s1 (zlen (enc_doc fs) - 4) b rest ltac:(lia) D1 Lb) as (s2 & R2 & D2 & G2).
  unfold doc_read_from. rewrite R1, Rh. replace (zlen (enc_doc fs) <? 4) with false by lia. rewrite R2, <- Eh.
  destruct (read_document_wf fs [] fuel W) as (es & Er & _); rewrite ?app_nil_r; auto.
  rewrite app_nil_r in Er. rewrite (um_elems_read _ _ _ Er). cbn [bind].
  exists s2, es. repeat split; auto; [do 4 f_equal; lia|congruence].
Qed.

Lemma new_from_io_reader_wf s fs rest : small fs -> st_data s = enc_doc fs ++ rest ->
  exists s', new_from_io_reader s = (s', Ret (inl (enc_doc fs))) /\ st_data s' = rest /\ st_err s' = st_err s.
Proof.
  intros S E. destruct (enc_doc_split fs S) as (h & b & Eh & Lh & Rh & Lb & L5).
  rewrite Eh, <- app_assoc in E.
  destruct (read_full_enough s 4 h (b ++ rest) ltac:(lia) E Lh) as (s1 & R1 & D1 & G1).
  destruct (read_full_enough s1 (zlen (enc_doc fs) - 4) b rest ltac:(lia) D1 Lb) as (s2 & R2 & D2 & G2).
  unfold new_from_io_reader. rewrite R1, Rh. replace (zlen h <? 4) with false by lia.
  replace (zlen (enc_doc fs) <? 0) with false by lia.
  replace (zlen (enc_doc fs) <? 4) with false by lia. rewrite R2, <- Eh.
  unfold small in S. rewrite i32_id by (unfold is_i32; lia). rewrite Lb, Z.eqb_refl. cbn [negb].
  exists s2. repeat split; auto. congruence.
Qed.

(* at the end of the data *)
Lemma doc_read_from_end fuel s : st_data s = [] ->
  exists s', doc_read_from fuel s = (s', Ret (0, None, Some (st_err s))) /\ st_data s' = [].
Proof.
  intros E. destruct (read_full_short s 4 ltac:(lia)) as (s' & R & D & _); [rewrite E; zl|].
  unfold doc_read_from. rewrite R, E. exists s'. split; [|auto]. cbn. now destruct (st_err s).
Qed.
Lemma new_from_io_reader_end s : st_data s = [] ->
  exists s', new_from_io_reader s = (s', Ret (inr (st_err s))) /\ st_data s' = [].
Proof.
  intros E. destruct (read_full_short s 4 ltac:(lia)) as (s' & R & D & _); [rewrite E; zl|].
  unfold new_from_io_reader. rewrite R, E. exists s'. split; [|auto]. cbn. now destruct (st_err s).
Qed.

(* cut inside a document *)
Lemma doc_read_from_cut fuel s fs rest : small fs -> st_data s <> [] -> rest <> [] -> enc_doc fs = st_data s ++ rest ->
  exists s', doc_read_from fuel s = (s', Ret (zlen (st_data s), None, Some (match st_err s with EEOF => if zlen (st_data s) =? 4 then EEOF else EUnexpectedEOF | e => e end))) /\ st_data s' = [].
Proof.
  intros S Ne Nr E. destruct (enc_doc_split fs S) as (h & b & Eh & Lh & Rh & Lb & L5).
  assert (0 < zlen (st_data s)) as P by (destruct (st_data s); [congruence|]; zlens; posl; lia).
  assert (0 < zlen rest) as P2 by (destruct rest; [congruence|]; zlens; posl; lia).
  assert (Ls : zlen (st_data s) + zlen rest = zlen (enc_doc fs)) by (rewrite E; zl).
  destruct (Z.ltb_spec (zlen (st_data s)) 4).
  - destruct (read_full_short s 4 ltac:(lia) ltac:(lia)) as (s' & R & D & _).
    unfold doc_read_from. rewrite R. exists s'. split; [|auto]. unfold short.
    replace (zlen (st_data s) =? 4) with false by lia. replace (zlen (st_data s) =? 0) with false by lia.
    now destruct (st_err s).
  - assert (exists b1, st_data s = h ++ b1) as (b1 & Eb).
    { exists (skipn 4 (st_data s)). rewrite <- (firstn_skipn 4 (st_data s)) at 1. f_equal.
      rewrite Eh, <- (firstn_skipn 4 (st_data s)), <- app_assoc in E.
      apply app_inj_len in E; [destruct E; auto|]. rewrite firstn_length. unfold zlen in *. lia. }
    destruct (read_full_enough s 4 h b1 ltac:(lia) Eb Lh) as (s1 & R1 & D1 & G1).
    assert (L1 : zlen (st_data s) = 4 + zlen b1) by (rewrite Eb; zl).
    destruct (read_full_short s1 (zlen (enc_doc fs) - 4) ltac:(lia)) as (s' & R & D & _); [rewrite D1; lia|].
    unfold doc_read_from. rewrite R1, Rh. replace (zlen (enc_doc fs) <? 4) with false by lia. rewrite R, D1, G1.
    exists s'. split; [|auto]. unfold short. replace (zlen (st_data s) =? 4) with (zlen b1 =? 0) by lia.
    rewrite L1, Lh. now destruct (st_err s).
Qed.

(* the count returned is the number of bytes consumed *)
Lemma doc_read_from_count fuel s s' n es e : doc_read_from fuel s = (s', Ret (n, es, e)) ->
  exists used, st_data s = used ++ st_data s' /\ zlen used = n.
Proof.
  unfold doc_read_from. destruct (read_full_total s 4 ltac:(lia)) as (s1 & h & e1 & R1 & D1 & Z1). rewrite R1.
  destruct e1 as [e1|].
  - intros H. injection H as <- <- _ _. eauto.
  - destruct (readi32 h) as [l| |]; try discriminate. destruct (l <? 4) eqn:El; [discriminate|].
    destruct (read_full_total s1 (l - 4) ltac:(lia)) as (s2 & b & e2 & R2 & D2 & Z2). rewrite R2.
    destruct e2 as [e2|].
    + intros H. injection H as <- <- _ _. exists (h ++ b). rewrite D1, D2, app_assoc. split; [auto|zl].
    + destruct (um_elems fuel (h ++ b)) as [es' [o| |]]; cbn; try discriminate.
      intros H. injection H as <- <- _ _. exists (h ++ b). rewrite D1, D2, app_assoc. split; [auto|zl].
Qed.

(* the bytes delivered by NewFromIOReader are those consumed, as many as they declare *)
Lemma new_from_io_reader_inv s s' b : new_from_io_reader s = (s', Ret (inl b)) ->
  st_data s = b ++ st_data s' /\ exists h, firstn 4 b = h /\ readi32 h = Ret (zlen b).
Proof.
  unfold new_from_io_reader. destruct (read_full_total s 4 ltac:(lia)) as (s1 & h & e1 & R1 & D1 & Z1). rewrite R1.
  destruct e1 as [e1|]; [discriminate|]. specialize (Z1 eq_refl). destruct (zlen h <? 4); [discriminate|].
  destruct (readi32 h) as [l| |] eqn:Rh; try discriminate. destruct (l <? 0); [discriminate|].
  destruct (l <? 4) eqn:El; [discriminate|].
  destruct (read_full_total s1 (l - 4) ltac:(lia)) as (s2 & c & e2 & R2 & D2 & Z2). rewrite R2.
  destruct e2 as [e2|]; [discriminate|]. specialize (Z2 eq_refl).
  destruct (negb _); [discriminate|]. intros H. injection H as <- <-.
  split; [rewrite D1, D2, app_assoc; reflexivity|]. exists h. split.
  - replace 4%nat with (length h) by (unfold zlen in Z1; lia). rewrite firstn_app, firstn_all, Nat.sub_diag.
    cbn. apply app_nil_r.
  - rewrite Rh. f_equal. zlens. lia.
Qed.
