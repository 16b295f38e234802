(* C65 on any bytes: what Ftdc.v says of well-formed documents holds of the reading of the
   bytes (FtdcRaw.v), and which bytes make the reading of a stream panic or not return. *)
Require Import ZArith List Bool Lia ZifyBool ZifyNat.
From Verif Require Import Base BSpec Elements Value Codec CodecRead CodecRep Api ApiProofs Tree
  GetterProofs ReaderOps ReadSafe CodecProps DocOps Search Stream DocProps Ftdc FtdcProofs FtdcProps FtdcFlatProps FtdcRaw.
Import ListNotations.
Open Scope Z_scope.

(* ------------------------------------------- the observed documents, as read by the code *)

Definition items_loop (key : bytes) (path : list bytes) := (fix loop i vs := match vs with
        | [] => []
        | v :: r => m_value (dotted key i) path v ++ loop (S i) r
        end).
Lemma m_value_array key path vs : m_value key path (BArray vs) = items_loop key path O vs.
Proof. reflexivity. Qed.
Lemma m_value_doc key path fs : m_value key path (BDoc fs) =
  map (fun ne => MkM (path ++ [key]) (m_key ne) (m_start ne) (m_type ne) []) (m_fields (path ++ [key]) fs).
Proof.
  cbn [m_value]. f_equal. induction fs as [|[k v] r IH]; [reflexivity|]. cbn [m_fields]. now rewrite IH.
Qed.

Lemma raw_obs n : forall v t path key, obs n v = Ret t -> raw_value n path key v = Ret (m_value key path t).
Proof.
  induction n as [|n IH]; intros v t path key E; [discriminate|]. rewrite obs_S in E. cbn zeta in E.
  cbn [raw_value]. destruct (v_type v) as [ty| |] eqn:T; cbn [bind] in E |- *; try discriminate.
  assert (EL : forall es fs path, mapM (obs_field n) es = Ret fs -> raw_elems (raw_value n path) es = Ret (m_fields path fs)).
  { clear -IH. intros es fs path. revert fs. induction es as [|[w|] es IHe]; intros fs E; [injection E as <-; reflexivity| |discriminate].
    change (mapM (obs_field n) (Some w :: es)) with (y <- obs_field n (Some w) ;; ys <- mapM (obs_field n) es ;; Ret (y :: ys)) in E.
    cbn [obs_field] in E. destruct (elem_key (Some w)) as [k| |] eqn:K; cbn [bind] in E; try discriminate.
    destruct (obs n w) as [x| |] eqn:O; cbn [bind] in E; try discriminate.
    destruct (mapM (obs_field n) es) as [xs| |]; cbn [bind] in E; try discriminate. injection E as <-.
    change (raw_elems (raw_value n path) (Some w :: es)) with
      (k <- elem_key (Some w) ;; x <- raw_value n path k w ;; xs <- raw_elems (raw_value n path) es ;; Ret (x ++ xs)).
    rewrite K. cbn [bind]. rewrite (IH _ _ path k O). cbn [bind]. rewrite (IHe _ eq_refl). reflexivity. }
  assert (IL : forall es vs i, mapM (obs_item n) es = Ret vs -> raw_items (raw_value n path) key i es = Ret (items_loop key path i vs)).
  { clear -IH. intros es. induction es as [|[w|] es IHe]; intros vs i E; [injection E as <-; reflexivity| |discriminate].
    change (mapM (obs_item n) (Some w :: es)) with (y <- obs_item n (Some w) ;; ys <- mapM (obs_item n) es ;; Ret (y :: ys)) in E.
    cbn [obs_item] in E.
    destruct (obs n w) as [x| |] eqn:O; cbn [bind] in E; try discriminate.
    destruct (mapM (obs_item n) es) as [xs| |]; cbn [bind] in E; try discriminate. injection E as <-.
    change (raw_items (raw_value n path) key i (Some w :: es)) with
      (x <- raw_value n path (dotted key i) w ;; xs <- raw_items (raw_value n path) key (S i) es ;; Ret (x ++ xs)).
    rewrite (IH _ _ path (dotted key i) O). cbn [bind]. rewrite (IHe _ (S i) eq_refl). reflexivity. }
  repeat match type of E with
  | context [if ty =? ?c then _ else _] => destruct (Z.eqb_spec ty c) as [->|];
      [cbn [Z.eqb Pos.eqb] in E |- *|]
  | bind ?x _ = Ret _ => destruct x as [?| |] eqn:?; cbn [bind] in E; try discriminate
  end.
  all: try (injection E as <-; cbn [bind]; reflexivity).
  all: try discriminate.
  - injection E as <-. cbn [bind]. rewrite (EL _ _ _ Heqg0), m_value_doc. reflexivity.
  - injection E as <-. cbn [bind]. rewrite (IL _ _ _ Heqg0), m_value_array. reflexivity.
  - destruct a as [? ?]. injection E as <-. reflexivity.
  - injection E as <-. unfold v_time. rewrite Heqg. reflexivity.
  - destruct a as [? ?]. injection E as <-. reflexivity.
  - destruct a as [? ?]. injection E as <-. reflexivity.
  - destruct a as [? es]. destruct (mapM (obs_field n) es); cbn [bind] in E; try discriminate. injection E as <-. reflexivity.
  - destruct a as [? ?]. injection E as <-. reflexivity.
  - destruct a as [? ?]. injection E as <-. reflexivity.
Qed.

(* Elements of an observed document. *)
Lemma raw_fields n es : forall fs path, obs_doc n es = Ret fs -> raw_elems (raw_value n path) es = Ret (m_fields path fs).
Proof.
  induction es as [|[w|] es IHe]; intros fs path E; [injection E as <-; reflexivity| |discriminate].
  change (obs_doc n (Some w :: es)) with (y <- obs_field n (Some w) ;; ys <- obs_doc n es ;; Ret (y :: ys)) in E.
  cbn [obs_field] in E. destruct (elem_key (Some w)) as [k| |] eqn:K; cbn [bind] in E; try discriminate.
  destruct (obs n w) as [x| |] eqn:O; cbn [bind] in E; try discriminate.
  destruct (obs_doc n es) as [xs| |]; cbn [bind] in E; try discriminate. injection E as <-.
  change (raw_elems (raw_value n path) (Some w :: es)) with
    (k <- elem_key (Some w) ;; x <- raw_value n path k w ;; xs <- raw_elems (raw_value n path) es ;; Ret (x ++ xs)).
  rewrite K. cbn [bind]. rewrite (raw_obs n _ _ path k O). cbn [bind]. rewrite (IHe _ path eq_refl). reflexivity.
Qed.

Lemma find_obs n k es : forall fs, obs_doc n es = Ret fs ->
  match first_key k fs with
  | None => find_elem k es = Ret None
  | Some t => exists v, find_elem k es = Ret (Some (Some v)) /\ obs n v = Ret t
  end.
Proof.
  induction es as [|[w|] es IHe]; intros fs E; [injection E as <-; reflexivity| |discriminate].
  change (obs_doc n (Some w :: es)) with (y <- obs_field n (Some w) ;; ys <- obs_doc n es ;; Ret (y :: ys)) in E.
  cbn [obs_field] in E. destruct (elem_key (Some w)) as [k'| |] eqn:K; cbn [bind] in E; try discriminate.
  destruct (obs n w) as [x| |] eqn:O; cbn [bind] in E; try discriminate.
  destruct (obs_doc n es) as [xs| |]; cbn [bind] in E; try discriminate. injection E as <-.
  cbn [first_key find_elem]. rewrite K. cbn [bind].
  pose proof (bytes_eqb_eq k k') as B1. pose proof (bytes_eqb_eq k' k) as B2.
  specialize (IHe _ eq_refl).
  destruct (bytes_eqb k k'), (bytes_eqb k' k).
  2: pose proof (proj2 B2 (eq_sym (proj1 B1 eq_refl))); discriminate.
  2: pose proof (proj2 B1 (eq_sym (proj1 B2 eq_refl))); discriminate.
  - exists w. split; [reflexivity|exact O].
  - exact IHe.
Qed.

Lemma is_num_obs fuel n v t : obs fuel v = Ret t -> raw_is_num n (Some (Some v)) = Ret (is_num n (Some t)).
Proof.
  destruct fuel as [|m]; [discriminate|]. rewrite obs_S. cbn zeta. cbn [raw_is_num]. intros E.
  destruct (v_type v) as [ty| |]; cbn [bind] in E |- *; try discriminate.
  repeat match type of E with
  | context [if ty =? ?c then _ else _] => destruct (Z.eqb_spec ty c) as [Ety|];
      [rewrite Ety in *; cbn [Z.eqb Pos.eqb] in E |- *|]
  | bind ?x _ = Ret _ => destruct x as [?| |] eqn:?; cbn [bind] in E; try discriminate
  end.
  all: try (injection E as <-; cbn [bind]; reflexivity).
  all: try discriminate.
  all: destruct a as [? es]; try (injection E as <-; reflexivity).
  destruct (mapM (obs_field m) es); cbn [bind] in E; try discriminate. injection E as <-. reflexivity.
Qed.

Lemma time_obs fuel v t : obs fuel v = Ret t ->
  v_time_ok (Some v) = Ret (match t with BDateTime i => Some (ms_time i) | _ => None end).
Proof.
  destruct fuel as [|m]; [discriminate|]. rewrite obs_S. cbn zeta. intros E.
  destruct v as [st off [data|] d]; [|discriminate]. cbn [v_type v_time_ok getter_ok] in *. unfold v_time_ok, getter_ok.
  destruct (off =? 0) eqn:Eo; [discriminate|].
  destruct (goindex data st) as [ty| |] eqn:T; cbn [bind] in E |- *; try discriminate.
  destruct (Z.eqb_spec ty 9) as [->|N]; cbn [negb].
  - cbn [Z.eqb Pos.eqb] in E. unfold v_time. destruct (v_datetime _); cbn [bind] in E |- *; try discriminate. now injection E as <-.
  - f_equal. repeat match type of E with
    | context [if ty =? ?c then _ else _] => destruct (Z.eqb_spec ty c) as [Ety|];
      [rewrite Ety in *; cbn [Z.eqb Pos.eqb] in E |- *|]
    | bind ?x _ = Ret _ => destruct x as [?| |] eqn:?; cbn [bind] in E; try discriminate
    end.
    all: try contradiction.
    all: try (injection E as <-; reflexivity).
    all: try discriminate.
    all: destruct a as [? es]; try (injection E as <-; reflexivity).
    destruct (mapM (obs_field m) es); cbn [bind] in E; try discriminate. injection E as <-. reflexivity.
Qed.

Lemma binary_obs fuel v t : obs fuel v = Ret t ->
  match t with
  | BBinary s b => v_binary (Some v) = Ret (s, b)
  | _ => exists e, v_binary (Some v) = Panic (PErr (EElementType e)) /\ e = tag t
  end.
Proof.
  destruct fuel as [|m]; [discriminate|]. rewrite obs_S. cbn zeta. intros E.
  destruct v as [st off [data|] d]; [|discriminate]. cbn [v_type] in *.
  destruct (off =? 0) eqn:Eo; [discriminate|].
  destruct (goindex data st) as [ty| |] eqn:T; cbn [bind] in E |- *; try discriminate.
  assert (B : ty <> 5 -> v_binary (Some (MkValue st off (Some data) d)) = Panic (PErr (EElementType ty))).
  { intros N. unfold v_binary, getter. rewrite Eo, T. cbn [bind]. now replace (ty =? 5) with false by lia. }
  destruct (Z.eqb_spec ty 5) as [->|N].
  - cbn [Z.eqb Pos.eqb] in E. destruct (v_binary _) as [[s b]| |]; cbn [bind] in E; try discriminate. now injection E as <-.
  - specialize (B N). clear N. repeat match type of E with
    | context [if ty =? ?c then _ else _] => destruct (Z.eqb_spec ty c) as [Ety|];
      [rewrite Ety in *; cbn [Z.eqb Pos.eqb] in E |- *|]
    | bind ?x _ = Ret _ => destruct x as [?| |] eqn:?; cbn [bind] in E; try discriminate
    end.
    all: try (injection E as <-; eexists; split; [exact B|reflexivity]).
    all: try (destruct a as [? es]; try (injection E as <-; eexists; split; [exact B|reflexivity])).
    all: try (exfalso; now apply N).
    all: try (destruct (mapM (obs_field m) es); cbn [bind] in E; try discriminate; injection E as <-; eexists; split; [exact B|reflexivity]).
    all: try discriminate.
Qed.

(* the same answer for a document, the reference shown by its getters *)
Definition agree (fuel : nat) (r : rdoc) (w : rawdoc) : Prop :=
  match r, w with
  | RMeta, WMeta | RSkip, WSkip => True
  | RErr e, WErr e' => e = e'
  | RChunk c, WChunk ms p id meta ref =>
      c_metrics c = ms /\ c_points c = p /\ c_id c = id /\ c_meta c = meta /\ obs_doc fuel ref = Ret (c_ref c)
  | _, _ => False
  end.

Lemma chunk_agrees unzip fuel meta es r : read_chunk_doc unzip fuel meta es = Ret r ->
  exists w, raw_chunk_doc unzip fuel meta es = Ret w /\ agree fuel r w.
Proof.
  unfold read_chunk_doc, raw_chunk_doc. destruct (obs_doc fuel es) as [fs| |] eqn:O; cbn [bind]; try discriminate.
  pose proof (find_obs fuel k_type es fs O) as T. pose proof (find_obs fuel k_id es fs O) as I.
  pose proof (find_obs fuel k_data es fs O) as D.
  assert (N : exists ty, find_elem k_type es = Ret ty /\ forall n, raw_is_num n ty = Ret (is_num n (first_key k_type fs))).
  { destruct (first_key k_type fs) as [t|].
    - destruct T as (v & F & Ov). exists (Some (Some v)). split; [exact F|]. intros n. eapply is_num_obs; eauto.
    - exists None. split; [exact T|]. reflexivity. }
  destruct N as (ty & -> & N). cbn [bind]. rewrite N. cbn [bind].
  destruct (is_num 0 (first_key k_type fs)); [intros E; injection E as <-; exists WMeta; cbn; auto|].
  rewrite N. cbn [bind].
  destruct (negb (is_num 1 (first_key k_type fs))); [intros E; injection E as <-; exists WSkip; cbn; auto|].
  set (id := match first_key k_id fs with Some (BDateTime i) => Some (ms_time i) | _ => None end).
  assert (Id : (oid <- find_elem k_id es ;; (match oid with Some e => v_time_ok e | None => Ret None end)) = Ret id).
  { unfold id. destruct (first_key k_id fs) as [t|].
    - destruct I as (v & -> & Ov). cbn [bind]. apply (time_obs _ _ _ Ov).
    - rewrite I. reflexivity. }
  destruct (find_elem k_id es) as [oid| |]; cbn [bind] in Id |- *; try discriminate. rewrite Id. cbn [bind].
  destruct (first_key k_data fs) as [t|].
  2:{ rewrite D. cbn [bind]. intros E; injection E as <-. eexists. split; [reflexivity|reflexivity]. }
  destruct D as (v & -> & Ov). cbn [bind]. pose proof (binary_obs _ _ _ Ov) as B.
  destruct t as [| | | |sb zb| | | | | | | | | | | | | | | |]; try discriminate. rewrite B. cbn [bind].
  destruct (goslice zb 4 (zlen zb)) as [z| |]; cbn [bind]; try discriminate.
  destruct (unzip z) as [buf|]; [|intros E; injection E as <-; eexists; split; [reflexivity|reflexivity]].
  destruct (doc_read_from fuel (MkStream buf [] EEOF false)) as [s' r'].
  destruct r' as [[[x oes] [e|]]| |]; cbn [bind]; try discriminate.
  { intros E; injection E as <-; eexists; split; [reflexivity|reflexivity]. }
  set (ref := match oes with Some es => es | None => [] end).
  destruct (obs_doc fuel ref) as [rf| |] eqn:Or; cbn [bind]; try discriminate.
  rewrite (raw_fields fuel ref rf [] Or). cbn [bind].
  destruct (zlen (st_data s') <? 8); [intros E; injection E as <-; eexists; split; [reflexivity|reflexivity]|].
  destruct (rdu32 (firstn 4 (st_data s'))) as [nm| |]; cbn [bind]; try discriminate.
  destruct (rdu32 (firstn 4 (skipn 4 (st_data s')))) as [nd| |]; cbn [bind]; try discriminate.
  destruct (negb (nm =? zlen (m_fields [] rf))); [intros E; injection E as <-; eexists; split; [reflexivity|reflexivity]|].
  destruct (get_metrics (Z.to_nat nd) 0 (m_fields [] rf) (skipn 8 (st_data s'))) as [ms'|e];
    intros E; injection E as <-; eexists; (split; [reflexivity|]); cbn; auto.
Qed.

(* Whatever Ftdc.v's reading returns for a stream, the reading of the elements as they lie in the
   bytes returns: the same chunks and the same error.  The properties of C35-C40 and C61-C64 are
   so properties of it. *)
Theorem C65_reading_agrees unzip n fuel s cs e : read_chunks unzip n fuel s = (cs, Ret e) ->
  exists ws, raw_read_chunks unzip n fuel s = (ws, Ret e) /\ Forall2 (agree fuel) (map RChunk cs) ws.
Proof.
  unfold read_chunks, raw_read_chunks. destruct (read_docs n fuel s) as [[docs s'] o].
  assert (Q : forall meta cs e, chunks_of unzip fuel meta docs = (cs, Ret e) ->
    exists ws, raw_chunks_of unzip fuel meta docs = (ws, Ret e) /\ Forall2 (agree fuel) (map RChunk cs) ws).
  { clear. induction docs as [|es docs IH]; intros meta cs e E.
    - injection E as <- <-. exists []. split; [reflexivity|constructor].
    - cbn [chunks_of raw_chunks_of] in E |- *. destruct (read_chunk_doc unzip fuel meta es) as [r| |] eqn:R; try discriminate.
      destruct (chunk_agrees _ _ _ _ _ R) as (w & -> & A).
      destruct r as [| |c|e'], w as [| |e''|ms p id mt ref]; cbn [agree] in A; try contradiction.
      + now apply IH.
      + now apply IH.
      + destruct (chunks_of unzip fuel meta docs) as [l oo] eqn:C. injection E as <- ->.
        destruct (IH meta l e C) as (ws & -> & F). eexists. split; [reflexivity|]. constructor; [exact A|exact F].
      + injection E as <- <-. subst. exists []. split; [reflexivity|constructor]. }
  destruct (chunks_of unzip fuel None docs) as [l r] eqn:C. intros E.
  destruct r as [e0| |]; cbn [bind] in E; try discriminate.
  destruct (Q None l e0 C) as (ws & -> & F). injection E as <- E. exists ws. split; [|exact F]. cbn [bind]. now rewrite E.
Qed.
Print Assumptions C65_reading_agrees.

(* ------------------------------------------------------------- arbitrary bytes *)

(* an element that reading bytes gave: its header lies in r and the size-only validation passed *)
Definition readable (r : bytes) (v : value) : Prop :=
  exists pos p1 t n, v = MkValue pos p1 (Some r) None /\ 0 <= pos /\ pos + 2 <= p1 <= zlen r /\
    goindex r pos = Ret t /\ validate_core (fun _ => Fuel) None true pos p1 r = Ret (n, None).
Definition readable_elem (r : bytes) (e : elem) : Prop := exists v, e = Some v /\ readable r v.

Lemma step_readable r pos ende p v : 0 <= pos -> ende <= zlen r -> zlen r + 16 <= 2147483648 ->
  rd_step r pos ende = Ret (RElem p v) -> 0 <= p /\ readable r v.
Proof.
  intros Hp He Hs E. destruct (step_total r pos ende Hp He Hs) as (s & E' & St). rewrite E in E'. injection E' as <-.
  destruct St as (S1 & Hc & p1 & t & k & Ev & (A1 & A2 & A3 & a & b & Er & La) & _). split; [exact Hc|].
  assert (exists n, validate_core (fun _ => Fuel) None true pos p1 r = Ret (n, None)) as (n & V).
  { unfold rd_step in E. destruct (ende <=? pos); [discriminate|].
    destruct (goindex r pos) as [b0| |]; cbn [bind] in E; try discriminate. destruct (b0 =? 0); [discriminate|].
    destruct (rd_validate_key r (u32 (pos + 1)) ende) as [[n [e|]]| |]; cbn [bind] in E; try discriminate.
    destruct (validate_core _ None true pos (u32 (pos + 1 + n)) r) as [[m [e|]]| |] eqn:V; cbn [bind] in E; try discriminate.
    injection E as _ Q. rewrite Ev in Q. injection Q as <-. eauto. }
  exists pos, p1, t, n. repeat split; auto; try lia.
  rewrite Er. apply (goindex_eq _ _ a t (k ++ 0 :: b)); [reflexivity|lia].
Qed.

Lemma iter_readable k : forall r pos ende es e, 0 <= pos -> ende <= zlen r -> zlen r + 16 <= 2147483648 ->
  iter_loop k r pos ende = Ret (es, e) -> Forall (readable_elem r) es.
Proof.
  induction k as [|k IH]; intros r pos ende es e Hp He Hs E; [discriminate|]. cbn [iter_loop] in E.
  destruct (rd_step r pos ende) as [s| |] eqn:St; cbn [bind] in E; try discriminate.
  destruct s as [p x|p|p v]; [injection E as <- <-; constructor..|].
  destruct (step_readable _ _ _ _ _ Hp He Hs St) as [Hq Rv].
  destruct (iter_loop k r p ende) as [[es' e']| |] eqn:Il; cbn [bind] in E; try discriminate. injection E as <- <-.
  constructor; [now exists v|]. eapply IH; eauto.
Qed.

Lemma document_readable fuel r l es : zlen r + 16 <= 2147483648 -> declared_length r = Ret l -> 0 <= l ->
  read_document fuel r = Ret (inl es) -> Forall (readable_elem r) es.
Proof.
  intros Hs Hl H0. unfold read_document, doc_unmarshal. destruct (zlen r <? 5) eqn:E5; [discriminate|].
  assert (goslice r 0 4 = Ret (firstn 4 r)) as ->.
  { unfold goslice. replace ((0 <=? 0) && (0 <=? 4) && (4 <=? zlen r)) with true by lia. reflexivity. }
  unfold declared_length in Hl. cbn [bind]. rewrite Hl. cbn [bind].
  destruct (zlen r <? l) eqn:El; [discriminate|]. rewrite u32_id by (unfold is_u32; lia).
  destruct (iter_loop fuel r 4 l) as [[es' [e|]]| |] eqn:Il; cbn [bind]; try discriminate.
  intros E. injection E as <-. apply (iter_readable fuel r 4 l es' None); auto; lia.
Qed.

(* what the getters of numbers give for such an element *)
Lemma scalar_getters r v t : zlen r + 16 <= 2147483648 -> readable r v -> v_type v = Ret t ->
  In t [1; 8; 9; 16; 17; 18] -> read_typed 0 t (Some v) = Ret tt.
Proof.
  intros Hs (pos & p1 & t' & n & -> & Hp & H1 & Gt & V) T I. cbn [v_type] in T. replace (p1 =? 0) with false in T by lia.
  assert (t' = t) by congruence. subst t'.
  apply (validated_safe 0 pos p1 r n t); try lia; auto.
  - cbn [val_validate]. rewrite <- V. unfold validate_core. rewrite Gt. cbn [bind].
    cbn [In] in I. destruct I as [<-|[<-|[<-|[<-|[<-|[<-|[]]]]]]]; reflexivity.
  - cbn [In] in I. destruct I as [<-|[<-|[<-|[<-|[<-|[<-|[]]]]]]]; exact Logic.I.
Qed.

Lemma readable_key r v : zlen r + 16 <= 2147483648 -> readable r v -> exists k, elem_key (Some v) = Ret k.
Proof.
  intros Hs (pos & p1 & t' & n & -> & Hp & H1 & Gt & V). cbn [elem_key]. replace (p1 =? 0) with false by lia.
  rewrite !u32_id by (unfold is_u32; lia).
  destruct (goslice_ex r (pos + 1) (p1 - 1)) as (a & m & b & _ & _ & _ & ->); try lia. eauto.
Qed.
Lemma readable_type r v : readable r v -> exists t, v_type v = Ret t.
Proof.
  intros (pos & p1 & t' & n & -> & Hp & H1 & Gt & V). cbn [v_type]. replace (p1 =? 0) with false by lia. eauto.
Qed.

Lemma find_total r k es : zlen r + 16 <= 2147483648 -> Forall (readable_elem r) es ->
  exists o, find_elem k es = Ret o /\ match o with Some e => readable_elem r e | None => True end.
Proof.
  intros Hs. induction 1 as [|e es Q F IH]; [now exists None|]. destruct Q as (v & -> & Rv). cbn [find_elem].
  destruct (readable_key r v Hs Rv) as (k' & ->). cbn [bind]. destruct (bytes_eqb k' k); [|exact IH].
  exists (Some (Some v)). split; [reflexivity|]. now exists v.
Qed.

Ltac typed H := unfold read_typed in H; cbn [Z.eqb Pos.eqb] in H.

Lemma is_num_total r n o : zlen r + 16 <= 2147483648 -> match o with Some e => readable_elem r e | None => True end ->
  exists b, raw_is_num n o = Ret b.
Proof.
  intros Hs R. destruct o as [e|]; [|cbn; eauto]. destruct R as (v & -> & Rv). cbn [raw_is_num].
  destruct (readable_type r v Rv) as (t & T). rewrite T. cbn [bind].
  destruct (Z.eqb_spec t 16) as [E|_]; [|destruct (Z.eqb_spec t 18) as [E|_]; [|destruct (Z.eqb_spec t 1) as [E|_]; [|eauto]]];
    rewrite E in T; pose proof (scalar_getters r v _ Hs Rv T ltac:(cbn; auto 10)) as G; typed G.
  - destruct (v_int32 (Some v)) as [x| |]; cbn [bind] in *; try discriminate. eauto.
  - destruct (v_int64 (Some v)) as [x| |]; cbn [bind] in *; try discriminate. eauto.
  - destruct (v_double (Some v)) as [x| |]; cbn [bind] in *; try discriminate. eauto.
Qed.

Lemma time_ok_total r v : zlen r + 16 <= 2147483648 -> readable r v -> exists o, v_time_ok (Some v) = Ret o.
Proof.
  intros Hs Rv. destruct (readable_type r v Rv) as (t & T). pose proof Rv as (pos & p1 & t' & n & -> & Hp & H1 & Gt & V).
  unfold v_time_ok, getter_ok. replace (p1 =? 0) with false by lia. rewrite Gt. cbn [bind].
  destruct (Z.eqb_spec t' 9) as [->|_]; [|cbn; eauto]. cbn [negb].
  pose proof (scalar_getters r _ 9 Hs Rv) as G. cbn [v_type] in G. replace (p1 =? 0) with false in G by lia.
  specialize (G Gt ltac:(cbn; auto 10)). typed G.
  destruct (v_datetime _) as [x| |]; cbn [bind] in G; try discriminate.
  destruct (v_time _) as [y| |]; cbn [bind] in G |- *; try discriminate. eauto.
Qed.

(* ---- a reference document that Reader.Validate accepts *)

Lemma iter_loop_le k n r pos ende es : (k <= n)%nat -> iter_loop k r pos ende = Ret (es, None) -> iter_loop n r pos ende = Ret (es, None).
Proof. intros L E. induction L; [exact E|]. now apply iter_loop_more. Qed.

Lemma rd_loop_each (f : unit -> value -> go (unit * ctl)) r : zlen r + 16 <= 2147483648 ->
  (forall v s, f tt v <> Ret (s, CDone)) ->
  forall k pos ende s p, 0 <= pos -> ende <= zlen r -> rd_loop f k r pos ende tt = Ret (s, (p, None)) ->
  exists es, iter_loop k r pos ende = Ret (es, None) /\
    Forall (fun e => exists v, e = Some v /\ readable r v /\ f tt v = Ret (tt, CNext)) es.
Proof.
  intros Hs Hf. induction k as [|k IH]; intros pos ende s p Hp He H; [discriminate|].
  cbn [rd_loop iter_loop] in *. destruct (rd_step r pos ende) as [st| |] eqn:St; cbn [bind] in *; try discriminate.
  destruct st as [q e|q|q v]; [discriminate|exists []; split; [reflexivity|constructor]|].
  destruct (step_readable _ _ _ _ _ Hp He Hs St) as [Hq Rv].
  destruct (f tt v) as [[[] c]| |] eqn:Ef; cbn [bind] in H; try discriminate.
  destruct c; [|exfalso; eapply Hf; eauto|discriminate].
  destruct (IH q ende s p Hq He H) as (es & -> & F). cbn [bind]. exists (Some v :: es). split; [reflexivity|]. constructor; [|exact F].
  exists v. auto.
Qed.

Lemma elems_total r f es : zlen r + 16 <= 2147483648 ->
  Forall (fun e => exists v, e = Some v /\ readable r v /\ forall key, exists ms, f key v = Ret ms) es ->
  (exists ms, raw_elems f es = Ret ms) /\ forall key i, exists ms, raw_items f key i es = Ret ms.
Proof.
  intros Hs. induction 1 as [|e es Q F [IH1 IH2]]; [split; [|intros]; eexists; reflexivity|]. destruct Q as (v & -> & Rv & Fv). split.
  - cbn [raw_elems]. destruct (readable_key r v Hs Rv) as (k & ->). cbn [bind]. destruct (Fv k) as (ms & ->). cbn [bind].
    fold (raw_elems f). destruct IH1 as (ms' & ->). cbn [bind]. eauto.
  - intros key i. cbn [raw_items]. destruct (Fv (dotted key i)) as (ms & ->). cbn [bind].
    fold (raw_items f key). destruct (IH2 key (S i)) as (ms' & ->). cbn [bind]. eauto.
Qed.

Lemma deep k : forall r p, rd_validate k r = Ret (p, None) -> zlen r + 16 <= 2147483648 ->
  exists es, (forall n, (k <= n)%nat -> read_document n r = Ret (inl es)) /\
  Forall (fun e => exists v, e = Some v /\ readable r v /\ forall m path key, (k <= m)%nat -> exists ms, raw_value m path key v = Ret ms) es.
Proof.
  induction k as [|k IH]; intros r p V Hs; [discriminate|]. cbn [rd_validate] in V. unfold rd_elements in V.
  destruct (zlen r <? 5) eqn:E5; [discriminate|].
  destruct (goslice r 0 4) as [h| |] eqn:G4; cbn [bind] in V; try discriminate.
  destruct (readi32 h) as [l| |] eqn:R4; cbn [bind] in V; try discriminate.
  destruct (zlen r <? l) eqn:El; cbn [orb] in V; [discriminate|]. destruct (l <? 0) eqn:E0; [discriminate|].
  set (f := fun (_ : unit) (v : value) => _) in V.
  rewrite u32_id in V by (unfold is_u32; lia).
  destruct (rd_loop f k r 4 l tt) as [[s [q e]]| |] eqn:E; cbn [bind] in V; try discriminate. injection V as -> ->.
  destruct (rd_loop_each f r Hs) with (4 := E) as (es & Ei & F); try lia.
  { intros v s'. unfold f. destruct (v_type v) as [t| |]; cbn [bind]; try discriminate.
    destruct ((t =? 3) || (t =? 4)); [|discriminate].
    destruct (reader_container_raw t v) as [sub| |]; cbn [bind]; try discriminate.
    destruct (rd_validate k sub) as [[z [e|]]| |]; cbn [bind]; discriminate. }
  exists es. split.
  - intros n Ln. unfold read_document, doc_unmarshal. rewrite E5, G4. cbn [bind]. rewrite R4. cbn [bind]. rewrite El.
    rewrite u32_id by (unfold is_u32; lia). rewrite (iter_loop_le k n _ _ _ es) by (auto; lia). reflexivity.
  - eapply Forall_impl; [|exact F]. cbn beta. intros e (v & -> & Rv & Fv). exists v. split; [reflexivity|]. split; [exact Rv|].
    intros m path key Lm. destruct m as [|m]; [lia|]. unfold f in Fv.
    destruct (readable_type r v Rv) as (t & T). rewrite T in Fv. cbn [bind] in Fv.
    cbn [raw_value]. rewrite T. cbn [bind].
    assert (C : t = 3 \/ t = 4 -> exists es, getter t (fun off data d => mutable_container (S m) off data d) (Some v) = Ret es /\
      forall path', (exists ms, raw_elems (raw_value m path') es = Ret ms) /\ forall key i, exists ms, raw_items (raw_value m path') key i es = Ret ms).
    { intros T34. replace ((t =? 3) || (t =? 4)) with true in Fv by lia.
      destruct Rv as (pos & p1 & t' & nn & -> & Hp & H1 & Gt & Vc). cbn [reader_container_raw] in Fv.
      replace (p1 =? 0) with false in Fv by lia. cbn [v_type] in T. replace (p1 =? 0) with false in T by lia.
      assert (t' = t) by congruence. subst t'. rewrite Gt in Fv. cbn [bind] in Fv. rewrite Z.eqb_refl in Fv. cbn [negb] in Fv.
      destruct (get_reader_raw p1 r) as [sub| |] eqn:Gr; cbn [bind] in Fv; try discriminate.
      destruct (rd_validate k sub) as [[z [e|]]| |] eqn:Vs; cbn [bind] in Fv; try discriminate.
      assert (Ls : zlen sub <= zlen r).
      { unfold get_reader_raw in Gr. destruct (goslice r p1 (u32 (p1 + 4))) as [s4| |]; cbn [bind] in Gr; try discriminate.
        destruct (readi32 s4) as [l4| |]; cbn [bind] in Gr; try discriminate.
        unfold goslice in Gr. destruct (_ && _ && _); [|discriminate]. injection Gr as <-. unfold slice, zlen.
        rewrite firstn_length, skipn_length. lia. }
      destruct (IH sub z Vs ltac:(lia)) as (es' & Rd & Fs). exists es'. split.
      - unfold getter. replace (p1 =? 0) with false by lia. rewrite Gt. cbn [bind]. rewrite Z.eqb_refl. cbn [negb mutable_container].
        rewrite Gr. cbn [bind]. rewrite (Rd (S m)) by lia. reflexivity.
      - intros path'. apply (elems_total sub); [lia|]. eapply Forall_impl; [|exact Fs]. cbn beta.
        intros e (w & -> & Rw & Fw). exists w. split; [reflexivity|]. split; [exact Rw|]. intros key'. apply Fw. lia. }
    destruct (Z.eqb_spec t 4) as [E4|_].
    { rewrite E4 in C. destruct C as (es' & G & Q); [auto|]. unfold v_mutable_array. rewrite G. cbn [bind]. apply Q. }
    destruct (Z.eqb_spec t 3) as [E3|_].
    { rewrite E3 in C. destruct C as (es' & G & Q); [auto|]. unfold v_mutable_document. rewrite G. cbn [bind].
      destruct (Q (path ++ [key])) as [(ms & ->) _]. cbn [bind]. eauto. }
    clear C.
    repeat match goal with |- exists _, (if t =? ?c then _ else _) = _ => destruct (Z.eqb_spec t c) as [Et|_];
      [rewrite Et in T; pose proof (scalar_getters r v _ Hs Rv T ltac:(cbn; auto 10)) as G; typed G; rewrite Et|] end.
    all: try (eexists; reflexivity).
    + destruct (v_boolean (Some v)) as [x| |]; cbn [bind] in *; try discriminate. eauto.
    + destruct (v_double (Some v)) as [x| |]; cbn [bind] in *; try discriminate. eauto.
    + destruct (v_int32 (Some v)) as [x| |]; cbn [bind] in *; try discriminate. eauto.
    + destruct (v_int64 (Some v)) as [x| |]; cbn [bind] in *; try discriminate. eauto.
    + destruct (v_datetime (Some v)) as [x| |]; cbn [bind] in G; try discriminate.
      destruct (v_time (Some v)) as [y| |]; cbn [bind] in *; try discriminate. eauto.
    + destruct (v_timestamp (Some v)) as [[x y]| |]; cbn [bind] in *; try discriminate. eauto.
Qed.

(* ---- the bytes the reading of a stream returns for *)

(* What Document.ReadFrom returns for (C52): every prefix's header declares four bytes or more,
   and no document that fits has a negative length field. *)
Definition head_ok (fuel : nat) (data : bytes) : Prop :=
  (forall h rest l, data = h ++ rest -> zlen h = 4 -> readi32 h = Ret l -> 4 <= l <= 2147483632) /\
  forall b rest, data = b ++ rest -> declared_length b = Ret (zlen b) -> ~ negative_length b /\ enough fuel (zlen b).

(* The rest of a stream after whole documents, each as long as it declares. *)
Inductive at_doc (data : bytes) : bytes -> Prop :=
| at_start : at_doc data data
| at_next b rest : at_doc data (b ++ rest) -> declared_length b = Ret (zlen b) -> at_doc data rest.

(* A chunk that can be looked into: its data is a binary of four bytes or more and, unzipped, it
   starts as ReadFrom requires and its reference document, if it can be read at all, is one that
   Reader.Validate accepts. *)
Definition chunk_ok (unzip : bytes -> option bytes) (fuel : nat) (es : document) : Prop :=
  forall ty, find_elem k_type es = Ret ty -> raw_is_num 1 ty = Ret true ->
  forall e, find_elem k_data es = Ret (Some e) ->
  exists sub zb, v_binary e = Ret (sub, zb) /\ 4 <= zlen zb /\
    forall buf, unzip (skipn 4 zb) = Some buf -> head_ok fuel buf /\
      forall b rest, buf = b ++ rest -> declared_length b = Ret (zlen b) ->
        forall ref, read_document fuel b = Ret (inl ref) -> exists p, rd_validate fuel b = Ret (p, None).

Lemma raw_chunk_total unzip fuel meta r es : zlen r + 16 <= 2147483648 -> Forall (readable_elem r) es ->
  chunk_ok unzip fuel es -> exists w, raw_chunk_doc unzip fuel meta es = Ret w.
Proof.
  intros Hs F C. unfold raw_chunk_doc.
  destruct (find_total r k_type es Hs F) as (ty & Ety & Rty). rewrite Ety. cbn [bind].
  destruct (is_num_total r 0 ty Hs Rty) as (b0 & ->). cbn [bind]. destruct b0; [eauto|].
  destruct (is_num_total r 1 ty Hs Rty) as (b1 & E1). rewrite E1. cbn [bind]. destruct b1; cbn [negb]; [|eauto].
  destruct (find_total r k_id es Hs F) as (oid & -> & Rid). cbn [bind].
  assert (exists id, match oid with Some e => v_time_ok e | None => Ret None end = Ret id) as (id & ->).
  { destruct oid as [e|]; [|eauto]. destruct Rid as (v & -> & Rv). now apply (time_ok_total r). }
  cbn [bind]. destruct (find_total r k_data es Hs F) as (od & Ed & Rd). rewrite Ed. cbn [bind].
  destruct od as [e|]; [|eauto]. destruct (C ty Ety E1 e Ed) as (sub & zb & -> & L & O). cbn [bind].
  assert (goslice zb 4 (zlen zb) = Ret (skipn 4 zb)) as ->.
  { unfold goslice. replace ((0 <=? 4) && (4 <=? zlen zb) && (zlen zb <=? zlen zb)) with true by lia. f_equal.
    unfold slice. change (Z.to_nat 4) with 4%nat. apply firstn_all2. rewrite skipn_length. unfold zlen. lia. }
  cbn [bind]. destruct (unzip (skipn 4 zb)) as [buf|]; [|eauto]. destruct (O buf eq_refl) as [[H1 H2] H3].
  destruct (C52_read_from_partial fuel (MkStream buf [] EEOF false) H1 H2) as (s' & n & oes & er & used & E & D & Z & X).
  rewrite E. cbn [bind]. destruct er as [er|]; [eauto|]. destruct (X eq_refl) as (Dl & d & -> & Rd'). cbn [st_data] in D.
  rewrite <- Z in Dl. destruct (H3 used _ D Dl d Rd') as (p & V).
  assert (Hu : zlen used + 16 <= 2147483648).
  { destruct used as [|a [|b [|c [|dd used]]]]; try (unfold declared_length, readi32, rdu32 in Dl; discriminate).
    specialize (H1 [a; b; c; dd] (used ++ st_data s') (zlen (a :: b :: c :: dd :: used))). cbn [app] in H1. specialize (H1 D eq_refl Dl). lia. }
  destruct (deep fuel used p V Hu) as (es' & Rn & Fd).
  assert (es' = d) by (specialize (Rn fuel (le_n _)); congruence). subst es'.
  destruct (elems_total used (raw_value fuel []) d Hu) as [(ms & ->) _].
  { eapply Forall_impl; [|exact Fd]. cbn beta. intros x (v & -> & Rv & Fv). exists v. repeat split; auto. }
  cbn [bind]. destruct (zlen (st_data s') <? 8) eqn:L8; [eauto|].
  destruct (rdu32_four (firstn 4 (st_data s'))) as (nm & ->); [unfold zlen in *; rewrite firstn_length; lia|].
  destruct (rdu32_four (firstn 4 (skipn 4 (st_data s')))) as (nd & ->); [unfold zlen in *; rewrite firstn_length, skipn_length; lia|].
  cbn [bind]. destruct (negb _); [eauto|]. destruct (get_metrics _ _ _ _); eauto.
Qed.

Lemma raw_docs_total unzip fuel data : forall n s,
  (forall rest, at_doc data rest -> head_ok fuel rest /\
     forall b r es, rest = b ++ r -> declared_length b = Ret (zlen b) -> read_document fuel b = Ret (inl es) -> chunk_ok unzip fuel es) ->
  at_doc data (st_data s) -> zlen (st_data s) < Z.of_nat n ->
  exists docs s' e, read_docs n fuel s = (docs, s', Ret e) /\
    Forall (fun es => chunk_ok unzip fuel es /\ exists r, zlen r + 16 <= 2147483648 /\ Forall (readable_elem r) es) docs.
Proof.
  induction n as [|n IH]; intros s H A L; [pose proof (zlen_nonneg (st_data s)); lia|].
  cbn [read_docs]. destruct (H _ A) as [[H1 H2] H3].
  destruct (C52_read_from_partial fuel s H1 H2) as (s' & m & oes & er & used & E & D & Z & X).
  unfold dce_read_from. rewrite E. destruct er as [er|]; [destruct oes; do 3 eexists; (split; [reflexivity|constructor])|].
  destruct (X eq_refl) as (Dl & d & -> & Rd). rewrite <- Z in Dl.
  assert (Hu : 4 <= zlen used /\ zlen used + 16 <= 2147483648).
  { destruct used as [|a [|b [|c [|dd used]]]]; try (unfold declared_length, readi32, rdu32 in Dl; discriminate).
    specialize (H1 [a; b; c; dd] (used ++ st_data s') (zlen (a :: b :: c :: dd :: used))). cbn [app] in H1. specialize (H1 D eq_refl Dl). lia. }
  destruct (IH s' H) as (docs & s2 & e & -> & F).
  - apply at_next with used; [now rewrite <- D|exact Dl].
  - rewrite D, zlen_app in L. lia.
  - do 3 eexists. split; [reflexivity|]. constructor; [|exact F]. split; [now apply (H3 used (st_data s') d)|].
    exists used. split; [lia|]. apply (document_readable fuel used (zlen used) d); auto; lia.
Qed.

(* C65 for any bytes at all: if no document of the stream breaks what ReadFrom requires and the
   chunks can be looked into, then whatever the types, the fields, the counts and the deltas
   are, whatever the reader's schedule and final error are, reading ends without a panic.
   Missing: the rest, where it is false. *)
Theorem C65_bytes_partial : forall unzip fuel s n,
  (forall rest, at_doc (st_data s) rest -> head_ok fuel rest /\
     forall b r es, rest = b ++ r -> declared_length b = Ret (zlen b) -> read_document fuel b = Ret (inl es) -> chunk_ok unzip fuel es) ->
  zlen (st_data s) < Z.of_nat n ->
  exists cs e, raw_read_chunks unzip n fuel s = (cs, Ret e).
Proof.
  intros unzip fuel s n H L. destruct (raw_docs_total unzip fuel (st_data s) n s H (at_start _) L) as (docs & s' & o & R & F).
  unfold raw_read_chunks. rewrite R.
  assert (Q : forall meta, exists cs e, raw_chunks_of unzip fuel meta docs = (cs, Ret e)).
  { clear -F. induction F as [|es docs [C (r & Hs & Fr)] F IH]; intros meta; [cbn; eauto|]. cbn [raw_chunks_of].
    destruct (raw_chunk_total unzip fuel meta r es Hs Fr C) as (w & ->). destruct w as [| |e|ms p id mt ref].
    - exact (IH (Some es)).
    - exact (IH meta).
    - eauto.
    - destruct (IH meta) as (cs & e & ->). eauto. }
  destruct (Q None) as (cs & e & ->). cbn [bind]. destruct e; eauto.
Qed.
Print Assumptions C65_bytes_partial.

(* Findings: a reference document that ReadFrom accepts and Reader.Validate does not.  Its
   subdocument "d" declares its twelve bytes and holds a field of no known type: reading panics.
   And a binary of subtype 2 whose inner length is not that of its bytes panics. *)
Definition nested_ref : bytes := [20; 0; 0; 0; 3; 100; 0; 12; 0; 0; 0; 77; 65; 0; 1; 2; 3; 4; 0; 0].
Definition chunk_bytes (data : bytes) : bytes := enc_doc (bad_chunk (BBinary 0 data)).
Theorem C65_nested_refuted : forall unzip, unzip nested_ref = Some nested_ref ->
  let s := MkStream (chunk_bytes ([0; 0; 0; 0] ++ nested_ref)) [] EEOF false in
  exists p es, raw_read_chunks unzip 5 500 s = ([], Panic p) /\
    read_document 500 nested_ref = Ret (inl es) /\
    (exists x, rd_validate 500 nested_ref = Ret (x, Some EInvalidElement)).
Proof.
  intros unzip U s.
  assert (exists p, raw_read_chunks (fun _ => Some nested_ref) 5 500 s = ([], Panic p)) as (p & E) by (eexists; vm_compute; reflexivity).
  assert (Q : raw_read_chunks unzip 5 500 s = raw_read_chunks (fun _ => Some nested_ref) 5 500 s).
  { assert (R : exists es s1, read_docs 5 500 s = ([es], s1, Ret (Some EEOF)) /\ exists e, find_elem k_data es = Ret (Some e) /\
      v_binary e = Ret (0, [0; 0; 0; 0] ++ nested_ref)) by (do 2 eexists; split; [vm_compute; reflexivity|eexists; split; [vm_compute; reflexivity|reflexivity]]).
    destruct R as (es & s1 & R & e & Fd & B). unfold raw_read_chunks. rewrite R. cbn [raw_chunks_of].
    assert (raw_chunk_doc unzip 500 None es = raw_chunk_doc (fun _ => Some nested_ref) 500 None es) as ->; [|reflexivity].
    unfold raw_chunk_doc. rewrite Fd. cbn [bind]. rewrite B. cbn [bind].
    change (goslice ([0; 0; 0; 0] ++ nested_ref) 4 (zlen ([0; 0; 0; 0] ++ nested_ref))) with (Ret nested_ref). cbn [bind]. rewrite U. reflexivity. }
  rewrite Q, E. do 2 eexists. split; [reflexivity|]. split; [vm_compute; reflexivity|]. eexists. vm_compute. reflexivity.
Qed.
Print Assumptions C65_nested_refuted.

Definition subtype2_chunk : bytes :=
  [30; 0; 0; 0; 16; 116; 121; 112; 101; 0; 1; 0; 0; 0; 5; 100; 97; 116; 97; 0; 4; 0; 0; 0; 2; 200; 0; 0; 0; 0].
Theorem C65_subtype2_refuted : forall unzip,
  exists p, raw_read_chunks unzip 5 500 (MkStream subtype2_chunk [] EEOF false) = ([], Panic p).
Proof. intros unzip. eexists. vm_compute. reflexivity. Qed.
Print Assumptions C65_subtype2_refuted.

(* ---- the hypotheses of C65_bytes_partial are met by bytes that are not BSON *)

(* a check for negative lengths *)
Fixpoint neg_field (r : bytes) : bool :=
  match r with
  | [] => false
  | t :: r' =>
      (if existsb (Z.eqb t) [2; 5; 12; 13; 14; 15] then
         match find_nul r' with
         | Some n => match readi32 (firstn 4 (skipn (Z.to_nat n + 1) r')) with Ret l => l <? 0 | _ => false end
         | None => false
         end
       else false) || neg_field r'
  end.
Lemma neg_field_sound r : neg_field r = false -> ~ negative_length r.
Proof.
  intros N (a & t & k & l4 & l & b & -> & I & Nk & L4 & R & Hl). induction a as [|x a IH]; cbn [app neg_field] in N.
  - apply orb_false_iff in N as [N _].
    replace (existsb (Z.eqb t) [2; 5; 12; 13; 14; 15]) with true in N.
    2:{ symmetry. apply existsb_exists. exists t. split; [exact I|]. apply Z.eqb_refl. }
    rewrite (find_nul_cstr k _ Nk) in N.
    assert (E : firstn 4 (skipn (Z.to_nat (zlen k) + 1) (k ++ 0 :: l4 ++ b)) = l4).
    { unfold zlen in *. rewrite Nat2Z.id, skipn_app, skipn_all2 by lia. replace (length k + 1 - length k)%nat with 1%nat by lia.
      cbn [skipn app]. rewrite firstn_app. replace (4 - length l4)%nat with 0%nat by lia. rewrite firstn_O, app_nil_r. apply firstn_all2. lia. }
    rewrite E, R in N. lia.
  - apply orb_false_iff in N as [_ N]. auto.
Qed.

(* one document, as long as it declares, alone in a stream *)
Lemma whole_prefix h data l b rest : zlen h = 4 -> readi32 h = Ret l -> zlen (h ++ data) = l ->
  h ++ data = b ++ rest -> declared_length b = Ret (zlen b) -> b = h ++ data /\ rest = [].
Proof.
  intros Lh Rh Ll E D. destruct h as [|a [|c [|d [|e [|]]]]]; try (unfold zlen in Lh; cbn [length] in Lh; lia).
  destruct b as [|a' [|c' [|d' [|e' b]]]]; try (unfold declared_length, readi32, rdu32 in D; discriminate).
  pose proof E as E'. cbn [app] in E'. injection E' as <- <- <- <- E'. unfold declared_length in D. cbn [firstn] in D. rewrite Rh in D. injection D as D.
  assert (zlen rest = 0).
  { apply (f_equal zlen) in E. rewrite Ll, zlen_app in E. lia. }
  destruct rest; [|unfold zlen in H; cbn [length] in H; lia]. rewrite app_nil_r in E', E. now rewrite E.
Qed.
Lemma at_doc_whole h data l rest : zlen h = 4 -> readi32 h = Ret l -> zlen (h ++ data) = l ->
  at_doc (h ++ data) rest -> rest = h ++ data \/ rest = [].
Proof.
  intros Lh Rh Ll A. remember (h ++ data) as d eqn:Ed. induction A as [|b rest A IH D]; [auto|].
  destruct IH as [E|E].
  - right. rewrite Ed in E. symmetry in E. rewrite Ed in Ll. now destruct (whole_prefix h data l b rest Lh Rh Ll E D).
  - apply app_eq_nil in E. tauto.
Qed.
Lemma head_nil fuel : head_ok fuel [].
Proof.
  split.
  - intros h rest l E L _. symmetry in E. apply app_eq_nil in E as [-> _]. discriminate.
  - intros b rest E D. symmetry in E. apply app_eq_nil in E as [-> _]. discriminate.
Qed.
Lemma head_whole fuel h data tail l : zlen h = 4 -> readi32 h = Ret l -> zlen (h ++ data) = l -> 4 <= l <= 2147483632 ->
  l < Z.of_nat fuel -> neg_field (h ++ data) = false -> head_ok fuel ((h ++ data) ++ tail).
Proof.
  intros Lh Rh Ll Hl Hf N.
  assert (P : forall b rest, (h ++ data) ++ tail = b ++ rest -> declared_length b = Ret (zlen b) -> b = h ++ data).
  { intros b rest E D. destruct h as [|a [|c [|d [|e [|]]]]]; try (unfold zlen in Lh; cbn [length] in Lh; lia).
    destruct b as [|a' [|c' [|d' [|e' b]]]]; try (unfold declared_length, readi32, rdu32 in D; discriminate).
    pose proof E as E'. cbn [app] in E'. injection E' as <- <- <- <- E'. unfold declared_length in D. cbn [firstn] in D. rewrite Rh in D. injection D as D.
    rewrite D in Ll. clear -E Ll. set (x := a :: c :: d :: e :: b) in *. set (y := [a; c; d; e] ++ data) in *.
    apply (f_equal (firstn (length x))) in E. rewrite !firstn_app in E.
    assert (length x = length y) by (unfold zlen in Ll; lia). rewrite firstn_all, Nat.sub_diag in E. rewrite H, firstn_all, Nat.sub_diag in E.
    cbn [firstn] in E. rewrite !app_nil_r in E. auto. }
  split.
  - intros h' rest l' E L R. assert (h' = h).
    { rewrite <- app_assoc in E. apply (f_equal (firstn 4)) in E. rewrite !firstn_app in E. unfold zlen in *.
      replace (4 - length h)%nat with 0%nat in E by lia. replace (4 - length h')%nat with 0%nat in E by lia. rewrite !firstn_O in E.
      rewrite !app_nil_r, !firstn_all2 in E by lia. auto. }
    subst h'. rewrite Rh in R. injection R as <-. exact Hl.
  - intros b rest E D. rewrite (P b rest E D). split; [now apply neg_field_sound|]. unfold enough. lia.
Qed.

(* the chunk of C65_nonvacuous with a string "z" that has no terminator *)
Definition raw_chunk : bytes :=
  [16; 116; 121; 112; 101; 0; 1; 0; 0; 0; 5; 100; 97; 116; 97; 0; 24; 0; 0; 0; 0; 0; 0; 0; 0] ++
  [12; 0; 0; 0; 16; 120; 0; 1; 0; 0; 0; 0] ++ [1; 0; 0; 0; 64; 66; 15; 0] ++ [2; 122; 0; 2; 0; 0; 0; 65; 65; 0].
Example C65_bytes_nonvacuous : let unzip := fun b : bytes => Some b in let s := MkStream ([59; 0; 0; 0] ++ raw_chunk) [3; 1]%nat EEOF false in
  (forall rest, at_doc (st_data s) rest -> head_ok 500 rest /\
     forall b r es, rest = b ++ r -> declared_length b = Ret (zlen b) -> read_document 500 b = Ret (inl es) -> chunk_ok unzip 500 es) /\
  raw_read_chunks unzip 100 500 s = ([], Ret (Some (EOther 64))) /\
  exists a b v n, read_document 500 (st_data s) = Ret (inl [a; b; Some v]) /\ val_validate 500 false v = Ret (n, Some EInvalidString).
Proof.
  intros unzip s. split; [|split; [vm_compute; reflexivity|do 4 eexists; split; [vm_compute; reflexivity|vm_compute; reflexivity]]].
  intros rest A. cbn [st_data s] in A. destruct (at_doc_whole [59; 0; 0; 0] raw_chunk 59 rest) as [->| ->]; try reflexivity; [exact A|..].
  - split.
    + rewrite <- (app_nil_r (_ ++ _)). apply (head_whole 500 _ _ _ 59); try reflexivity; lia.
    + intros b r es E D R. destruct (whole_prefix [59; 0; 0; 0] raw_chunk 59 b r) as [-> ->]; try reflexivity; auto.
      assert (exists x v y, read_document 500 ([59; 0; 0; 0] ++ raw_chunk) = Ret (inl [x; v; y]) /\ find_elem k_data [x; v; y] = Ret (Some v) /\
        v_binary v = Ret (0, [0; 0; 0; 0] ++ ([12; 0; 0; 0] ++ [16; 120; 0; 1; 0; 0; 0; 0]) ++ [1; 0; 0; 0; 64; 66; 15; 0])) as (x & v & y & R' & Fd & B).
      { do 3 eexists. split; [vm_compute; reflexivity|]. split; [vm_compute; reflexivity|]. vm_compute. reflexivity. }
      rewrite R' in R. injection R as <-. intros ty _ _ e Ee. assert (e = v) by congruence. subst e.
      do 2 eexists. split; [exact B|]. split; [vm_compute; discriminate|]. intros buf Eb. unfold unzip in Eb. injection Eb as <-.
      split.
      * apply (head_whole 500 [12; 0; 0; 0] [16; 120; 0; 1; 0; 0; 0; 0] [1; 0; 0; 0; 64; 66; 15; 0] 12); try reflexivity; lia.
      * intros b rest E' D' ref Rr. exists 12.
        assert (b = [12; 0; 0; 0] ++ [16; 120; 0; 1; 0; 0; 0; 0]) as ->; [|vm_compute; reflexivity].
        destruct b as [|a' [|c' [|d' [|e' b]]]]; try (unfold declared_length, readi32, rdu32 in D'; discriminate).
        pose proof E' as E2. cbn [app] in E2. injection E2 as <- <- <- <- E2. unfold declared_length in D'. cbn [firstn] in D'.
        assert (zlen (12 :: 0 :: 0 :: 0 :: b) = 12) by (change (readi32 [12; 0; 0; 0]) with (Ret 12) in D'; congruence).
        destruct b as [|b1 [|b2 [|b3 [|b4 [|b5 [|b6 [|b7 [|b8 [|]]]]]]]]]; try (unfold zlen in H; cbn [length] in H; lia).
        injection E2 as <- <- <- <- <- <- <- <- _. reflexivity.
  - split; [apply head_nil|]. intros b r es E D. symmetry in E. apply app_eq_nil in E as [-> ->]. discriminate.
Qed.
