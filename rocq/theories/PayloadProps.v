(* C115: the bytes of embedded documents, arrays, scopes and other values. *)
Require Import ZArith List Bool Lia ZifyBool ZifyNat.
From Verif Require Import Base BSpec Elements Value Codec CodecRead Itoa CodecRep Api ApiProofs Tree GetterProofs ReaderOps CodecProps Payload.
From Verif Require FtdcRestore.
Import ListNotations.
Open Scope Z_scope.

(* ------------------------------------------------------------------- lemmas *)

Lemma reader_eq fuel tg st off data d : off <> 0 -> goindex data st = Ret tg ->
  v_reader fuel (Some (MkValue st off (Some data) d)) = get_reader fuel off data d /\
  getter tg (fun off data d => get_reader fuel off data d) (Some (MkValue st off (Some data) d)) = get_reader fuel off data d.
Proof.
  intros O T. cbn [v_reader getter]. replace (off =? 0) with false by lia. rewrite T. cbn [bind]. rewrite Z.eqb_refl. auto.
Qed.

Lemma get_reader_frame fuel pre k tg c post :
  zlen (pre ++ tg :: enc_cstring k ++ enc_frame c ++ post) < 2147483648 ->
  get_reader fuel (zlen pre + zlen k + 2) (pre ++ tg :: enc_cstring k ++ enc_frame c ++ post) None = Ret (enc_frame c).
Proof.
  intros H. cbn [get_reader]. pose proof (get_reader_raw_at (pre ++ tg :: enc_cstring k) c post) as G.
  replace (zlen (pre ++ tg :: enc_cstring k)) with (zlen pre + zlen k + 2) in G by zl.
  replace ((pre ++ tg :: enc_cstring k) ++ enc_frame c ++ post) with (pre ++ tg :: enc_cstring k ++ enc_frame c ++ post) in G by lst.
  apply G. zlens_in H. lia.
Qed.

(* what reading makes is not yet looked into *)
Lemma iter_loop_lazy fuel : forall r pos ende es e, iter_loop fuel r pos ende = Ret (es, e) ->
  Forall (fun x => exists v, x = Some v /\ v_d v = None) es.
Proof.
  induction fuel as [|n IH]; intros r pos ende es e H; [discriminate|]. cbn [iter_loop] in H.
  destruct (rd_step r pos ende) as [s| |] eqn:E; cbn [bind] in H; try discriminate.
  destruct s as [p x|p|p v]; [injection H as <- <-; constructor..|].
  destruct (iter_loop n r p ende) as [[es' e']| |] eqn:E'; cbn [bind] in H; try discriminate. injection H as <- <-.
  constructor; [|eapply IH; eauto]. exists v. split; [reflexivity|].
  unfold rd_step in E. destruct (ende <=? pos); [discriminate|]. destruct (goindex r pos); cbn [bind] in E; try discriminate.
  destruct (_ =? 0); [discriminate|]. destruct (rd_validate_key _ _ _) as [[? [?|]]| |]; cbn [bind] in E; try discriminate.
  destruct (validate_core _ _ _ _ _ _) as [[? [?|]]| |]; cbn [bind] in E; try discriminate. injection E as _ <-. reflexivity.
Qed.
Lemma read_lazy fuel b es : read_document fuel b = Ret (inl es) -> Forall (fun x => exists v, x = Some v /\ v_d v = None) es.
Proof.
  unfold read_document, doc_unmarshal. intros H.
  repeat match type of H with context [if ?c then _ else _] => destruct c; cbn [bind] in H; try discriminate end.
  all: repeat match type of H with context [goslice ?a ?x ?y] => destruct (goslice a x y); cbn [bind] in H; try discriminate
       | context [readi32 ?x] => destruct (readi32 x); cbn [bind] in H; try discriminate
       | context [if ?c then _ else _] => destruct c; cbn [bind] in H; try discriminate end.
  all: match type of H with context [iter_loop ?f ?r ?p ?e] => destruct (iter_loop f r p e) as [[es' e']| |] eqn:E; cbn [bind] in H; try discriminate end.
  all: destruct e'; [discriminate|]; injection H as <-; eapply iter_loop_lazy; eauto.
Qed.

Lemma marshal_get fuel es fs off data : rep_doc es fs -> wf_fields fs -> small fs -> enough fuel (zlen (enc_doc fs)) ->
  get_reader fuel off data (Some es) = Ret (enc_doc fs).
Proof. intros R W S F. cbn [get_reader]. rewrite (doc_marshal_rep fuel es fs) by auto. reflexivity. Qed.

Lemma tag_index pre tg k rest : goindex (pre ++ tg :: enc_cstring k ++ rest) (zlen pre) = Ret tg.
Proof. now apply goindex_app. Qed.
Lemma off_pos (pre k : bytes) : zlen pre + zlen k + 2 <> 0.
Proof. zl. Qed.

(* ------------------------------------------------------------------ theorems *)

(* Embedded documents, built or read, looked into or not: both give the bytes of the document. *)
Theorem C115_document : forall fuel k fs v, obtained k (BDoc fs) v -> nul_free k -> wf_fields fs ->
  zlen (enc_elem k (BDoc fs)) < 2147483648 -> enough fuel (zlen (enc_doc fs)) ->
  v_reader_document fuel (Some v) = Ret (enc_doc fs) /\ v_reader fuel (Some v) = Ret (enc_doc fs).
Proof.
  intros fuel k fs v O K W L F. pose proof (obtained_rep _ _ _ K (proj2 (wf_doc fs) W) L O) as R.
  rewrite zlen_enc_elem, enc_body_doc in L. posl. assert (S : small fs) by (unfold small; lia).
  apply rep_inv in R as (_ & pre & post & C). unfold v_reader_document.
  destruct C as [[-> Hf]|[C|[C|C]]].
  - cbn [tag]. rewrite enc_body_doc in *. unfold fits in Hf. cbn [tag] in Hf.
    destruct (reader_eq fuel 3 (zlen pre) (zlen pre + zlen k + 2) (pre ++ 3 :: enc_cstring k ++ enc_doc fs ++ post) None) as [-> ->];
      [apply off_pos|apply tag_index|].
    unfold enc_doc in *. rewrite get_reader_frame by exact Hf. auto.
  - destruct C as (fs' & es & E & -> & Hf & Re). injection E as <-.
    destruct (reader_eq fuel 3 (zlen pre) (zlen pre + zlen k + 2) (pre ++ 3 :: enc_cstring k ++ post) (Some es)) as [-> ->];
      [apply off_pos|apply tag_index|].
    rewrite (marshal_get fuel es fs) by auto. auto.
  - destruct C as (? & ? & E & _). discriminate.
  - destruct C as (? & ? & ? & ? & E & _). discriminate.
Qed.
Print Assumptions C115_document.

(* Code with scope: the code and the bytes of the scope. *)
Theorem C115_code : forall fuel k c fs v, obtained k (BCode c fs) v -> nul_free k -> wf (BCode c fs) ->
  zlen (enc_elem k (BCode c fs)) < 2147483648 -> enough fuel (zlen (enc_body (BCode c fs))) ->
  v_reader_code fuel (Some v) = Ret (c, enc_doc fs).
Proof.
  intros fuel k c fs v O K W L F. pose proof (obtained_rep _ _ _ K W L O) as R.
  apply wf_code in W as [Wc W]. unfold enough in F. rewrite zlen_enc_elem, enc_body_code in *. zlens_in L. zlens_in F. posl.
  assert (S : small fs) by (unfold small; lia).
  apply rep_inv in R as (_ & pre & post & C). destruct C as [[-> Hf]|[C|[C|C]]].
  - unfold v_reader_code. fold (lz pre k (BCode c fs) post).
    fold (lzfits pre k (BCode c fs) post) in Hf. rewrite getter_lz by reflexivity.
    pose proof (lzfits_len _ _ _ _ Hf) as L'. set (p := pre ++ tag (BCode c fs) :: enc_cstring k) in *. clearbody p.
    rewrite enc_body_code in *.
    set (l4 := le32 (4 + zlen (enc_string c) + zlen (enc_doc fs))) in *.
    assert (L4 : zlen l4 = 4) by reflexivity.
    assert (R4 : readi32 l4 = Ret (9 + zlen c + zlen (enc_doc fs))).
    { unfold l4. zlens. replace (4 + (zlen c + 5) + zlen (enc_doc fs)) with (9 + zlen c + zlen (enc_doc fs)) by lia.
      apply readi32_le. rng. }
    assert (LD : 5 <= zlen (enc_doc fs)) by (unfold enc_doc; zl).
    clearbody l4. zlens_in L'. posl. u32s. unfold enc_string in *.
    gs (p ++ l4) (le32 (zlen c + 1)) (c ++ [0] ++ enc_doc fs ++ post).
    rewrite readi32_le by rng. cbn [bind]. u32s.
    gs (p ++ l4 ++ le32 (zlen c + 1)) c ([0] ++ enc_doc fs ++ post).
    gs p l4 ((le32 (zlen c + 1) ++ c ++ [0]) ++ enc_doc fs ++ post). rewrite R4. cbn [bind]. u32s.
    gs (p ++ l4 ++ le32 (zlen c + 1) ++ c ++ [0]) (enc_doc fs) post. reflexivity.
  - destruct C as (? & ? & E & _). discriminate.
  - destruct C as (? & ? & E & _). discriminate.
  - destruct C as (c' & fs' & es & l4 & E & L4 & -> & Hf & Re). injection E as <- <-.
    unfold v_reader_code. rewrite getter_rep. unfold fits in Hf. unfold enc_string in *. zlens_in Hf. posl.
    u32s. gs (pre ++ 15 :: enc_cstring k ++ l4) (le32 (zlen c + 1)) (c ++ [0] ++ post).
    rewrite readi32_le by rng. cbn [bind]. u32s.
    gs (pre ++ 15 :: enc_cstring k ++ l4 ++ le32 (zlen c + 1)) c ([0] ++ post).
    rewrite (doc_marshal_rep fuel es fs) by (auto; lia). reflexivity.
Qed.
Print Assumptions C115_code.

(* Arrays that were read: the bytes read, also after MutableArray.  Missing for C115: built arrays. *)
Theorem C115_array_partial : forall fuel fs i k vs post es v, wf_fields fs -> zlen (enc_doc fs ++ post) < 2147483648 ->
  enough fuel (zlen (enc_doc fs)) -> read_document fuel (enc_doc fs ++ post) = Ret (inl es) ->
  nth_error fs i = Some (k, BArray vs) -> nth_error es i = Some (Some v) ->
  v_reader_array fuel (Some v) = Ret (enc_array vs) /\ v_reader fuel (Some v) = Ret (enc_array vs) /\
  exists items, v_mutable_array fuel (Some v) = Ret items /\
    v_reader_array fuel (Some (with_doc v items)) = Ret (enc_array vs).
Proof.
  intros fuel fs i k vs post es v W L F E Hi Hv.
  destruct (read_document_wf fs post fuel W L F) as (es' & E' & Rd). assert (es' = es) by congruence. subst es'.
  pose proof (rep_doc_nth fs es i Rd) as N. rewrite Hi in N. destruct N as (w & Hw & R). assert (w = v) by congruence. subst w.
  assert (Z : v_d v = None).
  { pose proof (read_lazy _ _ _ E) as A. rewrite Forall_forall in A. apply nth_error_In in Hv. destruct (A _ Hv) as (x & X & D). congruence. }
  apply nth_error_In in Hi. destruct (in_fields_wf _ _ _ Hi W) as [Wa La]. apply wf_array in Wa.
  rewrite zlen_enc_elem, enc_body_array in La. unfold enough, enc_doc in F, L. zlens_in F. zlens_in L. posl.
  apply rep_inv in R as (_ & pre & post' & C). unfold v_reader_array, v_mutable_array.
  destruct C as [[-> Hf]|[C|[C|C]]].
  - rewrite enc_body_array in *. unfold fits in Hf. cbn [tag] in *.
    destruct (reader_eq fuel 4 (zlen pre) (zlen pre + zlen k + 2) (pre ++ 4 :: enc_cstring k ++ enc_array vs ++ post') None) as [-> ->];
      [apply off_pos|apply tag_index|].
    assert (G : get_reader fuel (zlen pre + zlen k + 2) (pre ++ 4 :: enc_cstring k ++ enc_array vs ++ post') None = Ret (enc_array vs)).
    { unfold enc_array in *. apply get_reader_frame. exact Hf. }
    split; [exact G|]. split; [exact G|].
    destruct (read_array_wf vs fuel) as (items & Er & Ri & _); auto; try lia.
    exists items. rewrite getter_rep. cbn [get_reader] in G. cbn [mutable_container]. rewrite G. cbn [bind]. rewrite Er. cbn [bind].
    split; [reflexivity|]. unfold with_doc. cbn [v_start v_offset v_data]. rewrite getter_rep.
    rewrite enc_array_fields. rewrite enc_array_fields in *. apply marshal_get; auto.
    + now apply wf_index_fields.
    + unfold small. lia.
    + unfold enough. lia.
  - destruct C as (? & ? & ? & -> & _). discriminate Z.
  - destruct C as (? & ? & ? & -> & _). discriminate Z.
  - destruct C as (? & ? & ? & ? & ? & _ & -> & _). discriminate Z.
Qed.
Print Assumptions C115_array_partial.

(* The items of an array that was built have the key []. *)
Lemma build_arr_keys vs : forall i es, build_arr vs = Ret es -> Forall wf vs -> zlen (enc_items i vs) < 2147483648 ->
  rep_doc es (map (pair []) vs).
Proof.
  induction vs as [|t vs IH]; intros i es E W L.
  - injection E as <-. exact I.
  - inversion_clear W as [|? ? Wt Wv]. cbn [enc_items] in L. zlens_in L.
    pose proof (zlen_enc_elem (index_key i) t) as E1. pose proof (zlen_enc_elem [] t) as E2. change (zlen (@nil Z)) with 0 in E2. posl.
    destruct (build_rep t []) as (v & Ev & Rv); [constructor|auto|unfold efits; lia|].
    cbn [build_arr] in E. rewrite Ev in E. cbn [bind] in E.
    destruct (build_arr vs) as [es'| |] eqn:E'; cbn [bind] in E; try discriminate. injection E as <-.
    cbn [map rep_doc]. split; [exact Rv|]. apply (IH (S i)); auto. lia.
Qed.
Lemma index_key_pos i : 1 <= zlen (index_key i).
Proof.
  exact (FtdcRestore.index_key_le 0 i (Nat.le_0_l i)).
Qed.
Lemma first_nokeys k vs : k <> [] -> first_key k (map (pair []) vs) = None.
Proof.
  intros N. induction vs as [|t vs IH]; [reflexivity|]. cbn [map first_key]. destruct k; [congruence|]. exact IH.
Qed.
Lemma nokeys_len vs : forall i, zlen (enc_elems (map (pair []) vs)) + Z.of_nat (length vs) <= zlen (enc_items i vs).
Proof.
  induction vs as [|t vs IH]; intros i; [cbn; lia|]. cbn [map enc_items]. rewrite zlen_enc_elems_cons. zlens.
  rewrite !zlen_enc_elem. specialize (IH (S i)). cbn [length].
  pose proof (index_key_pos i). change (zlen (@nil Z)) with 0. lia.
Qed.

(* An array that was built: ReaderArray gives a document whose keys are all empty, not the bytes the array has in the
   document it is in, and looking up its first index in them fails. *)
Theorem C115_array_refuted : forall fuel k vs v, cstr_ok k -> Forall wf vs -> vs <> [] ->
  zlen (enc_doc [(k, BArray vs)]) < 2147483648 -> enough fuel (zlen (enc_doc [(k, BArray vs)])) ->
  build k (BArray vs) = Ret v ->
  let b := enc_doc (map (fun t => ([], t)) vs) in
  doc_marshal fuel [Some v] = Ret (inl (enc_doc [(k, BArray vs)])) /\
  v_reader_array fuel (Some v) = Ret b /\ v_reader fuel (Some v) = Ret b /\ b <> enc_array vs /\
  rd_lookup fuel [[48]] b = Ret (None, Some ENotFound).
Proof.
  intros fuel k vs v K W N L F B. change (fun t : bval => ([], t)) with (@pair bytes bval []). intros b. pose proof L as L0. unfold enough in F. unfold enc_doc at 1 in L. unfold enc_doc at 1 in F.
  cbn [enc_elems] in L, F. rewrite app_nil_r in L, F. zlens_in L. zlens_in F. rewrite zlen_enc_elem, enc_body_array in L, F. posl.
  pose proof (nokeys_len vs 0) as Lk. assert (La : zlen (enc_array vs) = zlen (enc_items 0 vs) + 5) by (unfold enc_array; zl).
  assert (Lb : zlen b = zlen (enc_elems (map (pair []) vs)) + 5) by (unfold b, enc_doc; zl).
  assert (length vs <> 0%nat) by (destruct vs; [congruence|discriminate]).
  assert (Wd : wf_fields (map (pair []) vs)).
  { apply Forall_forall. intros [k' t] I. apply in_map_iff in I as (t' & E & I). injection E as <- <-.
    rewrite Forall_forall in W. split; [split; constructor|]. now apply W. }
  rewrite build_BArray in B. destruct (build_arr vs) as [es| |] eqn:E; cbn [bind] in B; try discriminate.
  assert (Rd : rep_doc es (map (pair []) vs)) by (apply (build_arr_keys vs 0); auto; lia).
  destruct (build_arr_rep vs) as (es' & E' & Ra); auto; [lia|]. assert (es' = es) by congruence. subst es'.
  destruct (ec_array_rep k es vs) as (w & Ew & Rw & _); [apply K|lia|auto|]. assert (w = v) by congruence. subst w.
  unfold ec_array in B. rewrite built_hdr in B by lia. injection B as <-.
  assert (G : forall off data, get_reader fuel off data (Some es) = Ret b).
  { intros. apply marshal_get; auto; [unfold small|unfold enough]; fold b; lia. }
  assert (b <> enc_array vs) as D by (intros D; rewrite D in Lb; lia).
  destruct (reader_eq fuel 4 0 (zlen k + 2) (4 :: enc_cstring k) (Some es)) as [R1 R2]; [lia|reflexivity|].
  split.
  { apply (doc_marshal_rep fuel _ [(k, BArray vs)]); auto.
    - cbn [rep_doc]. auto.
    - constructor; [|constructor]. split; [exact K|]. now apply wf_array.
    - unfold enc_doc. cbn [enc_elems]. rewrite app_nil_r. zlens. rewrite zlen_enc_elem, enc_body_array. lia. }
  unfold v_reader_array. rewrite R1, R2, !G. repeat split; auto.
  pose proof (rd_lookup_wf [[48]] (map (pair []) vs) fuel [] Wd) as Lk'. rewrite app_nil_r in Lk'.
  cbn [find_path] in Lk'. rewrite first_nokeys in Lk' by discriminate. apply Lk'; fold b; lia.
Qed.
Print Assumptions C115_array_refuted.

Lemma lz_value k t : lz [] k t [] = MkValue 0 (zlen k + 2) (Some (tag t :: enc_cstring k ++ enc_body t)) None.
Proof. unfold lz. cbn [app]. rewrite app_nil_r. reflexivity. Qed.

(* The payload of a value whose bytes come first in what is left of its data. *)
Lemma get_reader_at fuel pre l4 rest n : zlen l4 = 4 -> readi32 l4 = Ret n -> 0 <= zlen pre -> zlen (pre ++ l4 ++ rest) < 2147483648 ->
  0 <= n <= 4 + zlen rest ->
  get_reader fuel (zlen pre) (pre ++ l4 ++ rest) None = Ret (firstn (Z.to_nat n) (l4 ++ rest)).
Proof.
  intros L4 R P L N. cbn [get_reader]. unfold get_reader_raw. zlens_in L. posl. u32s.
  gs pre l4 rest. rewrite R. cbn [bind]. u32s.
  unfold goslice, slice. rewrite !zlen_app, L4.
  replace (_ && _) with true by lia. f_equal.
  rewrite skipn_app. replace (skipn _ pre) with (@nil Z) by (symmetry; apply skipn_all2; unfold zlen; lia).
  replace (Z.to_nat (zlen pre) - length pre)%nat with 0%nat by (unfold zlen; lia). cbn [app skipn]. f_equal. lia.
Qed.

(* Reader panics on values that were built and are not corrupt: those with fewer than four bytes, and 32-bit integers
   that are negative or above four. *)
Theorem C115_reader_refuted : forall fuel k t v, nul_free k -> wf t -> zlen (enc_elem k t) < 2147483648 ->
  build k t = Ret v ->
  match t with
  | BNull | BUndefined | BMinKey | BMaxKey | BBool _ => True
  | BInt32 i => i < 0 \/ 4 < i
  | _ => False
  end -> v_reader fuel (Some v) = Panic PIndex.
Proof.
  intros fuel k t v K W L B C.
  assert (v = lz [] k t []) as ->.
  { assert (efits k t) as Ef by exact L. destruct t; try contradiction; cbn [build] in B.
    - rewrite ec_undefined_lz in B by auto. congruence.
    - rewrite ec_boolean_lz in B by auto. congruence.
    - rewrite ec_null_lz in B by auto. congruence.
    - rewrite ec_int32_lz in B by auto. congruence.
    - rewrite ec_minkey_lz in B by auto. congruence.
    - rewrite ec_maxkey_lz in B by auto. congruence. }
  clear B. rewrite lz_value. rewrite zlen_enc_elem in L. posl. cbn [v_reader get_reader]. replace (zlen k + 2 =? 0) with false by lia.
  unfold get_reader_raw.
  assert (zlen (enc_body t) < 4 \/ exists i, t = BInt32 i) as [S|(i & ->)] by (destruct t; try contradiction; cbn; eauto; left; zl).
  - u32s. unfold goslice. replace (zlen (tag t :: enc_cstring k ++ enc_body t)) with (zlen k + 2 + zlen (enc_body t)) by zl.
    replace (_ && _) with false by lia. reflexivity.
  - cbn [enc_body tag wf] in *. u32s. gs (16 :: enc_cstring k) (le32 i) (@nil Z). 
    rewrite readi32_le by exact W. cbn [bind].
    unfold goslice. replace (zlen (16 :: enc_cstring k ++ le32 i)) with (zlen k + 6) by (change (zlen (le32 i)) with 4; zl).
    change (zlen (le32 i)) with 4 in *.
    replace (_ && _) with false; [reflexivity|]. symmetry. apply andb_false_iff.
    unfold is_i32, u32 in *. destruct C as [C|C].
    + replace (i mod 4294967296) with (i + 4294967296) by (apply Zmod_unique with (-1); lia).
      destruct (Z_lt_le_dec (zlen k + 2 + i) 0).
      * right. rewrite Z.mod_small by lia. lia.
      * left. replace ((zlen k + 2 + (i + 4294967296)) mod 4294967296) with (zlen k + 2 + i) by (apply Zmod_unique with 1; lia). lia.
    + right. rewrite (Z.mod_small i) by lia. rewrite Z.mod_small by lia. lia.
Qed.
Print Assumptions C115_reader_refuted.

(* ... and where it does not panic it need not give the payload: of a string it gives four bytes too few. *)
Theorem C115_string_refuted : forall fuel k s v, nul_free k -> bytes_ok s -> zlen (enc_elem k (BString s)) < 2147483648 ->
  build k (BString s) = Ret v ->
  exists b, v_reader fuel (Some v) = Ret b /\ zlen b = zlen s + 1 /\ exists l, enc_body (BString s) = b ++ l /\ zlen l = 4.
Proof.
  intros fuel k s v K W L B. cbn [build] in B. rewrite ec_string_lz in B by exact L. injection B as <-.
  rewrite lz_value. rewrite zlen_enc_elem in L. cbn [enc_body tag] in *. unfold enc_string in *. zlens_in L. posl.
  cbn [v_reader]. replace (zlen k + 2 =? 0) with false by lia.
  exists (firstn (Z.to_nat (zlen s + 1)) (le32 (zlen s + 1) ++ s ++ [0])).
  pose proof (get_reader_at fuel (2 :: enc_cstring k) (le32 (zlen s + 1)) (s ++ [0]) (zlen s + 1)) as G.
  replace (zlen (2 :: enc_cstring k)) with (zlen k + 2) in G by zl. cbn [app] in G.
  assert (Lf : zlen (le32 (zlen s + 1) ++ s ++ [0]) = zlen s + 5) by zl.
  set (x := le32 (zlen s + 1) ++ s ++ [0]) in *.
  assert (zlen (firstn (Z.to_nat (zlen s + 1)) x) = zlen s + 1) as Hz
    by (unfold zlen in *; rewrite firstn_length; lia).
  split; [|split; [exact Hz|]].
  - apply G; try reflexivity; try (apply readi32_le; rng); try lia; unfold x; zlens; lia.
  - exists (skipn (Z.to_nat (zlen s + 1)) x). split; [now rewrite firstn_skipn|].
    unfold zlen in *. rewrite skipn_length. lia.
Qed.
Print Assumptions C115_string_refuted.

(* Code with scope: Reader gives the scope of one that was built and the whole payload of one that was read. *)
Theorem C115_code_refuted : forall fuel k c fs v es w, cstr_ok k -> wf (BCode c fs) ->
  let doc := enc_doc [(k, BCode c fs)] in
  zlen doc < 2147483648 -> enough fuel (zlen doc) ->
  build k (BCode c fs) = Ret v -> read_document fuel doc = Ret (inl es) -> nth_error es 0 = Some (Some w) ->
  v_reader fuel (Some v) = Ret (enc_doc fs) /\ v_reader fuel (Some w) = Ret (enc_body (BCode c fs)) /\
  enc_doc fs <> enc_body (BCode c fs).
Proof.
  intros fuel k c fs v es w K W doc L F B E Hw. pose proof L as L0. pose proof F as F0. unfold enough in F.
  assert (Ld : zlen doc = zlen (enc_elem k (BCode c fs)) + 5).
  { unfold doc, enc_doc at 1. cbn [enc_elems]. rewrite app_nil_r. zl. }
  rewrite zlen_enc_elem, enc_body_code in Ld. zlens_in Ld. posl.
  assert (Wd : wf_fields [(k, BCode c fs)]) by (constructor; [split; [exact K|exact W]|constructor]).
  destruct (read_document_wf _ [] fuel Wd) as (es' & E' & Rd); try (rewrite app_nil_r); auto.
  rewrite app_nil_r in E'. fold doc in E'. assert (es' = es) by congruence. subst es'.
  pose proof (rep_doc_nth _ es 0 Rd) as N. cbn [nth_error] in N. destruct N as (w' & Hw' & R). change (nth_error es 0 = Some (Some w')) in Hw'. assert (w' = w) by congruence. subst w'.
  assert (Z : v_d w = None).
  { pose proof (read_lazy _ _ _ E) as A. rewrite Forall_forall in A. apply nth_error_In in Hw. destruct (A _ Hw) as (x & X & D). congruence. }
  split; [|split].
  - apply wf_code in W as [Wc W]. rewrite build_BCode in B.
    destruct (build_doc_rep fs) as (ds & Ed & Rs); auto; [unfold small; lia|]. rewrite Ed in B. cbn [bind] in B.
    destruct (ec_code_rep k c ds fs) as (u & Eu & Ru & Du); auto; [apply K|lia|]. assert (u = v) by congruence. subst u.
    apply rep_inv in Ru as (_ & pre & post & C). destruct C as [[-> Hf]|[C|[C|C]]].
    + discriminate Du.
    + destruct C as (? & ? & Et & _). discriminate.
    + destruct C as (? & ? & Et & _). discriminate.
    + destruct C as (c' & fs' & ds' & l4 & Et & L4 & -> & Hf & Re). injection Et as <- <-.
      cbn [v_reader]. replace (_ =? 0) with false by (symmetry; apply Z.eqb_neq, off_pos).
      apply marshal_get; auto; [unfold small|unfold enough]; lia.
  - apply rep_inv in R as (_ & pre & post & C). destruct C as [[-> Hf]|[C|[C|C]]].
    + cbn [v_reader]. replace (_ =? 0) with false by (symmetry; apply Z.eqb_neq, off_pos).
      unfold fits in Hf. rewrite enc_body_code in *. cbn [tag] in *.
      set (l4 := le32 (4 + zlen (enc_string c) + zlen (enc_doc fs))) in *.
      assert (L4 : zlen l4 = 4) by reflexivity.
      assert (R4 : readi32 l4 = Ret (9 + zlen c + zlen (enc_doc fs))).
      { unfold l4. zlens. replace (4 + (zlen c + 5) + zlen (enc_doc fs)) with (9 + zlen c + zlen (enc_doc fs)) by lia.
        apply readi32_le. rng. }
      pose proof (get_reader_at fuel (pre ++ 15 :: enc_cstring k) l4 (enc_string c ++ enc_doc fs ++ post) _ L4 R4) as G.
      replace (zlen (pre ++ 15 :: enc_cstring k)) with (zlen pre + zlen k + 2) in G by zl.
      replace ((pre ++ 15 :: enc_cstring k) ++ l4 ++ enc_string c ++ enc_doc fs ++ post)
        with (pre ++ 15 :: enc_cstring k ++ (l4 ++ enc_string c ++ enc_doc fs) ++ post) in G by lst.
      rewrite G; [|posl; lia|lia|zlens; posl; lia]. f_equal.
      replace (l4 ++ enc_string c ++ enc_doc fs ++ post) with ((l4 ++ enc_string c ++ enc_doc fs) ++ post) by lst.
      replace (Z.to_nat (9 + zlen c + zlen (enc_doc fs))) with (length (l4 ++ enc_string c ++ enc_doc fs) + 0)%nat.
      { rewrite firstn_app_2. cbn [firstn]. now rewrite app_nil_r. }
      assert (zlen (l4 ++ enc_string c ++ enc_doc fs) = 9 + zlen c + zlen (enc_doc fs)) as Q by (zlens; lia).
      unfold zlen in Q at 1. lia.
    + destruct C as (? & ? & ? & -> & _). discriminate Z.
    + destruct C as (? & ? & ? & -> & _). discriminate Z.
    + destruct C as (? & ? & ? & ? & ? & _ & -> & _). discriminate Z.
  - intros D. apply (f_equal zlen) in D. rewrite enc_body_code in D. zlens_in D. lia.
Qed.
Print Assumptions C115_code_refuted.

(* ------------------------------------------------------------------ non-vacuity *)

Definition ex_fs : list (bytes * bval) := [([97], BInt32 7); ([98], BString [104; 105])].
Definition ex_vs : list bval := [BInt32 7; BString [104; 105]].
Definition the {A} (d : A) (r : go A) : A := match r with Ret x => x | _ => d end.
Definition nov : value := MkValue 0 0 None None.
Definition built1 (t : bval) : value := the nov (build [120] t).

Example C115_ex_document : exists v, obtained [120] (BDoc ex_fs) v /\ v_reader_document 100 (Some v) = Ret (enc_doc ex_fs).
Proof.
  exists (built1 (BDoc ex_fs)). split; [|vm_compute; reflexivity]. apply ob_built. vm_compute. reflexivity.
Qed.
Example C115_ex_code : exists v, obtained [120] (BCode [102] ex_fs) v /\ v_reader_code 100 (Some v) = Ret ([102], enc_doc ex_fs).
Proof.
  exists (built1 (BCode [102] ex_fs)). split; [|vm_compute; reflexivity]. apply ob_built. vm_compute. reflexivity.
Qed.
Example C115_ex_array : exists es v, read_document 100 (enc_doc [([120], BArray ex_vs)]) = Ret (inl es) /\
  nth_error es 0 = Some (Some v) /\ v_reader_array 100 (Some v) = Ret (enc_array ex_vs) /\
  v_reader_array 100 (Some (built1 (BArray ex_vs))) <> Ret (enc_array ex_vs).
Proof.
  eexists. eexists. split; [vm_compute; reflexivity|]. split; [reflexivity|]. split; [vm_compute; reflexivity|].
  vm_compute. discriminate.
Qed.
Example C115_ex_reader : v_reader 100 (Some (built1 (BInt32 7))) = Panic PIndex /\
  v_reader 100 (Some (built1 (BBool true))) = Panic PIndex /\
  v_reader 100 (Some (built1 (BString [104; 105; 106; 107]))) = Ret [5; 0; 0; 0; 104].
Proof. vm_compute. auto. Qed.
Example C115_ex_code_refuted : exists es w, read_document 100 (enc_doc [([120], BCode [102] ex_fs)]) = Ret (inl es) /\
  nth_error es 0 = Some (Some w) /\ v_reader 100 (Some w) <> v_reader 100 (Some (built1 (BCode [102] ex_fs))).
Proof.
  eexists. eexists. split; [vm_compute; reflexivity|]. split; [reflexivity|]. vm_compute. discriminate.
Qed.
