(* C114: printing documents, arrays and readers with their String methods. *)
Require Import ZArith List Bool String Lia ZifyBool ZifyNat Permutation.
From Verif Require Import Base BSpec Elements Value Codec CodecRead Itoa CodecRep Api ApiProofs Tree GetterProofs ReaderOps ReadSafe
  CodecProps Search Iface IfaceProofs Events EventsProps Text.
Import List ListNotations.
Open Scope Z_scope.

(* ------------------------------------------------------------- specification *)

Definition type_name (t : bval) : bytes :=
  str match t with
  | BDouble _ => "double" | BString _ => "string" | BDoc _ => "embedded document" | BArray _ => "array"
  | BBinary _ _ => "binary" | BUndefined => "undefined" | BOid _ => "objectID" | BBool _ => "boolean"
  | BDateTime _ => "UTC datetime" | BNull => "null" | BRegex _ _ => "regex" | BDBPointer _ _ => "dbPointer"
  | BJavaScript _ => "javascript" | BSymbol _ => "symbol" | BCode _ _ => "code with scope" | BInt32 _ => "32-bit integer"
  | BTimestamp _ _ => "timestamp" | BInt64 _ => "64-bit integer" | BDecimal _ _ => "128-bit decimal"
  | BMinKey => "min key" | BMaxKey => "max key"
  end%string.

(* texts with a comma and a space between them *)
Fixpoint commas (ls : list bytes) : bytes :=
  match ls with
  | [] => []
  | [l] => l
  | l :: r => l ++ [44; 32] ++ commas r
  end.

Section Spec.
Variables fmt_v fmt_s : any -> bytes.
Variable quote : bytes -> bytes.

(* the text of one field: its type, its key as it is, and its value as a Go value (IfaceProofs.shows),
   quoted if it is a string *)
Definition line (f : bytes * bval) (l : bytes) : Prop :=
  exists a, shows (snd f) a /\
    l = str "bson.Element{[" ++ type_name (snd f) ++ [93; 34] ++ fst f ++ [34; 58; 32] ++
        match snd f with BString s => quote s | _ => fmt_v a end ++ [125].
(* the text of a document, or of its bytes *)
Definition doc_text (head : string) (fs : list (bytes * bval)) (s : bytes) : Prop :=
  exists ls, Forall2 line fs ls /\ s = str head ++ commas ls ++ [125].
(* the text of an array *)
Definition arr_text (vs : list bval) (s : bytes) : Prop :=
  exists l, Forall2 shows vs l /\ s = str "bson.Array[" ++ commas (map fmt_s l) ++ [93].
End Spec.

(* fmt prints a map with its keys in order: the text depends on the entries only *)
Definition by_content (f : any -> bytes) : Prop := forall t a b, shows t a -> shows t b -> f a = f b.

(* ------------------------------------------------------------------- lemmas *)

Lemma type_string_tag t : type_string (tag t) = type_name t.
Proof. now destruct t. Qed.

Section Proofs.
Variables fmt_v fmt_s : any -> bytes.
Variable quote : bytes -> bytes.
Variable panic_text : pan -> bytes.

Lemma elem_text fuel k v t : rep k v t -> wf t -> zlen (enc_body t) < 2147483648 -> zlen (enc_body t) < Z.of_nat fuel ->
  exists l, elem_string fmt_v quote fuel (Some v) = Ret l /\ line fmt_v quote (k, t) l.
Proof.
  intros R W L F. destruct (igood_all t k v fuel R W L F) as (a & E & S). unfold elem_string. rewrite E. cbn [bind].
  rewrite (rep_type _ _ _ R). cbn [bind]. rewrite (elem_key_rep _ _ _ R). cbn [bind]. rewrite type_string_tag.
  eexists. split; [reflexivity|]. exists a. split; [exact S|]. cbn [fst snd].
  assert (V : match a with AString s => if tag t =? 2 then quote s else fmt_v a | _ => fmt_v a end =
    match t with BString s => quote s | _ => fmt_v a end) by (inversion S; reflexivity).
  unfold dq. now rewrite V.
Qed.

(* what the loops add to the buffer *)
Definition more (first : bool) (ls : list bytes) : bytes :=
  match ls with [] => [] | _ => if first then commas ls else [44; 32] ++ commas ls end.
Lemma more_cons first l ls : more first (l :: ls) = (if first then [] else [44; 32]) ++ l ++ more false ls.
Proof. destruct first, ls; cbn; now rewrite ?app_nil_r. Qed.
Lemma more_true ls : more true ls = commas ls.
Proof. now destruct ls. Qed.

Lemma doc_loop_text fuel fs : forall first es buf, rep_doc es fs -> wf_fields fs ->
  zlen (enc_elems fs) < 2147483648 -> zlen (enc_elems fs) < Z.of_nat fuel ->
  exists ls, doc_string_loop fmt_v quote fuel first es buf = Ret (buf ++ more first ls) /\ Forall2 (line fmt_v quote) fs ls.
Proof.
  induction fs as [|[k t] fs IH]; intros first [|[v|] es] buf R W L F; cbn [rep_doc] in R; try contradiction.
  - exists []. cbn. rewrite app_nil_r. auto.
  - destruct R as [R1 R2]. apply Forall_cons_iff in W as [[[_ Wk] Wt] W]. cbn [fst snd] in *.
    rewrite zlen_enc_elems_cons in *. rewrite zlen_enc_elem in *. posl.
    destruct (elem_text fuel k v t) as (l & E & Hl); auto; try lia.
    cbn [doc_string_loop]. rewrite E. cbn [bind].
    destruct (IH false es ((if first then buf else buf ++ [44; 32]) ++ l)) as (ls & El & Hls); auto; try lia.
    exists (l :: ls). split; [|now constructor]. rewrite El, more_cons. destruct first; now rewrite <- ?app_assoc.
Qed.

Lemma arr_loop_text fuel vs : forall i first es buf, rep_arr es vs -> Forall wf vs ->
  zlen (enc_items i vs) < 2147483648 -> zlen (enc_items i vs) < Z.of_nat fuel ->
  exists l, arr_string_loop fmt_s fuel first es buf = Ret (buf ++ more first (map fmt_s l)) /\ Forall2 shows vs l.
Proof.
  induction vs as [|t vs IH]; intros i first [|[v|] es] buf R W L F; cbn [rep_arr] in R; try contradiction.
  - exists []. cbn. rewrite app_nil_r. auto.
  - destruct R as [(k & Lk & R1) R2]. inversion_clear W as [|? ? Wt Wv].
    cbn [enc_items] in *. zlens_in L. zlens_in F. rewrite zlen_enc_elem in *. posl.
    destruct (igood_all t k v fuel) as (a & Ea & Sa); auto; try lia.
    cbn [arr_string_loop]. rewrite Ea. cbn [bind].
    destruct (IH (S i) false es ((if first then buf else buf ++ [44; 32]) ++ fmt_s a)) as (l & El & Hl); auto; try lia.
    exists (a :: l). split; [|now constructor]. cbn [map]. rewrite El, more_cons. destruct first; now rewrite <- ?app_assoc.
Qed.

Lemma rd_loop_text n : forall fs fuel some pre post buf,
  wf_fields fs -> let r := pre ++ enc_elems fs ++ 0 :: post in
  zlen r < 2147483648 -> zlen (enc_elems fs) < Z.of_nat fuel -> zlen (enc_elems fs) < Z.of_nat n ->
  exists ls b p, rd_loop (rd_string_cb fmt_v quote panic_text n) fuel r (zlen pre) (zlen pre + zlen (enc_elems fs) + 1) (some, buf) =
      Ret ((b, buf ++ more (negb some) ls), (p, None)) /\ Forall2 (line fmt_v quote) fs ls.
Proof.
  induction fs as [|[k t] fs IH]; intros fuel some pre post buf W r Hs F N.
  - destruct fuel; [cbn [enc_elems] in F; zlens_in F; lia|].
    unfold r. cbn [rd_loop enc_elems app]. rewrite rd_step_end by Base.zl. cbn [bind].
    exists [], some, (u32 (zlen pre + 1)). cbn [more]. rewrite app_nil_r. auto.
  - apply Forall_cons_iff in W as [[[_ Wk] Wt] W]. cbn [fst snd] in *.
    rewrite zlen_enc_elems_cons in *. pose proof (zlen_enc_elem k t). posl.
    destruct fuel as [|fuel]; [lia|].
    assert (Er : r = pre ++ enc_elem k t ++ (enc_elems fs ++ 0 :: post)).
    { unfold r. cbn [enc_elems]. now rewrite <- app_assoc. }
    assert (Lr : zlen r = zlen pre + zlen (enc_elem k t) + (zlen (enc_elems fs) + 1 + zlen post)).
    { rewrite Er, !zlen_app, zlen_cons. lia. }
    assert (Step : rd_step r (zlen pre) (zlen pre + (zlen (enc_elem k t) + zlen (enc_elems fs)) + 1)
      = Ret (RElem (zlen pre + zlen (enc_elem k t)) (lz pre k t (enc_elems fs ++ 0 :: post)))).
    { rewrite Er. rewrite rd_step_elem by (auto; rewrite <- ?Er; posl; lia).
      unfold lz, enc_elem. cbn [app]. rewrite <- !app_assoc. reflexivity. }
    assert (Fit : lzfits pre k t (enc_elems fs ++ 0 :: post)).
    { unfold lzfits, fits. rewrite Er in Hs. unfold enc_elem in Hs. zlens_in Hs. Base.zl. }
    pose proof (zlen_nonneg post) as Hp0.
    cbn [rd_loop]. rewrite Step. cbn [bind].
    destruct (elem_text n k (lz pre k t (enc_elems fs ++ 0 :: post)) t) as (l & El & Hl); auto; try lia.
    { apply rep_lazy; auto. }
    unfold rd_string_cb at 1. rewrite El. cbn [bind].
    specialize (IH fuel true (pre ++ enc_elem k t) post ((if some then buf ++ [44; 32] else buf) ++ l) W).
    replace ((pre ++ enc_elem k t) ++ enc_elems fs ++ 0 :: post) with r in IH
      by (rewrite Er, <- app_assoc; reflexivity).
    cbv zeta in IH. specialize (IH Hs ltac:(lia) ltac:(lia)).
    replace (zlen (pre ++ enc_elem k t)) with (zlen pre + zlen (enc_elem k t)) in IH by Base.zl.
    replace (zlen pre + zlen (enc_elem k t) + zlen (enc_elems fs) + 1)
      with (zlen pre + (zlen (enc_elem k t) + zlen (enc_elems fs)) + 1) in IH by lia.
    destruct IH as (ls & b & p & E & H'). exists (l :: ls), b, p. split; [|now constructor].
    rewrite E. cbn [negb]. rewrite more_cons. destruct some; cbn [negb]; now rewrite <- ?app_assoc.
Qed.

Lemma line_one f l l' : by_content fmt_v -> line fmt_v quote f l -> line fmt_v quote f l' -> l = l'.
Proof.
  intros C (a & Sa & ->) (b & Sb & ->). destruct f as [k t]. cbn [fst snd] in *. rewrite (C t a b Sa Sb). reflexivity.
Qed.
Lemma lines_one fs : by_content fmt_v -> forall ls ls', Forall2 (line fmt_v quote) fs ls -> Forall2 (line fmt_v quote) fs ls' -> ls = ls'.
Proof.
  intros C. induction fs as [|f fs IH]; intros ls ls' H H'; inversion_clear H; inversion_clear H'; auto.
  f_equal; [eapply line_one; eauto|auto].
Qed.
End Proofs.

(* ------------------------------------------------------------------ theorems *)

(* However the document came about and whatever it nests, String returns, and gives the fields in order. *)
Theorem C114_document : forall fmt_v quote fuel fs es N, doc_obtained fs es N -> wf_fields fs -> small fs ->
  enough fuel (zlen (enc_doc fs)) ->
  exists s, doc_string fmt_v quote fuel es = Ret s /\ doc_text fmt_v quote "bson.Document{" fs s.
Proof.
  intros fmt_v quote fuel fs es N D W S F. pose proof (obtained_rep _ _ _ D W S) as R.
  unfold small, enough, enc_doc in S, F. zlens_in S. zlens_in F. posl.
  destruct (doc_loop_text fmt_v quote fuel fs true es (str "bson.Document{")) as (ls & E & Hls); auto; try lia.
  unfold doc_string. rewrite E. cbn [bind]. eexists. split; [reflexivity|]. exists ls. split; [exact Hls|].
  now rewrite more_true, <- app_assoc.
Qed.
Print Assumptions C114_document.

(* The bytes of a document, whatever follows them, print as the document does. *)
Theorem C114_reader : forall fmt_v quote panic_text fuel fs post, wf_fields fs -> zlen (enc_doc fs ++ post) < 2147483648 ->
  enough fuel (zlen (enc_doc fs)) ->
  exists s, rd_string fmt_v quote panic_text fuel (enc_doc fs ++ post) = Ret s /\ doc_text fmt_v quote "bson.Reader{" fs s.
Proof.
  intros fmt_v quote pt fuel fs post W S F. unfold rd_string. rewrite rd_elements_doc by exact S.
  unfold enough, enc_doc in F, S. zlens_in F. zlens_in S. posl.
  destruct (rd_loop_text fmt_v quote pt fuel fs fuel false (le32 (zlen (enc_elems fs) + 5)) post (str "bson.Reader{") W)
    as (ls & b & p & E & Hls); try lia.
  { Base.zl. }
  replace (zlen (le32 (zlen (enc_elems fs) + 5)) + zlen (enc_elems fs) + 1) with (zlen (enc_elems fs) + 5) in E by Base.zl.
  rewrite E. cbn [bind negb]. eexists. split; [reflexivity|]. exists ls. split; [exact Hls|].
  now rewrite more_true, <- app_assoc.
Qed.
Print Assumptions C114_reader.

(* Equal documents print alike, built or read, and a Reader's text differs in its head only. *)
Theorem C114_alike : forall fmt_v quote panic_text fuel fs es N es' N' post, by_content fmt_v ->
  doc_obtained fs es N -> doc_obtained fs es' N' -> wf_fields fs -> zlen (enc_doc fs ++ post) < 2147483648 ->
  enough fuel (zlen (enc_doc fs)) ->
  doc_string fmt_v quote fuel es = doc_string fmt_v quote fuel es' /\
  exists x, doc_string fmt_v quote fuel es = Ret (str "bson.Document{" ++ x) /\
    rd_string fmt_v quote panic_text fuel (enc_doc fs ++ post) = Ret (str "bson.Reader{" ++ x).
Proof.
  intros fmt_v quote pt fuel fs es N es' N' post C D D' W S F.
  assert (S' : small fs) by (unfold small; zlens_in S; posl; lia).
  destruct (C114_document fmt_v quote fuel fs es N D W S' F) as (s & -> & ls & H & ->).
  destruct (C114_document fmt_v quote fuel fs es' N' D' W S' F) as (s' & -> & ls' & H' & ->).
  destruct (C114_reader fmt_v quote pt fuel fs post W S F) as (s2 & -> & ls2 & H2 & ->).
  rewrite (lines_one _ _ _ C _ _ H' H), (lines_one _ _ _ C _ _ H2 H). split; [reflexivity|]. eauto.
Qed.
Print Assumptions C114_alike.

(* Arrays. *)
Theorem C114_array : forall fmt_s fuel v vs, value_holds v (BArray vs) -> enough fuel (zlen (enc_array vs)) ->
  exists es s, v_mutable_array fuel (Some v) = Ret es /\ arr_string fmt_s fuel es = Ret s /\ arr_text fmt_s vs s.
Proof.
  intros fmt_s fuel v vs H F. destruct (value_rep _ _ H) as (k & W & L & R & _). unfold enough in F.
  rewrite zlen_enc_elem, enc_body_array in L. posl. apply wf_array in W.
  destruct (v_mutable_array_rep fuel k v vs R W) as (es & E & Re & _); auto; try lia.
  unfold enc_array in L, F. zlens_in L. zlens_in F. posl.
  destruct (arr_loop_text fmt_s fmt_s (fun x => x) fuel vs 0%nat true es (str "bson.Array[")) as (l & El & Hl); auto; try lia.
  exists es. unfold arr_string. rewrite El. cbn [bind]. eexists. split; [exact E|]. split; [reflexivity|].
  exists l. split; [exact Hl|]. now rewrite more_true, <- app_assoc.
Qed.
Print Assumptions C114_array.

(* Whatever the bytes, printing a Reader does not panic. *)
Theorem C114_no_panic : forall fmt_v quote panic_text fuel r p, zlen r + 16 <= 2147483648 ->
  rd_string fmt_v quote panic_text fuel r <> Panic p.
Proof.
  intros fmt_v quote pt fuel r p Hs. unfold rd_string, rd_elements.
  destruct (zlen r <? 5) eqn:E5; [discriminate|].
  destruct (goslice_ex r 0 4) as (a & m & b & Er & La & Lm & G); try lia.
  rewrite G. cbn [bind]. destruct (readi32_total m) as (l & El & _); [lia|].
  rewrite El. cbn [bind]. destruct ((zlen r <? l) || (l <? 0)) eqn:Eb; [discriminate|].
  rewrite u32_id by (unfold is_u32; lia). generalize (false, str "bson.Reader{"). intros st.
  assert (Lp : forall n pos st, 0 <= pos -> forall q, rd_loop (rd_string_cb fmt_v quote pt fuel) n r pos l st <> Panic q).
  { induction n as [|n IH]; intros pos [some buf] Hp q; [discriminate|].
    cbn [rd_loop]. destruct (step_total r pos l) as (s & -> & S); try lia. cbn [bind].
    destruct s as [? e|?|p' v]; try discriminate. destruct S as (_ & Hc & _).
    unfold rd_string_cb. destruct (elem_string _ _ _ _) as [t|pp|]; cbn [bind]; try discriminate; apply IH, Hc. }
  specialize (Lp fuel 4 st ltac:(lia)). destruct (rd_loop _ _ _ _ _ _) as [[[? ?] ?]|q|]; cbn [bind]; try discriminate.
  now contradiction (Lp q).
Qed.
Print Assumptions C114_no_panic.

Lemma rep_zlen fs : forall es, rep_doc es fs -> zlen es = zlen fs.
Proof.
  induction fs as [|[k t] fs IH]; intros [|[v|] es] R; cbn [rep_doc] in R; try contradiction; [reflexivity|].
  rewrite !zlen_cons, (IH es); tauto.
Qed.
Lemma cstr_app a b : cstr_ok a -> cstr_ok b -> cstr_ok (a ++ b).
Proof. intros [A1 A2] [B1 B2]. unfold cstr_ok, bytes_ok, nul_free in *. rewrite !Forall_app. auto. Qed.

(* Refuted: different documents print differently.  Keys are printed as they are: one field can have a
   key that looks like two fields. *)
Theorem C114_keys_refuted : forall fmt_v quote fuel k1 k2 i j,
  cstr_ok k1 -> cstr_ok k2 -> is_i32 i -> is_i32 j -> cstr_ok (fmt_v (AInt (GInt32 i))) ->
  let k := k1 ++ [34; 58; 32] ++ fmt_v (AInt (GInt32 i)) ++ [125] ++ [44; 32] ++ str "bson.Element{[32-bit integer]" ++ [34] ++ k2 in
  let two := [(k1, BInt32 i); (k2, BInt32 j)] in
  small [(k, BInt32 j)] -> small two -> enough fuel (zlen (enc_doc [(k, BInt32 j)])) -> enough fuel (zlen (enc_doc two)) ->
  exists es es', build_doc two = Ret es /\ build_doc [(k, BInt32 j)] = Ret es' /\ wf_fields two /\ wf_fields [(k, BInt32 j)] /\
    zlen es <> zlen es' /\ exists s, doc_string fmt_v quote fuel es = Ret s /\ doc_string fmt_v quote fuel es' = Ret s.
Proof.
  intros fmt_v quote fuel k1 k2 i j K1 K2 I J Kf k two S1 S2 F1 F2.
  assert (Kk : cstr_ok k).
  { assert (Ke : cstr_ok (str "bson.Element{[32-bit integer]")).
    { apply str_ok. cbn. intros c Hc. repeat (destruct Hc as [<-|Hc]; [discriminate|]). contradiction. }
    assert (P : forall l, forallb (fun x => (0 <? x) && (x <? 256)) l = true -> cstr_ok l).
    { intros l H. rewrite forallb_forall in H. split; apply Forall_forall; intros x Hx; specialize (H x Hx); unfold is_u8; lia. }
    unfold k. repeat apply cstr_app; auto; apply P; reflexivity. }
  assert (W2 : wf_fields two) by (repeat constructor; cbn; auto; apply K1 || apply K2 || apply I || apply J).
  assert (W1 : wf_fields [(k, BInt32 j)]) by (repeat constructor; cbn; auto; apply Kk || apply J).
  destruct (build_doc_rep two W2 S2) as (es & B & R). destruct (build_doc_rep _ W1 S1) as (es' & B' & R').
  exists es, es'. repeat (split; [assumption|]). split.
  { rewrite (rep_zlen _ _ R), (rep_zlen _ _ R'). discriminate. }
  destruct (C114_document fmt_v quote fuel _ _ _ (do_built _ _ B) W2 S2 F2) as (s & -> & ls & H & ->).
  destruct (C114_document fmt_v quote fuel _ _ _ (do_built _ _ B') W1 S1 F1) as (s' & -> & ls' & H' & ->).
  eexists. split; [reflexivity|]. f_equal.
  inversion_clear H as [|? l1 ? ? X1 H0]. inversion_clear H0 as [|? l2 ? ? X2 H]. inversion_clear H.
  inversion_clear H' as [|? l ? ? X H]. inversion_clear H.
  destruct X1 as (a1 & A1 & ->), X2 as (a2 & A2 & ->), X as (a & A & ->). cbn [fst snd] in *.
  inversion A1; inversion A2; inversion A; subst. cbn [commas]. unfold k, type_name.
  change (str "bson.Element{[32-bit integer]") with (str "bson.Element{[" ++ str "32-bit integer" ++ [93]).
  repeat first [rewrite <- app_assoc | progress cbn [app]]. reflexivity.
Qed.
Print Assumptions C114_keys_refuted.

(* Binary data: the subtype is not printed. *)
Theorem C114_subtype_refuted : forall fmt_v quote fuel k st st' b, cstr_ok k -> subtype_ok st -> subtype_ok st' -> bytes_ok b ->
  (st = 2 <-> st' = 2) -> small [(k, BBinary st b)] -> enough fuel (zlen (enc_doc [(k, BBinary st b)])) ->
  exists es es', build_doc [(k, BBinary st b)] = Ret es /\ build_doc [(k, BBinary st' b)] = Ret es' /\
    doc_string fmt_v quote fuel es = doc_string fmt_v quote fuel es'.
Proof.
  intros fmt_v quote fuel k st st' b K S S' Hb T Sm F.
  assert (Le : zlen (enc_doc [(k, BBinary st' b)]) = zlen (enc_doc [(k, BBinary st b)])).
  { assert (Lb : zlen (enc_body (BBinary st' b)) = zlen (enc_body (BBinary st b))).
    { cbn [enc_body]. destruct (st =? 2) eqn:E, (st' =? 2) eqn:E'; zlens; try reflexivity; lia. }
    unfold enc_doc. cbn [enc_elems]. zlens. rewrite !zlen_enc_elem, Lb. reflexivity. }
  assert (W : forall x, subtype_ok x -> wf_fields [(k, BBinary x b)]) by (intros; constructor; [split; [exact K|cbn; auto]|constructor]).
  assert (Sm' : small [(k, BBinary st' b)]) by (unfold small in *; lia).
  assert (F' : enough fuel (zlen (enc_doc [(k, BBinary st' b)]))) by (unfold enough in *; lia).
  destruct (build_doc_rep _ (W st S) Sm) as (es & B & R). destruct (build_doc_rep _ (W st' S') Sm') as (es' & B' & R').
  exists es, es'. split; [exact B|]. split; [exact B'|].
  destruct (C114_document fmt_v quote fuel _ _ _ (do_built _ _ B) (W st S) Sm F) as (s & -> & ls & H & ->).
  destruct (C114_document fmt_v quote fuel _ _ _ (do_built _ _ B') (W st' S') Sm' F') as (s' & -> & ls' & H' & ->).
  f_equal. inversion_clear H as [|? l1 ? ? X1 H0]. inversion_clear H0. inversion_clear H' as [|? l ? ? X H]. inversion_clear H.
  destruct X1 as (a1 & A1 & ->), X as (a & A & ->). cbn [fst snd] in *. inversion A1; inversion A; subst. reflexivity.
Qed.
Print Assumptions C114_subtype_refuted.

Lemma last_of_perm k fs gs : NoDup (map fst fs) -> Permutation fs gs -> last_of k fs = last_of k gs.
Proof.
  intros N P.
  assert (Ng : NoDup (map fst gs)) by (eapply Permutation_NoDup; [apply Permutation_map, P|exact N]).
  assert (Key : forall hs t, NoDup (map fst hs) -> In (k, t) hs -> last_of k hs = Some t).
  { intros hs t Nh I. unfold last_of. destruct (find _ (rev hs)) as [[k' t']|] eqn:E.
    - apply find_some in E as [E1 E2]. cbn in E2. apply bytes_eqb_eq in E2. subst k'. apply in_rev in E1. cbn.
      f_equal. eapply nodup_field; eauto.
    - exfalso. apply in_rev in I. apply (find_none _ _ E) in I. cbn in I. now rewrite (proj2 (bytes_eqb_eq k k) eq_refl) in I. }
  destruct (last_of k fs) as [t|] eqn:E.
  - apply last_of_in in E. symmetry. apply Key; [exact Ng|]. now apply (Permutation_in _ P).
  - destruct (last_of k gs) as [t|] eqn:E'; [|reflexivity]. apply last_of_in in E'.
    rewrite <- E. apply Key; [exact N|]. now apply (Permutation_in _ (Permutation_sym P)).
Qed.
(* The order of the fields of an embedded document is not printed. *)
Theorem C114_order_refuted : forall fmt_v quote fuel k fs gs, by_content fmt_v -> cstr_ok k -> wf_fields fs -> NoDup (map fst fs) ->
  Permutation fs gs -> small [(k, BDoc fs)] -> enough fuel (zlen (enc_doc [(k, BDoc fs)])) ->
  exists es es', build_doc [(k, BDoc fs)] = Ret es /\ build_doc [(k, BDoc gs)] = Ret es' /\
    doc_string fmt_v quote fuel es = doc_string fmt_v quote fuel es'.
Proof.
  intros fmt_v quote fuel k fs gs C K W N P Sm F.
  assert (Wg : wf_fields gs) by (eapply Permutation_Forall; eauto).
  assert (Le : zlen (enc_doc [(k, BDoc gs)]) = zlen (enc_doc [(k, BDoc fs)])).
  { unfold enc_doc. cbn [enc_elems]. zlens. rewrite !zlen_enc_elem, !enc_body_doc. unfold enc_doc. zlens.
    rewrite (zlen_elems_perm _ _ P). reflexivity. }
  assert (Wd : forall x, wf_fields x -> wf_fields [(k, BDoc x)]) by (intros; constructor; [split; [exact K|now apply wf_doc]|constructor]).
  assert (Sm' : small [(k, BDoc gs)]) by (unfold small in *; lia).
  assert (F' : enough fuel (zlen (enc_doc [(k, BDoc gs)]))) by (unfold enough in *; lia).
  destruct (build_doc_rep _ (Wd fs W) Sm) as (es & B & R). destruct (build_doc_rep _ (Wd gs Wg) Sm') as (es' & B' & R').
  exists es, es'. split; [exact B|]. split; [exact B'|].
  destruct (C114_document fmt_v quote fuel _ _ _ (do_built _ _ B) (Wd fs W) Sm F) as (s & -> & ls & H & ->).
  destruct (C114_document fmt_v quote fuel _ _ _ (do_built _ _ B') (Wd gs Wg) Sm' F') as (s' & -> & ls' & H' & ->).
  f_equal. inversion_clear H as [|? l1 ? ? X1 H0]. inversion_clear H0. inversion_clear H' as [|? l ? ? X H]. inversion_clear H.
  destruct X1 as (a1 & A1 & ->), X as (a & A & ->). cbn [fst snd] in *.
  assert (A' : shows (BDoc fs) a).
  { inversion A as [| |? m Nd Ks Sh| | | | | | | | | | | | | | | | | |]; subst. constructor; [exact Nd| |].
    - intros x. rewrite <- Ks. split; apply Permutation_in; apply Permutation_map; [|apply Permutation_sym]; exact P.
    - intros x y Hx. rewrite (last_of_perm x fs gs N P). auto. }
  rewrite (C _ _ _ A1 A'). reflexivity.
Qed.
Print Assumptions C114_order_refuted.

(* Bytes that end before the document does print as an empty document: nothing says what is missing. *)
Theorem C114_cut_refuted : forall fmt_v quote panic_text fuel fs k, small fs -> 0 <= k < zlen (enc_doc fs) ->
  rd_string fmt_v quote panic_text fuel (firstn (Z.to_nat k) (enc_doc fs)) = Ret (str "bson.Reader{" ++ [125]).
Proof.
  intros fmt_v quote pt fuel fs k S K. unfold rd_string, rd_elements.
  set (r := firstn (Z.to_nat k) (enc_doc fs)).
  assert (Lr : zlen r = k) by (unfold r, zlen in *; rewrite firstn_length; lia).
  destruct (zlen r <? 5) eqn:E5; [reflexivity|].
  assert (Er : exists b, r = le32 (zlen (enc_elems fs) + 5) ++ b).
  { unfold r, enc_doc, enc_frame. rewrite firstn_app. pose proof (zlen_le32 (zlen (enc_elems fs) + 5)) as L4. unfold zlen in *.
    eexists. f_equal. apply firstn_all2. lia. }
  destruct Er as (b & Er). unfold small, enc_doc in S, K. zlens_in S. zlens_in K. posl.
  rewrite Er. gs (@nil Z) (le32 (zlen (enc_elems fs) + 5)) b.
  rewrite readi32_le by rng. cbn [bind]. rewrite <- Er, Lr.
  replace (k <? zlen (enc_elems fs) + 5) with true by lia. reflexivity.
Qed.
Print Assumptions C114_cut_refuted.

(* ---------------------------------------------------------------- non-vacuity *)

(* a formatter that prints small numbers, strings and the size of maps and slices *)
Fixpoint fmt_ex (a : any) : bytes :=
  match a with
  | AInt (GInt32 i) => [48 + i]
  | AString s => s
  | AMap m => str "map"
  | ASlice l => str "[" ++ concat (map fmt_ex l) ++ str "]"
  | ANil => str "<nil>"
  | ABytes b => b
  | _ => str "?"
  end.
Lemma fmt_ex_ok : by_content fmt_ex.
Proof.
  intros t. induction t using bval_ind'; intros x y Hx Hy; inversion Hx; inversion Hy; subst; try reflexivity.
  cbn [fmt_ex]. apply (f_equal (fun z => str "[" ++ concat z ++ str "]")).
  clear Hx Hy. match goal with X : Forall2 shows _ l, Y : Forall2 shows _ l0 |- _ => rename X into Fx; rename Y into Fy end.
  revert l0 Fy. induction Fx as [|t0 a0 vs l S0 _ IH]; intros m Fy; inversion_clear Fy as [|? b0 ? m' S1 F1]; [reflexivity|].
  inversion_clear H as [|? ? T0 T1]. cbn [map]. f_equal; auto.
Qed.

Definition ex_fs : list (bytes * bval) :=
  [(str "a", BInt32 1); (str "b", BString (str "x")); (str "c", BDoc [(str "d", BNull); (str "e", BInt32 2)]); (str "f", BArray [BInt32 3; BNull])].
Definition ex_quote (s : bytes) : bytes := [34] ++ s ++ [34].
Definition ex_text : bytes := str "bson.Element{[32-bit integer]""a"": 1}, bson.Element{[string]""b"": ""x""}, bson.Element{[embedded document]""c"": map}, bson.Element{[array]""f"": [3<nil>]}}".
(* C114_document, C114_reader, C114_alike, C114_array: a document of four fields, built and read *)
Example C114_nonvacuous : exists es es', doc_obtained ex_fs es (zlen (enc_doc ex_fs)) /\
  doc_obtained ex_fs es' (zlen (enc_doc ex_fs ++ [7])) /\ es <> es' /\ wf_fields ex_fs /\ small ex_fs /\ enough 200 (zlen (enc_doc ex_fs)) /\
  doc_string fmt_ex ex_quote 200 es = Ret (str "bson.Document{" ++ ex_text) /\
  doc_string fmt_ex ex_quote 200 es' = Ret (str "bson.Document{" ++ ex_text) /\
  rd_string fmt_ex ex_quote (fun _ => []) 200 (enc_doc ex_fs ++ [7]) = Ret (str "bson.Reader{" ++ ex_text).
Proof.
  eexists _, _. split; [apply do_built; vm_compute; reflexivity|].
  split; [apply (do_read _ _ 200 [7]); vm_compute; reflexivity|].
  split; [discriminate|]. split; [|repeat split; vm_compute; reflexivity].
  unfold ex_fs, wf_fields. repeat constructor; vm_compute; intuition discriminate.
Qed.
Example C114_array_used : exists v es, value_holds v (BArray [BInt32 3; BNull]) /\ v_mutable_array 50 (Some v) = Ret es /\
  arr_string fmt_ex 50 es = Ret (str "bson.Array[3, <nil>]").
Proof.
  eexists _, _. split.
  { exists [97], (zlen (enc_doc [([97], BArray [BInt32 3; BNull])])). split; [apply do_built; vm_compute; reflexivity|].
    split; [|split; [vm_compute; reflexivity|vm_compute; discriminate]].
    unfold wf_fields. repeat constructor; vm_compute; intuition discriminate. }
  split; [vm_compute; reflexivity|]. vm_compute. reflexivity.
Qed.
(* C114_no_panic: bytes whose embedded document is damaged; its String method panics, and fmt says so *)
Example C114_no_panic_used : rd_string fmt_ex ex_quote (fun _ => str "!") 50 [15;0;0;0; 3;97;0; 7;0;0;0;9;9;0; 0] =
  Ret (str "bson.Reader{!}").
Proof. vm_compute. reflexivity. Qed.
(* C114_keys_refuted: {a: 1, b: 2} and one field *)
Example C114_keys_used : exists es es', build_doc [(str "a", BInt32 1); (str "b", BInt32 2)] = Ret es /\
  build_doc [(str "a"": 1}, bson.Element{[32-bit integer]""b", BInt32 2)] = Ret es' /\
  doc_string fmt_ex ex_quote 200 es = doc_string fmt_ex ex_quote 200 es' /\
  doc_string fmt_ex ex_quote 200 es = Ret (str "bson.Document{bson.Element{[32-bit integer]""a"": 1}, bson.Element{[32-bit integer]""b"": 2}}").
Proof. eexists _, _. split; [vm_compute; reflexivity|]. split; [vm_compute; reflexivity|]. split; vm_compute; reflexivity. Qed.
(* C114_subtype_refuted, C114_order_refuted *)
Example C114_lost_used : subtype_ok 0 /\ subtype_ok 5 /\ (0 = 2 <-> 5 = 2) /\ small [(str "a", BBinary 0 [1; 2])] /\
  NoDup (map fst [(str "d", BNull); (str "e", BInt32 2)]) /\
  Permutation [(str "d", BNull); (str "e", BInt32 2)] [(str "e", BInt32 2); (str "d", BNull)].
Proof.
  unfold subtype_ok. repeat (split; [lia|]). split; [vm_compute; reflexivity|]. split; [|constructor].
  repeat constructor; vm_compute; intuition discriminate.
Qed.
