(* C118: what UnmarshalJSON leaves in the document or array it is called on. *)
Require Import ZArith List Bool Lia ZifyBool ZifyNat String Ascii.
From Verif Require Import Base BSpec Elements Value Codec CodecRead Itoa CodecRep Api ApiProofs Tree GetterProofs CodecProps
  Search Sort Oid Dec128 DecProofs Json JsonSpec JsonProofs JsonParse JsonProps ExtJson ExtJsonProofs TypesProps ExtJsonProps.
Import List ListNotations.
Open Scope Z_scope.

Section Unmarshal.
Variable parse_time : bytes -> option Z.
Variable pf : bytes -> Z * bool.
Variable ff : Z -> bytes.
Notation doc_read := (doc_unmarshal_json parse_time pf ff).
Notation arr_read := (arr_unmarshal_json parse_time pf ff).

(* ------------------------------------------------------------------------ lemmas *)

(* the outcome with d put before *)
Definition after (d : document) (x : go (document * option gerr)) : go (document * option gerr) :=
  match x with Ret (es, e) => Ret (d ++ es, e) | Panic p => Panic p | Fuel => Fuel end.
Lemma after_app a b x : after a (after b x) = after (a ++ b) x.
Proof. destruct x as [[es e]|p|]; cbn; try reflexivity. now rewrite app_assoc. Qed.
Lemma conv_elems_after es : forall d, conv_elems parse_time es d = after d (conv_elems parse_time es []).
Proof.
  induction es as [|[|k v] es IH]; intros d; cbn [conv_elems]; [cbn; now rewrite app_nil_r|reflexivity|].
  destruct (conv parse_time k v) as [[w|e]|p|]; cbn [bind after]; try reflexivity; [|now rewrite app_nil_r].
  rewrite (IH (d ++ [Some w])), (IH ([] ++ [Some w])), after_app. reflexivity.
Qed.
Lemma conv_vals_after vs : forall d, conv_vals parse_time vs d = after d (conv_vals parse_time vs []).
Proof.
  induction vs as [|v vs IH]; intros d; cbn [conv_vals]; [cbn; now rewrite app_nil_r|].
  destruct (conv parse_time [] v) as [[w|e]|p|]; cbn [bind after]; try reflexivity; [|now rewrite app_nil_r].
  rewrite (IH (d ++ [Some w])), (IH ([] ++ [Some w])), after_app. reflexivity.
Qed.
Lemma doc_read_after t d : doc_read d t = after d (doc_read [] t).
Proof.
  unfold doc_unmarshal_json. destruct (doc_bytes pf ff t) as [[es|e]|p|]; cbn [bind after]; try reflexivity; [apply conv_elems_after|now rewrite app_nil_r].
Qed.
Lemma arr_read_after t d : arr_read d t = after d (arr_read [] t).
Proof.
  unfold arr_unmarshal_json. destruct (arr_bytes pf ff t) as [[es|e]|p|]; cbn [bind after]; try reflexivity; [apply conv_vals_after|now rewrite app_nil_r].
Qed.
Lemma conv_elems_app es1 d1 es2 : conv_elems parse_time es1 [] = Ret (d1, None) -> forall acc,
  conv_elems parse_time (es1 ++ es2) acc = conv_elems parse_time es2 (acc ++ d1).
Proof.
  revert d1. induction es1 as [|[|k v] es1 IH]; intros d1 E acc; cbn [conv_elems app] in *.
  - injection E as <-. now rewrite app_nil_r.
  - discriminate.
  - destruct (conv parse_time k v) as [[w|e]|p|]; cbn [bind] in *; try discriminate.
    rewrite conv_elems_after in E. destruct (conv_elems parse_time es1 []) as [[d e]|p|] eqn:E1; try discriminate.
    injection E as <- ->. rewrite (IH d eq_refl). now rewrite <- app_assoc.
Qed.

Lemma text_gbody t v : text loose_number ub t v -> text loose_number (fun t _ => gbody t) t v.
Proof.
  intros (w1 & u & w2 & W1 & V & W2 & E). exists w1, u, w2. split; [exact W1|]. split; [|auto].
  refine (proj1 (text_mono loose_number loose_number ub (fun t _ => gbody t) (fun _ H => H) _) u v V). now intros x y [G _].
Qed.

(* ---------------------------------------------------------------------- theorems *)

(* Whatever the text, and with or without an error: what was there stays, at its place, and what comes after it depends on the
   text alone. *)
Theorem C118_document : forall t d es err, doc_read d t = Ret (es, err) ->
  exists new, es = d ++ new /\ forall d', doc_read d' t = Ret (d' ++ new, err).
Proof.
  intros t d es err E. rewrite doc_read_after in E. destruct (doc_read [] t) as [[new e]|p|] eqn:R; try discriminate.
  injection E as <- <-. exists new. split; [reflexivity|]. intros d'. now rewrite doc_read_after, R.
Qed.
Theorem C118_array : forall t d es err, arr_read d t = Ret (es, err) ->
  exists new, es = d ++ new /\ forall d', arr_read d' t = Ret (d' ++ new, err).
Proof.
  intros t d es err E. rewrite arr_read_after in E. destruct (arr_read [] t) as [[new e]|p|] eqn:R; try discriminate.
  injection E as <- <-. exists new. split; [reflexivity|]. intros d'. now rewrite arr_read_after, R.
Qed.

(* A text that is not JSON, and JSON that is not an object, change nothing. *)
Theorem C118_not_object : forall t d, (forall ms, ~ text loose_number (fun t _ => gbody t) t (DObj ms)) -> exists e, doc_read d t = Ret (d, Some e).
Proof.
  intros t d N. unfold doc_unmarshal_json. destruct (validate_total t) as [[|] A].
  2:{ unfold doc_bytes, parse_bytes. rewrite A. cbn [bind]. eauto. }
  destruct (validate_sound t A) as (v & w1 & u & w2 & W1 & V & W2 & ->).
  destruct (proj1 (text_ub loose_number) u v V) as [v' V'].
  assert (X : text loose_number ub (w1 ++ u ++ w2) v') by (exists w1, u, w2; auto).
  destruct (accepted_read pf ff (w1 ++ u ++ w2) v' X A) as (_ & R2 & _). rewrite R2. cbn [bind].
  destruct v' as [| | | | |ms]; eauto. destruct (N ms (text_gbody _ _ X)).
Qed.
Theorem C118_not_array : forall t d, (forall vs, ~ text loose_number (fun t _ => gbody t) t (DArr vs)) -> exists e, arr_read d t = Ret (d, Some e).
Proof.
  intros t d N. unfold arr_unmarshal_json. destruct (validate_total t) as [[|] A].
  2:{ unfold arr_bytes, parse_bytes. rewrite A. cbn [bind]. eauto. }
  destruct (validate_sound t A) as (v & w1 & u & w2 & W1 & V & W2 & ->).
  destruct (proj1 (text_ub loose_number) u v V) as [v' V'].
  assert (X : text loose_number ub (w1 ++ u ++ w2) v') by (exists w1, u, w2; auto).
  destruct (accepted_read pf ff (w1 ++ u ++ w2) v' X A) as (_ & _ & R3). rewrite R3. cbn [bind].
  destruct v' as [| | | |vs|]; eauto. destruct (N vs (text_gbody _ _ X)).
Qed.

(* But an error found later leaves the members before it in the document: after plain members, one that is an object ID whose
   text is not one. *)
Theorem C118_error_refuted : forall t ms fs k s rest js, json t (DObj (ms ++ (k, DObj [(bstr "$oid", DStr s)]) :: rest)) ->
  plain_fields pf ff ms fs -> wf_fields fs -> small fs -> elems_of (num_value pf ff) rest = inl js ->
  (forall id, is_oid id -> map lower s <> hex id) ->
  exists es e, build_doc fs = Ret es /\ forall d, doc_read d t = Ret (d ++ es, Some e).
Proof.
  intros t ms fs k s rest js J P W S Er No.
  destruct (fields_make parse_time pf ff ms ltac:(apply Forall_forall; intros; apply read_makes_all) fs P) as (jm & E & M & _).
  unfold small, enc_doc in S. zlens_in S. destruct (conv_elems_good parse_time jm fs M W ltac:(lia) []) as (es & C & B). cbn [app] in C.
  destruct (oid_from_hex s) as [o [e|]] eqn:Eo.
  2:{ apply C22_from_hex_exact in Eo as [I L]. destruct (No o I L). }
  exists es, e. split; [exact B|]. intros d. unfold doc_unmarshal_json. destruct (C76_reads pf ff t _ J) as (_ & R & _). rewrite R.
  assert (A : forall m1 j1 m2 j2, elems_of (num_value pf ff) m1 = inl j1 -> elems_of (num_value pf ff) m2 = inl j2 ->
    elems_of (num_value pf ff) (m1 ++ m2) = inl (j1 ++ j2)).
  { clear. induction m1 as [|[k v] m1 IH]; intros j1 m2 j2 E1 E2; cbn [elems_of app] in *; [now injection E1 as <-|].
    destruct (value_of _ v) as [w|]; [|discriminate]. destruct (elems_of _ m1) as [j|] eqn:E; [|discriminate]. injection E1 as <-.
    now rewrite (IH j m2 j2 eq_refl E2). }
  rewrite (A ms jm _ (JElem k (JDoc [JElem s_oid (JString s)]) :: js) E).
  2:{ cbn [elems_of]. rewrite value_of_obj. cbn [elems_of value_of]. now rewrite Er. }
  cbn [bind]. rewrite (conv_elems_app jm es _ C). cbn [conv_elems].
  change (conv parse_time k (JDoc [JElem s_oid (JString s)])) with
    (match oid_from_hex s with (_, Some e) => Ret (inr e) | (o, None) => made (ec_objectid k o) end).
  rewrite Eo. reflexivity.
Qed.
End Unmarshal.
Print Assumptions C118_document.
Print Assumptions C118_array.
Print Assumptions C118_not_object.
Print Assumptions C118_not_array.
Print Assumptions C118_error_refuted.

(* ------------------------------------------------------------------ non-vacuity *)

Definition t_half : bytes := bstr "{""a"":""x"",""b"":{""$oid"":""zz""},""c"":null}".
Definition one_x : document := match build_doc [(bstr "a", BString (bstr "x"))] with Ret es => es | _ => [] end.
(* The error leaves the first member, on a document that has it already as well. *)
Example C118_error_case : forall parse pf ff, exists e,
  json t_half (DObj ([(bstr "a", DStr (bstr "x"))] ++ (bstr "b", DObj [(bstr "$oid", DStr (bstr "zz"))]) :: [(bstr "c", DNull)])) /\
  doc_unmarshal_json parse pf ff one_x t_half = Ret (one_x ++ one_x, Some e) /\ List.length one_x = 1%nat.
Proof.
  intros.
  assert (J : json t_half (DObj ([(bstr "a", DStr (bstr "x"))] ++ (bstr "b", DObj [(bstr "$oid", DStr (bstr "zz"))]) :: [(bstr "c", DNull)]))).
  { destruct (marshal_ok (JDoc [JElem (bstr "a") (JString (bstr "x")); JElem (bstr "b") (JDoc [JElem s_oid (JString (bstr "zz"))]); JElem (bstr "c") JNull])) as (t & M & V).
    - cbn [jgood]. assert (plain_key (bstr "a")) by (now apply plain_lit). assert (plain_key (bstr "b")) by (now apply plain_lit).
      assert (plain_key (bstr "c")) by (now apply plain_lit). assert (plain_key s_oid) by (now apply plain_lit).
      assert (bytes_ok (bstr "x")) by bl. assert (bytes_ok (bstr "zz")) by bl. tauto.
    - vm_compute in M. injection M as <-. apply value_json. exact V. }
  assert (W : wf_fields [(bstr "a", BString (bstr "x"))]).
  { constructor; [|constructor]. split; [split; [bl|now apply nul_list]|]. cbn. bl. }
  destruct (C118_error_refuted parse pf ff t_half [(bstr "a", DStr (bstr "x"))] [(bstr "a", BString (bstr "x"))] (bstr "b") (bstr "zz")
    [(bstr "c", DNull)] [JElem (bstr "c") JNull] J) as (es & e & B & R); auto.
  - constructor; [split; reflexivity|constructor].
  - reflexivity.
  - intros id [_ L] E. apply (f_equal (@List.length Z)) in E. rewrite map_length, hex_length in E. rewrite L in E. discriminate.
  - exists e. split; [exact J|]. unfold one_x. rewrite B. split; [apply R|]. vm_compute in B. injection B as <-. reflexivity.
Qed.
(* [1] is no object, and a text that ends early is no object and no array. *)
Example C118_not_object_case : forall ms, ~ text loose_number (fun t _ => gbody t) (bstr "[1]") (DObj ms).
Proof.
  intros ms (w1 & u & w2 & W1 & V & W2 & E). change (bstr _) with [91; 49; 93] in E. destruct w1 as [|c w1]; [|inversion W1 as [|? ? H]; subst; injection E as <- _; unfold ws_char in H; lia].
  inversion V; subst; discriminate.
Qed.
Example C118_not_array_case : forall vs, ~ text loose_number (fun t _ => gbody t) (bstr "{""a"":") (DArr vs).
Proof.
  intros ms (w1 & u & w2 & W1 & V & W2 & E). change (bstr _) with [123; 34; 97; 34; 58] in E. destruct w1 as [|c w1]; [|inversion W1 as [|? ? H]; subst; injection E as <- _; unfold ws_char in H; lia].
  inversion V; subst; discriminate.
Qed.
Example C118_document_case : forall parse pf ff, doc_unmarshal_json parse pf ff one_x (bstr "{""a"":""x""}") = Ret (one_x ++ one_x, None).
Proof. intros. vm_compute. reflexivity. Qed.
Example C118_array_case : forall parse pf ff, exists v, arr_unmarshal_json parse pf ff one_x (bstr "[null,{""$oid"":""zz""}]") = Ret (one_x ++ [Some v], Some (EOther 1)).
Proof. intros. eexists. vm_compute. reflexivity. Qed.
