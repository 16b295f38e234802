(* Properties of x/ftdc: metadata, names, flattened samples, matrix export and hostile
   input (C61-C65). *)
Require Import ZArith List Bool Lia ZifyBool ZifyNat.
From Verif Require Import Base BSpec Elements Value Codec CodecRead Itoa CodecRep Api ApiProofs Tree
  GetterProofs ReaderOps CodecProps DocOps Stream Search FtdcSpec Ftdc FtdcProofs FtdcRestore FtdcProps.
Import ListNotations.
Open Scope Z_scope.

(* ch is the chunk read from what a base collector wrote after being offered dfs, having
   accepted acc. *)
Definition read_back nan zip unzip fuel mfs acc ch : Prop :=
  exists max md docs d0 dfs c rs out s n,
    codec_ok zip unzip /\ 0 <= max < 4294967296 /\ meta_ok fuel md mfs /\
    Forall2 (fun d fs => sample fuel (snd d) fs) docs (d0 :: dfs) /\
    add_all nan fuel (base_with max md) docs = (c, rs) /\ acc = fst (s_run max [] (d0 :: dfs)) /\
    chunk_room d0 (zlen acc) < 2147483648 /\ enough fuel (chunk_room d0 (zlen acc)) /\
    b_resolve zip fuel c = Ret (inl out) /\
    st_data s = out /\ st_err s = EEOF /\ (2 < n)%nat /\ read_chunks unzip n fuel s = ([ch], Ret None).
Lemma read_back_is nan zip unzip fuel mfs acc ch : read_back nan zip unzip fuel mfs acc ch ->
  exists md start, Forall wf_fields acc /\ acc <> [] /\ meta_ok fuel md mfs /\
    chunk_is nan (meta_after None (mfs, start, acc)) ch (mfs, start, acc).
Proof.
  intros (max & md & docs & d0 & dfs & c & rs & out & s & n & Cz & Mx & Mo & Sa & Run & -> & Room & Fu & Eo & E1 & E2 & E3 & Rd).
  destruct (base_round_trip _ _ _ _ _ _ _ _ _ _ _ _ Cz Mx Mo Sa Run Room Fu) as (Er & Wa & Sma & Hh & Na & out' & start & Eo' & Rd').
  assert (out' = out) by congruence. subst out'. destruct (Rd' s n E1 E2 E3) as (ch' & Rc & K).
  assert (ch' = ch) by congruence. subst ch'. eauto 7.
Qed.

(* C61: the metadata set on the collector comes with the chunk, under "doc". *)
Theorem C61_metadata : forall nan zip unzip fuel mfs acc ch, read_back nan zip unzip fuel mfs acc ch ->
  match mfs with
  | None => c_meta ch = None
  | Some m => exists es fs, c_meta ch = Some es /\ obs_doc fuel es = Ret fs /\ first_key k_doc fs = Some (BDoc (swapf m))
  end.
Proof.
  intros nan zip unzip fuel mfs acc ch H. destruct (read_back_is _ _ _ _ _ _ _ H) as (md & start & _ & _ & Mo & K).
  destruct K as (_ & _ & _ & _ & K). destruct (meta_ok_fits _ _ _ Mo) as [Mi Mf]. cbn [meta_after] in K.
  destruct mfs as [m|]; [|destruct (c_meta ch); [contradiction|reflexivity]].
  destruct (c_meta ch) as [es|]; [|contradiction]. destruct md as [me|]; [|contradiction].
  exists es, (swapf (meta_fields start m)). split; [reflexivity|]. split.
  - destruct (Mf start). cbn in Mi. apply obs_doc_rep; auto. apply meta_fields_wf; [exact nan|exact (proj2 Mi)].
  - unfold meta_fields, swapf. cbn [map fst snd]. rewrite swapd_doc. reflexivity.
Qed.
Print Assumptions C61_metadata.

Lemma join_app p a b : join (p ++ [a ++ b]) = join (p ++ [a]) ++ b.
Proof.
  induction p as [|x p IH]; [reflexivity|]. cbn [app]. destruct (p ++ [a ++ b]) as [|y r] eqn:E1; [now destruct p|].
  destruct (p ++ [a]) as [|z q] eqn:E2; [now destruct p|]. cbn [join]. cbn [join] in IH. rewrite IH. now rewrite <- app_assoc.
Qed.
Lemma join_snoc p a b : join ((p ++ [a]) ++ [b]) = under (join (p ++ [a])) b.
Proof.
  unfold under. induction p as [|x p IH]; [reflexivity|]. cbn [app]. 
  destruct ((p ++ [a]) ++ [b]) as [|y r] eqn:E1; [now destruct p|].
  destruct (p ++ [a]) as [|z q] eqn:E2; [now destruct p|]. cbn [join]. cbn [join] in IH. rewrite IH. now rewrite <- app_assoc.
Qed.
Lemma no_doc_path t : forall key path, no_doc t -> Forall (fun m => m_path m = path) (m_value key path t).
Proof.
  induction t using bval_ind'; intros key path N; cbn [m_value no_doc] in *; try contradiction; try (repeat constructor; fail).
  revert N. generalize O. induction H as [|v r Hv Hr IH]; intros i N; [constructor|]. destruct N as [N1 N2].
  apply Forall_app. split; [now apply Hv|now apply IH].
Qed.
Lemma no_doc_names t : forall key path, no_doc t -> map m_name (m_value key path t) = names (join (path ++ [key])) t.
Proof.
  induction t using bval_ind'; intros key path N; cbn [m_value no_doc names] in *; try contradiction; try reflexivity.
  - revert N. generalize O. induction H as [|v r Hv Hr IH]; intros i N; [reflexivity|]. destruct N as [N1 N2].
    rewrite map_app, Hv by auto. rewrite IH by auto. f_equal. unfold dotted, under. rewrite join_app. now rewrite itoa_index_key.
  - cbn [map]. unfold m_name. cbn [m_path m_key]. now rewrite join_app.
Qed.
Lemma two_deep_names t : forall key path, two_deep t -> map m_name (m_value key path t) = names (join (path ++ [key])) t.
Proof.
  induction t using bval_ind'; intros key path N; try (apply no_doc_names; exact N).
  - cbn [m_value two_deep names] in *.
    match goal with |- map m_name (map _ ?l) = _ => assert (E : map (fun ne => MkM (path ++ [key]) (m_key ne) (m_start ne) (m_type ne) []) l = l) end.
    { rewrite <- map_id. apply map_ext_in. clear H.
      assert (A : forall fs, (fix go fs := match fs with [] => True | (_, v) :: r => no_doc v /\ go r end) fs ->
        forall m, In m ((fix loop fs := match fs with [] => [] | (k, v) :: r => m_value k (path ++ [key]) v ++ loop r end) fs) ->
        m_path m = path ++ [key] /\ m_values m = []).
      { clear. induction fs as [|[k v] r IH]; intros N m Hm; [destruct Hm|]. destruct N as [N1 N2].
        apply in_app_or in Hm as [Hm|Hm]; [|auto]. pose proof (no_doc_path v k (path ++ [key]) N1) as F. rewrite Forall_forall in F.
        split; [auto|]. clear -Hm. revert Hm. generalize (path ++ [key]). intros pp. revert k pp.
        induction v using bval_ind'; intros kk pp Hm; cbn [m_value] in Hm; try contradiction;
          try (destruct Hm as [<-|Hm]; [reflexivity|]; try contradiction; destruct Hm as [<-|[]]; reflexivity).
        - apply in_map_iff in Hm as (? & <- & _). reflexivity.
        - revert Hm. generalize O. induction H as [|v r Hv Hr IH]; intros i Hm; [destruct Hm|].
          apply in_app_or in Hm as [Hm|Hm]; eauto. }
      intros m Hm. destruct (A fs N m Hm) as [P V]. destruct m; cbn in *. now rewrite P, V. }
    rewrite E. clear E. induction H as [|[k v] r Hv Hr IH]; [reflexivity|]. destruct N as [N1 N2].
    rewrite map_app, (no_doc_names v) by exact N1. rewrite IH by exact N2. now rewrite join_snoc.
  - cbn [m_value two_deep names] in *. revert N. generalize O. induction H as [|v r Hv Hr IH]; intros i N; [reflexivity|]. destruct N as [N1 N2].
    rewrite map_app, Hv by auto. rewrite IH by auto. f_equal. unfold dotted, under. rewrite join_app. now rewrite itoa_index_key.
Qed.

Lemma m_fields_names fs : Forall (fun f => two_deep (snd f)) fs -> map m_name (m_fields [] fs) = doc_names fs.
Proof.
  induction 1 as [|[k v] r Hv Hr IH]; [reflexivity|]. cbn [m_fields doc_names flat_map fst snd] in *.
  rewrite map_app, two_deep_names by auto. unfold doc_names in IH. now rewrite IH.
Qed.
Lemma decoded_names nan d acc : map m_name (decoded nan d (map x_fields (d :: acc))) = map m_name (m_fields [] d).
Proof.
  unfold decoded. rewrite map_map.
  assert (L : length (m_fields [] d) = length (columns nan (map x_fields (d :: acc)))).
  { rewrite columns_length. cbn [map hd]. now rewrite m_fields_length, x_fields_leaves, map_length. }
  revert L. generalize (columns nan (map x_fields (d :: acc))). generalize (m_fields [] d).
  induction l as [|m l IH]; intros [|c cs] L; try discriminate; [reflexivity|]. cbn [combine map]. f_equal. apply IH. now injection L.
Qed.

(* ---- the names of all metrics *)
Lemma paths_nonempty t : forall key, Forall (fun p => p <> []) (paths key t).
Proof.
  induction t using bval_ind'; intros key; cbn [paths]; try (repeat constructor; discriminate).
  - apply Forall_map. apply Forall_forall. discriminate.
  - generalize O. induction H as [|v r Hv Hr IH]; intros i; [constructor|]. apply Forall_app. split; auto.
Qed.
Lemma paths_full t : forall key, map full_name (paths key t) = names key t.
Proof.
  assert (U : forall p q r, under p (under q r) = under (under p q) r) by (intros; unfold under; cbn; now rewrite <- app_assoc).
  assert (N : forall s p q, names (under p q) s = map (under p) (names q s)).
  { clear t. induction s using bval_ind'; intros a q; cbn [names map]; try reflexivity.
    - induction H as [|[k v] r Hv Hr IH]; [reflexivity|]. rewrite map_app, <- IH. f_equal. rewrite <- U. apply Hv.
    - generalize O. induction H as [|v r Hv Hr IH]; intros i; [reflexivity|]. rewrite map_app, <- IH. f_equal. rewrite <- U. apply Hv.
    - unfold under. cbn. now rewrite <- app_assoc. }
  induction t using bval_ind'; intros key; cbn [paths names map full_name]; try reflexivity.
  - rewrite map_map. induction H as [|[k v] r Hv Hr IH]; [reflexivity|]. rewrite map_app, IH. f_equal. rewrite N. rewrite <- Hv, map_map.
    apply map_ext_in. intros p Hp. pose proof (paths_nonempty v k) as F. rewrite Forall_forall in F. specialize (F p Hp). now destruct p.
  - generalize O. induction H as [|v r Hv Hr IH]; intros i; [reflexivity|]. now rewrite map_app, IH, Hv.
Qed.
(* The full names of metrics are those of doc_names. *)
Lemma doc_paths_full fs : map full_name (doc_paths fs) = doc_names fs.
Proof.
  unfold doc_paths, doc_names. induction fs as [|[k v] r IH]; [reflexivity|]. cbn [flat_map fst snd]. now rewrite map_app, IH, paths_full.
Qed.
Definition placed (path : list bytes) (p : list bytes) : list bytes * bytes :=
  match p with [] => (path, []) | [k] => (path, k) | k :: r => (path ++ [k], last r []) end.
Lemma m_value_placed t : forall key path, map (fun m => (m_path m, m_key m)) (m_value key path t) = map (placed path) (paths key t).
Proof.
  induction t using bval_ind'; intros key path; cbn [m_value paths map placed]; try reflexivity.
  - rewrite !map_map. cbn [m_path m_key]. induction H as [|[k v] r Hv Hr IH]; [reflexivity|]. rewrite !map_app, IH. f_equal.
    specialize (Hv k (path ++ [key])). apply (f_equal (map snd)) in Hv. rewrite !map_map in Hv. cbn [snd] in Hv.
    transitivity (map (pair (path ++ [key])) (map (fun m => m_key m) (m_value k (path ++ [key]) v))); [now rewrite map_map|].
    rewrite Hv, map_map. apply map_ext_in. intros p Hp.
    pose proof (paths_nonempty v k) as F. rewrite Forall_forall in F. specialize (F p Hp). destruct p as [|x [|y q]]; [congruence|reflexivity|reflexivity].
  - generalize O. induction H as [|v r Hv Hr IH]; intros i; [reflexivity|]. rewrite !map_app, IH, Hv. unfold dotted, under.
    now rewrite itoa_index_key.
Qed.
Lemma m_fields_given fs : map m_name (m_fields [] fs) = given_names fs.
Proof.
  unfold given_names, doc_paths. induction fs as [|[k v] r IH]; [reflexivity|]. cbn [m_fields flat_map fst snd]. rewrite !map_app, IH. f_equal.
  transitivity (map (fun pk => join (fst pk ++ [snd pk])) (map (fun m => (m_path m, m_key m)) (m_value k [] v))).
  { rewrite map_map. reflexivity. }
  rewrite m_value_placed, map_map. apply map_ext_in. intros p Hp.
  pose proof (paths_nonempty v k) as F. rewrite Forall_forall in F. specialize (F p Hp). destruct p as [|x [|y q]]; [congruence|reflexivity|reflexivity].
Qed.
Lemma given_two_deep fs : Forall (fun f => two_deep (snd f)) fs -> given_names fs = doc_names fs.
Proof. intros T. rewrite <- m_fields_given. now apply m_fields_names. Qed.

(* C62, for all documents: the name of a metric is the first and the last key on the way to
   it.  This is not its full name if there are more than two. *)
Theorem C62_given : forall nan zip unzip fuel mfs acc ch, read_back nan zip unzip fuel mfs acc ch ->
  map m_name (c_metrics ch) = given_names (hd [] acc).
Proof.
  intros nan zip unzip fuel mfs acc ch H. destruct (read_back_is _ _ _ _ _ _ _ H) as (md & start & W & N & _ & K).
  destruct K as (E & _). rewrite E. destruct acc as [|d acc]; [congruence|]. cbn [hd] in *.
  now rewrite decoded_names, m_fields_given.
Qed.
Print Assumptions C62_given.
(* The metrics with a wrong name are those with at least three keys on the way, of which
   the inner ones are lost. *)
Theorem C62_given_full : forall fs,
  map full_name (doc_paths fs) = doc_names fs /\
  Forall2 (fun n p => n = full_name p <-> (length p <= 2)%nat) (given_names fs) (doc_paths fs).
Proof.
  intros fs. split; [apply doc_paths_full|]. unfold given_names.
  induction (doc_paths fs) as [|p ps IH]; cbn [map]; constructor; auto.
  destruct p as [|a [|b [|c q]]]; cbn [given_name full_name last length]; try (split; [lia|reflexivity]).
  split; [|lia]. intros E. exfalso. apply app_inv_head in E. injection E as E.
  assert (L : forall q c, zlen (last (c :: q) []) <= zlen (full_name (c :: q))).
  { clear. induction q as [|d q IH]; intros c; [cbn; lia|]. change (last (c :: d :: q) []) with (last (d :: q) [] : bytes).
    change (full_name (c :: d :: q)) with (under c (full_name (d :: q))). specialize (IH d). unfold under. unfold zlen in *.
    rewrite app_length. cbn [length]. lia. }
  specialize (L q c). change (match q with [] => c | _ :: _ => last q [] end) with (last (c :: q) []) in E.
  apply (f_equal zlen) in E. unfold under in E. rewrite E in L. unfold zlen in L. rewrite app_length in L.
  fold (under c (full_name q)) in L. cbn [full_name length] in L. lia.
Qed.
Print Assumptions C62_given_full.

(* C62, for documents with at most one level of documents inside the top one: the metrics
   are named by their full path.  Missing: deeper documents, where it is false. *)
Theorem C62_names_partial : forall nan zip unzip fuel mfs acc ch, read_back nan zip unzip fuel mfs acc ch ->
  Forall (fun f => two_deep (snd f)) (hd [] acc) ->
  map m_name (c_metrics ch) = doc_names (hd [] acc).
Proof. intros nan zip unzip fuel mfs acc ch H T. rewrite (C62_given _ _ _ _ _ _ _ H). now apply given_two_deep. Qed.
Print Assumptions C62_names_partial.

(* ------------------------------------------------------------------ flattened samples *)
Lemma names_ok t : forall p, wf t -> cstr_ok p -> Forall cstr_ok (names p t).
Proof.
  assert (U : forall p k, cstr_ok p -> cstr_ok k -> cstr_ok (under p k)).
  { intros p k [A B] [C D]. split; apply Forall_app; (split; [assumption|]); constructor; auto; [unfold is_u8; lia|lia]. }
  induction t using bval_ind'; intros q W Q; cbn [names]; try (now apply Forall_nil); try (now (apply Forall_cons; [exact Q|apply Forall_nil])).
  - apply wf_doc in W. induction H as [|[k v] r Hv Hr IH]; [constructor|]. inversion_clear W as [|? ? [Wk Wv] Wr]. cbn [fst snd] in *.
    apply Forall_app. split; auto.
  - apply wf_array in W. generalize O. induction H as [|v r Hv Hr IH]; intros i; [constructor|]. inversion_clear W as [|? ? Wv Wr].
    apply Forall_app. split; auto. apply Hv; auto. apply U; auto. apply index_key_ok.
  - apply Forall_cons; [exact Q|]. apply Forall_cons; [|apply Forall_nil]. apply (U q [105; 110; 99] Q). now apply key_ok.
Qed.
Lemma doc_names_ok fs : wf_fields fs -> Forall cstr_ok (doc_names fs).
Proof.
  induction 1 as [|[k v] r [Wk Wv] Wr IH]; [constructor|]. cbn [doc_names flat_map fst snd] in *. apply Forall_app. split; auto.
  now apply names_ok.
Qed.
Lemma names_leaves t : forall p, length (names p t) = length (leaves t).
Proof.
  induction t using bval_ind'; intros q; cbn [names leaves]; try reflexivity.
  - induction H as [|[k v] r Hv Hr IH]; [reflexivity|]. rewrite !app_length. f_equal; auto.
  - generalize O. induction H as [|v r Hv Hr IH]; intros i; [reflexivity|]. rewrite !app_length. f_equal; auto.
Qed.
Lemma doc_names_length fs : length (doc_names fs) = length (doc_leaves fs).
Proof. unfold doc_names, doc_leaves. induction fs as [|[k v] r IH]; [reflexivity|]. cbn. now rewrite !app_length, names_leaves, IH. Qed.

Lemma paths_ok t : forall key, wf t -> cstr_ok key -> Forall (Forall cstr_ok) (paths key t).
Proof.
  assert (U : forall p k, cstr_ok p -> cstr_ok k -> cstr_ok (under p k)).
  { intros p k [A B] [C D]. split; apply Forall_app; (split; [assumption|]); constructor; auto; [unfold is_u8; lia|lia]. }
  induction t using bval_ind'; intros q W Q; cbn [paths]; try (now apply Forall_nil); try (repeat (first [exact Q|apply Forall_cons|apply Forall_nil]); fail).
  - apply Forall_map. apply wf_doc in W. induction H as [|[k v] r Hv Hr IH]; [constructor|]. inversion_clear W as [|? ? [Wk Wv] Wr]. cbn [fst snd] in *.
    apply Forall_app. split; auto. specialize (Hv k Wv Wk). eapply Forall_impl; [|exact Hv]. cbn. auto.
  - apply wf_array in W. generalize O. induction H as [|v r Hv Hr IH]; intros i; [constructor|]. inversion_clear W as [|? ? Wv Wr].
    apply Forall_app. split; auto. apply Hv; auto. apply U; auto. apply index_key_ok.
  - apply Forall_cons; [apply Forall_cons; [exact Q|apply Forall_nil]|]. apply Forall_cons; [|apply Forall_nil].
    apply Forall_cons; [|apply Forall_nil]. apply (U q [105; 110; 99] Q). now apply key_ok.
Qed.
Lemma given_names_ok fs : wf_fields fs -> Forall cstr_ok (given_names fs).
Proof.
  intros W. unfold given_names. apply Forall_map.
  assert (P : Forall (Forall cstr_ok) (doc_paths fs)).
  { induction W as [|[k v] r [Wk Wv] Wr IH]; [constructor|]. cbn [doc_paths flat_map fst snd] in *. apply Forall_app. split; auto.
    now apply paths_ok. }
  eapply Forall_impl; [|exact P]. clear. intros [|a [|b q]] F; cbn [given_name]; [now apply key_ok|now inversion F|].
  inversion_clear F as [|? ? Fa F']. assert (L : cstr_ok (last (b :: q) [])).
  { clear -F'. revert b F'. induction q as [|c q IH]; intros b F; [now inversion F|]. inversion_clear F as [|? ? _ F']. exact (IH c F'). }
  destruct Fa as [A B], L as [C D]. split; apply Forall_app; (split; [assumption|]); constructor; auto; [unfold is_u8; lia|lia].
Qed.
Lemma paths_leaves t : forall p, length (paths p t) = length (leaves t).
Proof. intros p. rewrite <- (map_length full_name), paths_full. apply names_leaves. Qed.
Lemma given_names_length fs : length (given_names fs) = length (doc_leaves fs).
Proof. unfold given_names. rewrite map_length, <- (map_length full_name), doc_paths_full. apply doc_names_length. Qed.

Lemma flat_val_wf l : leaf_ok l -> wf (flat_val l).
Proof. destruct l; cbn; unfold is_u32, is_i64; auto; lia. Qed.
Lemma flat_doc_wf ns d : Forall cstr_ok ns -> wf_fields d -> wf_fields (flat_doc ns d).
Proof.
  intros N W. unfold flat_doc. pose proof (doc_leaves_ok d W) as L. revert ns N. induction L as [|l ls Hl Hls IH]; intros [|n ns] N; cbn; try constructor.
  - inversion N. split; auto. now apply flat_val_wf.
  - inversion N. now apply IH.
Qed.
Lemma r_flat_leaf l l0 : leaf_type l = leaf_type l0 -> leaf_ok l -> exact l -> r_flat (leaf_type l0) (leaf_int l) = flat_val l.
Proof.
  intros <-. destruct l as [b|b|i|i|i|t|i]; cbn [leaf_type leaf_int flat_val leaf_ok exact]; intros O X; try contradiction; unfold r_flat; cbn [Z.eqb Pos.eqb].
  - now destruct b.
  - now rewrite i32_id.
  - reflexivity.
  - rewrite time_ms_time; auto.
  - reflexivity.
Qed.

Lemma s_run_schema max dfs : forall d0 r, Forall (fun d => schema d = schema d0) (d0 :: r) ->
  Forall (fun d => schema d = schema d0) (fst (s_run max (d0 :: r) dfs)).
Proof.
  induction dfs as [|e dfs IH]; intros d0 r F; [exact F|]. cbn [s_run].
  assert (Q : exists r', match s_take max (d0 :: r) e with Taken => (d0 :: r) ++ [e] | _ => d0 :: r end = d0 :: r' /\ Forall (fun d => schema d = schema d0) (d0 :: r')).
  { unfold s_take. destruct (max <=? zlen r); [eauto|]. unfold zs_eqb. destruct (list_eq_dec Z.eq_dec (schema e) (schema d0)) as [E|E]; [|eauto].
    exists (r ++ [e]). split; [reflexivity|]. inversion_clear F. constructor; auto. apply Forall_app. split; auto. }
  destruct Q as (r' & -> & F'). specialize (IH d0 r' F'). destruct (s_run max (d0 :: r') dfs). exact IH.
Qed.
Lemma read_back_schema nan zip unzip fuel mfs acc ch : read_back nan zip unzip fuel mfs acc ch ->
  Forall (fun d => schema d = schema (hd [] acc)) acc.
Proof.
  intros (max & md & docs & d0 & dfs & c & rs & out & s & n & _ & _ & _ & _ & _ & -> & _).
  cbn [s_run s_take app]. pose proof (s_run_schema max dfs d0 [] ltac:(repeat constructor)) as F.
  destruct (s_run_hd max dfs d0 []) as (r & E). destruct (s_run max [d0] dfs) as [a os]. cbn [fst] in *. subst a. exact F.
Qed.

(* every metric of the chunk, with exact values *)
Lemma chunk_columns nan zip unzip fuel mfs acc ch : read_back nan zip unzip fuel mfs acc ch ->
  Forall (fun d => Forall exact (doc_leaves d)) acc ->
  Forall2 (fun m j => exists ls, column j acc = map Some ls /\ Forall exact ls /\ Forall leaf_ok ls /\
      Forall (fun l => leaf_type l = m_type m) ls /\ m_values m = map leaf_int ls)
    (c_metrics ch) (seq 0 (length (doc_leaves (hd [] acc)))).
Proof.
  intros H X. pose proof (read_back_schema _ _ _ _ _ _ _ H) as Sc. destruct (read_back_is _ _ _ _ _ _ _ H) as (md & start & W & N & _ & K).
  pose proof (chunk_restores_ints _ _ _ _ _ _ K N W) as (_ & El & Ei).
  assert (G : forall j, (j < length (doc_leaves (hd [] acc)))%nat -> exists ls, column j acc = map Some ls /\ Forall exact ls /\
    Forall (fun l => Some (leaf_type l) = nth_error (schema (hd [] acc)) j) ls).
  { intros j Hj. clear El Ei K H N. generalize dependent (hd [] acc). intros d0 Sc Hj. induction acc as [|d acc IH].
    - exists []. repeat split; constructor.
    - inversion_clear Sc as [|? ? Sd Sr]. inversion_clear X as [|? ? Xd Xr]. inversion_clear W as [|? ? Wd Wr].
      destruct (IH Xr Wr Sr) as (ls & E & F1 & F2).
      destruct (nth_error (doc_leaves d) j) as [l|] eqn:El.
      + exists (l :: ls). cbn [column map]. rewrite El. unfold column in E. rewrite E. split; [reflexivity|]. split; constructor; auto.
        * rewrite Forall_forall in Xd. apply Xd. eapply nth_error_In; eauto.
        * rewrite <- Sd. unfold schema. now rewrite nth_error_map, El.
      + apply nth_error_None in El. apply (f_equal (@length _)) in Sd. unfold schema in Sd. rewrite !map_length in Sd. lia. }
  assert (M : forall j m, nth_error (c_metrics ch) j = Some m -> exists ls, column j acc = map Some ls /\ Forall exact ls /\ Forall leaf_ok ls /\
      Forall (fun l => leaf_type l = m_type m) ls /\ m_values m = map leaf_int ls).
  { intros j m Hm. assert (Hj : (j < length (doc_leaves (hd [] acc)))%nat).
    { assert (j < length (c_metrics ch))%nat by (apply nth_error_Some; congruence). unfold zlen in El. lia. }
    destruct (G j Hj) as (ls & E & F1 & F2). exists ls. split; [exact E|]. split; [exact F1|].
    split; [now apply (column_leaf_ok j acc)|].
    destruct ls as [|l ls]; [destruct acc; [congruence|discriminate]|].
    destruct (Ei j l ls E F1) as (m' & Em & Et & Ev). assert (m' = m) by congruence. subst m'. split; [|exact Ev].
    rewrite Et. inversion F2 as [|? ? Fl Fls]. subst. constructor; [reflexivity|]. rewrite Forall_forall in *. intros x Hx. specialize (Fls x Hx). congruence. }
  assert (El' : length (c_metrics ch) = length (doc_leaves (hd [] acc))) by (unfold zlen in El; lia).
  rewrite <- El'. clear -M. 
  assert (A : forall l k, (forall j m, nth_error l j = Some m -> exists ls, column (k + j) acc = map Some ls /\ Forall exact ls /\ Forall leaf_ok ls /\
      Forall (fun l => leaf_type l = m_type m) ls /\ m_values m = map leaf_int ls) ->
    Forall2 (fun m j => exists ls, column j acc = map Some ls /\ Forall exact ls /\ Forall leaf_ok ls /\
      Forall (fun l => leaf_type l = m_type m) ls /\ m_values m = map leaf_int ls) l (seq k (length l))).
  { induction l as [|m l IH]; intros k Hk; cbn [length seq]; constructor.
    - specialize (Hk O m eq_refl). now rewrite Nat.add_0_r in Hk.
    - apply IH. intros j m' Hm. specialize (Hk (S j) m' Hm). now rewrite <- Nat.add_succ_comm in Hk. }
  apply A. exact M.
Qed.

Lemma nth_error_combine {A B} (l : list A) (r : list B) j a b : nth_error l j = Some a -> nth_error r j = Some b -> nth_error (combine l r) j = Some (a, b).
Proof. revert r j. induction l as [|x l IH]; intros [|y r] [|j]; cbn; try discriminate; [congruence|apply IH]. Qed.
Lemma mapM_all {A B} (f : A -> go B) l ys : Forall2 (fun x y => f x = Ret y) l ys -> mapM f l = Ret ys.
Proof.
  induction 1 as [|x y l ys E _ IH]; [reflexivity|]. change (mapM f (x :: l)) with (b <- f x ;; bs <- mapM f l ;; Ret (b :: bs)). now rewrite E, IH.
Qed.

(* C63: ReadMetrics gives one document per sample, with the metrics under the names the
   reader gives (C62_given). *)
Theorem C63_flat : forall nan zip unzip fuel mfs acc ch, read_back nan zip unzip fuel mfs acc ch ->
  Forall (fun d => Forall exact (doc_leaves d)) acc ->
  Forall (fun d => small (flat_doc (given_names (hd [] acc)) d)) acc ->
  exists ess, c_flat ch = Ret ess /\
    Forall2 (fun es d => let fs := flat_doc (given_names (hd [] acc)) d in doc_obtained fs es (zlen (enc_doc fs))) ess acc.
Proof.
  intros nan zip unzip fuel mfs acc ch H X Sm. pose proof (C62_given _ _ _ _ _ _ _ H) as Nm.
  pose proof (chunk_columns _ _ _ _ _ _ _ H X) as C. pose proof (read_back_schema _ _ _ _ _ _ _ H) as Sc.
  destruct (read_back_is _ _ _ _ _ _ _ H) as (md & start & W & N & _ & K). destruct K as (_ & Ep & _).
  unfold c_flat. rewrite Ep, to_nat_zlen. apply (mapM_seq _ _ acc O). intros i d Hd. cbn [Nat.add].
  assert (Id : In d acc) by (eapply nth_error_In; eauto).
  assert (E : mapM (fun m => v <- goindex (m_values m) (Z.of_nat i) ;; Ret (m_name m, r_flat (m_type m) v)) (c_metrics ch) =
    Ret (flat_doc (given_names (hd [] acc)) d)).
  { apply mapM_all. unfold flat_doc. rewrite <- Nm.
    assert (Ld : length (doc_leaves d) = length (doc_leaves (hd [] acc))).
    { rewrite Forall_forall in Sc. specialize (Sc d Id). apply (f_equal (@length _)) in Sc. unfold schema in Sc. now rewrite !map_length in Sc. }
    rewrite <- Ld in C. 
    assert (A : forall ms k ls, Forall2 (fun m j => exists ls, column j acc = map Some ls /\ Forall exact ls /\ Forall leaf_ok ls /\
        Forall (fun l => leaf_type l = m_type m) ls /\ m_values m = map leaf_int ls) ms (seq k (length ls)) ->
      (forall j l, nth_error ls j = Some l -> nth_error (doc_leaves d) (k + j) = Some l) ->
      Forall2 (fun m y => (v <- goindex (m_values m) (Z.of_nat i) ;; Ret (m_name m, r_flat (m_type m) v)) = Ret y) ms (combine (map m_name ms) (map flat_val ls))).
    { clear -Hd. intros ms k ls F. remember (seq k (length ls)) as js eqn:Ejs. revert k ls Ejs. induction F as [|m j ms js Hm F IH]; intros k [|l ls] Ejs Hl; try discriminate; cbn [map combine]; constructor.
      - injection Ejs as -> ->. destruct Hm as (cs & Ec & Fx & Fo & Ft & Ev). specialize (Hl O l eq_refl). rewrite Nat.add_0_r in Hl.
        assert (Ni : nth_error cs i = Some l).
        { assert (nth_error (column k acc) i = Some (Some l)) by (unfold column; now rewrite nth_error_map, Hd; cbn; f_equal).
          rewrite Ec, nth_error_map in H. destruct (nth_error cs i); cbn in H; congruence. }
        rewrite Ev, (goindex_nat (map leaf_int cs) i (leaf_int l)) by (now apply map_nth_error). cbn [bind].
        assert (Il : In l cs) by (eapply nth_error_In; eauto). rewrite Forall_forall in Fx, Fo, Ft.
        rewrite <- (Ft l Il). rewrite r_flat_leaf; auto.
      - injection Ejs as -> ->. apply (IH (S k) ls eq_refl). intros j' l' Hj. specialize (Hl (S j') l' Hj). now rewrite <- Nat.add_succ_comm in Hl. }
    apply (A _ O _ C). auto. }
  rewrite E. cbn [bind]. rewrite Forall_forall in W, Sm.
  assert (Wh : wf_fields (hd [] acc)) by (destruct acc; [congruence|apply W; now left]).
  destruct (build_doc_rep (flat_doc (given_names (hd [] acc)) d)) as (es & B & _).
  - apply flat_doc_wf; auto. now apply given_names_ok.
  - auto.
  - exists es. split; [exact B|]. now constructor.
Qed.
Print Assumptions C63_flat.
(* For documents at most two levels deep those are the full names.  Missing: deeper
   documents, for which see C63_flat. *)
Theorem C63_flat_partial : forall nan zip unzip fuel mfs acc ch, read_back nan zip unzip fuel mfs acc ch ->
  Forall (fun f => two_deep (snd f)) (hd [] acc) ->
  Forall (fun d => Forall exact (doc_leaves d)) acc ->
  Forall (fun d => small (flat_doc (doc_names (hd [] acc)) d)) acc ->
  exists ess, c_flat ch = Ret ess /\
    Forall2 (fun es d => let fs := flat_doc (doc_names (hd [] acc)) d in doc_obtained fs es (zlen (enc_doc fs))) ess acc.
Proof. intros nan zip unzip fuel mfs acc ch H T. rewrite <- (given_two_deep _ T). now apply (C63_flat nan zip unzip fuel mfs). Qed.
Print Assumptions C63_flat_partial.

(* C64: the matrix export has, for each metric, the array of its values, under the name the
   reader gives. *)
Definition matrix (ns : list bytes) (acc : list (list (bytes * bval))) : list (bytes * bval) :=
  combine ns
    (map (fun j => BArray (map (fun d => match nth_error (doc_leaves d) j with Some l => flat_val l | None => BNull end) acc))
      (seq 0 (length (doc_leaves (hd [] acc))))).
Theorem C64_matrix : forall nan zip unzip fuel mfs acc ch, read_back nan zip unzip fuel mfs acc ch ->
  Forall (fun d => Forall (fun l => exact l /\ leaf_type l <> 17) (doc_leaves d)) acc ->
  small (matrix (given_names (hd [] acc)) acc) ->
  exists es, c_matrix ch = Ret (inl es) /\ doc_obtained (matrix (given_names (hd [] acc)) acc) es (zlen (enc_doc (matrix (given_names (hd [] acc)) acc))).
Proof.
  intros nan zip unzip fuel mfs acc ch H X Sm. pose proof (C62_given _ _ _ _ _ _ _ H) as Nm.
  assert (X1 : Forall (fun d => Forall exact (doc_leaves d)) acc).
  { eapply Forall_impl; [|exact X]. intros d. apply Forall_impl. tauto. }
  pose proof (chunk_columns _ _ _ _ _ _ _ H X1) as C.
  destruct (read_back_is _ _ _ _ _ _ _ H) as (md & start & W & N & _ & K).
  set (val := fun j => BArray (map (fun d => match nth_error (doc_leaves d) j with Some l => flat_val l | None => BNull end) acc)).
  set (js := seq 0 (length (doc_leaves (hd [] acc)))) in *.
  assert (Hv : forall m j, (exists ls, column j acc = map Some ls /\ Forall exact ls /\ Forall leaf_ok ls /\
        Forall (fun l => leaf_type l = m_type m) ls /\ m_values m = map leaf_int ls) ->
      forall ms i, 0 <= i -> goindex ms i = Ret m -> rehydrate ms i = Ret (inl ((m_name m, val j), i + 1)) /\ wf (val j)).
  { intros m j (ls & Ec & Fx & Fo & Ft & Ev) ms i Hi G.
    assert (Hval : val j = BArray (map flat_val ls)).
    { unfold val. f_equal. unfold column in Ec. clear -Ec. revert ls Ec. induction acc as [|d acc IH]; intros [|l ls] Ec; try discriminate; [reflexivity|].
      cbn [map] in *. injection Ec as E1 E2. rewrite E1. f_equal. now apply IH. }
    split.
    - unfold rehydrate.
      assert (zlen ms <=? i = false) as ->.
      { unfold goindex in G. destruct ((0 <=? i) && (i <? zlen ms)) eqn:Q; [lia|discriminate]. }
      rewrite G. cbn [bind]. rewrite Ev.
      assert (Nt : Forall (fun l => leaf_type l <> 17) ls).
      { clear -Ec X. unfold column in Ec. revert ls Ec. induction acc as [|d acc IH]; intros [|l ls] Ec; try discriminate; constructor.
        - injection Ec as E1 _. inversion_clear X as [|? ? Xd _]. rewrite Forall_forall in Xd. apply Xd. eapply nth_error_In; eauto.
        - inversion_clear X. apply IH; auto. now injection Ec. }
      assert (El : exists l0 ls0, ls = l0 :: ls0).
      { destruct ls as [|l0 ls0]; [|eauto]. destruct acc; [congruence|discriminate]. }
      destruct El as (l0 & ls0 & El).
      assert (T0 : leaf_type l0 = m_type m /\ exact l0 /\ leaf_type l0 <> 17) by (subst ls; inversion Ft; inversion Fx; inversion Nt; auto).
      destruct T0 as (T0 & X0 & N0). rewrite Hval.
      assert (Mp : forall f, (forall l, leaf_type l = leaf_type l0 -> leaf_ok l -> exact l -> f (leaf_int l) = flat_val l) ->
        map f (map leaf_int ls) = map flat_val ls).
      { intros f Hf. rewrite map_map. apply map_ext_in. intros l Hl. rewrite Forall_forall in Fx, Fo, Ft. apply Hf; auto. rewrite T0. auto. }
      rewrite <- T0. 
      destruct l0; cbn [leaf_type exact] in *; try contradiction; cbn [Z.eqb Pos.eqb];
        (rewrite Mp; [reflexivity|]); intros l Tl Ol Xl; destruct l; cbn in Tl; try discriminate; cbn [leaf_int flat_val leaf_ok exact] in *; try contradiction.
      + now destruct b0.
      + now rewrite i32_id.
      + reflexivity.
      + now rewrite time_ms_time.
    - rewrite Hval. apply wf_array. apply Forall_forall. intros x Hx. apply in_map_iff in Hx as (l & <- & Hl). apply flat_val_wf.
      rewrite Forall_forall in Fo. auto. }
  assert (E : export_loop (length (c_metrics ch)) (c_metrics ch) 0 = Ret (inl (matrix (given_names (hd [] acc)) acc)) /\ Forall wf (map val js)).
  { unfold matrix. fold js. fold val. rewrite <- Nm. 
    assert (A : forall post pre js, Forall2 (fun m j => exists ls, column j acc = map Some ls /\ Forall exact ls /\ Forall leaf_ok ls /\
        Forall (fun l => leaf_type l = m_type m) ls /\ m_values m = map leaf_int ls) post js ->
      export_loop (length post) (pre ++ post) (zlen pre) = Ret (inl (combine (map m_name post) (map val js))) /\ Forall wf (map val js)).
    { clear -Hv. induction post as [|m post IH]; intros pre js F; inversion F; subst; [split; [reflexivity|constructor]|].
      destruct (Hv m y H1 (pre ++ m :: post) (zlen pre)) as [R Wv].
      { posl. lia. }
      { unfold zlen. apply goindex_nat. rewrite nth_error_app2, Nat.sub_diag; [reflexivity|lia]. }
      cbn [length export_loop]. rewrite R. cbn [bind].
      destruct (IH (pre ++ [m]) l' H3) as [R2 W2]. rewrite <- app_assoc in R2. cbn [app] in R2.
      replace (zlen (pre ++ [m])) with (zlen pre + 1) in R2 by (unfold zlen; rewrite app_length; cbn [length]; lia).
      rewrite R2. cbn [bind map combine]. split; [reflexivity|]. constructor; auto. }
    apply (A (c_metrics ch) [] js C). }
  destruct E as [E Wv]. unfold c_matrix. rewrite E. cbn [bind].
  destruct (build_doc_rep (matrix (given_names (hd [] acc)) acc)) as (es & B & _).
  - assert (Wh : wf_fields (hd [] acc)) by (destruct acc; [congruence|inversion W; auto]).
    pose proof (given_names_ok _ Wh) as Wn. unfold matrix. fold js. fold val. clear -Wn Wv. revert Wv. generalize (map val js).
    induction Wn as [|n ns Hn Hns IH]; intros [|v vs] Wv; cbn; try constructor.
    + inversion Wv. split; auto.
    + inversion Wv. now apply IH.
  - exact Sm.
  - exists es. rewrite B. split; [reflexivity|]. now constructor.
Qed.
Print Assumptions C64_matrix.
(* Missing: as for C63_flat_partial; see C64_matrix. *)
Theorem C64_matrix_partial : forall nan zip unzip fuel mfs acc ch, read_back nan zip unzip fuel mfs acc ch ->
  Forall (fun f => two_deep (snd f)) (hd [] acc) ->
  Forall (fun d => Forall (fun l => exact l /\ leaf_type l <> 17) (doc_leaves d)) acc ->
  let t := matrix (doc_names (hd [] acc)) acc in small t ->
  exists es, c_matrix ch = Ret (inl es) /\ doc_obtained t es (zlen (enc_doc t)).
Proof. intros nan zip unzip fuel mfs acc ch H T. rewrite <- (given_two_deep _ T). now apply (C64_matrix nan zip unzip fuel mfs). Qed.
Print Assumptions C64_matrix_partial.

(* Finding: the two metrics of {a: {b: {c: 1}, d: {c: 2}}} are both called "a.c". *)
Theorem C62_refuted : forall nan zip unzip, codec_ok zip unzip ->
  let v := BDoc [([98], BDoc [([99], BInt32 1)]); ([100], BDoc [([99], BInt32 2)])] in
  doc_names (one v) = [[97; 46; 98; 46; 99]; [97; 46; 100; 46; 99]] /\
  exists docs c rs out, mapM (fun v => build_doc (one v)) [v] = Ret docs /\
    add_all nan 2000 (new_base 5) (map (fun es => (0, es)) docs) = (c, rs) /\ Forall (fun r => r = Ret None) rs /\
    b_resolve zip 2000 c = Ret (inl out) /\
    forall s n, st_data s = out -> st_err s = EEOF -> (2 < n)%nat ->
      exists ch, read_chunks unzip n 2000 s = ([ch], Ret None) /\
        map m_name (c_metrics ch) = [[97; 46; 99]; [97; 46; 99]].
Proof.
  intros nan zip unzip Cz v. split; [reflexivity|].
  destruct (one_chunk nan zip unzip [] v Cz) as (docs & c & rs & out & D & R & Ok & Eo & Rd).
  - apply Forall_cons; [|apply Forall_nil]. split; [|vm_compute; reflexivity].
    assert (cstr_ok [98] /\ cstr_ok [99] /\ cstr_ok [100]) as (? & ? & ?) by (repeat split; now apply key_ok).
    cbn. unfold is_i32. repeat split; try (now apply key_ok); lia.
  - cbn; lia.
  - apply Forall_nil.
  - vm_compute; discriminate.
  - exists docs, c, rs, out. repeat (split; [assumption|]). intros s n E1 E2 E3. destruct (Rd s n E1 E2 E3) as (ch & Ec & K & _).
    exists ch. split; [exact Ec|]. rewrite K. vm_compute. reflexivity.
Qed.
Print Assumptions C62_refuted.

(* ---------------------------------------------------------------------- hostile input *)

(* A chunk document whose data can be looked into: at least four bytes of binary data, that
   either do not decompress or start with a document. *)
Definition openable (unzip : bytes -> option bytes) (fuel : nat) (fs : list (bytes * bval)) : Prop :=
  match first_key k_data fs with
  | None => True
  | Some (BBinary _ zb) => 4 <= zlen zb /\
      match unzip (skipn 4 zb) with
      | None => True
      | Some buf => exists ref rest, buf = enc_doc ref ++ rest /\ bytes_ok rest /\ wf_fields ref /\ small ref /\ enough fuel (zlen (enc_doc ref))
      end
  | Some _ => False
  end.

Lemma rdu32_four (b : bytes) : zlen b = 4 -> exists x, rdu32 b = Ret x.
Proof. destruct b as [|a [|b [|c [|d [|? ?]]]]]; unfold zlen; cbn; intros H; try lia. eauto. Qed.
Lemma first_key_swap k fs : first_key k (swapf fs) = option_map swapd (first_key k fs).
Proof.
  unfold swapf. induction fs as [|[k' v] r IH]; [reflexivity|]. cbn [map first_key fst snd]. 
  match goal with |- (if ?c then _ else _) = _ => destruct c end; [reflexivity|exact IH].
Qed.

Lemma read_chunk_total unzip fuel meta es fs : rep_doc es fs -> wf_fields fs -> small fs -> enough fuel (zlen (enc_doc fs)) ->
  (is_num 1 (first_key k_type fs) = true -> openable unzip fuel fs) ->
  exists r, read_chunk_doc unzip fuel meta es = Ret r.
Proof.
  intros R W S F O. unfold read_chunk_doc. rewrite (obs_doc_rep fuel es fs R W S F). cbn [bind]. rewrite !first_key_swap.
  assert (N : forall n, is_num n (option_map swapd (first_key k_type fs)) = is_num n (first_key k_type fs)).
  { intros n. destruct (first_key k_type fs) as [[]|]; reflexivity. }
  rewrite !N. destruct (is_num 0 (first_key k_type fs)); [eauto|]. destruct (is_num 1 (first_key k_type fs)); [|cbn; eauto].
  specialize (O eq_refl). cbn [negb]. unfold openable in O. destruct (first_key k_data fs) as [t|]; [|cbn; eauto].
  destruct t as [| | | |sb zb| | | | | | | | | | | | | | | |]; try contradiction. cbn [option_map swapd]. destruct O as [L O].
  assert (goslice zb 4 (zlen zb) = Ret (skipn 4 zb)) as ->.
  { unfold goslice. replace ((0 <=? 4) && (4 <=? zlen zb) && (zlen zb <=? zlen zb)) with true by lia. f_equal.
    unfold slice. change (Z.to_nat 4) with 4%nat. apply firstn_all2. rewrite skipn_length. unfold zlen. lia. }
  cbn [bind]. destruct (unzip (skipn 4 zb)) as [buf|]; [|eauto]. destruct O as (ref & rest & -> & Br & Wr & Sr & Fr).
  destruct (doc_read_from_wf fuel (MkStream (enc_doc ref ++ rest) [] EEOF false) ref rest Wr Sr Fr eq_refl) as (s' & oes & H & Rd & D & _).
  rewrite H. cbn [bind]. 
  assert (Ro : rep_doc oes ref).
  { destruct (read_document_wf ref [] fuel Wr) as (es' & E' & R'); rewrite ?app_nil_r in *; auto. congruence. }
  rewrite (obs_doc_rep fuel oes ref Ro Wr Sr Fr). cbn [bind]. rewrite D.
  destruct (zlen rest <? 8) eqn:L8; [eauto|].
  destruct (rdu32_four (firstn 4 rest)) as (nm & ->); [unfold zlen in *; rewrite firstn_length; lia|].
  destruct (rdu32_four (firstn 4 (skipn 4 rest))) as (nd & ->); [unfold zlen in *; rewrite firstn_length, skipn_length; lia|]. cbn [bind].
  destruct (negb _); [eauto|]. destruct (get_metrics _ _ _ _); eauto.
Qed.

(* C65, for streams of documents that are BSON and whose chunks can be looked into:
   whatever the counts and the deltas say, reading ends without a panic.  Missing: the
   rest, where it is false. *)
Theorem C65_hostile_partial : forall unzip fuel docs s n,
  Forall (fun fs => wf_fields fs /\ small fs /\ enough fuel (zlen (enc_doc fs)) /\
    (is_num 1 (first_key k_type fs) = true -> openable unzip fuel fs)) docs ->
  st_data s = concat (map enc_doc docs) -> st_err s = EEOF -> (length docs < n)%nat ->
  exists cs e, read_chunks unzip n fuel s = (cs, Ret e).
Proof.
  intros unzip fuel docs s n A D E L.
  destruct (read_docs_rep fuel docs n s L) as (s' & ess & R & F); auto.
  { eapply Forall_impl; [|exact A]. cbn. tauto. }
  unfold read_chunks. rewrite R.
  assert (Q : forall meta, exists cs e, chunks_of unzip fuel meta ess = (cs, Ret e)).
  { clear -A F. induction F as [|es fs ess docs Re F IH]; intros meta; [cbn; eauto|]. apply Forall_cons_iff in A as [(W & S & Fu & O) Ar].
    cbn [chunks_of]. destruct (read_chunk_total unzip fuel meta es fs Re W S Fu O) as (r & ->).
    destruct r as [| |c|e].
    - exact (IH Ar (Some es)).
    - exact (IH Ar meta).
    - destruct (IH Ar meta) as (cs & e & ->). eauto.
    - eauto. }
  destruct (Q None) as (cs & e & ->). cbn [bind]. destruct e; eauto.
Qed.
Print Assumptions C65_hostile_partial.

(* Findings: a chunk whose data is three bytes, and one whose data is a string, panic. *)
Definition bad_chunk (v : bval) : list (bytes * bval) := [(k_type, BInt32 1); (k_data, v)].
Theorem C65_refuted : forall unzip v, v = BBinary 0 [1; 2; 3] \/ v = BString [120] ->
  exists p, read_chunks unzip 5 500 (MkStream (enc_doc (bad_chunk v)) [] EEOF false) = ([], Panic p).
Proof. intros unzip v [->| ->]; eexists; vm_compute; reflexivity. Qed.
Print Assumptions C65_refuted.

(* The hypotheses of C65 are met by a chunk that promises a million deltas and has none. *)
Example C65_nonvacuous :
  let unzip := fun b : bytes => Some b in
  let fs := bad_chunk (BBinary 0 ([0; 0; 0; 0] ++ enc_doc (one (BInt32 1)) ++ [1; 0; 0; 0; 64; 66; 15; 0])) in
  wf_fields fs /\ small fs /\ enough 500 (zlen (enc_doc fs)) /\ is_num 1 (first_key k_type fs) = true /\ openable unzip 500 fs /\
  read_chunks unzip 5 500 (MkStream (enc_doc fs) [] EEOF false) = ([], Ret (Some (EOther 64))).
Proof.
  intros unzip fs. split.
  - apply wf_doc. cbn. assert (cstr_ok k_type /\ cstr_ok k_data) as [? ?] by (split; now apply key_ok).
    repeat split; auto; try (now apply key_ok); unfold is_i32, subtype_ok; try lia.
    apply Forall_forall. intros x Hx. vm_compute in Hx. unfold is_u8. intuition lia.
  - split; [vm_compute; reflexivity|]. split; [unfold enough; vm_compute; reflexivity|]. split; [reflexivity|].
    split; [|vm_compute; reflexivity]. split; [vm_compute; discriminate|].
    exists (one (BInt32 1)), [1; 0; 0; 0; 64; 66; 15; 0]. split; [reflexivity|]. split; [|split; [|split]].
    + unfold bytes_ok, is_u8. repeat (apply Forall_cons; [lia|]). apply Forall_nil.
    + apply wf_doc. cbn. unfold is_i32. repeat split; try (now apply key_ok); lia.
    + vm_compute. reflexivity.
    + unfold enough. vm_compute. reflexivity.
Qed.

(* The hypotheses of C61 to C64 are met by the samples of C35_nonvacuous. *)
Example C61_nonvacuous : exists ch,
  let acc := [nth 0 nv_docs []; nth 1 nv_docs []; nth 3 nv_docs []] in
  read_back (fun _ _ => 0) (fun b => b) (fun b => Some b) 3000 (Some (one (BInt32 3))) acc ch /\
  Forall (fun f => two_deep (snd f)) (hd [] acc) /\
  Forall (fun d => Forall (fun l => exact l /\ leaf_type l <> 17) (doc_leaves d)) acc /\
  Forall (fun d => small (flat_doc (doc_names (hd [] acc)) d)) acc /\ small (matrix (given_names (hd [] acc)) acc).
Proof.
  assert (Cz : codec_ok (fun b => b) (fun b => Some b)) by (intros b B; repeat split; auto; posl; lia).
  assert (Mx : 0 <= 4 < 4294967296) by lia.
  destruct C35_nonvacuous as (ess & md & c & rs & B & B1 & Mo & Sa & R & Ea & _ & Room & Fu & X).
  destruct (base_round_trip _ _ _ _ _ _ _ _ _ _ _ _ Cz Mx Mo Sa R Room Fu) as (_ & _ & _ & _ & _ & out & start & Eo & Rd).
  destruct (Rd (MkStream out [] EEOF false) 3%nat eq_refl eq_refl ltac:(lia)) as (ch & Rc & _).
  exists ch. cbv zeta. split; [|split; [|split; [|split]]].
  - exists 4, (Some md), (map (fun es => (17, es)) ess), (hd [] nv_docs), (tl nv_docs), c, rs, out, (MkStream out [] EEOF false), 3%nat.
    rewrite <- Ea. repeat (split; [first [assumption | lia | reflexivity]|]). exact Rc.
  - repeat (apply Forall_cons; [cbn; tauto|]). apply Forall_nil.
  - repeat constructor; cbn; lia.
  - repeat (apply Forall_cons; [vm_compute; reflexivity|]). apply Forall_nil.
  - vm_compute. reflexivity.
Qed.
