(* Document.Search: model of document.go:163-196 and array.go:96-124, a specification of
   paths on BSON trees, and the proof that the search follows them. *)
Require Import ZArith List Bool Lia ZifyBool ZifyNat.
From Verif Require Import Base BSpec Elements Value Codec CodecRead Itoa CodecRep Api ApiProofs Tree
  GetterProofs ReaderOps CodecProps.
Import ListNotations.
Open Scope Z_scope.

(* -------------------------------------------------------------------- model *)

(* strconv.Atoi: an optional sign, then decimal digits, the value fitting an int; None is an
   error.  (The standard library's fast path for short strings computes the same.) *)
Fixpoint atoi_digits (s : bytes) (n : Z) : option Z :=
  match s with
  | [] => Some n
  | c :: r => if (48 <=? c) && (c <=? 57) then atoi_digits r (n * 10 + (c - 48)) else None
  end.
Definition atoi (s : bytes) : option Z :=
  let '(neg, d) := match s with
    | c :: r => if c =? 45 then (true, r) else if c =? 43 then (false, r) else (false, s)
    | [] => (false, s)
    end in
  match d with
  | [] => None
  | _ => match atoi_digits d 0 with
         | None => None
         | Some n => if (neg : bool) then (if 9223372036854775808 <? n then None else Some (- n))
                     else if 9223372036854775807 <? n then None else Some n
         end
  end.

(* document.go:189-196 findElemForKey *)
Fixpoint find_elem (k : bytes) (es : document) : go (option elem) :=
  match es with
  | [] => Ret None
  | e :: r => k' <- elem_key e ;; if bytes_eqb k' k then Ret (Some e) else find_elem k r
  end.

(* array.go:76-83 Lookup(uint(idx)): a negative idx becomes a uint past any length *)
Definition arr_lookup (idx : Z) (es : document) : option elem :=
  if idx <? 0 then None else nth_error es (Z.to_nat idx).

(* document.go:163-187 Search and array.go:96-124 findElementForStrKey; None is the
   ElementNotFound error of Search, and nil for the array *)
Fixpoint search (fuel : nat) (keys : list bytes) (es : document) : go (option elem) :=
  match keys with
  | [] => Ret None
  | k :: ks =>
      oe <- find_elem k es ;;
      match oe with
      | None => Ret None
      | Some e =>
          match ks with
          | [] => Ret (Some e)
          | _ =>
              od <- v_mutable_document_ok fuel e ;;
              match od with
              | Some sd => search fuel ks sd
              | None =>
                  oa <- v_mutable_array_ok fuel e ;;
                  match oa with
                  | Some ar => arr_search fuel ks ar
                  | None => Ret None
                  end
              end
          end
      end
  end
with arr_search (fuel : nat) (keys : list bytes) (es : document) : go (option elem) :=
  match keys with
  | [] => Ret None
  | k :: ks =>
      match atoi k with
      | None => Ret None
      | Some idx =>
          match arr_lookup idx es with
          | None | Some None => Ret None
          | Some (Some v) =>
              match ks with
              | [] => r <- ec_value k (Some v) ;; Ret (match r with None => None | e => Some e end)
              | _ =>
                  od <- v_mutable_document_ok fuel (Some v) ;;
                  r <- (match od with Some sd => search fuel ks sd | None => Ret None end) ;;
                  match r with
                  | Some e => Ret (Some e)
                  | None =>
                      oa <- v_mutable_array_ok fuel (Some v) ;;
                      match oa with
                      | Some ar => arr_search fuel ks ar
                      | None => Ret None
                      end
                  end
              end
          end
      end
  end.

(* ------------------------------------------------------------ specification *)

(* value of a list of decimal digits, most significant first *)
Fixpoint dec_value (ds : bytes) : Z :=
  match ds with
  | [] => 0
  | c :: r => (c - 48) * 10 ^ zlen r + dec_value r
  end.
Definition digit (c : Z) : Prop := 48 <= c <= 57.

(* the text k denotes the index i: decimal digits after an optional sign *)
Definition index_text (k : bytes) (i : nat) : Prop :=
  exists sign ds, k = sign ++ ds /\ ds <> [] /\ Forall digit ds /\
    ((sign = [] \/ sign = [43]) /\ Z.of_nat i = dec_value ds \/
     sign = [45] /\ Z.of_nat i = - dec_value ds).

(* the path ks leads from the tree t to the element (k, x): first match in documents,
   index in arrays *)
Inductive reaches : bval -> list bytes -> bytes * bval -> Prop :=
| reach_key k fs t : first_key k fs = Some t -> reaches (BDoc fs) [k] (k, t)
| reach_doc k fs t ks r : first_key k fs = Some t -> reaches t ks r -> reaches (BDoc fs) (k :: ks) r
| reach_index k i vs t : index_text k i -> nth_error vs i = Some t -> reaches (BArray vs) [k] (k, t)
| reach_array k i vs t ks r : index_text k i -> nth_error vs i = Some t -> reaches t ks r ->
    reaches (BArray vs) (k :: ks) r.

(* -------------------------------------------------------------------- atoi *)

Lemma atoi_digits_spec s : forall n, atoi_digits s n =
  if forallb (fun c => (48 <=? c) && (c <=? 57)) s then Some (n * 10 ^ zlen s + dec_value s) else None.
Proof.
  induction s as [|c r IH]; intros n; cbn [atoi_digits forallb dec_value].
  - f_equal. change (zlen []) with 0. lia.
  - destruct ((48 <=? c) && (c <=? 57)); cbn [andb]; [|reflexivity]. rewrite IH.
    destruct (forallb _ r); [|reflexivity]. f_equal.
    replace (zlen (c :: r)) with (1 + zlen r) by zl. rewrite Z.pow_add_r by (pose proof (zlen_nonneg r); lia).
    lia.
Qed.

Lemma digits_forallb s : forallb (fun c => (48 <=? c) && (c <=? 57)) s = true <-> Forall digit s.
Proof.
  rewrite forallb_forall, Forall_forall. unfold digit.
  split; intros H x Hx; specialize (H x Hx); lia.
Qed.
Lemma dec_value_nonneg s : Forall digit s -> 0 <= dec_value s.
Proof.
  induction 1 as [|c r D _ IH]; cbn; [lia|]. unfold digit in D.
  pose proof (Z.pow_nonneg 10 (zlen r)). nia.
Qed.

Lemma atoi_index_text k z : atoi k = Some z -> 0 <= z -> index_text k (Z.to_nat z).
Proof.
  unfold atoi. intros H P.
  assert (G : exists sign ds neg, k = sign ++ ds /\
    (match k with c :: r => if c =? 45 then (true, r) else if c =? 43 then (false, r) else (false, k)
     | [] => (false, k) end) = (neg, ds) /\
    (neg = true /\ sign = [45] \/ neg = false /\ (sign = [] \/ sign = [43]))).
  { destruct k as [|c r].
    - exists [], [], false. intuition.
    - destruct (c =? 45) eqn:E1; [|destruct (c =? 43) eqn:E2].
      + exists [45], r, true. split; [replace c with 45 by lia; reflexivity|]. intuition.
      + exists [43], r, false. split; [replace c with 43 by lia; reflexivity|]. intuition.
      + exists [], (c :: r), false. intuition. }
  destruct G as (sign & ds & neg & -> & E & S). rewrite E in H. clear E.
  destruct ds as [|c r] eqn:Ed; [discriminate|]. rewrite <- Ed in *. assert (ds <> []) by congruence. clear Ed c r.
  rewrite atoi_digits_spec in H. destruct (forallb _ ds) eqn:F; [|discriminate].
  apply digits_forallb in F. replace (0 * 10 ^ zlen ds + dec_value ds) with (dec_value ds) in H by lia.
  exists sign, ds. split; [reflexivity|]. split; [assumption|]. split; [exact F|].
  destruct S as [[-> ->]|[-> S]]; cbn [app] in *.
  - right. split; [reflexivity|]. destruct (_ <? _); [discriminate|]. injection H as <-. lia.
  - left. split; [exact S|]. destruct (_ <? _); [discriminate|]. injection H as <-. lia.
Qed.

Lemma index_text_atoi k i : index_text k i -> Z.of_nat i <= 9223372036854775807 -> atoi k = Some (Z.of_nat i).
Proof.
  intros (sign & ds & -> & N & D & S) L. unfold atoi.
  pose proof (dec_value_nonneg _ D) as P. pose proof D as D'. apply digits_forallb in D'.
  assert (Ds : match ds with [] => None | _ :: _ => Some tt end = Some tt) by (destruct ds; congruence).
  destruct S as [[[-> | ->] E]|[-> E]]; cbn [app].
  - destruct ds as [|c r]; [discriminate|]. inversion D; subst. unfold digit in *.
    replace (c =? 45) with false by lia. replace (c =? 43) with false by lia.
    rewrite atoi_digits_spec, D'. cbn [Z.mul Z.add]. replace (_ <? _) with false by lia. f_equal. lia.
  - cbn [Z.eqb Pos.eqb]. destruct ds as [|c r]; [discriminate|].
    rewrite atoi_digits_spec, D'. cbn [Z.mul Z.add]. replace (_ <? _) with false by lia. f_equal. lia.
  - cbn [Z.eqb Pos.eqb]. destruct ds as [|c r]; [discriminate|].
    rewrite atoi_digits_spec, D'. cbn [Z.mul Z.add]. replace (_ <? _) with false by lia. f_equal. lia.
Qed.

Lemma index_text_nul_free k i : index_text k i -> nul_free k.
Proof.
  intros (sign & ds & -> & _ & D & S). unfold nul_free. apply Forall_app. split.
  - destruct S as [[[-> | ->] _]|[-> _]]; repeat constructor; lia.
  - eapply Forall_impl; [|exact D]. unfold digit. intros; lia.
Qed.

(* ------------------------------------------------------- sizes of the data *)

(* every byte slice inside the value has at most N bytes *)
Fixpoint within (N : Z) (v : value) {struct v} : Prop :=
  match v with
  | MkValue _ _ data d =>
      match data with Some b => zlen b <= N | None => True end /\
      match d with
      | None => True
      | Some es => (fix all (es : document) := match es with
          | [] => True
          | Some v :: r => within N v /\ all r
          | None :: r => all r
          end) es
      end
  end.
Definition all_within (N : Z) (es : document) : Prop := Forall (on_elem (within N)) es.

Lemma within_d N st off data es : within N (MkValue st off data (Some es)) <->
  match data with Some b => zlen b <= N | None => True end /\ all_within N es.
Proof.
  cbn [within]. apply and_iff_compat_l. unfold all_within.
  induction es as [|[v|] r IH]; [split; auto| |].
  - rewrite Forall_cons_iff, <- IH. reflexivity.
  - rewrite Forall_cons_iff, <- IH. cbn. tauto.
Qed.

Lemma iter_loop_within f : forall r pos ende es e N, zlen r <= N ->
  iter_loop f r pos ende = Ret (es, e) -> all_within N es.
Proof.
  induction f as [|f IH]; intros r pos ende es e N L H; [discriminate|]. cbn in H.
  destruct (rd_step r pos ende) as [[q x|q|q v]| |] eqn:E; cbn in H; try discriminate.
  - injection H as <- _. constructor.
  - injection H as <- _. constructor.
  - destruct (iter_loop f r q ende) as [[es' e']| |] eqn:E2; cbn in H; try discriminate.
    injection H as <- <-. constructor; [|eapply IH; eauto]. cbn.
    unfold rd_step in E. destruct (ende <=? pos); [discriminate|].
    destruct (goindex r pos) as [b| |]; cbn in E; try discriminate.
    destruct (b =? 0); [discriminate|].
    destruct (rd_validate_key _ _ _) as [[n [x|]]| |]; cbn in E; try discriminate.
    destruct (validate_core _ _ _ _ _ _) as [[n' [x|]]| |]; cbn in E; try discriminate.
    injection E as _ <-. cbn. auto.
Qed.

Lemma read_document_within f b es N : zlen b <= N -> read_document f b = Ret (inl es) -> all_within N es.
Proof.
  intros L H. unfold read_document, doc_unmarshal in H.
  destruct (zlen b <? 5); [discriminate|]. destruct (goslice b 0 4); cbn in H; try discriminate.
  destruct (readi32 a) as [l| |]; cbn in H; try discriminate.
  destruct (zlen b <? l); [discriminate|].
  destruct (iter_loop f b 4 (u32 l)) as [[es' [e|]]| |] eqn:E; cbn in H; try discriminate.
  injection H as <-. eapply iter_loop_within; eauto.
Qed.

Lemma goslice_len {A} (l : list A) a b s : goslice l a b = Ret s -> zlen s <= zlen l.
Proof.
  intros H. apply goslice_inv in H. lia.
Qed.

Lemma getter_inv {A} tg (f : Z -> bytes -> option document -> go A) v x :
  getter tg f (Some v) = Ret x -> exists st off data d, v = MkValue st off (Some data) d /\ f off data d = Ret x.
Proof.
  destruct v as [st off [data|] d]; cbn; try discriminate.
  destruct (off =? 0); [discriminate|]. destruct (goindex data st) as [t| |]; cbn; try discriminate.
  destruct (t =? tg); cbn; try discriminate. eauto 8.
Qed.

Lemma mutable_within f off data d es N st :
  within N (MkValue st off (Some data) d) -> mutable_container f off data d = Ret es -> all_within N es.
Proof.
  intros W H. destruct d as [es0|].
  - apply within_d in W as [_ W]. cbn in H. injection H as <-. exact W.
  - cbn in W. destruct W as [W _]. cbn [mutable_container] in H. unfold get_reader_raw in H.
    destruct (goslice data off (u32 (off + 4))); cbn in H; try discriminate.
    destruct (readi32 a) as [l| |]; cbn in H; try discriminate.
    destruct (goslice data off (u32 (off + u32 l))) as [b| |] eqn:E; cbn in H; try discriminate.
    apply goslice_len in E.
    destruct (read_document f b) as [[es'|]| |] eqn:R; cbn in H; try discriminate.
    injection H as <-. apply (read_document_within f b); [lia|exact R].
Qed.
Lemma mutable_document_within f v es N :
  within N v -> v_mutable_document f (Some v) = Ret es -> all_within N es.
Proof.
  intros W H. apply getter_inv in H as (st & off & data & d & -> & H). eapply mutable_within; eauto.
Qed.
Lemma mutable_array_within f v es N :
  within N v -> v_mutable_array f (Some v) = Ret es -> all_within N es.
Proof.
  intros W H. apply getter_inv in H as (st & off & data & d & -> & H). eapply mutable_within; eauto.
Qed.

Lemma rep_within_len k v t N : rep k v t -> within N v -> exists b, v_data v = Some b /\ zlen b <= N.
Proof.
  intros R W. destruct v as [st off [b|] d].
  - exists b. cbn in W. split; [reflexivity|tauto].
  - apply rep_inv in R as (_ & pre & post & [[H _]|[(? & ? & _ & H & _)|[(? & ? & _ & H & _)|(? & ? & ? & ? & _ & _ & H & _)]]]); discriminate.
Qed.

(* ------------------------------------------------------------------ EC.Value *)

Lemma ec_value_rep k0 v t k N : rep k0 v t -> within N v -> nul_free k -> zlen k + N + 2 < 2147483648 ->
  exists v', ec_value k (Some v) = Ret (Some v') /\ rep k v' t.
Proof.
  intros R W Hk L. destruct (rep_within_len _ _ _ _ R W) as (b & Eb & Lb).
  assert (A : forall pre tg rest d, v = MkValue (zlen pre) (zlen pre + zlen k0 + 2)
      (Some (pre ++ tg :: enc_cstring k0 ++ rest)) d -> 
      ec_value k (Some v) = Ret (Some (MkValue 0 (zlen k + 2) (Some (tg :: enc_cstring k ++ rest)) d)) /\
      fits (tg :: enc_cstring k ++ rest)).
  { intros pre tg rest d ->. cbn in Eb. injection Eb as <-. zlens_in Lb. posl. cbn [ec_value].
    replace (zlen pre + zlen k0 + 2 =? 0) with false by lia.
    rewrite (goslice_eq _ _ _ (pre ++ tg :: enc_cstring k0) rest []) by first [now rewrite app_nil_r, <- app_assoc|zl]. cbn [bind].
    rewrite (goindex_eq _ _ pre tg (enc_cstring k0 ++ rest)) by reflexivity. cbn [bind]. rewrite u32_id by (unfold is_u32; lia).
    split; [|unfold fits; zl]. do 4 f_equal. unfold enc_cstring. now rewrite <- app_assoc. }
  apply rep_inv in R as (_ & pre & post & [[E _]|[(fs & es & -> & E & _ & Re)|[(vs & es & -> & E & _ & Re)|(c & fs & es & l4 & -> & L4 & E & _ & Re)]]]).
  - destruct (A _ _ _ _ E) as [E2 F]. rewrite E2. eexists. split; [reflexivity|].
    exact (rep_lazy k [] post t Hk F).
  - destruct (A _ _ _ _ E) as [E2 F]. rewrite E2. eexists. split; [reflexivity|].
    cbn [rep]. split; [exact Hk|]. exists [], post. auto.
  - destruct (A _ _ _ _ E) as [E2 F]. rewrite E2. eexists. split; [reflexivity|].
    cbn [rep]. split; [exact Hk|]. exists [], post. auto.
  - destruct (A _ _ _ _ E) as [E2 F]. rewrite E2. eexists. split; [reflexivity|].
    cbn [rep]. split; [exact Hk|]. exists [], post. split; [reflexivity|]. split; [reflexivity|].
    exists l4. auto.
Qed.

(* ----------------------------------------------------------------- the search *)

Lemma getter_ok_type {A} tg (get : option value -> go A) v t :
  v_type v = Ret t ->
  getter_ok tg get (Some v) = if t =? tg then x <- get (Some v) ;; Ret (Some x) else Ret None.
Proof.
  destruct v as [st off [data|] d]; cbn; try discriminate. destruct (off =? 0); [discriminate|].
  intros ->. cbn. destruct (t =? tg); reflexivity.
Qed.

Lemma find_elem_rep k fs : forall es, rep_doc es fs ->
  match first_key k fs with
  | None => find_elem k es = Ret None
  | Some t => exists v, find_elem k es = Ret (Some (Some v)) /\ rep k v t /\ In (k, t) fs /\ In (Some v) es
  end.
Proof.
  induction fs as [|[k' t] fs IH]; intros [|[v|] es] R; cbn in R; try contradiction; [reflexivity|].
  destruct R as [R1 R]. cbn [first_key find_elem]. rewrite (elem_key_rep _ _ _ R1). cbn [bind].
  pose proof (bytes_eqb_eq k k') as B1. pose proof (bytes_eqb_eq k' k) as B2.
  destruct (bytes_eqb k k').
  - assert (k = k') by now apply B1. subst k'. replace (bytes_eqb k k) with true by (symmetry; now apply B2).
    exists v. cbn. auto.
  - replace (bytes_eqb k' k) with false.
    2:{ destruct (bytes_eqb k' k); [|reflexivity]. assert (Q : k = k') by (symmetry; now apply B2).
        apply B1 in Q. congruence. }
    specialize (IH _ R). destruct (first_key k fs) as [x|]; [|exact IH].
    destruct IH as (w & E & Rw & I1 & I2). exists w. cbn. auto.
Qed.

Lemma rep_arr_nth vs : forall es i, rep_arr es vs ->
  match nth_error vs i with
  | None => nth_error es i = None
  | Some t => exists v k, nth_error es i = Some (Some v) /\ rep k v t /\ In t vs
  end.
Proof.
  induction vs as [|t vs IH]; intros [|[v|] es] i R; cbn in R; try contradiction.
  - now destruct i.
  - destruct R as [(k & _ & R1) R]. destruct i; cbn; [eauto 6|]. specialize (IH es i R).
    destruct (nth_error vs i) as [x|]; [|exact IH]. destruct IH as (w & kw & E & Rw & I). eauto 6.
Qed.

Lemma reaches_one t k r : reaches t [k] r ->
  (exists fs x, t = BDoc fs /\ first_key k fs = Some x /\ r = (k, x)) \/
  (exists vs i x, t = BArray vs /\ index_text k i /\ nth_error vs i = Some x /\ r = (k, x)).
Proof.
  intros H. inversion H; subst; eauto 10.
  - match goal with H : reaches _ [] _ |- _ => inversion H end.
  - match goal with H : reaches _ [] _ |- _ => inversion H end.
Qed.
Lemma reaches_more t k k2 ks r : reaches t (k :: k2 :: ks) r ->
  (exists fs x, t = BDoc fs /\ first_key k fs = Some x /\ reaches x (k2 :: ks) r) \/
  (exists vs i x, t = BArray vs /\ index_text k i /\ nth_error vs i = Some x /\ reaches x (k2 :: ks) r).
Proof. intros H. inversion H; subst; eauto 10. Qed.
Lemma reaches_nil t r : ~ reaches t [] r.
Proof. intros H. inversion H. Qed.
Lemma reaches_container t k ks r : reaches t (k :: ks) r -> tag t = 3 \/ tag t = 4.
Proof. intros H. inversion H; subst; cbn; auto. Qed.

Lemma index_text_unique k i j n : index_text k i -> index_text k j ->
  (i < n)%nat -> (j < n)%nat -> Z.of_nat n <= 9223372036854775807 -> i = j.
Proof.
  intros A B L1 L2 L. apply index_text_atoi in A; [|lia]. apply index_text_atoi in B; [|lia].
  rewrite A in B. injection B as B. lia.
Qed.

Section Search.
Variable fuel : nat.
Variable N : Z.

(* what a search returned is what the path reaches *)
Definition sfound (t : bval) (ks : list bytes) (r : go (option elem)) : Prop :=
  match r with
  | Ret (Some e) => exists k x v, e = Some v /\ reaches t ks (k, x) /\ rep k v x /\
                      wf x /\ zlen (enc_body x) < Z.of_nat fuel /\ zlen (enc_body x) < 2147483648
  | Ret None => forall r, ~ reaches t ks r
  | _ => False
  end.

Definition keys_fit (ks : list bytes) : Prop := Forall (fun k => zlen k + N + 2 < 2147483648) ks.

Definition doc_good (fs : list (bytes * bval)) (es : document) : Prop :=
  rep_doc es fs /\ wf_fields fs /\ small fs /\ zlen (enc_doc fs) < Z.of_nat fuel /\ all_within N es.
Definition arr_good (vs : list bval) (es : document) : Prop :=
  rep_arr es vs /\ Forall wf vs /\ zlen (enc_array vs) < 2147483648 /\
  zlen (enc_array vs) < Z.of_nat fuel /\ all_within N es.

Lemma items_len vs : forall i j t, nth_error vs i = Some t ->
  zlen (enc_body t) < zlen (enc_items j vs) /\ Z.of_nat i < zlen (enc_items j vs).
Proof.
  induction vs as [|v vs IH]; intros i j t H; [now destruct i|].
  destruct i; cbn in H.
  - injection H as ->. cbn [enc_items]. zlens. rewrite zlen_enc_elem. posl. lia.
  - destruct (IH i (S j) t H) as [A B]. cbn [enc_items]. zlens. rewrite zlen_enc_elem. posl. lia.
Qed.

Lemma within_in es v : all_within N es -> In (Some v) es -> within N v.
Proof. intros H I. unfold all_within in H. rewrite Forall_forall in H. exact (H _ I). Qed.

Lemma descend_doc k v fs : rep k v (BDoc fs) -> wf (BDoc fs) -> within N v ->
  zlen (enc_body (BDoc fs)) < 2147483648 -> zlen (enc_body (BDoc fs)) < Z.of_nat fuel ->
  exists es, v_mutable_document_ok fuel (Some v) = Ret (Some es) /\ doc_good fs es.
Proof.
  intros R W Wi L F. rewrite enc_body_doc in *. apply wf_doc in W.
  destruct (v_mutable_document_rep fuel k v fs R W L F) as (es & E & Re & _).
  unfold v_mutable_document_ok. rewrite (getter_ok_type _ _ _ _ (rep_type _ _ _ R)). cbn [tag Z.eqb Pos.eqb].
  rewrite E. cbn [bind]. exists es. split; [reflexivity|]. repeat split; auto.
  eapply mutable_document_within; eauto.
Qed.
Lemma descend_arr k v vs : rep k v (BArray vs) -> wf (BArray vs) -> within N v ->
  zlen (enc_body (BArray vs)) < 2147483648 -> zlen (enc_body (BArray vs)) < Z.of_nat fuel ->
  exists es, v_mutable_array_ok fuel (Some v) = Ret (Some es) /\ arr_good vs es.
Proof.
  intros R W Wi L F. rewrite enc_body_array in *. apply wf_array in W.
  destruct (v_mutable_array_rep fuel k v vs R W L F) as (es & E & Re & _).
  unfold v_mutable_array_ok. rewrite (getter_ok_type _ _ _ _ (rep_type _ _ _ R)). cbn [tag Z.eqb Pos.eqb].
  rewrite E. cbn [bind]. exists es. split; [reflexivity|]. repeat split; auto.
  eapply mutable_array_within; eauto.
Qed.

Lemma not_doc k v t : rep k v t -> tag t <> 3 -> v_mutable_document_ok fuel (Some v) = Ret None.
Proof.
  intros R H. unfold v_mutable_document_ok. rewrite (getter_ok_type _ _ _ _ (rep_type _ _ _ R)).
  now replace (tag t =? 3) with false by lia.
Qed.
Lemma not_arr k v t : rep k v t -> tag t <> 4 -> v_mutable_array_ok fuel (Some v) = Ret None.
Proof.
  intros R H. unfold v_mutable_array_ok. rewrite (getter_ok_type _ _ _ _ (rep_type _ _ _ R)).
  now replace (tag t =? 4) with false by lia.
Qed.

Lemma doc_or_arr t : (exists fs, t = BDoc fs) \/ (exists vs, t = BArray vs) \/ (tag t <> 3 /\ tag t <> 4).
Proof. destruct t; cbn; eauto; right; right; split; discriminate. Qed.

(* the body shared by both searches after an element was found *)
Lemma found_lift t ks x ks' r :
  (forall q, reaches t ks q <-> reaches x ks' q) -> sfound x ks' r -> sfound t ks r.
Proof.
  intros H. unfold sfound. destruct r as [[e|]| |]; auto.
  - intros (k & y & v & E & R & G). exists k, y, v. rewrite H. auto.
  - intros G q Hq. apply (G q). now apply H.
Qed.

Lemma search_ok ks : keys_fit ks ->
  (forall fs es, doc_good fs es -> sfound (BDoc fs) ks (search fuel ks es)) /\
  (forall vs es, arr_good vs es -> sfound (BArray vs) ks (arr_search fuel ks es)).
Proof.
  induction ks as [|k ks IH]; intros KF.
  - split; intros; cbn; intros; apply reaches_nil.
  - inversion KF as [|? ? Kk KF']; subst. specialize (IH KF'). destruct IH as [IHd IHa]. split.
    + intros fs es (R & W & S & F & Wi). cbn [search].
      pose proof (find_elem_rep k fs es R) as Fe. destruct (first_key k fs) as [t|] eqn:Ef.
      * destruct Fe as (v & E & Rv & I1 & I2). rewrite E. cbn [bind].
        destruct (in_fields_wf _ _ _ I1 W) as [Wt Lt]. rewrite zlen_enc_elem in Lt.
        unfold small, enc_doc in S. zlens_in S. unfold enc_doc in F. zlens_in F. posl.
        pose proof (within_in _ _ Wi I2) as Wv.
        destruct ks as [|k2 ks].
        -- cbn. exists k, t, v. repeat split; auto; try lia. now constructor.
        -- assert (Step : forall q, reaches (BDoc fs) (k :: k2 :: ks) q <-> reaches t (k2 :: ks) q).
           { intros q. split; intros Hq.
             - apply reaches_more in Hq as [(fs' & x & Et & Ex & Hq)|(vs & i & x & Et & _)]; [|discriminate].
               injection Et as <-. congruence.
             - econstructor; eauto. }
           apply (found_lift _ _ t (k2 :: ks) _ Step).
           destruct (doc_or_arr t) as [(fs' & ->)|[(vs & ->)|[N3 N4]]].
           ++ destruct (descend_doc k v fs' Rv Wt Wv) as (es' & E' & G'); try lia. rewrite E'. cbn [bind].
              exact (IHd _ _ G').
           ++ rewrite (not_doc _ _ _ Rv) by discriminate. cbn [bind].
              destruct (descend_arr k v vs Rv Wt Wv) as (es' & E' & G'); try lia. rewrite E'. cbn [bind].
              exact (IHa _ _ G').
           ++ rewrite (not_doc _ _ _ Rv) by auto. cbn [bind]. rewrite (not_arr _ _ _ Rv) by auto. cbn.
              intros q Hq. apply reaches_container in Hq. lia.
      * rewrite Fe. cbn. intros q Hq. destruct ks as [|k2 ks].
        -- apply reaches_one in Hq as [(fs' & x & Et & Ex & _)|(vs & i & x & Et & _)]; [|discriminate]. congruence.
        -- apply reaches_more in Hq as [(fs' & x & Et & Ex & _)|(vs & i & x & Et & _)]; [|discriminate]. congruence.
    + intros vs es (R & W & S & F & Wi). cbn [arr_search].
      unfold enc_array in S, F. zlens_in S. zlens_in F. posl.
      assert (Idx : forall i x, nth_error vs i = Some x -> Z.of_nat i < 2147483648).
      { intros i x Hx. destruct (items_len vs i 0 x Hx). lia. }
      assert (Go : forall i x, index_text k i -> nth_error vs i = Some x -> atoi k = Some (Z.of_nat i)).
      { intros i x Hx1 Hx2. apply index_text_atoi; auto. specialize (Idx _ _ Hx2). lia. }
      assert (None_ : forall q, reaches (BArray vs) (k :: ks) q ->
        exists i x, atoi k = Some (Z.of_nat i) /\ nth_error vs i = Some x).
      { intros q Hq. destruct ks as [|k2 ks].
        - apply reaches_one in Hq as [(fs' & x & Et & _)|(vs' & i & x & Et & Hx1 & Hx2 & _)]; [discriminate|].
          injection Et as <-. eauto.
        - apply reaches_more in Hq as [(fs' & x & Et & _)|(vs' & i & x & Et & Hx1 & Hx2 & _)]; [discriminate|].
          injection Et as <-. eauto. }
      destruct (atoi k) as [z|] eqn:Ek.
      2:{ cbn. intros q Hq. destruct (None_ q Hq) as (i & x & Hx & _). discriminate. }
      unfold arr_lookup. destruct (z <? 0) eqn:Ez.
      { cbn. intros q Hq. destruct (None_ q Hq) as (i & x & Hx & _). injection Hx as Hx. lia. }
      pose proof (rep_arr_nth vs es (Z.to_nat z) R) as Nv.
      destruct (nth_error vs (Z.to_nat z)) as [t|] eqn:Et.
      2:{ rewrite Nv. cbn. intros q Hq. destruct (None_ q Hq) as (i & x & Hx & Hx2). injection Hx as ->.
          rewrite Nat2Z.id in Et. congruence. }
      destruct Nv as (v & k0 & Ev & Rv & It). rewrite Ev.
      assert (Wv : within N v) by (apply (within_in es); [exact Wi|]; eapply nth_error_In; eauto).
      assert (Wt : wf t) by (eapply Forall_forall; eauto).
      destruct (items_len vs _ 0 t Et) as [Lt Li].
      pose proof (atoi_index_text k z Ek ltac:(lia)) as Tx.
      destruct ks as [|k2 ks].
      * destruct (ec_value_rep k0 v t k N Rv Wv (index_text_nul_free _ _ Tx) Kk) as (v' & E' & Rv'). rewrite E'.
        cbn. exists k, t, v'. repeat split; auto; try lia. econstructor; eauto.
      * assert (Step : forall q, reaches (BArray vs) (k :: k2 :: ks) q <-> reaches t (k2 :: ks) q).
        { intros q. split; intros Hq.
          - apply reaches_more in Hq as [(fs' & x & Ex & _)|(vs' & i & x & Ex & Hx1 & Hx2 & Hx3)]; [discriminate|].
            injection Ex as <-. pose proof (Go _ _ Hx1 Hx2) as Q. injection Q as ->.
            rewrite Nat2Z.id in Et. congruence.
          - eapply reach_array; eauto. }
        apply (found_lift _ _ t (k2 :: ks) _ Step).
        destruct (doc_or_arr t) as [(fs' & ->)|[(vs' & ->)|[N3 N4]]].
        -- destruct (descend_doc k0 v fs' Rv Wt Wv) as (es' & E' & G'); try lia. rewrite E'. cbn [bind].
           specialize (IHd _ _ G'). unfold sfound in IHd |- *.
           destruct (search fuel (k2 :: ks) es') as [[e|]| |]; cbn [bind]; auto.
           rewrite (not_arr _ _ _ Rv) by discriminate. exact IHd.
        -- rewrite (not_doc _ _ _ Rv) by discriminate. cbn [bind].
           destruct (descend_arr k0 v vs' Rv Wt Wv) as (es' & E' & G'); try lia. rewrite E'. cbn [bind].
           exact (IHa _ _ G').
        -- rewrite (not_doc _ _ _ Rv) by auto. cbn [bind]. rewrite (not_arr _ _ _ Rv) by auto. cbn.
           intros q Hq. apply reaches_container in Hq. lia.
Qed.
End Search.

(* ------------------------------------------- documents as a client obtains them *)

Fixpoint within_mono N M v {struct v} : N <= M -> within N v -> within M v.
Proof.
  intros L. destruct v as [st off data [es|]]; cbn.
  - intros [A B]. split; [destruct data; [lia|auto]|].
    induction es as [|[v|] r IH]; [exact I| |exact (IH B)].
    destruct B as [B1 B2]. split; [exact (within_mono N M v L B1)|exact (IH B2)].
  - intros [A B]. split; [destruct data; [lia|auto]|auto].
Qed.
Lemma all_within_mono N M es : N <= M -> all_within N es -> all_within M es.
Proof.
  intros L H. unfold all_within in *. eapply Forall_impl; [|exact H]. intros [v|]; cbn; [|auto].
  now apply within_mono.
Qed.

Lemma ec_code_len k c es v : zlen k + zlen c + 11 < 2147483648 -> ec_code_with_scope k c es = Ret v ->
  exists b, v_data v = Some b /\ zlen b <= zlen k + zlen c + 11 /\ v_d v = Some es.
Proof.
  intros Hl H. unfold ec_code_with_scope, buf, hdr in H. posl. revert H. u32s. i32s. intros H.
  set (l4 := le32 (1 + zlen k + 1 + 4 + 4 + zlen c + 1)).
  rewrite (built_exact (15 :: enc_cstring k ++ l4 ++ enc_string c) (zeros (1 + zlen k + 1 + (4 + 4 + zlen c + 1)))) in H.
  3:{ unfold l4. rewrite zlen_zeros by lia. zl. }
  2:{ apply (writes_seq [15]); [lia|apply byte_writes; lia|]. intros.
      apply writes_seq; [zl|apply cstring_writes; zl|]. intros. zlens.
      replace (0 + (1 + 0) + (zlen k + 1)) with (1 + zlen k + 1) by lia.
      apply writes_seq; [zl|apply int32_writes; zl|]. intros. unfold l4; zlens.
      apply string_writes; zl. }
  injection H as <-. eexists. split; [reflexivity|]. split; [unfold l4; zl|reflexivity].
Qed.

Lemma build_scalar k t : wf t -> efits k t -> tag t <> 3 -> tag t <> 4 -> tag t <> 15 ->
  build k t = Ret (lz [] k t []).
Proof.
  intros W F N3 N4 N15. destruct t; cbn [tag] in *; try lia; cbn [build]; cbn [wf] in W.
  - apply ec_double_lz; tauto.
  - apply ec_string_lz; tauto.
  - apply ec_binary_subtype_lz; tauto.
  - apply ec_undefined_lz; tauto.
  - apply ec_objectid_lz; tauto.
  - apply ec_boolean_lz; tauto.
  - apply ec_datetime_lz; tauto.
  - apply ec_null_lz; tauto.
  - apply ec_regex_lz; tauto.
  - apply ec_dbpointer_lz; tauto.
  - apply ec_javascript_lz; tauto.
  - apply ec_symbol_lz; tauto.
  - apply ec_int32_lz; tauto.
  - apply ec_timestamp_lz; tauto.
  - apply ec_int64_lz; tauto.
  - apply ec_decimal_lz; tauto.
  - apply ec_minkey_lz; tauto.
  - apply ec_maxkey_lz; tauto.
Qed.

Definition bwithin (t : bval) : Prop := forall k v, wf t -> efits k t -> build k t = Ret v ->
  within (zlen (enc_elem k t)) v.

Lemma build_doc_within fs : fields_in bwithin fs -> wf_fields fs -> zlen (enc_elems fs) < 2147483648 ->
  forall es, build_doc fs = Ret es -> all_within (zlen (enc_elems fs)) es.
Proof.
  induction 1 as [|[k t] fs Ht Hfs IH]; intros W L es E.
  - injection E as <-. constructor.
  - rewrite zlen_enc_elems_cons in *. posl.
    apply Forall_cons_iff in W as [[_ Wt] W]. cbn in *.
    destruct (build k t) as [v| |] eqn:Ev; cbn in E; try discriminate.
    destruct (build_doc fs) as [xs| |] eqn:Es; cbn in E; try discriminate. injection E as <-.
    constructor.
    + cbn. apply (within_mono (zlen (enc_elem k t))); [lia|]. apply Ht; auto. unfold efits; lia.
    + apply (all_within_mono (zlen (enc_elems fs))); [lia|]. apply IH; auto. lia.
Qed.
Lemma build_arr_within vs : Forall bwithin vs -> Forall wf vs -> forall i, zlen (enc_items i vs) < 2147483648 ->
  forall es, build_arr vs = Ret es -> all_within (zlen (enc_items i vs)) es.
Proof.
  induction 1 as [|t vs Ht Hvs IH]; intros W i L es E.
  - injection E as <-. constructor.
  - inversion_clear W as [|? ? Wt Wv]. cbn [enc_items] in *. zlens_in L. zlens. posl.
    pose proof (zlen_enc_elem (index_key i) t). pose proof (zlen_enc_elem [] t) as E2.
    change (zlen (@nil Z)) with 0 in E2. posl. cbn [build_arr] in E.
    destruct (build [] t) as [v| |] eqn:Ev; cbn in E; try discriminate.
    destruct (build_arr vs) as [xs| |] eqn:Es; cbn in E; try discriminate. injection E as <-.
    constructor.
    + cbn. apply (within_mono (zlen (enc_elem [] t))); [lia|]. apply Ht; auto. unfold efits; lia.
    + apply (all_within_mono (zlen (enc_items (S i) vs))); [lia|]. apply IH; auto. lia.
Qed.

Lemma build_within t : bwithin t.
Proof.
  assert (Sc : forall t, tag t <> 3 -> tag t <> 4 -> tag t <> 15 -> bwithin t).
  { intros u N3 N4 N15 k v W F E. rewrite build_scalar in E by auto. injection E as <-.
    rewrite lz_nil. cbn. split; [lia|auto]. }
  induction t using bval_ind'; try (apply Sc; cbn; discriminate); intros k v W F E;
    pose proof F as F'; unfold efits in F'; rewrite zlen_enc_elem in *.
  - rewrite enc_body_doc in *. unfold enc_doc in *. zlens_in F'. zlens. posl. apply wf_doc in W.
    rewrite build_BDoc in E. destruct (build_doc fs) as [es| |] eqn:Es; cbn [bind] in E; try discriminate.
    unfold ec_subdocument in E. rewrite built_hdr in E by lia. injection E as <-.
    apply within_d. split; [zl|].
    apply (all_within_mono (zlen (enc_elems fs))); [lia|]. apply build_doc_within; auto. lia.
  - rewrite enc_body_array in *. unfold enc_array in *. zlens_in F'. zlens. posl. apply wf_array in W.
    rewrite build_BArray in E. destruct (build_arr vs) as [es| |] eqn:Es; cbn [bind] in E; try discriminate.
    unfold ec_array in E. rewrite built_hdr in E by lia. injection E as <-.
    apply within_d. split; [zl|].
    apply (all_within_mono (zlen (enc_items 0 vs))); [lia|]. apply build_arr_within; auto. lia.
  - rewrite enc_body_code in *. unfold enc_doc in *. zlens_in F'. zlens. posl. apply wf_code in W as [Wc W].
    rewrite build_BCode in E. destruct (build_doc fs) as [es| |] eqn:Es; cbn [bind] in E; try discriminate.
    destruct (ec_code_len k c es v) as (b & Eb & Lb & Ed); auto; [lia|].
    destruct v as [st off data d]. cbn in Eb, Ed. subst data d.
    apply within_d. split; [lia|].
    apply (all_within_mono (zlen (enc_elems fs))); [lia|]. apply build_doc_within; auto. lia.
Qed.
Lemma built_within fs es : wf_fields fs -> small fs -> build_doc fs = Ret es -> all_within (zlen (enc_doc fs)) es.
Proof.
  intros W S E. unfold small, enc_doc in *. zlens_in S. zlens. posl.
  apply (all_within_mono (zlen (enc_elems fs))); [lia|]. apply build_doc_within; auto; [|lia].
  apply Forall_forall. intros. apply build_within.
Qed.

(* The document es holds the fields fs, and its elements lie in slices of at most N bytes:
   it was built with the constructors, or read from bytes. *)
Inductive doc_obtained (fs : list (bytes * bval)) (es : document) : Z -> Prop :=
| do_built : build_doc fs = Ret es -> doc_obtained fs es (zlen (enc_doc fs))
| do_read : forall fuel post, enough fuel (zlen (enc_doc fs)) -> zlen (enc_doc fs ++ post) < 2147483648 ->
    read_document fuel (enc_doc fs ++ post) = Ret (inl es) -> doc_obtained fs es (zlen (enc_doc fs ++ post)).

Lemma doc_obtained_good fuel N fs es : wf_fields fs -> small fs -> enough fuel (zlen (enc_doc fs)) ->
  doc_obtained fs es N -> doc_good fuel N fs es.
Proof.
  intros W S F [B|f post F' L E].
  - destruct (build_doc_rep fs W S) as (es' & B' & R). assert (es' = es) by congruence. subst es'.
    repeat split; auto. now apply built_within.
  - destruct (read_document_wf fs post f W L F') as (es' & E' & R). assert (es' = es) by congruence. subst es'.
    repeat split; auto. eapply read_document_within; eauto. lia.
Qed.

Lemma reaches_fits t ks r : reaches t ks r -> wf t -> wf (snd r) /\ zlen (enc_body (snd r)) < zlen (enc_body t).
Proof.
  assert (D : forall fs k u, wf (BDoc fs) -> first_key k fs = Some u -> wf u /\ zlen (enc_body u) < zlen (enc_body (BDoc fs))).
  { intros fs k u W E. rewrite enc_body_doc. unfold enc_doc. zlens. apply wf_doc in W.
    assert (I : In (k, u) fs).
    { clear - E. induction fs as [|[k' t'] fs IH]; cbn in E; [discriminate|].
      pose proof (bytes_eqb_eq k k') as B. destruct (bytes_eqb k k').
      - injection E as ->. left. f_equal. symmetry. now apply B.
      - right. auto. }
    destruct (in_fields_wf _ _ _ I W) as [Wu Lu]. rewrite zlen_enc_elem in Lu. posl. split; [auto|lia]. }
  assert (A : forall vs i u, wf (BArray vs) -> nth_error vs i = Some u -> wf u /\ zlen (enc_body u) < zlen (enc_body (BArray vs))).
  { intros vs i u W E. rewrite enc_body_array. unfold enc_array. zlens. apply wf_array in W. split.
    - rewrite Forall_forall in W. apply W. eapply nth_error_In; eauto.
    - destruct (items_len vs i 0 u E). lia. }
  induction 1; intros W; cbn [snd].
  - eauto.
  - destruct (D _ _ _ W H). destruct IHreaches; auto. split; [auto|lia].
  - eauto.
  - destruct (A _ _ _ W H0). destruct IHreaches; auto. split; [auto|lia].
Qed.

Lemma reaches_fun t ks r1 : reaches t ks r1 -> wf t -> zlen (enc_body t) < 2147483648 ->
  forall r2, reaches t ks r2 -> r1 = r2.
Proof.
  assert (A : forall vs k i j x y, zlen (enc_body (BArray vs)) < 2147483648 -> index_text k i -> index_text k j ->
    nth_error vs i = Some x -> nth_error vs j = Some y -> x = y).
  { intros vs k i j x y L Ti Tj Hi Hj. rewrite enc_body_array in L. unfold enc_array in L. zlens_in L.
    destruct (items_len vs i 0 x Hi). destruct (items_len vs j 0 y Hj).
    assert (i = j); [|congruence]. apply (index_text_unique k i j (S (Nat.max i j))); auto; lia. }
  induction 1 as [k fs u E|k fs u ks r E H IH|k i vs u T E|k i vs u ks r T E H IH]; intros W L r2 H2.
  - apply reaches_one in H2 as [(fs' & x & Et & Ex & ->)|(vs & j & x & Et & _)]; [|discriminate].
    injection Et as <-. congruence.
  - destruct ks as [|k2 ks]; [exfalso; exact (reaches_nil _ _ H)|].
    apply reaches_more in H2 as [(fs' & x & Et & Ex & H2)|(vs & j & x & Et & _)]; [|discriminate].
    injection Et as <-. assert (x = u) by congruence. subst x.
    destruct (reaches_fits (BDoc fs) [k] (k, u)) as [Wu Lu]; [now constructor|auto|]. cbn [snd] in *.
    apply IH; auto. lia.
  - apply reaches_one in H2 as [(fs' & x & Et & _)|(vs' & j & x & Et & Tj & Hj & ->)]; [discriminate|].
    injection Et as <-. f_equal. eapply (A vs k i j); eauto.
  - destruct ks as [|k2 ks]; [exfalso; exact (reaches_nil _ _ H)|].
    apply reaches_more in H2 as [(fs' & x & Et & _)|(vs' & j & x & Et & Tj & Hj & H2)]; [discriminate|].
    injection Et as <-. assert (u = x) by (eapply (A vs k i j); eauto). subst x.
    destruct (reaches_fits (BArray vs) [k] (k, u)) as [Wu Lu]; [econstructor; eauto|auto|]. cbn [snd] in *.
    apply IH; auto. lia.
Qed.
