(* Theorems about ObjectIDs and Decimal128 values (C22-C25, C53-C55). *)
Require Import ZArith List Bool Lia ZifyBool ZifyNat.
From Verif Require Import Base BSpec Elements Value Api GetterProofs Sort Oid Dec128 DecProofs.
Import ListNotations.
Open Scope Z_scope.

(* ------------------------------------------------------------------ C22: text of ids *)

Lemma lower_unhex c n : unhex c = Some n -> lower c = hex_digit n.
Proof.
  unfold unhex, lower, hex_digit. intros H.
  destruct ((48 <=? c) && (c <=? 57)) eqn:E1.
  { injection H as <-. replace ((65 <=? c) && (c <=? 90)) with false by lia. replace (c - 48 <? 10) with true by lia. lia. }
  destruct ((97 <=? c) && (c <=? 102)) eqn:E2.
  { injection H as <-. replace ((65 <=? c) && (c <=? 90)) with false by lia. replace (c - 87 <? 10) with false by lia. lia. }
  destruct ((65 <=? c) && (c <=? 70)) eqn:E3; [|discriminate].
  injection H as <-. replace ((65 <=? c) && (c <=? 90)) with true by lia. replace (c - 55 <? 10) with false by lia. lia.
Qed.
Lemma unhex_lower c n : 0 <= n < 16 -> lower c = hex_digit n -> unhex c = Some n.
Proof.
  unfold unhex, lower, hex_digit. intros Hn H.
  destruct ((65 <=? c) && (c <=? 90)) eqn:E; destruct (n <? 10) eqn:En; try lia.
  - replace ((48 <=? c) && (c <=? 57)) with false by lia. replace ((97 <=? c) && (c <=? 102)) with false by lia.
    replace ((65 <=? c) && (c <=? 70)) with true by lia. f_equal. lia.
  - replace ((48 <=? c) && (c <=? 57)) with true by lia. f_equal. lia.
  - replace ((48 <=? c) && (c <=? 57)) with false by lia. replace ((97 <=? c) && (c <=? 102)) with true by lia. f_equal. lia.
Qed.
Lemma hex_decode_lower d : bytes_ok d -> forall s, map lower s = hex d -> hex_decode s = (d, None).
Proof.
  induction 1 as [|x d Hx _ IH]; intros s H.
  - destruct s; [reflexivity|discriminate].
  - rewrite hex_cons in H. destruct s as [|p [|q r]]; try discriminate. cbn [map] in H. injection H as Hp Hq Hr.
    unfold is_u8 in Hx. apply unhex_lower in Hp, Hq; try lia. cbn [hex_decode]. rewrite Hp, Hq, (IH _ Hr).
    do 2 f_equal. lia.
Qed.
Lemma lower_hex_decode n : forall s d, (length s <= n)%nat -> hex_decode s = (d, None) -> map lower s = hex d.
Proof.
  induction n as [|n IH]; intros s d L H.
  - destruct s; [|cbn in L; lia]. cbn in H. now injection H as <-.
  - destruct s as [|p [|q r]]; cbn [hex_decode] in H; [now injection H as <-|discriminate|].
    destruct (unhex p) as [a|] eqn:Ep; [|discriminate]. destruct (unhex q) as [b|] eqn:Eq; [|discriminate].
    destruct (hex_decode r) as [d' e] eqn:Er. injection H as <- ->. cbn in L.
    apply unhex_range in Ep as Rp, Eq as Rq. rewrite hex_cons. cbn [map]. rewrite (IH r d') by (auto; lia).
    rewrite (lower_unhex _ _ Ep), (lower_unhex _ _ Eq). do 2 f_equal; [|f_equal]; f_equal; lia.
Qed.

(* an id is an array of twelve bytes *)
Definition is_oid (id : bytes) : Prop := bytes_ok id /\ length id = 12%nat.

(* FromHex gives back the id whose Hex was taken. *)
Theorem C22_from_hex id : is_oid id -> oid_from_hex (hex id) = (id, None).
Proof. intros [B L]. unfold oid_from_hex. rewrite hex_decode_hex by auto. unfold zlen. now rewrite L. Qed.
Example C22_from_hex_case : oid_from_hex [48;49;50;51;52;53;54;55;56;57;97;98;99;100;101;102;48;49;50;51;52;53;54;55] =
  ([1;35;69;103;137;171;205;239;1;35;69;103], None).
Proof. reflexivity. Qed.

(* FromHex succeeds exactly on the hexadecimal forms of ids, in either case of letters, and
   then yields that id; otherwise it yields the zero id and an error. *)
Theorem C22_from_hex_exact s id : oid_from_hex s = (id, None) <-> is_oid id /\ map lower s = hex id.
Proof.
  unfold oid_from_hex. split.
  - destruct (hex_decode s) as [d [e|]] eqn:E; [discriminate|]. destruct (zlen d =? 12) eqn:L; [|discriminate].
    intros H. injection H as <-. destruct (hex_decode_ok (length s) s d (le_n _) E) as (_ & _ & B).
    split; [split; [exact B|unfold zlen in L; lia]|]. now apply (lower_hex_decode (length s)).
  - intros [[B L] H]. rewrite (hex_decode_lower _ B _ H). unfold zlen. now rewrite L.
Qed.
Theorem C22_from_hex_error s id e : oid_from_hex s = (id, Some e) -> id = nil_oid /\
  forall id', is_oid id' -> map lower s <> hex id'.
Proof.
  intros H. split.
  - unfold oid_from_hex in H. destruct (hex_decode s) as [d [e'|]]; [now injection H|].
    destruct (zlen d =? 12); [discriminate|]. now injection H.
  - intros id' O M. assert (oid_from_hex s = (id', None)) by (apply C22_from_hex_exact; auto). congruence.
Qed.
Example C22_from_hex_exact_case : exists s id e, oid_from_hex s = (id, Some e) /\ length s = 24%nat.
Proof. exists (repeat 103 24), nil_oid, (EOther 1). split; reflexivity. Qed.

(* What encoding/json does with the two forms that matter here, all other behaviour left open *)
Definition plain (s : bytes) : Prop := Forall (fun c => 48 <= c <= 57 \/ 97 <= c <= 102) s.
Definition json_strings (dec : bytes -> option jany) : Prop :=
  forall s, plain s -> dec (34 :: s ++ [34]) = Some (JStr s).
Lemma plain_hex b : bytes_ok b -> plain (hex b).
Proof.
  induction 1 as [|x b Hx _ IH]; [constructor|]. rewrite hex_cons. unfold is_u8 in Hx.
  constructor; [|constructor; [|exact IH]]; unfold hex_digit.
  - destruct (x / 16 <? 10) eqn:E; lia.
  - destruct (x mod 16 <? 10) eqn:E; lia.
Qed.
Lemma put_all (id d : bytes) : length id = length d -> put id 0 d = d.
Proof.
  intros L. unfold put. change (Z.to_nat 0) with 0%nat. cbn [firstn app Nat.add].
  rewrite skipn_all2 by (unfold zlen; lia). now rewrite app_nil_r.
Qed.
(* Whatever the receiver held, it holds the marshalled id afterwards. *)
Theorem C22_json_round_trip dec id old : json_strings dec -> is_oid id -> is_oid old ->
  oid_unmarshal_json dec old (oid_marshal_json id) = (id, None).
Proof.
  intros J [B L] [_ Lo]. unfold oid_unmarshal_json, oid_marshal_json.
  assert (Lh : length (hex id) = 24%nat) by (rewrite hex_length; lia).
  replace (zlen (34 :: hex id ++ [34]) =? 12) with false by (unfold zlen; cbn [length]; rewrite app_length; cbn [length]; lia).
  rewrite J by now apply plain_hex. replace (zlen (hex id) =? 24) with true by (unfold zlen; lia).
  rewrite hex_decode_hex by auto. rewrite put_all by lia. reflexivity.
Qed.
(* the same for the extended form {"$oid": "..."} *)
Theorem C22_json_object dec id old b m : is_oid id -> is_oid old -> zlen b <> 12 ->
  dec b = Some (JObj m) -> jget oid_key m = Some (JStr (hex id)) ->
  oid_unmarshal_json dec old b = (id, None).
Proof.
  intros [B L] [_ Lo] N D G. unfold oid_unmarshal_json. replace (zlen b =? 12) with false by lia.
  rewrite D, G. replace (zlen (hex id) =? 24) with true by (unfold zlen; rewrite hex_length; lia).
  rewrite hex_decode_hex by auto. rewrite put_all by lia. reflexivity.
Qed.
(* a decoder that knows strings without escapes and nothing else meets json_strings *)
Definition plain_dec (b : bytes) : option jany :=
  match b with
  | 34 :: r => match rev r with 34 :: q => Some (JStr (rev q)) | _ => None end
  | _ => None
  end.
Lemma plain_dec_ok : json_strings plain_dec.
Proof. intros s _. unfold plain_dec. rewrite rev_app_distr. cbn [rev app]. now rewrite rev_involutive. Qed.
Example C22_json_case : exists id old, is_oid id /\ is_oid old /\ id <> old /\
  oid_unmarshal_json plain_dec old (oid_marshal_json id) = (id, None).
Proof.
  exists (repeat 171 12), (repeat 7 12).
  assert (forall n, is_u8 n -> is_oid (repeat n 12)) as O.
  { intros n Hn. split; [|reflexivity]. apply Forall_forall. intros x Hx. apply repeat_spec in Hx. now subst x. }
  split; [apply O; unfold is_u8; lia|]. split; [apply O; unfold is_u8; lia|]. split; [discriminate|].
  apply C22_json_round_trip; [apply plain_dec_ok|apply O; unfold is_u8; lia|apply O; unfold is_u8; lia].
Qed.

(* --------------------------------------------- C53: what UnmarshalJSON of an id accepts *)

(* The JSON texts of an id *)
Definition oid_json (dec : bytes -> option jany) (b id : bytes) : Prop :=
  exists s, map lower s = hex id /\
    (dec b = Some (JStr s) \/ exists m, dec b = Some (JObj m) /\ jget oid_key m = Some (JStr s)).
(* Any twelve bytes are taken for an id, whatever JSON they are: here a string of ten digits. *)
Theorem C53_only_ids_refuted : ~ (forall dec, json_strings dec -> forall old b id, is_oid old -> bytes_ok b ->
  oid_unmarshal_json dec old b = (id, None) -> oid_json dec b id).
Proof.
  intros H. set (b := 34 :: repeat 49 10 ++ [34]).
  destruct (H plain_dec plain_dec_ok nil_oid b b) as (s & M & [D|(m & D & _)]).
  - split; [|reflexivity]. unfold nil_oid. repeat constructor; unfold is_u8; lia.
  - unfold b. cbn. repeat constructor; unfold is_u8; lia.
  - reflexivity.
  - assert (s = repeat 49 10) by (cbn in D; injection D as <-; reflexivity). subst s. discriminate.
  - cbn in D. discriminate.
Qed.
(* Missing: texts of exactly twelve bytes. *)
Theorem C53_only_ids_partial dec old b id : is_oid old -> zlen b <> 12 ->
  (oid_unmarshal_json dec old b = (id, None) <-> is_oid id /\ oid_json dec b id).
Proof.
  intros [Bo Lo] N. unfold oid_unmarshal_json. replace (zlen b =? 12) with false by lia.
  assert (A : forall s, (if zlen s =? 24 then let '(d, e) := hex_decode s in (put old 0 d, e) else (old, Some (EOther 5))) = (id, None)
    <-> is_oid id /\ map lower s = hex id).
  { intros s. split.
    - destruct (zlen s =? 24) eqn:L; [|discriminate]. destruct (hex_decode s) as [d e] eqn:E. intros H. injection H as <- ->.
      destruct (hex_decode_ok (length s) s d (le_n _) E) as (_ & Ls & B). unfold zlen in L. rewrite put_all by lia.
      split; [split; [exact B|lia]|]. now apply (lower_hex_decode (length s)).
    - intros [[B Li] M]. assert (Ls : length s = 24%nat).
      { rewrite <- (map_length lower), M, hex_length. lia. }
      replace (zlen s =? 24) with true by (unfold zlen; lia). rewrite (hex_decode_lower _ B _ M). now rewrite put_all by lia. }
  split.
  - intros H. destruct (dec b) as [[s|m|]|] eqn:D; try discriminate.
    + apply A in H as [O M]. split; [exact O|]. exists s. auto.
    + destruct (jget oid_key m) as [[s| |]|] eqn:G; try discriminate. apply A in H as [O M]. split; [exact O|].
      exists s. split; [auto|]. right. eauto.
  - intros [O (s & M & [D|(m & D & G)])]; rewrite D; [|rewrite G]; now apply A.
Qed.
(* A failed UnmarshalJSON may have overwritten part of the receiver. *)
Theorem C53_error_keeps_refuted : ~ (forall dec, json_strings dec -> forall old b id e, is_oid old ->
  oid_unmarshal_json dec old b = (id, Some e) -> id = old).
Proof.
  intros H. set (d := fun b => match plain_dec b with Some v => Some v | None => None end).
  assert (D : json_strings d). { intros s P. unfold d. now rewrite plain_dec_ok. }
  pose proof (H d D nil_oid (34 :: repeat 49 22 ++ [122; 122; 34]) (repeat 17 11 ++ [0]) (EOther 1)) as E.
  assert (is_oid nil_oid) as O by (split; [unfold nil_oid; repeat constructor; unfold is_u8; lia|reflexivity]).
  specialize (E O eq_refl). discriminate.
Qed.

(* --------------------------------------------------------------- C23: ids are unique *)

Definition ids (s : oid_state) : list bytes := map snd (o_out s).
Definition two24 : Z := 16777216.

(* the bytes of an id: the second read, the process part, the counter *)
Theorem C23_carries_the_second unique clock base es t id : length unique = 5%nat ->
  In (t, id) (o_out (oid_run unique (oid_init clock base) es)) ->
  length id = 12%nat /\ firstn 4 id = be32 (u32 t) /\ firstn 5 (skipn 4 id) = unique.
Proof.
  intros L H. apply In_nth_error in H as [k H].
  destruct (oid_inv_run unique base es _ (oid_inv_init unique clock base)) as [_ K]. rewrite (K k t id H). unfold the_id, be32, be24.
  destruct unique as [|a [|b [|c [|d [|e [|? ?]]]]]]; try discriminate. repeat split.
Qed.
(* Two calls get the same id exactly when they read the same second and are a multiple of
   2^24 calls apart; so no two of any 2^24 successive calls do. *)
Theorem C23_equal_ids unique clock base es i j t1 t2 id1 id2 :
  nth_error (o_out (oid_run unique (oid_init clock base) es)) i = Some (t1, id1) ->
  nth_error (o_out (oid_run unique (oid_init clock base) es)) j = Some (t2, id2) ->
  (id1 = id2 <-> t1 mod 4294967296 = t2 mod 4294967296 /\ (Z.of_nat i - Z.of_nat j) mod two24 = 0).
Proof.
  intros H1 H2. destruct (oid_inv_run unique base es _ (oid_inv_init unique clock base)) as [_ K].
  rewrite (K _ _ _ H1), (K _ _ _ H2). apply the_id_inj.
Qed.
Lemma nth_error_map2 {A B} (f : A -> B) l i : nth_error (map f l) i = option_map f (nth_error l i).
Proof. revert i. induction l as [|a l IH]; intros [|i]; cbn; auto. Qed.
Theorem C23_unique_partial unique clock base es :
  let s := oid_run unique (oid_init clock base) es in
  Z.of_nat (length (o_out s)) <= two24 \/
  (prompt (oid_init clock base) unique es /\ 0 <= clock /\ (forall t, In t (stamps s) -> t < 4294967296) /\
   forall t, Z.of_nat (in_second t (stamps s)) <= two24) ->
  NoDup (ids s).
Proof.
  intros s H. unfold two24 in *. apply NoDup_nth_error. intros i j Hi E. unfold ids in *.
  rewrite map_length in Hi. rewrite !nth_error_map2 in E.
  destruct (nth_error (o_out s) i) as [[t1 id1]|] eqn:E1; [|apply nth_error_None in E1; lia].
  destruct (nth_error (o_out s) j) as [[t2 id2]|] eqn:E2; [|discriminate]. cbn in E. injection E as E.
  assert (Hj : (j < length (o_out s))%nat) by (apply nth_error_Some; congruence).
  apply (C23_equal_ids unique clock base es i j t1 t2 id1 id2) in E as [Et Ek]; auto. unfold two24 in Ek.
  destruct H as [H|(P & Hc & Ht & Hn)]; [lia|].
  assert (N : nondecreasing (stamps s)).
  { apply prompt_stamps; [exact P|exact Logic.I|]. intros y []. }
  assert (S1 : nth_error (stamps s) i = Some t1) by (unfold stamps; rewrite nth_error_map2, E1; reflexivity).
  assert (S2 : nth_error (stamps s) j = Some t2) by (unfold stamps; rewrite nth_error_map2, E2; reflexivity).
  assert (G : forall es s0, (forall y, In y (stamps s0) -> 0 <= y) -> (forall c y, In (c, y) (o_stamp s0) -> 0 <= y) ->
     0 <= o_clock s0 -> forall y, In y (stamps (oid_run unique s0 es)) -> 0 <= y).
  { clear. unfold oid_run. induction es as [|e es IH]; intros s0 A B C y; cbn; [auto|].
    apply IH; destruct e as [n|c|c]; cbn [oid_step]; auto.
    - destruct (stamp_of c (o_stamp s0)) as [t|] eqn:Es; [|auto]. unfold stamps in *. cbn [o_out].
      rewrite map_app. intros z Hz. apply in_app_or in Hz as [Hz|[<-|[]]]; [auto|]. cbn.
      assert (exists c', In (c', t) (o_stamp s0)) as [c' Hin].
      { clear - Es. induction (o_stamp s0) as [|[c' t'] r IH]; cbn in *; [discriminate|].
        destruct (Nat.eqb c' c); [injection Es as ->; eauto|]. destruct (IH Es). eauto. }
      eauto.
    - intros c' z [H|H]; [injection H as <- <-; auto|eauto].
    - destruct (stamp_of c (o_stamp s0)); [|auto]. cbn [o_stamp]. intros c' w H. apply filter_In in H as [H _]. eauto.
    - cbn. lia.
    - destruct (stamp_of c (o_stamp s0)); auto. }
  assert (P0 : forall y, In y (stamps s) -> 0 <= y).
  { apply G; [intros y []|intros c y []|exact Hc]. }
  assert (t1 = t2).
  { apply nth_error_In in S1, S2. pose proof (Ht _ S1). pose proof (Ht _ S2). pose proof (P0 _ S1). pose proof (P0 _ S2). lia. }
  subst t2. specialize (Hn t1). destruct (Nat.le_ge_cases i j) as [L|L].
  - pose proof (in_second_between _ _ N i j L S1 S2). lia.
  - pose proof (in_second_between _ _ N j i L S2 S1). lia.
Qed.
Example C23_unique_case :
  let es := [Start 0; Start 1; Add 1; Add 0; Tick 1; Start 1; Add 1] in
  let s := oid_run (repeat 9 5) (oid_init 100 16777215) es in
  prompt (oid_init 100 16777215) (repeat 9 5) es /\
  ids s = [be32 100 ++ repeat 9 5 ++ [0;0;0]; be32 100 ++ repeat 9 5 ++ [0;0;1]; be32 101 ++ repeat 9 5 ++ [0;0;2]].
Proof. cbn. repeat split. Qed.

(* n calls of caller 2, one after the other *)
Definition batch (n : nat) : list oid_event := concat (repeat [Start 2; Add 2] n).
Lemma batch_run unique n : forall s, (forall t, ~ In (2%nat, t) (o_stamp s)) ->
  let s' := oid_run unique s (batch n) in
  o_clock s' = o_clock s /\ o_stamp s' = o_stamp s /\ stamps s' = stamps s ++ repeat (o_clock s) n.
Proof.
  unfold batch. induction n as [|n IH]; intros s H; cbn [repeat concat].
  - cbn. rewrite app_nil_r. auto.
  - rewrite oid_run_app. set (s1 := oid_run unique s [Start 2; Add 2]).
    assert (A : o_clock s1 = o_clock s /\ o_stamp s1 = o_stamp s /\ stamps s1 = stamps s ++ [o_clock s]).
    { unfold s1, oid_run. cbn [fold_left oid_step o_stamp stamp_of Nat.eqb o_clock o_counter o_out]. unfold stamps. cbn [o_out].
      split; [reflexivity|]. split.
      - cbn [filter fst Nat.eqb negb]. clear s1 IH. induction (o_stamp s) as [|[c t] r IHr]; [reflexivity|]. cbn [filter fst].
        destruct (Nat.eqb_spec c 2) as [->|Nc].
        + exfalso. apply (H t). left. reflexivity.
        + cbn [negb]. f_equal. apply IHr. intros t' Ht'. apply (H t'). now right.
      - rewrite map_app. reflexivity. }
    destruct A as (A1 & A2 & A3). clearbody s1. destruct (IH s1) as (B1 & B2 & B3); [rewrite A2; auto|].
    rewrite B1, B2, B3, A1, A2, A3. rewrite <- app_assoc. auto.
Qed.
Lemma in_second_app t a b : in_second t (a ++ b) = (in_second t a + in_second t b)%nat.
Proof. unfold in_second. now rewrite filter_app, app_length. Qed.
Lemma in_second_repeat t x n : in_second t (repeat x n) = if x =? t then n else 0%nat.
Proof.
  unfold in_second. induction n as [|n IH]; cbn; [now destruct (x =? t)|]. destruct (x =? t) eqn:E; cbn; lia.
Qed.
(* One call held up between reading the clock and adding to the counter, while 2^24 calls of
   others go on at a rate of at most 2^23 + 2 per second, gets an id already given out. *)
Theorem C23_unique_refuted : ~ (forall unique clock base es,
  let s := oid_run unique (oid_init clock base) es in
  (forall t, Z.of_nat (in_second t (stamps s)) < two24) -> NoDup (ids s)).
Proof.
  intros H. set (u := repeat 9 5).
  assert (exists h, Z.of_nat h = 8388608) as [h Hh] by (exists (Z.to_nat 8388608); apply Z2Nat.id; discriminate).
  set (es := [Start 1; Start 0; Add 0; Tick 1] ++ batch h ++ [Tick 1] ++ batch (h - 1) ++ [Add 1]).
  set (s := oid_run u (oid_init 0 0) es).
  assert (St : stamps s = [0] ++ repeat 1 h ++ repeat 2 (h - 1) ++ [0]).
  { unfold s, es. rewrite !oid_run_app. set (s1 := oid_run u (oid_init 0 0) [Start 1; Start 0; Add 0; Tick 1]).
    destruct (batch_run u h s1) as (A1 & A2 & A3). { intros t [E|[]]. discriminate E. }
    set (s2 := oid_run u s1 (batch h)) in *.
    set (s3 := oid_run u s2 [Tick 1]).
    assert (C3 : o_clock s3 = 2 /\ o_stamp s3 = [(1%nat, 0)] /\ stamps s3 = [0] ++ repeat 1 h).
    { unfold s3, oid_run. cbn [fold_left oid_step o_clock o_stamp]. rewrite A1, A2. unfold stamps in *. cbn [o_out]. rewrite A3. auto. }
    clearbody s3. destruct C3 as (C1 & C2 & C3).
    destruct (batch_run u (h - 1) s3) as (B1 & B2 & B3). { rewrite C2. intros t [E|[]]. discriminate E. }
    set (s4 := oid_run u s3 (batch (h - 1))) in *. clearbody s4.
    unfold oid_run. cbn [fold_left oid_step]. rewrite B2, C2. cbn [stamp_of Nat.eqb]. unfold stamps in *. cbn [o_out].
    rewrite map_app, B3, C3, C1. cbn [map fst]. now rewrite <- !app_assoc. }
  specialize (H u 0 0 es). cbv zeta in H. change (oid_run u (oid_init 0 0) es) with s in H.
  assert (N : NoDup (ids s)).
  { apply H. intros t. rewrite St, !in_second_app, !in_second_repeat.
    assert (in_second t [0%Z] <= 1)%nat by (unfold in_second; cbn [filter]; destruct (0 =? t); cbn; lia).
    unfold two24. destruct (1 =? t) eqn:E1, (2 =? t) eqn:E2; lia. }
  assert (Lo : length (o_out s) = (2 * h + 1)%nat).
  { rewrite <- (map_length fst). fold (stamps s). rewrite St, !app_length, !repeat_length. cbn [length]. lia. }
  assert (T0 : nth_error (stamps s) 0 = Some 0) by now rewrite St.
  assert (T1 : nth_error (stamps s) (2 * h) = Some 0).
  { rewrite St, !app_assoc. rewrite nth_error_app2; rewrite !app_length, !repeat_length; cbn [length]; [|lia].
    now replace (2 * h - _)%nat with 0%nat by lia. }
  unfold stamps in T0, T1. rewrite nth_error_map2 in T0, T1.
  destruct (nth_error (o_out s) 0) as [[t1 id1]|] eqn:E1; [|discriminate].
  destruct (nth_error (o_out s) (2 * h)) as [[t2 id2]|] eqn:E2; [|discriminate].
  cbn in T0, T1. injection T0 as ->. injection T1 as ->.
  assert (id1 = id2).
  { apply (C23_equal_ids u 0 0 es 0 (2 * h) 0 0 id1 id2); auto. split; [reflexivity|]. unfold two24. lia. }
  subst id2. rewrite NoDup_nth_error in N. specialize (N 0%nat (2 * h)%nat).
  unfold ids in N. rewrite map_length, !nth_error_map2, E1, E2 in N. specialize (N ltac:(lia) eq_refl). lia.
Qed.

(* ------------------------------------------------------- C24: text of Decimal128 values *)

Lemma exponent_exp x t : exponent_text x t -> exp_text x t.
Proof.
  intros (xs & (Nx & Fx & Vx & _) & ->). right.
  destruct (x <? 0) eqn:E.
  - exists 69, true, [45], xs. repeat split; auto; [left; reflexivity|lia].
  - exists 69, false, [43], xs. repeat split; auto; [right; auto|lia].
Qed.
Lemma value_zeros n ds : value (repeat 48 n ++ ds) = value ds.
Proof.
  rewrite value_app. assert (value (repeat 48 n) = 0) as ->.
  { induction n as [|n IH]; [reflexivity|]. cbn [repeat]. change (48 :: repeat 48 n) with ([48] ++ repeat 48 n).
    rewrite value_app, IH, value_single. lia. }
  lia.
Qed.
Lemma digits_zeros n : Forall digit (repeat 48 n).
Proof. apply Forall_forall. intros x Hx. apply repeat_spec in Hx. subst x. unfold digit. lia. Qed.
(* the text of a canonical number is parsed to that number *)
Lemma parse_dec_text neg ds c e t : canonical c e -> numeral ds c -> dec_text neg ds e t ->
  dec_parse t = Ret (Some (dec_bits neg c e)).
Proof.
  intros C N (xt & -> & X). pose proof N as (Nd & Fd & Vd & _). pose proof C as [Cc Ce].
  pose proof (numeral_length ds c 34 N ltac:(lia) ltac:(apply Cc)) as L34.
  assert (Lp : 1 <= zlen ds) by (destruct ds; [congruence|unfold zlen; cbn [length]; lia]).
  assert (Sg : sign_text neg (if neg then [45] else [])) by now left.
  assert (P : forall ip fp fs x, Forall digit ip -> frac_text fp fs -> ip ++ fp <> [] -> exp_text x xt -> -100000 < x < 100000 ->
    value (ip ++ fp) = c -> x - zlen fp = e ->
    dec_parse ((if neg then [45] else []) ++ ip ++ fs ++ xt) = Ret (Some (dec_bits neg c e))).
  { intros ip fp fs x F1 F2 Ne Ex Hx V E. rewrite <- V, <- E. eapply parse_spec; eauto. rewrite V, E. exact C. }
  unfold mantissa. destruct (sci ds e) eqn:S.
  - apply exponent_exp in X. destruct ds as [|d [|d2 r]]; [congruence| |].
    + apply (P [d] [] [] (e + zlen [d] - 1)); auto; try discriminate; change (zlen [d]) with 1 in *; try lia.
      * split; [constructor|left; auto].
      * change (zlen []) with 0. lia.
    + inversion Fd as [|? ? D Fd']; subst.
      assert (zlen (d :: d2 :: r) = zlen (d2 :: r) + 1) as E1 by (unfold zlen; cbn [length]; lia).
      change ((d :: 46 :: d2 :: r) ++ xt) with ([d] ++ (46 :: d2 :: r) ++ xt).
      apply (P [d] (d2 :: r) (46 :: d2 :: r) (e + zlen (d :: d2 :: r) - 1)); auto; try discriminate; try lia.
      split; [auto|right; split; [discriminate|reflexivity]].
  - subst xt. assert (X0 : exp_text 0 []) by (left; auto). unfold sci in S. destruct (e =? 0) eqn:E0.
    + apply (P ds [] [] 0); auto; try lia.
      * split; [constructor|left; auto].
      * now rewrite app_nil_r.
      * now rewrite app_nil_r.
      * change (zlen []) with 0. lia.
    + assert (e < 0) by lia. destruct (- e <? zlen ds) eqn:E1.
      * set (k := Z.to_nat (zlen ds + e)).
        assert (Fk : Forall digit (firstn k ds) /\ Forall digit (skipn k ds)) by (apply Forall_app; now rewrite firstn_skipn).
        assert (Lk : zlen (skipn k ds) = - e) by (unfold zlen in *; rewrite skipn_length; unfold k; lia).
        rewrite <- app_assoc. rewrite <- app_assoc. change ([46] ++ skipn k ds ++ []) with ((46 :: skipn k ds) ++ []).
        apply (P (firstn k ds) (skipn k ds) (46 :: skipn k ds) 0); auto; try lia.
        -- apply Fk.
        -- split; [apply Fk|right; split; [|reflexivity]]. intros E. rewrite E in Lk. change (zlen []) with 0 in Lk. lia.
        -- now rewrite firstn_skipn.
        -- now rewrite firstn_skipn.
      * set (k := Z.to_nat (- e - zlen ds)).
        change (([48; 46] ++ repeat 48 k ++ ds) ++ []) with ([48] ++ (46 :: repeat 48 k ++ ds) ++ []).
        apply (P [48] (repeat 48 k ++ ds) (46 :: repeat 48 k ++ ds) 0); auto; try lia; try discriminate.
        -- repeat constructor; unfold digit; lia.
        -- split; [apply Forall_app; split; [apply digits_zeros|auto]|right; split; [|reflexivity]].
           intros E. apply app_eq_nil in E as [_ E]. auto.
        -- change ([48] ++ repeat 48 k ++ ds) with (repeat 48 (Datatypes.S k) ++ ds). now rewrite value_zeros.
        -- unfold zlen in *. rewrite app_length, repeat_length. unfold k. lia.
Qed.

(* A canonical decimal128 (IEEE 754, binary encoding): sign, exponent biased by 6176 in the
   bits from 49 up, and a coefficient below 10^34 in the low 113 bits. *)
Definition finite (h l : Z) : Prop := is_u64 h /\ is_u64 l /\
  exists (neg : bool) E q, h = (if neg then 2 ^ 63 else 0) + E * 2 ^ 49 + q /\ 0 <= E <= 12287 /\ 0 <= q /\ q * 2 ^ 64 + l < 10 ^ 34.
Lemma finite_bits h l : finite h l -> exists neg c e, canonical c e /\ dec_bits neg c e = (h, l).
Proof.
  intros (Hh & Hl & neg & E & q & -> & HE & Hq & Hc). unfold is_u64 in *.
  exists neg, (q * 2 ^ 64 + l), (E - 6176). change (10 ^ 34) with 10000000000000000000000000000000000 in Hc.
  change (2 ^ 64) with 18446744073709551616 in *. split; [unfold canonical; lia|].
  unfold dec_bits. f_equal; [|lia].
  assert ((q * 18446744073709551616 + l) / 18446744073709551616 = q) as -> by lia.
  change (2 ^ 63) with 9223372036854775808. change (2 ^ 49) with 562949953421312. destruct neg; lia.
Qed.
Theorem C24_round_trip h l : finite h l ->
  exists t, dec_string h l = Ret t /\ dec_parse t = Ret (Some (h, l)).
Proof.
  intros F. destruct (finite_bits h l F) as (neg & c & e & C & B).
  assert (N : numeral (itoa c) c) by (apply itoa_numeral; apply C).
  destruct (dec_string_spec neg c e (itoa c) C N) as (t & E & T). rewrite B in E. cbn [fst snd] in E.
  exists t. split; [exact E|]. rewrite <- B. now apply (parse_dec_text neg (itoa c)).
Qed.
Example C24_case : finite (3476778912330022912 + 9223372036854775808) 123456789 /\
  dec_string (3476778912330022912 + 9223372036854775808) 123456789 = Ret [45;49;50;51;52;53;54;55;56;57].
Proof.
  split; [|reflexivity]. split; [unfold is_u64; lia|]. split; [unfold is_u64; lia|]. exists true, 6176, 0. 
  split; [reflexivity|]. repeat split; lia.
Qed.
(* The values that are not finite: NaN and the infinities *)
Theorem C24_special :
  (dec_string (fst d_nan) (snd d_nan) = Ret s_nan /\ dec_parse s_nan = Ret (Some d_nan)) /\
  forall neg, exists t, dec_string (fst (d_inf neg)) (snd (d_inf neg)) = Ret t /\ dec_parse t = Ret (Some (d_inf neg)).
Proof. split; [split; reflexivity|]. intros [|]; eexists; split; reflexivity. Qed.

(* --------------------------------------------------------- C25: the 128-bit arithmetic *)

Theorem C25_division h l div : is_u64 h -> is_u64 l -> 0 < div < 2 ^ 32 ->
  let '(qh, ql, rem) := divmod h l div in
  is_u64 qh /\ is_u64 ql /\ qh * 2 ^ 64 + ql = (h * 2 ^ 64 + l) / div /\ rem = (h * 2 ^ 64 + l) mod div.
Proof.
  intros Hh Hl Hd. pose proof (divmod_spec h l div Hh Hl Hd) as D. unfold val128 in D.
  change (2 ^ 64) with 18446744073709551616. destruct (divmod h l div) as [[qh ql] rem]. tauto.
Qed.
(* the carry out of the top word is lost *)
Theorem C25_multiply_refuted : ~ (forall h l mul add, is_u64 h -> is_u64 l -> is_u32 mul -> is_u32 add ->
  let '(ph, pl, ovr) := muladd h l mul add in
  (0 < ovr <-> 2 ^ 128 <= (h * 2 ^ 64 + l) * mul + add)).
Proof.
  intros H. specialize (H 9223372036854775808 0 2 0). unfold is_u64, is_u32 in H.
  specialize (H ltac:(lia) ltac:(lia) ltac:(lia) ltac:(lia)). vm_compute in H. destruct H as [_ H]. 
  specialize (H ltac:(discriminate)). discriminate.
Qed.
(* Missing: an overflow is not always reported.  What is reported is one, and the value is
   right modulo 2^128, so right when it fits. *)
Theorem C25_multiply_partial h l mul add : is_u64 h -> is_u64 l -> is_u32 mul -> is_u32 add ->
  let '(ph, pl, ovr) := muladd h l mul add in
  is_u64 ph /\ is_u64 pl /\ ph * 2 ^ 64 + pl = ((h * 2 ^ 64 + l) * mul + add) mod 2 ^ 128 /\
  (0 < ovr -> 2 ^ 128 <= (h * 2 ^ 64 + l) * mul + add).
Proof.
  intros Hh Hl Hm Ha. pose proof (muladd_spec h l mul add Hh Hl Hm Ha) as D. unfold val128 in D.
  change (2 ^ 64) with 18446744073709551616. change (2 ^ 128) with 340282366920938463463374607431768211456.
  destruct (muladd h l mul add) as [[ph pl] ovr]. tauto.
Qed.

(* ------------------------------------------------- C54: String is to-scientific-string *)

Theorem C54_scientific_string (neg : bool) E q l ds :
  0 <= E <= 12287 -> 0 <= q -> 0 <= l < 2 ^ 64 -> q * 2 ^ 64 + l < 10 ^ 34 -> numeral ds (q * 2 ^ 64 + l) ->
  exists t, dec_string ((if neg then 2 ^ 63 else 0) + E * 2 ^ 49 + q) l = Ret t /\ dec_text neg ds (E - 6176) t.
Proof.
  intros HE Hq Hl Hc N. change (10 ^ 34) with 10000000000000000000000000000000000 in Hc.
  change (2 ^ 64) with 18446744073709551616 in *.
  assert (C : canonical (q * 18446744073709551616 + l) (E - 6176)) by (unfold canonical; lia).
  destruct (dec_string_spec neg _ _ ds C N) as (t & D & T). exists t. split; [|exact T]. rewrite <- D. unfold dec_bits. cbn [fst snd].
  assert ((q * 18446744073709551616 + l) / 18446744073709551616 = q) as -> by lia.
  assert ((q * 18446744073709551616 + l) mod 18446744073709551616 = l) as -> by lia.
  change (2 ^ 63) with 9223372036854775808. change (2 ^ 49) with 562949953421312. f_equal. destruct neg; lia.
Qed.
(* The forms: 1.23E+5, 123, 1.23, 0.00123, 1.23E-8 *)
Example C54_case : exists t, dec_text false [49;50;51] 3 t /\ t = [49;46;50;51;69;43;53].
Proof. eexists. split; [|reflexivity]. exists [69;43;53]. split; [reflexivity|]. exists [53]. repeat split; try discriminate; cbn; try lia. repeat constructor; unfold digit; lia. Qed.

(* --------------------------------------------------- C55: what ParseDecimal128 returns *)

(* t stands for (-1)^neg * c * 10^e *)
Definition denotes (t : bytes) (neg : bool) (c e : Z) : Prop :=
  exists sg ip fp fs x xs, t = sg ++ ip ++ fs ++ xs /\ sign_text neg sg /\ Forall digit ip /\ frac_text fp fs /\
    ip ++ fp <> [] /\ exp_text x xs /\ c = value (ip ++ fp) /\ e = x - zlen fp.
Definition same_number (c e c' e' : Z) : Prop :=
  if e' <=? e then c * 10 ^ (e - e') = c' else c = c' * 10 ^ (e' - e).

(* A number with at most 34 significant digits and an exponent in range is parsed exactly.
   Missing: longer texts and exponents that have to be shifted into range. *)
Theorem C55_parse_partial t neg c e : denotes t neg c e -> canonical c e ->
  zlen t < 90000 ->
  dec_parse t = Ret (Some (dec_bits neg c e)).
Proof.
  intros (sg & ip & fp & fs & x & xs & -> & S & Fi & Ff & Ne & X & -> & ->) C L.
  apply parse_spec; auto. destruct C as [_ C].
  assert (zlen fp <= zlen (sg ++ ip ++ fs ++ xs)).
  { unfold zlen. rewrite !app_length. destruct Ff as [_ [(-> & ->)|(_ & ->)]]; cbn [length]; lia. }
  assert (0 <= zlen fp) by (unfold zlen; lia). lia.
Qed.
Example C55_parse_case : denotes [43;49;46;50;53;101;45;51] false 125 (-5) /\
  dec_parse [43;49;46;50;53;101;45;51] = Ret (Some (dec_bits false 125 (-5))).
Proof.
  split; [|reflexivity]. exists [43], [49], [50;53], [46;50;53], (-3), [101;45;51].
  split; [reflexivity|]. split; [now right|]. split; [repeat constructor; unfold digit; lia|].
  split; [split; [repeat constructor; unfold digit; lia|right; split; [discriminate|reflexivity]]|].
  split; [discriminate|]. split; [|split; reflexivity].
  right. exists 101, true, [45], [51]. repeat split; auto; try discriminate; [repeat constructor; unfold digit; lia|now left].
Qed.
(* 340282366920938463463374607432E6120 is parsed, without an error, to 2.31788544E+6119:
   scaling the coefficient into range overflows 128 bits unnoticed. *)
Theorem C55_parse_refuted : ~ (forall t neg c e h l, denotes t neg c e -> dec_parse t = Ret (Some (h, l)) ->
  exists c' e', canonical c' e' /\ dec_bits neg c' e' = (h, l) /\ same_number c e c' e').
Proof.
  intros H. set (ds := [51;52;48;50;56;50;51;54;54;57;50;48;57;51;56;52;54;51;52;54;51;51;55;52;54;48;55;52;51;50]).
  set (b := dec_bits false 231788544 6111).
  destruct (H (ds ++ [69;54;49;50;48]) false 340282366920938463463374607432 6120 (fst b) (snd b)) as (c' & e' & [Cc Ce] & B & S).
  - exists [], ds, [], [], 6120, [69;54;49;50;48]. split; [reflexivity|]. split; [now left|].
    split; [repeat constructor; unfold digit; lia|]. split; [split; [constructor|now left]|]. split; [discriminate|].
    split; [|split; reflexivity]. right. exists 69, false, [], [54;49;50;48].
    repeat split; auto; try discriminate; [repeat constructor; unfold digit; lia|now left].
  - vm_compute. reflexivity.
  - clear H. unfold b, dec_bits in B. cbn [fst snd] in B. injection B as B1 B2. unfold same_number in S.
    assert (231788544 / 18446744073709551616 = 0) as E1 by reflexivity. rewrite E1 in B1.
    assert (e' = 6111 /\ c' = 231788544) as [-> ->].
    { assert (231788544 mod 18446744073709551616 = 231788544) by reflexivity. lia. }
    vm_compute in S. discriminate.
Qed.

(* A whole number with 34 digits and more zeros: the zeros are counted into the exponent, which
   is not checked against its range. *)
Lemma zeros_loop n k : forall p, ps_mul p <> 1000000000 -> 34 <= ps_digits p ->
  p_loop n (repeat 48 k) p =
    Some (MkP (ps_h p) (ps_l p) (ps_e p + Z.of_nat k) (ps_add p) (ps_mul p) (ps_dot p) (ps_digits p + Z.of_nat k) (ps_i p + Z.of_nat k), []).
Proof.
  induction k as [|k IH]; intros p M D; cbn [repeat p_loop].
  - destruct p; cbn. do 3 f_equal; lia.
  - replace (ps_mul p =? 1000000000) with false by lia. change (is_digit 48) with true. cbn iota.
    replace ((48 <? 48) || (0 <? ps_digits p)) with true by lia. replace (34 <? ps_digits p + 1) with true by lia.
    change (48 =? 48) with true. cbn iota. rewrite IH; cbn [ps_mul ps_digits ps_h ps_l ps_e ps_add ps_dot ps_i]; [|auto|lia].
    do 3 f_equal; lia.
Qed.
Lemma p_loop_app n ds r : Forall digit ds -> forall p,
  p_loop n (ds ++ r) p = match p_loop 0 ds p with Some (p', _) => p_loop n r p' | None => None end.
Proof.
  induction 1 as [|c ds D _ IH]; intros p; [reflexivity|]. cbn [app p_loop]. fold (p_flush p).
  destruct (p_flush p) as [p1|]; [|reflexivity]. rewrite (proj2 (is_digit_spec c) D).
  destruct (34 <? _); [destruct (c =? 48)|]; auto.
Qed.
(* the 34 digits of 10^33, then k more zeros *)
Lemma parse_long k : dec_parse ((49 :: repeat 48 33) ++ repeat 48 k) =
  Ret (Some (p_finish false 54210108624275 4089650035136921600 (Z.of_nat k))).
Proof.
  set (hd33 := 49 :: repeat 48 33).
  assert (D : forall s, dec_parse (hd33 ++ s) = match p_loop (zlen (hd33 ++ s)) (hd33 ++ s) (MkP 0 0 0 0 1 (-1) 0 0) with
     None => Ret None | Some (p, r) => p_rest false p r end).
  { intros s. unfold hd33. change ((49 :: repeat 48 33) ++ s) with (49 :: (repeat 48 33 ++ s)). unfold dec_parse.
    change (49 =? 45) with false. change (49 =? 43) with false. cbn [orb hd]. 
    change ((49 =? 78) || (49 =? 110) || (49 =? 73) || (49 =? 105)) with false. now rewrite andb_false_r. }
  rewrite D, p_loop_app by (constructor; [unfold digit; lia|apply digits_zeros]). clear D.
  assert (p_loop 0 hd33 (MkP 0 0 0 0 1 (-1) 0 0) = Some (MkP 5421010 15908979783594147840 0 0 10000000 (-1) 34 34, [])) as ->
    by (vm_compute; reflexivity).
  rewrite zeros_loop; cbn [ps_mul ps_digits ps_h ps_l ps_e ps_add ps_dot ps_i]; [|discriminate|discriminate].
  unfold p_rest. cbn [ps_mul ps_digits ps_h ps_l ps_e ps_add ps_dot ps_i].
  replace (34 + Z.of_nat k =? 0) with false by lia.
  assert (muladd 5421010 15908979783594147840 10000000 0 = (54210108624275, 4089650035136921600, 0)) as -> by (vm_compute; reflexivity).
  reflexivity.
Qed.
Lemma value_tens d n : value (d :: repeat 48 n) = (d - 48) * 10 ^ Z.of_nat n.
Proof.
  change (d :: repeat 48 n) with ([d] ++ repeat 48 n). rewrite value_app, value_single.
  pose proof (value_zeros n []) as Z0. rewrite app_nil_r in Z0. rewrite Z0. change (value []) with 0.
  unfold zlen. rewrite repeat_length. lia.
Qed.
(* 10^6145 is out of range, but is parsed without an error to a value that prints as 0E-6176. *)
Theorem C55_long_number_refuted : exists ds h l t, Forall digit ds /\ value ds = 10 ^ 6145 /\
  dec_parse ds = Ret (Some (h, l)) /\ dec_string h l = Ret t /\ denotes t false 0 (-6176).
Proof.
  assert (exists k, Z.of_nat k = 6112) as [k Hk] by (exists (Z.to_nat 6112); apply Z2Nat.id; discriminate).
  exists ((49 :: repeat 48 33) ++ repeat 48 k), 6917583237749706131, 4089650035136921600, [48; 69; 45; 54; 49; 55; 54].
  split; [apply Forall_app; split; [constructor; [unfold digit; lia|apply digits_zeros]|apply digits_zeros]|].
  split.
  { change ((49 :: repeat 48 33) ++ repeat 48 k) with (49 :: (repeat 48 33 ++ repeat 48 k)).
    rewrite <- repeat_app, value_tens. change (49 - 48) with 1. rewrite Z.mul_1_l. f_equal. lia. }
  split; [rewrite parse_long, Hk; vm_compute; reflexivity|]. split; [vm_compute; reflexivity|].
  exists [], [48], [], [], (-6176), [69; 45; 54; 49; 55; 54]. split; [reflexivity|]. split; [now left|].
  split; [repeat constructor; unfold digit; lia|]. split; [split; [constructor|now left]|]. split; [discriminate|].
  split; [|split; reflexivity]. right. exists 69, true, [45], [54; 49; 55; 54].
  repeat split; auto; try discriminate; [repeat constructor; unfold digit; lia|now left].
Qed.

(* ---------------------------------------------- C56: the text functions are total *)

Lemma p_pow_less k : forall div n d m, 0 <= n -> p_pow k div n = (d, m) -> 0 <= m <= n.
Proof.
  induction k as [|k IH]; intros div n d m Hn H; cbn [p_pow] in H; [injection H as <- <-; lia|].
  destruct ((div <? 1000000000) && (0 <? n)) eqn:E; [|injection H as <- <-; lia]. apply IH in H; lia.
Qed.
Lemma p_pow_ten n d m : 0 < n -> p_pow 10 1 n = (d, m) -> 0 <= m < n.
Proof.
  intros Hn. assert (A : forall k, p_pow (Datatypes.S k) 1 n = (d, m) -> 0 <= m < n); [|apply A].
  intros k H. cbn [p_pow] in H. replace ((1 <? 1000000000) && (0 <? n)) with true in H by lia. apply p_pow_less in H; lia.
Qed.
Lemma p_subnormal_ret fuel : forall h l e, -6176 - e <= Z.of_nat fuel -> exists r, p_subnormal fuel h l e = Ret r.
Proof.
  induction fuel as [|k IH]; intros h l e H; cbn [p_subnormal]; destruct (e <? -6176) eqn:E; try lia; eauto.
  destruct (p_pow 10 1 (-6176 - e)) as [div m] eqn:P. apply p_pow_ten in P; [|lia].
  destruct (divmod h l div) as [[h' l'] rem]. destruct (0 <? rem); [eauto|]. apply IH. lia.
Qed.
Lemma p_clamp_ret fuel : forall h l e, e - 6111 <= Z.of_nat fuel -> exists r, p_clamp fuel h l e = Ret r.
Proof.
  induction fuel as [|k IH]; intros h l e H; cbn [p_clamp]; destruct (6111 <? e) eqn:E; try lia; eauto.
  destruct (p_pow 10 1 (e - 6111)) as [mul m] eqn:P. apply p_pow_ten in P; [|lia].
  destruct (muladd h l mul 0) as [[h' l'] ovr]. destruct ((0 <? ovr) || too_high h'); [eauto|]. apply IH. lia.
Qed.
(* ParseDecimal128 ends on every text, with a value or an error. *)
Theorem C56_parse_total s : exists r, dec_parse s = Ret r.
Proof.
  unfold dec_parse. destruct s as [|c0 s0]; [eauto|]. cbv zeta.
  set (s1 := if (c0 =? 45) || (c0 =? 43) then s0 else c0 :: s0). clearbody s1.
  destruct (((zlen s1 =? 3) || (zlen s1 =? 8)) && _).
  { destruct (fold_eq s1 [110; 97; 110]); [eauto|]. destruct (_ || _); eauto. }
  destruct (p_loop _ s1 _) as [[p r]|]; [|eauto]. unfold p_rest.
  destruct (ps_i p =? 0); [eauto|].
  destruct (if 1 <? ps_mul p then muladd (ps_h p) (ps_l p) (ps_mul p) (ps_add p) else (ps_h p, ps_l p, 0)) as [[h l] ovr].
  destruct ((1 <? ps_mul p) && _); [eauto|]. destruct r as [|c [|c2 r2]]; [eauto|eauto|].
  destruct ((c =? 69) || (c =? 101)); [|eauto]. cbv zeta. destruct (_ && _); [eauto|].
  destruct (p_exp _ 0) as [[n r4]|]; [|eauto].
  set (e := _ + _). clearbody e.
  destruct (p_subnormal_ret (Z.to_nat (-6176 - e)) h l e ltac:(lia)) as [[[[h1 l1] e1]|] ->]; cbn [bind]; [|eauto].
  destruct (p_clamp_ret (Z.to_nat (e1 - 6111)) h1 l1 e1 ltac:(lia)) as [[[[h2 l2] e2]|] ->]; cbn [bind]; [|eauto].
  destruct (_ || _); [eauto|]. destruct r4; eauto.
Qed.

(* after k digits: without a dot so far, or with one *)
Definition tinv (k : Z) (s : dstate) : Prop :=
  ds_i s <= ds_last s /\
  ((ds_i s = 48 - k /\ ds_dot s = 48 + ds_e s) \/
   (ds_i s = 47 - k /\ ds_dot s = 48 /\ (ds_e s <= 0 \/ (ds_h s = 0 /\ ds_l s = 0 /\ ds_rem s = 0)))).
Lemma tinv_turn k s : 0 <= k <= 44 -> tinv k s -> exists b s', d_turn s = Ret (b, s') /\ tinv (k + 1) s'.
Proof.
  intros Hk [L H]. unfold d_turn.
  destruct ((ds_i s <? 48) && ((ds_dot s =? ds_i s) || _)) eqn:W.
  - destruct H as [(Ei & Ed)|(Ei & Ed & He)]; [|exfalso; lia].
    assert (A : ds_e s + (48 - ds_i s) <= 0 \/ (ds_h s = 0 /\ ds_l s = 0 /\ 0 < ds_rem s < 10)) by lia. clear W.
    unfold d_write at 1. replace (ds_i s <? 1) with false by lia. cbn [bind ds_i ds_h ds_l ds_rem ds_out ds_last ds_dot ds_e].
    unfold d_write. cbn [bind ds_i ds_h ds_l ds_rem ds_out ds_last ds_dot ds_e].
    replace (ds_i s - 1 <? 1) with false by lia. cbn [bind ds_i ds_h ds_l ds_rem ds_out ds_last ds_dot ds_e].
    assert (Rm : ds_e s + (48 - ds_i s) <= 0 \/ (ds_h s = 0 /\ ds_l s = 0 /\ ds_rem s / 10 = 0)) by (destruct A as [A|(A1 & A2 & A3)]; [auto|right; repeat split; auto; lia]).
    repeat match goal with |- context [if ?b then _ else _] => destruct b end;
      (eexists _, _; split; [reflexivity|]); unfold tinv; cbn [ds_i ds_h ds_l ds_rem ds_out ds_last ds_dot ds_e]; (split; [lia|]); right; repeat split; try lia; exact Rm.
  - cbn [bind]. unfold d_write. cbn [bind ds_i ds_h ds_l ds_rem ds_out ds_last ds_dot ds_e].
    replace (ds_i s <? 1) with false by lia. cbn [bind ds_i ds_h ds_l ds_rem ds_out ds_last ds_dot ds_e]. clear W.
    repeat match goal with |- context [if ?b then _ else _] => destruct b end;
      (eexists _, _; split; [reflexivity|]); unfold tinv; cbn [ds_i ds_h ds_l ds_rem ds_out ds_last ds_dot ds_e]; (split; [lia|]);
      (destruct H as [(Ei & Ed)|(Ei & Ed & [He|(H1 & H2 & H3)])]; [left; lia|right; lia|right; repeat split; try lia; right; rewrite H3; auto]).
Qed.
Lemma tinv_inner n : forall k s, 0 <= k -> k + Z.of_nat n <= 45 -> tinv k s ->
  exists b s' k', d_inner n s = Ret (b, s') /\ tinv k' s' /\ 0 <= k' <= 45 /\ (b = false -> k' = k + Z.of_nat n).
Proof.
  induction n as [|n IH]; intros k s H0 H1 T; cbn [d_inner].
  - exists false, s, k. split; [reflexivity|]. split; [exact T|]. lia.
  - destruct (tinv_turn k s ltac:(lia) T) as (b & s' & -> & T'). cbn [bind]. destruct b.
    + exists true, s', (k + 1). split; [reflexivity|]. split; [exact T'|]. split; [lia|discriminate].
    + destruct (IH (k + 1) s' ltac:(lia) ltac:(lia) T') as (b & s2 & k' & -> & T2 & K & Kb). exists b, s2, k'.
      split; [reflexivity|]. split; [exact T2|]. split; [lia|]. intros Eb. rewrite Kb by auto. lia.
Qed.
Lemma tinv_outer n : forall k s, 0 <= k -> k + 9 * Z.of_nat n <= 45 -> tinv k s ->
  exists s' k', d_outer n s = Ret s' /\ tinv k' s' /\ 0 <= k' <= 45.
Proof.
  induction n as [|n IH]; intros k s H0 H1 T; cbn [d_outer].
  - exists s, k. split; [reflexivity|]. split; [exact T|lia].
  - destruct (divmod (ds_h s) (ds_l s) 1000000000) as [[h l] rem] eqn:D.
    assert (T1 : tinv k (MkD h l rem (ds_i s) (ds_last s) (ds_dot s) (ds_e s) (ds_out s))).
    { destruct T as [L [T|(A & B & [C|(C1 & C2 & C3)])]]; (split; [exact L|]); cbn [ds_i ds_h ds_l ds_rem ds_last ds_dot ds_e]; [left; lia|right; lia|].
      right. rewrite C1, C2 in D. vm_compute in D. injection D as <- <- <-. split; [exact A|]. split; [exact B|]. right. auto. }
    destruct (tinv_inner 9 k _ H0 ltac:(lia) T1) as (b & s' & k' & -> & T2 & K & Kb). cbn [bind].
    destruct b; [exists s', k'; auto|]. specialize (Kb eq_refl). apply (IH k' s'); auto; lia.
Qed.
(* String neither panics nor reads beyond its buffer, whatever the 128 bits. *)
Theorem C56_string_total h l : exists t, dec_string h l = Ret t.
Proof.
  unfold dec_string. destruct (_ =? 31); [eauto|]. destruct (_ =? 30); [eauto|]. cbv zeta.
  destruct (_ && (_ =? 0)); [eauto|].
  match goal with |- context [d_outer 5 ?s] => destruct (tinv_outer 5 0 s) as (s' & k & E & T & K) end.
  - lia.
  - lia.
  - split; cbn [ds_i ds_last ds_dot ds_e]; [lia|]. left. lia.
  - rewrite E. cbn [bind]. unfold d_repr. destruct T as [L T].
    replace (ds_last s' <? 1) with false by lia. replace (ds_last s' <? ds_i s') with false by lia. cbn [bind].
    destruct (0 <? ds_e s'); [eauto|]. destruct (ds_e s' <? 0); eauto.
Qed.

Print Assumptions C22_from_hex_exact. Print Assumptions C22_json_round_trip. Print Assumptions C23_unique_partial.
Print Assumptions C23_unique_refuted. Print Assumptions C24_round_trip. Print Assumptions C25_multiply_partial.
Print Assumptions C53_only_ids_partial. Print Assumptions C54_scientific_string. Print Assumptions C55_parse_partial.
Print Assumptions C55_long_number_refuted. Print Assumptions C56_parse_total. Print Assumptions C56_string_total.
