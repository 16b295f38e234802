(* Proofs about the JSON writer, checker and parser of Json.v. *)
Require Import ZArith List Bool Lia ZifyBool ZifyNat.
From Verif Require Import Base BSpec Elements Value Api Dec128 DecProofs JsonSpec Json.
Import List ListNotations.
Open Scope Z_scope.

(* ------------------------------------------------------------------- strings *)

Definition esc1 (b : Z) : bytes := if (b <? 128) && negb (safe b) then escape b else [b].
Definition esc_all (s : bytes) : bytes := flat_map esc1 s.

Lemma write_slow_spec s : forall p, write_slow p s = p ++ esc_all s ++ [34].
Proof.
  induction s as [|b s IH]; intros p; cbn [write_slow esc_all flat_map]; [reflexivity|].
  unfold esc1 at 1. destruct (b <? 128); cbn [andb].
  - destruct (safe b); cbn [negb]; rewrite IH; rewrite <- ?app_assoc; reflexivity.
  - rewrite IH, <- app_assoc. reflexivity.
Qed.
Lemma write_fast_spec s a b : write_fast s = (a, b) -> s = a ++ b /\ esc_all a = a.
Proof.
  revert a b. induction s as [|c s IH]; intros a b E; cbn [write_fast] in E; [injection E as <- <-; auto|].
  destruct ((31 <? c) && negb (c =? 34) && negb (c =? 92)) eqn:C; [|injection E as <- <-; auto].
  destruct (write_fast s) as [x y]. injection E as <- <-. destruct (IH x y eq_refl) as [-> F].
  split; [reflexivity|]. cbn [esc_all flat_map]. fold (esc_all x). rewrite F.
  unfold esc1, safe. replace ((c <? 128) && negb ((32 <=? c) && negb (c =? 34) && negb (c =? 92))) with false by lia.
  reflexivity.
Qed.
Lemma write_string_spec s : write_string s = 34 :: esc_all s ++ [34].
Proof.
  unfold write_string. destruct (write_fast s) as [a b] eqn:E. apply write_fast_spec in E as [-> F].
  unfold esc_all at 1. rewrite flat_map_app. fold (esc_all a). rewrite F.
  destruct b as [|c b]; [now rewrite app_nil_r|]. rewrite write_slow_spec. cbn [app]. fold (esc_all (c :: b)).
  now rewrite app_assoc.
Qed.

Lemma hex_char_spec n : 0 <= n < 16 -> hex1 (hex_char n) n.
Proof. unfold hex1, hex_char. destruct (Z.ltb_spec n 10); lia. Qed.
Lemma body_app t s t' s' : body t s -> body t' s' -> body (t ++ t') (s ++ s').
Proof.
  intros B B'. induction B as [|c t s H1 H2 H3 B IH|c x t s S B IH|a b c d n u t s H U B IH|a b c d hi e f g h lo u t s H Hh H' Hl U B IH];
    cbn [app]; rewrite <- ?app_assoc.
  - exact B'.
  - now constructor.
  - now constructor.
  - now apply (bo_hex a b c d n).
  - now apply (bo_pair a b c d hi e f g h lo).
Qed.
Lemma esc1_body b : is_u8 b -> body (esc1 b) [b].
Proof.
  unfold is_u8. intros H. unfold esc1, safe.
  destruct ((b <? 128) && negb ((32 <=? b) && negb (b =? 34) && negb (b =? 92))) eqn:C.
  - unfold escape. destruct ((b =? 92) || (b =? 34)) eqn:D.
    { apply (bo_short b b [] []); [|constructor]. assert (b = 92 \/ b = 34) as [-> | ->] by lia; cbn; auto. }
    destruct (Z.eqb_spec b 10) as [->|]; [apply (bo_short 110 10 [] []); [cbn; auto 9|constructor]|].
    destruct (Z.eqb_spec b 13) as [->|]; [apply (bo_short 114 13 [] []); [cbn; auto 9|constructor]|].
    destruct (Z.eqb_spec b 9) as [->|]; [apply (bo_short 116 9 [] []); [cbn; auto 12|constructor]|].
    change [b] with ([b] ++ []). apply (bo_hex _ _ _ _ b); [|cbn; lia|constructor].
    exists 0, 0, (b / 16), (b mod 16). repeat split; try (unfold hex1; lia); try (apply hex_char_spec; lia).
  - apply bo_plain; [lia|lia|lia|constructor].
Qed.
Lemma esc_body s : bytes_ok s -> body (esc_all s) s.
Proof.
  induction 1 as [|b s H F IH]; [constructor|]. change (b :: s) with ([b] ++ s).
  cbn [app esc_all flat_map]. fold (esc_all s). change (b :: s) with ([b] ++ s). apply body_app; [now apply esc1_body|exact IH].
Qed.

(* unescape reads what the text stands for *)
Lemma hex1_val c n : hex1 c n -> hex_val c = Some n /\ 0 <= n < 16 /\ is_hex c = true.
Proof.
  unfold hex1, hex_val, is_hex. intros [[H ->]|[[H ->]|[H ->]]].
  - replace ((48 <=? c) && (c <=? 57)) with true by lia. repeat split; lia.
  - replace ((48 <=? c) && (c <=? 57)) with false by lia.
    replace ((97 <=? c) && (c <=? 102)) with true by lia. repeat split; lia.
  - replace ((48 <=? c) && (c <=? 57)) with false by lia.
    replace ((97 <=? c) && (c <=? 102)) with false by lia.
    replace ((65 <=? c) && (c <=? 70)) with true by lia. repeat split; lia.
Qed.
Lemma hex4_val a b c d n : hex4 a b c d n -> runeit a b c d = n /\ 0 <= n < 65536 /\
  is_hex a && is_hex b && is_hex c && is_hex d = true.
Proof.
  intros (w & x & y & z & A & B & C & D & ->).
  apply hex1_val in A as (A1 & A2 & A3), B as (B1 & B2 & B3), C as (C1 & C2 & C3), D as (D1 & D2 & D3).
  unfold runeit. rewrite A1, B1, C1, D1, A3, B3, C3, D3. repeat split; lia.
Qed.
Lemma utf8_encode n u : utf8 n u -> encode_rune n = u /\ is_surrogate n = false.
Proof.
  unfold utf8, encode_rune, is_surrogate, tail8. intros H.
  destruct u as [|a [|b [|c [|d [|? ?]]]]]; try contradiction.
  - destruct H as [H ->]. replace (a <=? 127) with true by lia. split; [reflexivity|lia].
  - destruct H as (H1 & H2 & -> & H3).
    replace ((a - 192) * 64 + (b - 128) <=? 127) with false by lia.
    replace ((a - 192) * 64 + (b - 128) <=? 2047) with true by lia.
    split; [|lia]. repeat f_equal; lia.
  - destruct H as (H1 & H2 & H3 & E & H4 & H5). subst n.
    set (n := ((a - 224) * 64 + (b - 128)) * 64 + (c - 128)) in *.
    replace (n <=? 127) with false by lia. replace (n <=? 2047) with false by lia.
    replace ((55296 <=? n) && (n <? 57344)) with false by lia.
    replace (1114111 <? n) with false by lia. cbn [orb].
    replace (n <=? 65535) with true by lia. split; [|reflexivity]. subst n. repeat f_equal; lia.
  - destruct H as (H1 & H2 & H3 & H4 & E & H5). subst n.
    set (n := (((a - 240) * 64 + (b - 128)) * 64 + (c - 128)) * 64 + (d - 128)) in *.
    replace (n <=? 127) with false by lia. replace (n <=? 2047) with false by lia.
    replace ((55296 <=? n) && (n <? 57344)) with false by lia.
    replace (1114111 <? n) with false by lia. cbn [orb].
    replace (n <=? 65535) with false by lia. split; [|reflexivity]. subst n. repeat f_equal; lia.
Qed.
Lemma unescape_u h1 h2 h3 h4 r : unescape (92 :: 117 :: h1 :: h2 :: h3 :: h4 :: r) =
  let x := runeit h1 h2 h3 h4 in
  match r with
  | b :: u :: g1 :: g2 :: g3 :: g4 :: r3 =>
      if is_surrogate x && (b =? 92) && (u =? 117)
      then encode_rune (decode_rune x (runeit g1 g2 g3 g4)) ++ unescape r3
      else encode_rune x ++ unescape r
  | _ => encode_rune x ++ unescape r
  end.
Proof. reflexivity. Qed.
Lemma unescape_body t s : body t s -> unescape t = s.
Proof.
  induction 1 as [|c t s H1 H2 H3 B IH|c x t s S B IH|a b c d n u t s H U B IH|a b c d hi e f g h lo u t s H Hh H' Hl U B IH].
  - reflexivity.
  - cbn [unescape]. replace (c <? 32) with false by lia. replace (c =? 92) with false by lia. now rewrite IH.
  - unfold short in S. cbn [In] in S. repeat destruct S as [S|S]; try contradiction; injection S as <- <-;
      cbn; now rewrite IH.
  - apply hex4_val in H as (E & R & _). apply utf8_encode in U as [U1 U2].
    rewrite unescape_u. cbv zeta. rewrite E, U2, IH, U1. cbn [andb].
    destruct t as [|? [|? [|? [|? [|? [|? ?]]]]]]; reflexivity.
  - apply hex4_val in H as (E & R & _). apply hex4_val in H' as (E' & R' & _). apply utf8_encode in U as [U1 U2].
    rewrite unescape_u. cbv zeta. rewrite E, E', IH, !Z.eqb_refl.
    unfold is_surrogate. replace ((55296 <=? hi) && (hi <? 57344)) with true by lia. cbn [andb].
    unfold decode_rune. replace ((55296 <=? hi) && (hi <? 56320) && (56320 <=? lo) && (lo <? 57344)) with true by lia.
    replace ((hi - 55296) * 1024 + (lo - 56320) + 65536) with (65536 + (hi - 55296) * 1024 + (lo - 56320)) by lia.
    now rewrite U1.
Qed.

Lemma body_gbody t s : body t s -> gbody t.
Proof.
  induction 1 as [|c t s H1 H2 H3 B IH|c x t s S B IH|a b c d n u t s H U B IH|a b c d hi e f g h lo u t s H Hh H' Hl U B IH].
  - constructor.
  - constructor; auto; lia.
  - now apply (gb_short c x).
  - now apply (gb_hex a b c d n).
  - apply (gb_hex a b c d hi); [exact H|]. now apply (gb_hex e f g h lo).
Qed.
Lemma short_is c x : short c x -> is_short c = true.
Proof. unfold short. cbn [In]. intros S. repeat destruct S as [S|S]; try contradiction; injection S as <- <-; reflexivity. Qed.
Lemma gbody_valid t r : gbody t -> valid_string (t ++ 34 :: r) = Some r.
Proof.
  induction 1 as [|c t H1 H2 H3 B IH|c x t S B IH|a b c d n t H B IH]; cbn [app valid_string].
  - reflexivity.
  - replace (c <? 32) with false by lia. replace (c =? 92) with false by lia.
    replace (c =? 34) with false by lia. exact IH.
  - change (92 <? 32) with false. cbn [Z.eqb Pos.eqb]. now rewrite (short_is _ _ S).
  - change (92 <? 32) with false. cbn [Z.eqb Pos.eqb]. change (is_short 117) with false. cbn beta iota.
    apply hex4_val in H as (_ & _ & ->). exact IH.
Qed.
Lemma is_hex_hex1 c : is_hex c = true -> exists n, hex1 c n.
Proof.
  unfold is_hex, hex1. intros H.
  assert (48 <= c <= 57 \/ 97 <= c <= 102 \/ 65 <= c <= 70) as [C|[C|C]] by lia; eexists; eauto.
Qed.
Lemma is_short_short c : is_short c = true -> exists x, short c x.
Proof.
  unfold is_short, short. intros H.
  assert (c = 34 \/ c = 92 \/ c = 47 \/ c = 98 \/ c = 102 \/ c = 110 \/ c = 114 \/ c = 116) as C by lia.
  decompose [or] C; subst; eexists; cbn [In]; eauto 12.
Qed.
Lemma valid_gbody n : forall s r, (length s <= n)%nat -> valid_string s = Some r -> exists t, gbody t /\ s = t ++ 34 :: r.
Proof.
  induction n as [|n IH]; intros s r L E; destruct s as [|c s]; cbn [length] in L; try lia; try discriminate.
  cbn [valid_string] in E.
  destruct (Z.ltb_spec c 32); [discriminate|].
  destruct (Z.eqb_spec c 92) as [->|C].
  - destruct s as [|d s]; [discriminate|]. cbn [length] in L.
    destruct (is_short d) eqn:S.
    + apply IH in E as (t & G & ->); [|lia]. apply is_short_short in S as [x S].
      exists (92 :: d :: t). split; [now apply (gb_short d x)|reflexivity].
    + destruct (Z.eqb_spec d 117) as [->|]; [|discriminate].
      destruct s as [|h1 [|h2 [|h3 [|h4 s]]]]; try discriminate. cbn [length] in L.
      destruct (is_hex h1 && is_hex h2 && is_hex h3 && is_hex h4) eqn:H4; [|discriminate].
      apply andb_prop in H4 as [H4 D4]. apply andb_prop in H4 as [H4 D3]. apply andb_prop in H4 as [D1 D2].
      apply is_hex_hex1 in D1 as [n1 D1], D2 as [n2 D2], D3 as [n3 D3], D4 as [n4 D4].
      apply IH in E as (t & G & ->); [|lia].
      exists (92 :: 117 :: h1 :: h2 :: h3 :: h4 :: t). split; [|reflexivity].
      eapply gb_hex; [|exact G]. exists n1, n2, n3, n4. auto.
  - destruct (Z.eqb_spec c 34) as [->|Q].
    + injection E as <-. exists []. split; [constructor|reflexivity].
    + apply IH in E as (t & G & ->); [|lia]. exists (c :: t). split; [constructor; auto|reflexivity].
Qed.

(* at the end of an escape or a plain character the backslashes before are even in number *)
Lemma escaped_even p : Nat.even (slashes p) = true -> escaped p = false.
Proof.
  destruct p as [|c p]; [reflexivity|]. cbn [slashes escaped]. destruct (c =? 92) eqn:C; [|reflexivity].
  rewrite Nat.even_succ, <- Nat.negb_even. cbn [andb]. destruct (Nat.even (slashes p)); [discriminate|reflexivity].
Qed.
Lemma slashes_other c p : c <> 92 -> slashes (c :: p) = 0%nat.
Proof. intros H. cbn [slashes]. now replace (c =? 92) with false by lia. Qed.
Lemma escaped_odd p : Nat.even (slashes p) = true -> escaped (92 :: p) = true.
Proof. intros H. cbn [escaped Z.eqb Pos.eqb andb]. exact H. Qed.
Lemma slashes_two p : Nat.even (slashes p) = true -> Nat.even (slashes (92 :: 92 :: p)) = true.
Proof. intros H. cbn [slashes Z.eqb Pos.eqb]. exact H. Qed.

Lemma find_quote_step c p s : (c = 34 -> escaped p = true) ->
  find_quote p (c :: s) = match find_quote (c :: p) s with Some (b, r) => Some (c :: b, r) | None => None end.
Proof.
  intros H. cbn [find_quote]. destruct (Z.eqb_spec c 34) as [->|]; [|reflexivity]. now rewrite H.
Qed.
Lemma hex_not c n : hex1 c n -> c <> 34 /\ c <> 92.
Proof. unfold hex1. lia. Qed.
Lemma hex4_not a b c d n : hex4 a b c d n -> (a <> 34 /\ a <> 92) /\ (b <> 34 /\ b <> 92) /\ (c <> 34 /\ c <> 92) /\ (d <> 34 /\ d <> 92).
Proof. intros (? & ? & ? & ? & A & B & C & D & _).
  exact (conj (hex_not _ _ A) (conj (hex_not _ _ B) (conj (hex_not _ _ C) (hex_not _ _ D)))). Qed.
Lemma find_quote_body t : gbody t -> forall p r, Nat.even (slashes p) = true ->
  find_quote p (t ++ 34 :: r) = Some (t, r).
Proof.
  induction 1 as [|c t H1 H2 H3 B IH|c x t S B IH|a b c d n t H B IH]; intros p r P; cbn [app].
  - cbn [find_quote Z.eqb Pos.eqb]. now rewrite (escaped_even _ P).
  - rewrite find_quote_step by contradiction. now rewrite IH by (rewrite slashes_other; auto).
  - rewrite find_quote_step by discriminate. rewrite find_quote_step by (intros _; now apply escaped_odd).
    destruct (Z.eq_dec c 92) as [->|N]; [rewrite IH by (now apply slashes_two)|rewrite IH by (rewrite slashes_other; auto)];
      reflexivity.
  - apply hex4_not in H as ((A1 & A2) & (B1 & B2) & (C1 & C2) & (D1 & D2)).
    rewrite find_quote_step by discriminate. rewrite find_quote_step by discriminate.
    rewrite !find_quote_step by contradiction. rewrite IH by (rewrite slashes_other; auto). reflexivity.
Qed.
(* whether the text has an escape *)
Definition has_esc (t : bytes) : bool := existsb (fun c => c =? 92) t.
Lemma parse_string_from_body t : gbody t -> forall p r, Nat.even (slashes p) = true ->
  parse_string_from p (t ++ 34 :: r) = Some (t, has_esc t, r).
Proof.
  induction 1 as [|c t H1 H2 H3 B IH|c x t S B _|a b c d n t H B _]; intros p r P; cbn [app].
  - reflexivity.
  - cbn [parse_string_from]. replace (c =? 34) with false by lia. replace (c =? 92) with false by lia.
    rewrite IH by (rewrite slashes_other; auto). unfold has_esc. cbn [existsb]. replace (c =? 92) with false by lia.
    destruct (c >? 92); reflexivity.
  - cbn [parse_string_from]. cbn [Z.gtb Z.compare Pos.compare Pos.compare_cont Z.eqb Pos.eqb].
    pose proof (find_quote_body (92 :: c :: t) (gb_short _ _ _ S B) p r P) as F. cbn [app] in F.
    rewrite find_quote_step in F by discriminate. destruct (find_quote (92 :: p) (c :: t ++ 34 :: r)) as [[b r']|]; [|discriminate].
    injection F as -> ->. reflexivity.
  - cbn [parse_string_from]. cbn [Z.gtb Z.compare Pos.compare Pos.compare_cont Z.eqb Pos.eqb].
    pose proof (find_quote_body (92 :: 117 :: a :: b :: c :: d :: t) (gb_hex _ _ _ _ _ _ H B) p r P) as F. cbn [app] in F.
    rewrite find_quote_step in F by discriminate.
    destruct (find_quote (92 :: p) (117 :: a :: b :: c :: d :: t ++ 34 :: r)) as [[b' r']|]; [|discriminate].
    injection F as -> ->. reflexivity.
Qed.
Lemma parse_string_gbody t r : gbody t -> parse_string (t ++ 34 :: r) = Some (t, has_esc t, r).
Proof. intros G. now apply parse_string_from_body. Qed.
Lemma no_esc t s : body t s -> has_esc t = false -> s = t.
Proof.
  unfold has_esc. induction 1 as [|c t s H1 H2 H3 B IH| | |]; cbn [existsb]; try discriminate; [auto|].
  replace (c =? 92) with false by lia. intros E. now rewrite IH.
Qed.
Lemma str_of_body t s : body t s -> str_of t (has_esc t) = s.
Proof.
  intros B. unfold str_of. destruct (has_esc t) eqn:E; [now apply unescape_body|]. symmetry. now apply no_esc.
Qed.
Lemma tostr_body t s r : body t s -> r <> [] -> tostr (t ++ 34 :: r) = (s, r).
Proof.
  intros B R. unfold tostr. rewrite (parse_string_gbody t r (body_gbody _ _ B)).
  pose proof (str_of_body t s B) as E. destruct (has_esc t); [|now rewrite E].
  destruct r as [|c r]; [contradiction|]. now rewrite E.
Qed.
Lemma tostr_str t s r : body t s -> fst (tostr (t ++ 34 :: r)) = s.
Proof.
  intros B. unfold tostr. rewrite (parse_string_gbody t r (body_gbody _ _ B)).
  pose proof (str_of_body t s B) as E. destruct (has_esc t); [|exact E]. destruct r; exact E.
Qed.

(* --------------------------------------------------------- spaces and numbers *)

Lemma ws_is c : ws_char c <-> is_ws c = true.
Proof. unfold ws_char, is_ws. lia. Qed.
Lemma skip_ws_app w s : ws w -> skip_ws (w ++ s) = skip_ws s.
Proof. induction 1 as [|c w H F IH]; [reflexivity|]. cbn [app skip_ws]. apply ws_is in H. now rewrite H. Qed.
Lemma skip_ws_split s : exists w, ws w /\ s = w ++ skip_ws s.
Proof.
  induction s as [|c s (w & W & E)]; [exists []; split; [constructor|reflexivity]|]. cbn [skip_ws].
  destruct (is_ws c) eqn:C.
  - exists (c :: w). split; [constructor; [now apply ws_is|exact W]|]. cbn [app]. now rewrite <- E.
  - exists []. split; [constructor|reflexivity].
Qed.
Lemma skip_ws_id c s : ~ ws_char c -> skip_ws (c :: s) = c :: s.
Proof. intros H. cbn [skip_ws]. destruct (is_ws c) eqn:C; [|reflexivity]. apply ws_is in C. contradiction. Qed.
Lemma skip_ws_ws w : ws w -> skip_ws w = [].
Proof. intros W. rewrite <- (app_nil_r w), skip_ws_app by exact W. reflexivity. Qed.
Lemma skip_ws_none s : skip_ws s = [] -> ws s.
Proof. intros E. destruct (skip_ws_split s) as (w & W & H). rewrite E, app_nil_r in H. now subst. Qed.

(* the value is followed by the end, a space, a comma or a closing bracket *)
Definition ends (r : bytes) : Prop :=
  match r with [] => True | c :: _ => ws_char c \/ c = 44 \/ c = 93 \/ c = 125 end.
Lemma ends_ws w r : ws w -> ends r -> ends (w ++ r).
Proof. intros W E. destruct W as [|c w H F]; [exact E|]. cbn. auto. Qed.

Lemma digit_is c : digit c <-> is_digit c = true.
Proof. unfold digit, is_digit. lia. Qed.
Definition no_digit (s : bytes) : Prop := match s with [] => True | c :: _ => ~ digit c end.
Lemma skip_digits_app ds s : Forall digit ds -> no_digit s -> skip_digits (ds ++ s) = s.
Proof.
  intros F N. induction F as [|c ds H F IH]; cbn [app skip_digits].
  - destruct s as [|c s]; [reflexivity|]. cbn [skip_digits]. cbn in N. rewrite digit_is in N.
    destruct (is_digit c); [contradiction|reflexivity].
  - apply digit_is in H. now rewrite H.
Qed.
Lemma skip_digits_split s : exists ds, Forall digit ds /\ s = ds ++ skip_digits s.
Proof.
  induction s as [|c s (ds & D & E)]; [exists []; split; [constructor|reflexivity]|]. cbn [skip_digits].
  destruct (is_digit c) eqn:C.
  - exists (c :: ds). split; [constructor; [now apply digit_is|exact D]|]. cbn [app]. now rewrite <- E.
  - exists []. split; [constructor|reflexivity].
Qed.
Lemma ends_no_digit r : ends r -> no_digit r.
Proof. destruct r as [|c r]; [auto|]. cbn. unfold ws_char, digit. lia. Qed.

Lemma valid_exp_ok x r : exp_part x -> ends r -> valid_exp (x ++ r) = Some r.
Proof.
  intros [->|(e & s & ds & E & S & (N & D) & ->)] R.
  - cbn [app]. destruct r as [|c r]; [reflexivity|]. cbn [valid_exp]. cbn in R. unfold ws_char in R.
    now replace ((c =? 101) || (c =? 69)) with false by lia.
  - cbn [app valid_exp]. replace ((e =? 101) || (e =? 69)) with true by lia.
    destruct ds as [|d ds]; [contradiction|]. inversion D as [|? ? D1 D2]; subst.
    pose proof (skip_digits_app ds r D2 (ends_no_digit _ R)) as K. pose proof D1 as D1'. apply digit_is in D1'.
    unfold digit in D1. destruct S as [->|[->| ->]]; cbn [app].
    + replace ((d =? 43) || (d =? 45)) with false by lia. rewrite D1'. now rewrite K.
    + cbn. rewrite D1'. now rewrite K.
    + cbn. rewrite D1'. now rewrite K.
Qed.
Lemma exp_no_digit x r : exp_part x -> ends r -> no_digit (x ++ r).
Proof.
  intros [->|(e & s & ds & E & S & _ & ->)] R; [now apply ends_no_digit|]. cbn. unfold digit. lia.
Qed.
Lemma valid_frac_ok f x r : frac_part f -> exp_part x -> ends r -> valid_frac (f ++ x ++ r) = Some r.
Proof.
  intros [->|(ds & (N & D) & ->)] X R.
  - cbn [app]. unfold valid_frac. rewrite (valid_exp_ok x r X R).
    destruct (x ++ r) as [|c s] eqn:E; [destruct x; [destruct r; [reflexivity|discriminate]|discriminate]|].
    assert (c <> 46) as C.
    { destruct X as [->|(e & ? & ? & H & _ & _ & ->)]; cbn [app] in E.
      - subst r. cbn in R. unfold ws_char in R. lia.
      - injection E as <- _. lia. }
    now replace (c =? 46) with false by lia.
  - cbn [app valid_frac]. cbn [Z.eqb Pos.eqb]. destruct ds as [|d ds]; [contradiction|]. inversion D as [|? ? D1 D2]; subst.
    cbn [app]. apply digit_is in D1. rewrite D1, skip_digits_app by (auto using exp_no_digit).
    now apply valid_exp_ok.
Qed.
Lemma frac_no_digit f x r : frac_part f -> exp_part x -> ends r -> no_digit (f ++ x ++ r).
Proof.
  intros [->|(ds & _ & ->)] X R; [exact (exp_no_digit _ _ X R)|]. cbn. unfold digit. lia.
Qed.
Lemma valid_number_ok t r : number t -> ends r -> valid_number (t ++ r) = Some r.
Proof.
  intros (m & i & f & x & M & ((N & D) & Z0) & F & X & ->) R. rewrite <- !app_assoc.
  destruct i as [|d i]; [contradiction|]. inversion D as [|? ? D1 D2]; subst. unfold digit in D1.
  unfold valid_number. set (s := (d :: i) ++ f ++ x ++ r).
  replace (match m ++ s with c :: r => if c =? 45 then r else m ++ s | [] => [] end) with s.
  2: { destruct M as [-> | ->]; cbn [app]; [|reflexivity]. subst s. cbn [app]. now replace (d =? 45) with false by lia. }
  subst s. cbn [app]. destruct (Z.eqb_spec d 48) as [->|].
  - destruct i as [|d2 i]; [exact (valid_frac_ok f x r F X R)|]. specialize (Z0 ltac:(cbn [length]; lia)). cbn in Z0. lia.
  - change (d :: i ++ f ++ x ++ r) with ((d :: i) ++ f ++ x ++ r).
    rewrite skip_digits_app by (auto using frac_no_digit). now apply valid_frac_ok.
Qed.

Definition num_char (c : Z) : Prop := digit c \/ c = 43 \/ c = 45 \/ c = 46 \/ c = 69 \/ c = 101.
Lemma digits_num ds : Forall digit ds -> Forall num_char ds.
Proof. apply Forall_impl. unfold num_char. auto. Qed.
Lemma frac_num f : frac_part f -> Forall num_char f.
Proof. intros [->|(ds & (_ & D) & ->)]; constructor; [unfold num_char; auto|now apply digits_num]. Qed.
Lemma exp_num x : exp_part x -> Forall num_char x.
Proof.
  intros [->|(e & s & ds & E & S & (_ & D) & ->)]; constructor; [unfold num_char; lia|].
  apply Forall_app. split; [|now apply digits_num].
  destruct S as [->|[->| ->]]; constructor; try (unfold num_char; lia); constructor.
Qed.
Lemma loose_chars t : loose_number t -> Forall num_char t.
Proof.
  intros [(m & i & f & x & M & ((N & D) & Z0) & F & X & ->)|(f & x & F & X & ->)].
  - rewrite !Forall_app. repeat split; auto using digits_num, frac_num, exp_num.
    destruct M as [-> | ->]; constructor; [unfold num_char; lia|constructor].
  - constructor; [unfold num_char; auto|]. apply Forall_app; auto using frac_num, exp_num.
Qed.
(* a number begins with a minus or a digit *)
Lemma loose_first t : loose_number t -> exists c t', t = c :: t' /\ (c = 45 \/ digit c).
Proof.
  intros [(m & i & f & x & M & ((N & D) & Z0) & F & X & ->)|(f & x & F & X & ->)].
  - destruct M as [-> | ->].
    + destruct i as [|d i]; [contradiction|]. inversion D; subst. cbn [app]. eauto.
    + cbn [app]. eauto.
  - eauto.
Qed.
Lemma span_app p t r : forallb p t = true -> match r with [] => True | c :: _ => p c = false end -> span p (t ++ r) = (t, r).
Proof.
  intros F R. induction t as [|c t IH]; cbn [app span].
  - destruct r as [|c r]; [reflexivity|]. cbn [span]. now rewrite R.
  - cbn [forallb] in F. apply andb_prop in F as [F1 F2]. now rewrite F1, IH.
Qed.
Lemma parse_number_ok t r : loose_number t -> ends r -> parse_number (t ++ r) = (t, r).
Proof.
  intros N R. pose proof (loose_chars _ N) as C. destruct (loose_first _ N) as (c & t' & -> & _).
  inversion C; subst. unfold parse_number, span1. cbn [app]. rewrite span_app; [reflexivity| |].
  - apply forallb_forall. intros x I. rewrite Forall_forall in H2. specialize (H2 x I). unfold num_char, digit in H2. lia.
  - destruct r as [|d r]; [auto|]. cbn in R. unfold ws_char in R. lia.
Qed.
Lemma tonum_ok t r : loose_number t -> ends r -> tonum (t ++ r) = (t, r).
Proof.
  intros N R. pose proof (loose_chars _ N) as C. destruct (loose_first _ N) as (c & t' & -> & _).
  inversion C; subst. unfold tonum, span1. cbn [app]. rewrite span_app; [reflexivity| |].
  - apply forallb_forall. intros x I. rewrite Forall_forall in H2. specialize (H2 x I). unfold num_char, digit in H2.
    destruct (x <=? 45) eqn:X; [lia|]. destruct (x <? 93) eqn:Y; lia.
  - destruct r as [|d r]; [auto|]. cbn in R. unfold ws_char in R.
    destruct (d <=? 45) eqn:X; [lia|]. destruct (d <? 93) eqn:Y; lia.
Qed.

(* ------------------------------------------------------------ the checker *)

Definition gr (t : bytes) (_ : bytes) : Prop := gbody t.
Notation gvalue := (value_text number gr).
Notation gitems := (items number gr).
Notation gmembers := (members number gr).

(* the first character of a value *)
Definition first_char (c : Z) : Prop :=
  c = 110 \/ c = 116 \/ c = 102 \/ c = 34 \/ c = 91 \/ c = 123 \/ c = 45 \/ digit c.
Lemma value_first (num : bytes -> Prop) str t v : (forall t, num t -> loose_number t) ->
  value_text num str t v -> exists c t', t = c :: t' /\ first_char c.
Proof.
  intros N V. unfold first_char. destruct V; try (eexists; eexists; split; [reflexivity|]; auto 9; fail).
  apply N, loose_first in H as (c & t' & -> & C). exists c, t'. split; [reflexivity|]. tauto.
Qed.
Lemma first_no_ws c : first_char c -> ~ ws_char c.
Proof. unfold first_char, ws_char, digit. lia. Qed.
Lemma rfc_loose t : number t -> loose_number t.
Proof. now left. Qed.

Lemma valid_comma_ok w e c r : ws w -> c = 44 \/ c = e -> ~ ws_char c -> valid_comma (w ++ c :: r) e = Some (c :: r).
Proof.
  intros W C N. unfold valid_comma. rewrite skip_ws_app, skip_ws_id by auto. now replace ((c =? 44) || (c =? e)) with true by lia.
Qed.
Lemma valid_any_ws n w s : ws w -> valid_any n (w ++ s) = valid_any n s.
Proof. intros W. destruct n as [|n]; [reflexivity|]. cbn [valid_any]. now rewrite skip_ws_app. Qed.
Lemma eat_app w r : eat w (w ++ r) = Some r.
Proof. induction w as [|c w IH]; [reflexivity|]. cbn [app eat]. now rewrite Z.eqb_refl. Qed.
Ltac nows := unfold ws_char; lia.

Theorem valid_complete :
  (forall t v, gvalue t v -> forall n r, (2 * length t <= n + 1)%nat -> ends r -> valid_any n (t ++ r) = Ret (Some r)) /\
  (forall t vs, gitems t vs -> forall n r, (2 * length t <= n)%nat -> valid_items n (t ++ 93 :: r) = Ret (Some r)) /\
  (forall t ms, gmembers t ms -> exists w t', ws w /\ t = w ++ 34 :: t' /\
     forall n r, (2 * length t' <= n)%nat -> valid_members n (t' ++ 125 :: r) = Ret (Some r)).
Proof.
  apply json_mut.
  - intros n r L E. cbn [length] in L. destruct n as [|n]; [lia|]. reflexivity.
  - intros n r L E. cbn [length] in L. destruct n as [|n]; [lia|]. reflexivity.
  - intros n r L E. cbn [length] in L. destruct n as [|n]; [lia|]. reflexivity.
  - intros t N n r L E. pose proof (valid_number_ok t r N E) as K.
    destruct (loose_first t (or_introl N)) as (c & t' & -> & C). cbn [length] in L. destruct n as [|n]; [lia|].
    unfold digit in C. cbn [app valid_any]. cbn [app] in K. rewrite skip_ws_id by nows.
    replace (c =? 123) with false by lia. replace (c =? 91) with false by lia. replace (c =? 34) with false by lia.
    replace ((c =? 45) || is_digit c) with true by (unfold is_digit; lia). now rewrite K.
  - intros t s G n r L E. cbn [length] in L. destruct n as [|n]; [lia|]. cbn [app valid_any]. rewrite skip_ws_id by nows.
    cbn [Z.eqb Pos.eqb]. rewrite <- app_assoc. cbn [app]. now rewrite (gbody_valid t r G).
  - intros w W n r L E. cbn [length] in L. destruct n as [|n]; [lia|]. cbn [app valid_any]. rewrite skip_ws_id by nows.
    cbn [Z.eqb Pos.eqb]. rewrite <- app_assoc, skip_ws_app by exact W. reflexivity.
  - intros t vs I IH n r L E. cbn [length] in L. rewrite app_length in L. cbn [length] in L.
    destruct n as [|n]; [lia|]. cbn [app valid_any]. rewrite skip_ws_id by nows. cbn [Z.eqb Pos.eqb].
    rewrite <- app_assoc. cbn [app].
    assert (exists w c t', ws w /\ t = w ++ c :: t' /\ first_char c /\ gitems (c :: t') vs) as (w & c & t' & W & -> & C & _).
    { destruct I as [w1 t v w2 W1 V W2|w1 t v w2 r' vs W1 V W2 I]; pose proof V as V';
        apply value_first in V as (c & t' & -> & C); eauto using rfc_loose;
        exists w1, c; eexists; (split; [exact W1|split; [reflexivity|split; [exact C|]]]).
      - apply (it_one _ _ [] (c :: t') v w2); auto. constructor.
      - apply (it_more _ _ [] (c :: t') v w2 r' vs); auto. constructor. }
    pose proof (first_no_ws _ C) as NW. rewrite <- app_assoc, skip_ws_app by exact W. cbn [app]. rewrite skip_ws_id by exact NW.
    unfold first_char, digit in C. replace (c =? 93) with false by lia.
    specialize (IH n r). rewrite <- app_assoc in IH. cbn [app] in IH.
    destruct n as [|n]; [rewrite app_length in L; cbn [length] in L; lia|].
    assert (valid_items (S n) (w ++ c :: t' ++ 93 :: r) = valid_items (S n) (c :: t' ++ 93 :: r)) as Q.
    { cbn [valid_items]. rewrite valid_any_ws by exact W. destruct w; reflexivity. }
    rewrite <- Q. apply IH. rewrite app_length in *; cbn [length] in *; lia.
  - intros w W n r L E. cbn [length] in L. destruct n as [|n]; [lia|]. cbn [app valid_any]. rewrite skip_ws_id by nows.
    cbn [Z.eqb Pos.eqb]. rewrite <- app_assoc, skip_ws_app by exact W. reflexivity.
  - intros t ms M (w & t' & W & -> & IH) n r L E. cbn [length] in L. rewrite !app_length in L. cbn [length] in L.
    destruct n as [|n]; [lia|]. cbn [app valid_any]. rewrite skip_ws_id by nows. cbn [Z.eqb Pos.eqb].
    rewrite <- !app_assoc. cbn [app]. rewrite skip_ws_app by exact W. rewrite skip_ws_id by nows. cbn [Z.eqb Pos.eqb].
    apply IH. lia.
  - intros w1 t v w2 W1 V IH W2 n r L. rewrite !app_length in L. pose proof V as V'.
    apply value_first in V' as (c & t' & E & C); [|exact rfc_loose].
    destruct n as [|n]; [subst t; cbn [length] in L; lia|]. rewrite <- !app_assoc. cbn [valid_items].
    rewrite valid_any_ws by exact W1. rewrite IH; [|lia|apply ends_ws; cbn; auto].
    cbn [bind]. rewrite valid_comma_ok by (auto; nows).
    destruct (w1 ++ t ++ w2 ++ 93 :: r) eqn:X; [|reflexivity]. exfalso. subst t. destruct w1; discriminate.
  - intros w1 t v w2 r' vs W1 V IH W2 I IHI n r L. rewrite !app_length in L. cbn [length] in L. pose proof V as V'.
    apply value_first in V' as (c & t' & E & C); [|exact rfc_loose].
    destruct n as [|n]; [lia|]. rewrite <- !app_assoc. cbn [valid_items app].
    rewrite valid_any_ws by exact W1. rewrite IH; [|lia|apply ends_ws; cbn; auto].
    cbn [bind]. rewrite valid_comma_ok by (auto; nows).
    destruct (w1 ++ t ++ w2 ++ 44 :: r' ++ 93 :: r) eqn:X; [exfalso; subst t; destruct w1; discriminate|].
    cbn [bind Z.eqb Pos.eqb]. apply IHI. lia.
  - intros w1 k s w2 w3 t v w4 W1 K W2 W3 V IH W4. exists w1. eexists. split; [exact W1|]. split; [reflexivity|].
    intros n r L. repeat (rewrite !app_length in L; cbn [length] in L). destruct n as [|n]; [lia|].
    repeat (rewrite <- app_assoc; cbn [app]). cbn [valid_members].
    rewrite (gbody_valid k _ K). unfold valid_colon. rewrite skip_ws_app, skip_ws_id by (auto; nows). cbn [Z.eqb Pos.eqb].
    rewrite valid_any_ws by exact W3. rewrite IH; [|lia|apply ends_ws; cbn; auto].
    cbn [bind]. rewrite valid_comma_ok by (auto; nows). reflexivity.
  - intros w1 k s w2 w3 t v w4 r' ms W1 K W2 W3 V IH W4 M (w & t' & W & -> & IHM).
    exists w1. eexists. split; [exact W1|]. split; [reflexivity|].
    intros n r L. repeat (rewrite !app_length in L; cbn [length] in L). destruct n as [|n]; [lia|].
    repeat (rewrite <- app_assoc; cbn [app]). cbn [valid_members].
    rewrite (gbody_valid k _ K). unfold valid_colon. rewrite skip_ws_app, skip_ws_id by (auto; nows). cbn [Z.eqb Pos.eqb].
    rewrite valid_any_ws by exact W3. rewrite IH; [|lia|apply ends_ws; cbn; auto].
    cbn [bind]. rewrite valid_comma_ok by (auto; nows). cbn [Z.eqb Pos.eqb].
    rewrite skip_ws_app, skip_ws_id by (auto; nows). cbn [Z.eqb Pos.eqb]. apply IHM. lia.
Qed.

Lemma valid_exp_sound s r : valid_exp s = Some r -> exists x, exp_part x /\ s = x ++ r.
Proof.
  destruct s as [|c s]; cbn [valid_exp]; [intros E; injection E as <-; exists []; split; [now left|reflexivity]|].
  destruct ((c =? 101) || (c =? 69)) eqn:C; [|intros E; injection E as <-; exists []; split; [now left|reflexivity]].
  destruct s as [|d s]; [discriminate|].
  assert (forall sg s0, (sg = [] \/ sg = [43] \/ sg = [45]) -> d :: s = sg ++ s0 ->
    match s0 with [] => None | d :: r' => if is_digit d then Some (skip_digits r') else None end = Some r ->
    exists x, exp_part x /\ c :: d :: s = x ++ r) as K.
  { intros sg s0 S E H. destruct s0 as [|d0 s0]; [discriminate|]. destruct (is_digit d0) eqn:D; [|discriminate].
    injection H as <-. destruct (skip_digits_split s0) as (ds & F & E2).
    exists (c :: sg ++ d0 :: ds). split.
    - right. exists c, sg, (d0 :: ds). split; [lia|]. split; [exact S|]. split; [|reflexivity].
      split; [discriminate|]. constructor; [now apply digit_is|exact F].
    - cbn [app]. rewrite <- app_assoc. cbn [app]. rewrite <- E2, E. reflexivity. }
  destruct ((d =? 43) || (d =? 45)) eqn:S; intros H.
  - apply (K [d] s); [|reflexivity|exact H]. assert (d = 43 \/ d = 45) as [-> | ->] by lia; auto.
  - apply (K [] (d :: s)); auto.
Qed.
Lemma valid_frac_sound s r : valid_frac s = Some r -> exists f x, frac_part f /\ exp_part x /\ s = f ++ x ++ r.
Proof.
  destruct s as [|c s]; cbn [valid_frac].
  { intros E; injection E as <-. exists [], []. split; [now left|]. split; [now left|reflexivity]. }
  destruct (Z.eqb_spec c 46) as [->|].
  - destruct s as [|d s]; [discriminate|]. destruct (is_digit d) eqn:D; [|discriminate].
    intros E. apply valid_exp_sound in E as (x & X & E). destruct (skip_digits_split s) as (ds & F & E2).
    exists (46 :: d :: ds), x. split; [|split; [exact X|]].
    + right. exists (d :: ds). split; [|reflexivity]. split; [discriminate|]. constructor; [now apply digit_is|exact F].
    + cbn [app]. rewrite <- E, <- E2. reflexivity.
  - intros E. apply valid_exp_sound in E as (x & X & E). exists [], x. split; [now left|]. auto.
Qed.
Lemma valid_number_sound c s r : c = 45 \/ digit c -> valid_number (c :: s) = Some r ->
  exists t, loose_number t /\ c :: s = t ++ r.
Proof.
  intros C. unfold valid_number.
  assert (forall m c s, minus m -> (m = [] -> digit c) ->
    valid_frac (if c =? 48 then s else skip_digits (c :: s)) = Some r ->
    exists t, loose_number t /\ m ++ c :: s = t ++ r) as K.
  { clear c s C. intros m c s M C E. apply valid_frac_sound in E as (f & x & F & X & E).
    destruct (Z.eqb_spec c 48) as [->|N].
    - exists (m ++ [48] ++ f ++ x). split; [|rewrite E; cbn [app]; rewrite <- !app_assoc; cbn [app]; now rewrite <- app_assoc].
      left. exists m, [48], f, x. split; [exact M|]. split; [|auto].
      split; [split; [discriminate|repeat constructor; unfold digit; lia]|cbn; lia].
    - destruct (skip_digits_split (c :: s)) as (ds & D & E2). rewrite E in E2.
      destruct ds as [|d ds].
      + destruct M as [-> | ->].
        { exfalso. specialize (C eq_refl). cbn [skip_digits] in E. apply digit_is in C as C'. rewrite C' in E.
          cbn [app] in E2. destruct (skip_digits_split s) as (ds & D2 & E3).
          assert (length (skip_digits s) <= length s)%nat by (rewrite E3 at 2; rewrite app_length; lia).
          assert (length (c :: s) = length (f ++ x ++ r)) as L by now rewrite <- E2.
          rewrite <- E in L. cbn [length] in L. lia. }
        exists (45 :: f ++ x). split; [|cbn [app] in *; rewrite E2, <- app_assoc; reflexivity].
        right. exists f, x. auto.
      + injection E2 as -> E2. exists (m ++ (d :: ds) ++ f ++ x). split.
        * left. exists m, (d :: ds), f, x. split; [exact M|]. split; [|auto]. split; [split; [discriminate|exact D]|]. cbn. lia.
        * rewrite E2. rewrite <- !app_assoc. cbn [app]. rewrite <- ?app_assoc. reflexivity. }
  destruct (Z.eqb_spec c 45) as [->|N].
  - destruct s as [|c s]; [discriminate|]. intros E. apply (K [45] c s) in E; [exact E|now right|discriminate].
  - destruct C as [C|C]; [contradiction|]. intros E. apply (K [] c s) in E; [exact E|now left|auto].
Qed.
Lemma eat_sound w : forall s r, eat w s = Some r -> s = w ++ r.
Proof.
  induction w as [|a w IH]; intros s r E; cbn [eat] in E; [now injection E as <-|].
  destruct s as [|b s]; [discriminate|]. destruct (Z.eqb_spec a b) as [->|]; [|discriminate].
  cbn [app]. f_equal. now apply IH.
Qed.
Lemma ret_inv {A} (x y : A) : Ret x = Ret y -> x = y.
Proof. congruence. Qed.
Notation lvalue := (value_text loose_number gr).
Notation litems := (items loose_number gr).
Notation lmembers := (members loose_number gr).
Lemma valid_sound n :
  (forall s r, valid_any n s = Ret (Some r) -> exists w t v, ws w /\ lvalue t v /\ s = w ++ t ++ r) /\
  (forall s r, valid_members n s = Ret (Some r) -> exists t ms, lmembers (34 :: t) ms /\ s = t ++ 125 :: r) /\
  (forall s r, valid_items n s = Ret (Some r) -> exists t vs, litems t vs /\ s = t ++ 93 :: r).
Proof.
  induction n as [|n (IHa & IHm & IHi)]; [repeat split; discriminate|]. refine (conj _ (conj _ _)); intros s r E.
  - cbn [valid_any] in E. destruct (skip_ws_split s) as (w & W & Es). destruct (skip_ws s) as [|c s'] eqn:K; [discriminate|].
    assert (forall t v, lvalue t v -> c :: s' = t ++ r -> exists w t v, ws w /\ lvalue t v /\ s = w ++ t ++ r) as Done.
    { intros t v V Et. exists w, t, v. split; [exact W|]. split; [exact V|]. now rewrite Es, Et. }
    clear K Es.
    destruct (Z.eqb_spec c 123) as [->|].
    { destruct (skip_ws_split s') as (w2 & W2 & Es2). destruct (skip_ws s') as [|d s2]; [discriminate|].
      destruct (Z.eqb_spec d 125) as [->|].
      - injection E as <-. apply (Done (123 :: w2 ++ [125]) (DObj [])); [now constructor|]. cbn [app]. rewrite Es2, <- app_assoc. reflexivity.
      - destruct (Z.eqb_spec d 34) as [->|]; [|discriminate]. apply IHm in E as (t & ms & M & ->).
        apply (Done (123 :: (w2 ++ 34 :: t) ++ [125]) (DObj ms)).
        + apply vt_obj. clear -W2 M.
          inversion M as [w1 k s w0 w3 t' v w4 W1 K W0 W3 V W4 E E2|w1 k s w0 w3 t' v w4 r ms' W1 K W0 W3 V W4 M' E E2]; subst.
          * destruct w1 as [|c w1]; [|injection E as -> E; inversion W1 as [|? ? B ?]; unfold ws_char in B; lia].
            cbn [app] in E. injection E as <-. now apply me_one.
          * destruct w1 as [|c w1]; [|injection E as -> E; inversion W1 as [|? ? B ?]; unfold ws_char in B; lia].
            cbn [app] in E. injection E as <-. now apply me_more.
        + cbn [app]. rewrite Es2, <- !app_assoc. cbn [app]. rewrite <- ?app_assoc. reflexivity. }
    destruct (Z.eqb_spec c 91) as [->|].
    { destruct (skip_ws_split s') as (w2 & W2 & Es2). destruct (skip_ws s') as [|d s2]; [discriminate|].
      destruct (Z.eqb_spec d 93) as [->|].
      - injection E as <-. apply (Done (91 :: w2 ++ [93]) (DArr [])); [now constructor|]. cbn [app]. rewrite Es2, <- app_assoc. reflexivity.
      - apply IHi in E as (t & vs & I & Et).
        apply (Done (91 :: (w2 ++ t) ++ [93]) (DArr vs)).
        + apply vt_arr. clear -W2 I. destruct I as [w1 t v w3 W1 V W3|w1 t v w3 r vs W1 V W3 I]; rewrite app_assoc.
          * apply it_one; auto. now apply Forall_app.
          * apply it_more; auto. now apply Forall_app.
        + cbn [app]. rewrite Es2, Et, <- !app_assoc. reflexivity. }
    destruct (Z.eqb_spec c 34) as [->|].
    { injection E as E. apply (valid_gbody _ _ _ (Nat.le_refl _)) in E as (t & G & ->).
      apply (Done (34 :: t ++ [34]) (DStr [])); [now constructor|]. cbn [app]. rewrite <- app_assoc. reflexivity. }
    destruct ((c =? 45) || is_digit c) eqn:D.
    { injection E as E. apply valid_number_sound in E as (t & N & Et); [|unfold is_digit in D; unfold digit; lia].
      apply (Done t (DNum t)); [now constructor|exact Et]. }
    destruct (Z.eqb_spec c 116) as [->|].
    { apply ret_inv, eat_sound in E as ->. apply (Done [116; 114; 117; 101] (DBool true)); [constructor|reflexivity]. }
    destruct (Z.eqb_spec c 102) as [->|].
    { apply ret_inv, eat_sound in E as ->. apply (Done [102; 97; 108; 115; 101] (DBool false)); [constructor|reflexivity]. }
    destruct (Z.eqb_spec c 110) as [->|]; [|discriminate].
    apply ret_inv, eat_sound in E as ->. apply (Done [110; 117; 108; 108] DNull); [constructor|reflexivity].
  - cbn [valid_members] in E. destruct (valid_string s) as [s1|] eqn:S; [|discriminate].
    apply (valid_gbody _ _ _ (Nat.le_refl _)) in S as (k & G & ->).
    unfold valid_colon in E. destruct (skip_ws_split s1) as (w2 & W2 & E1). destruct (skip_ws s1) as [|c s2]; [discriminate|].
    destruct (Z.eqb_spec c 58) as [->|]; [|discriminate].
    destruct (valid_any n s2) as [[s3|]| |] eqn:A; try discriminate. cbn [bind] in E. apply IHa in A as (w3 & t & v & W3 & V & ->).
    unfold valid_comma in E. destruct (skip_ws_split s3) as (w4 & W4 & E3). destruct (skip_ws s3) as [|c s4]; [discriminate|].
    destruct ((c =? 44) || (c =? 125)) eqn:C; [|discriminate].
    destruct (Z.eqb_spec c 125) as [->|].
    + injection E as <-. eexists; eexists. split.
      * apply (me_one loose_number gr [] k [] w2 w3 t v w4); auto. constructor.
      * rewrite E1, E3. repeat (rewrite <- app_assoc; cbn [app]). reflexivity.
    + assert (c = 44) as -> by lia. destruct (skip_ws_split s4) as (w5 & W5 & E4). destruct (skip_ws s4) as [|d s5]; [discriminate|].
      destruct (Z.eqb_spec d 34) as [->|]; [|discriminate]. apply IHm in E as (t2 & ms & M & ->).
      assert (lmembers (w5 ++ 34 :: t2) ms) as M2.
      { clear -W5 M.
        inversion M as [w1 k s w0 w3 t' v w4 W1 K W0 W3 V W4 E E2|w1 k s w0 w3 t' v w4 r ms' W1 K W0 W3 V W4 M' E E2]; subst.
        * destruct w1 as [|c w1]; [|injection E as -> E; inversion W1 as [|? ? B ?]; unfold ws_char in B; lia].
          cbn [app] in E. injection E as <-. now apply me_one.
        * destruct w1 as [|c w1]; [|injection E as -> E; inversion W1 as [|? ? B ?]; unfold ws_char in B; lia].
          cbn [app] in E. injection E as <-. now apply me_more. }
      eexists; eexists. split.
      * apply (me_more loose_number gr [] k [] w2 w3 t v w4 (w5 ++ 34 :: t2) ms); [constructor|exact G|exact W2|exact W3|exact V|exact W4|exact M2].
      * rewrite E1, E3, E4. repeat (rewrite <- app_assoc; cbn [app]). reflexivity.
  - cbn [valid_items] in E. destruct s as [|c0 s0] eqn:S0; [discriminate|]. rewrite <- S0 in *. clear S0 c0 s0.
    destruct (valid_any n s) as [[s3|]| |] eqn:A; try discriminate. cbn [bind] in E. apply IHa in A as (w3 & t & v & W3 & V & ->).
    unfold valid_comma in E. destruct (skip_ws_split s3) as (w4 & W4 & E3). destruct (skip_ws s3) as [|c s4]; [discriminate|].
    destruct ((c =? 44) || (c =? 93)) eqn:C; [|discriminate].
    destruct (Z.eqb_spec c 93) as [->|].
    + injection E as <-. eexists; eexists. split; [apply (it_one loose_number gr w3 t v w4); auto|].
      rewrite E3. rewrite <- !app_assoc. reflexivity.
    + assert (c = 44) as -> by lia. apply IHi in E as (t2 & vs & I & ->).
      eexists; eexists. split; [apply (it_more loose_number gr w3 t v w4 t2 vs); auto|].
      rewrite E3. repeat (rewrite <- app_assoc; cbn [app]). reflexivity.
Qed.

(* the checker comes to an end *)
Lemma skip_ws_len s : (length (skip_ws s) <= length s)%nat.
Proof. destruct (skip_ws_split s) as (w & _ & E). rewrite E at 2. rewrite app_length. lia. Qed.
Lemma valid_total n :
  (forall s, (2 * length s < n)%nat -> exists o, valid_any n s = Ret o) /\
  (forall s, (2 * length s < n)%nat -> exists o, valid_members n s = Ret o) /\
  (forall s, (2 * length s + 1 < n)%nat -> exists o, valid_items n s = Ret o).
Proof.
  induction n as [|n (IHa & IHm & IHi)].
  { refine (conj _ (conj _ _)); intros s L; lia. }
  assert (forall s r, valid_any n s = Ret (Some r) -> (length r < length s)%nat) as La.
  { intros s r E. apply (proj1 (valid_sound n)) in E as (w & t & v & _ & V & ->). rewrite !app_length.
    apply value_first in V as (c & t' & -> & _); [|auto]. cbn [length]. lia. }
  refine (conj _ (conj _ _)); intros s L.
  - cbn [valid_any]. pose proof (skip_ws_len s). destruct (skip_ws s) as [|c s']; [eauto|]. cbn [length] in *.
    destruct (c =? 123).
    { pose proof (skip_ws_len s'). destruct (skip_ws s') as [|d s2]; [eauto|]. cbn [length] in *.
      destruct (d =? 125); [eauto|]. destruct (d =? 34); [|eauto]. apply IHm. lia. }
    destruct (c =? 91).
    { pose proof (skip_ws_len s'). destruct (skip_ws s') as [|d s2]; [eauto|].
      destruct (d =? 93); [eauto|]. apply IHi. cbn [length] in *; lia. }
    repeat match goal with |- exists o, (if ?b then _ else _) = Ret o => destruct b; [now eauto|] end. eauto.
  - cbn [valid_members]. destruct (valid_string s) as [s1|] eqn:S; [|eauto].
    apply (valid_gbody _ _ _ (Nat.le_refl _)) in S as (k & _ & ->). rewrite app_length in L. cbn [length] in L.
    unfold valid_colon. pose proof (skip_ws_len s1). destruct (skip_ws s1) as [|c s2]; [eauto|]. cbn [length] in *.
    destruct (c =? 58); [|eauto]. destruct (IHa s2 ltac:(lia)) as [o O]. rewrite O. cbn [bind]. destruct o as [s3|]; [|eauto].
    apply La in O. unfold valid_comma. pose proof (skip_ws_len s3). destruct (skip_ws s3) as [|d s4]; [eauto|]. cbn [length] in *.
    destruct ((d =? 44) || (d =? 125)); [|eauto]. destruct (d =? 125); [eauto|].
    pose proof (skip_ws_len s4). destruct (skip_ws s4) as [|e s5]; [eauto|]. cbn [length] in *. destruct (e =? 34); [|eauto].
    apply IHm. lia.
  - cbn [valid_items]. destruct s as [|c0 s0] eqn:S0; [eauto|]. rewrite <- S0 in *. clear S0 c0 s0.
    destruct (IHa s ltac:(lia)) as [o O]. rewrite O. cbn [bind]. destruct o as [s3|]; [|eauto].
    apply La in O. unfold valid_comma. pose proof (skip_ws_len s3). destruct (skip_ws s3) as [|d s4]; [eauto|]. cbn [length] in *.
    destruct ((d =? 44) || (d =? 93)); [|eauto]. destruct (d =? 93); [eauto|].
    apply IHi. lia.
Qed.
Lemma validate_total s : exists b, validate_json s = Ret b.
Proof.
  unfold validate_json. destruct (skip_ws s) as [|c s'] eqn:K; [eauto|].
  destruct (proj1 (valid_total (valid_fuel (c :: s'))) (c :: s') ltac:(unfold valid_fuel; lia)) as [o O]. rewrite O. cbn [bind].
  destruct o; eauto.
Qed.
Lemma validate_sound s : validate_json s = Ret true -> exists v, text loose_number gr s v.
Proof.
  unfold validate_json. destruct (skip_ws_split s) as (w & W & Es). destruct (skip_ws s) as [|c s']; [discriminate|].
  destruct (valid_any _ (c :: s')) as [[r|]| |] eqn:E; try discriminate. cbn [bind].
  apply (proj1 (valid_sound _)) in E as (w2 & t & v & W2 & V & E). destruct (skip_ws r) eqn:R; [|discriminate].
  intros _. exists v, (w ++ w2), t, r. split; [now apply Forall_app|]. split; [exact V|]. split; [now apply skip_ws_none|].
  rewrite Es, E, <- app_assoc. reflexivity.
Qed.
Lemma validate_complete s v : text number gr s v -> validate_json s = Ret true.
Proof.
  intros (w1 & t & w2 & W1 & V & W2 & ->). unfold validate_json.
  pose proof V as V'. apply value_first in V' as (c & t' & Et & C); [|exact rfc_loose].
  rewrite skip_ws_app by exact W1. assert (skip_ws (t ++ w2) = t ++ w2) as ->.
  { subst t. cbn [app]. apply skip_ws_id, first_no_ws, C. }
  assert (valid_any (valid_fuel (t ++ w2)) (t ++ w2) = Ret (Some w2)) as K.
  { apply (proj1 valid_complete t v V).
    - unfold valid_fuel. rewrite app_length. lia.
    - rewrite <- (app_nil_r w2). apply ends_ws; [exact W2|exact I]. }
  destruct (t ++ w2) as [|c0 s0] eqn:X; [subst t; discriminate|]. rewrite K. cbn [bind].
  rewrite skip_ws_ws by exact W2. reflexivity.
Qed.
