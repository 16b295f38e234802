(* The JSON parser of Json.v reads every text the checker accepts. *)
Require Import ZArith List Bool Lia ZifyBool ZifyNat.
From Verif Require Import Base BSpec Elements Value Api Dec128 DecProofs JsonSpec Json JsonProofs.
Import List ListNotations.
Open Scope Z_scope.

(* what a text stands for, as a jsonx value: the first number that cannot be read is the error *)
Section Value.
Variable num : bytes -> jval + gerr.
Fixpoint value_of (d : jdata) : jval + gerr :=
  match d with
  | DNull => inl JNull
  | DBool b => inl (JBool b)
  | DNum t => num t
  | DStr s => inl (JString s)
  | DArr ds =>
      match (fix all (ds : list jdata) : list jval + gerr :=
        match ds with
        | [] => inl []
        | d :: r => match value_of d with
                    | inr e => inr e
                    | inl v => match all r with inl vs => inl (v :: vs) | inr e => inr e end
                    end
        end) ds with
      | inl vs => inl (JArr vs)
      | inr e => inr e
      end
  | DObj ms =>
      match (fix all (ms : list (bytes * jdata)) : list jelem + gerr :=
        match ms with
        | [] => inl []
        | (k, d) :: r => match value_of d with
                         | inr e => inr e
                         | inl v => match all r with inl es => inl (JElem k v :: es) | inr e => inr e end
                         end
        end) ms with
      | inl es => inl (JDoc es)
      | inr e => inr e
      end
  end.
Fixpoint values_of (ds : list jdata) : list jval + gerr :=
  match ds with
  | [] => inl []
  | d :: r => match value_of d with
              | inr e => inr e
              | inl v => match values_of r with inl vs => inl (v :: vs) | inr e => inr e end
              end
  end.
Fixpoint elems_of (ms : list (bytes * jdata)) : list jelem + gerr :=
  match ms with
  | [] => inl []
  | (k, d) :: r => match value_of d with
                   | inr e => inr e
                   | inl v => match elems_of r with inl es => inl (JElem k v :: es) | inr e => inr e end
                   end
  end.
Lemma value_of_arr ds : value_of (DArr ds) = match values_of ds with inl vs => inl (JArr vs) | inr e => inr e end.
Proof. reflexivity. Qed.
Lemma value_of_obj ms : value_of (DObj ms) = match elems_of ms with inl es => inl (JDoc es) | inr e => inr e end.
Proof. reflexivity. Qed.
End Value.

(* strings as unescape reads them; those that stand for something are read as that *)
Definition ub (t s : bytes) : Prop := gbody t /\ unescape t = s.
Lemma body_ub t s : body t s -> ub t s.
Proof. intros B. split; [now apply (body_gbody t s)|now apply unescape_body]. Qed.
Lemma no_esc_ub t : gbody t -> has_esc t = false -> unescape t = t.
Proof.
  unfold has_esc. induction 1 as [|c t H1 H2 H3 B IH| |]; cbn [existsb]; try discriminate; [auto|].
  replace (c =? 92) with false by lia. intros E. cbn [orb] in E. cbn [unescape].
  replace (c <? 32) with false by lia. replace (c =? 92) with false by lia. now rewrite IH.
Qed.
Lemma str_of_ub t s : ub t s -> str_of t (has_esc t) = s.
Proof.
  intros [G U]. unfold str_of. destruct (has_esc t) eqn:E; [exact U|]. rewrite <- U. symmetry. now apply no_esc_ub.
Qed.
Lemma tostr_ub t s r : ub t s -> r <> [] -> tostr (t ++ 34 :: r) = (s, r).
Proof.
  intros B R. unfold tostr. rewrite (parse_string_gbody t r (proj1 B)).
  pose proof (str_of_ub t s B) as E. destruct (has_esc t); [|now rewrite E].
  destruct r as [|c r]; [contradiction|]. now rewrite E.
Qed.
Lemma tostr_fst t s r : ub t s -> fst (tostr (t ++ 34 :: r)) = s.
Proof.
  intros B. unfold tostr. rewrite (parse_string_gbody t r (proj1 B)).
  pose proof (str_of_ub t s B) as E. destruct (has_esc t); [|exact E]. destruct r; exact E.
Qed.

Notation uvalue := (value_text loose_number ub).
Notation uitems := (items loose_number ub).
Notation umembers := (members loose_number ub).

(* ------------------------------------------------------------------- squash *)

Definition pre (t : bytes) (x : bytes * bytes) : bytes * bytes := (t ++ fst x, snd x).
Lemma pre_pre a b x : pre a (pre b x) = pre (a ++ b) x.
Proof. unfold pre. cbn [fst snd]. now rewrite app_assoc. Qed.
Lemma squash_in d q c r : (c = 34 -> escaped q = true) -> squash d (Some q) (c :: r) = pre [c] (squash d (Some (c :: q)) r).
Proof.
  intros H. cbn [squash]. destruct (Z.eqb_spec c 34) as [->|]; [rewrite H by reflexivity|]; cbn [andb negb];
    destruct (squash d _ r); reflexivity.
Qed.
Lemma squash_string t : gbody t -> forall d p r, Nat.even (slashes p) = true ->
  squash d (Some p) (t ++ 34 :: r) = pre (t ++ [34]) (squash d None r).
Proof.
  induction 1 as [|c t H1 H2 H3 B IH|c x t S B IH|a b c d n t H B IH]; intros dp p r P; cbn [app].
  - cbn [squash Z.eqb Pos.eqb]. rewrite (escaped_even _ P). cbn [negb andb]. destruct (squash dp None r); reflexivity.
  - rewrite squash_in by contradiction. rewrite IH by (rewrite slashes_other; auto). now rewrite pre_pre.
  - rewrite squash_in by discriminate. rewrite squash_in by (intros _; now apply escaped_odd).
    destruct (Z.eq_dec c 92) as [->|N]; [rewrite IH by (now apply slashes_two)|rewrite IH by (rewrite slashes_other; auto)];
      now rewrite !pre_pre.
  - apply hex4_not in H as ((A1 & A2) & (B1 & B2) & (C1 & C2) & (D1 & D2)).
    rewrite !squash_in by (discriminate || contradiction). rewrite IH by (rewrite slashes_other; auto). now rewrite !pre_pre.
Qed.
(* characters that squash passes over *)
Definition neutral (c : Z) : Prop := ~ In c [34; 123; 91; 40; 125; 93; 41].
Lemma squash_neutral t : Forall neutral t -> forall d r, squash d None (t ++ r) = pre t (squash d None r).
Proof.
  induction 1 as [|c t N F IH]; intros d r; cbn [app].
  - unfold pre. cbn. now destruct (squash d None r).
  - unfold neutral in N. cbn [In] in N. cbn [squash].
    replace (c =? 34) with false by lia. replace ((c =? 123) || (c =? 91) || (c =? 40)) with false by lia.
    replace ((c =? 125) || (c =? 93) || (c =? 41)) with false by lia. rewrite IH. reflexivity.
Qed.
Lemma squash_open c d r : c = 123 \/ c = 91 -> squash d None (c :: r) = pre [c] (squash (d + 1) None r).
Proof.
  intros [-> | ->]; cbn [squash Z.eqb Pos.eqb orb]; destruct (squash (d + 1) None r); reflexivity.
Qed.
Lemma squash_close c d r : c = 125 \/ c = 93 -> 1 < d -> squash d None (c :: r) = pre [c] (squash (d - 1) None r).
Proof.
  intros [-> | ->] D; cbn [squash Z.eqb Pos.eqb orb]; replace (d - 1 =? 0) with false by lia;
    destruct (squash (d - 1) None r); reflexivity.
Qed.
Lemma squash_last c r : c = 125 \/ c = 93 -> squash 1 None (c :: r) = ([c], r).
Proof. intros [-> | ->]; reflexivity. Qed.
Lemma squash_quoted t : gbody t -> forall d r, squash d None (34 :: t ++ 34 :: r) = pre (34 :: t ++ [34]) (squash d None r).
Proof.
  intros G d r. cbn [squash Z.eqb Pos.eqb]. rewrite squash_string by auto. reflexivity.
Qed.
Lemma ws_neutral w : ws w -> Forall neutral w.
Proof. apply Forall_impl. unfold ws_char, neutral. cbn [In]. lia. Qed.
Lemma num_neutral t : loose_number t -> Forall neutral t.
Proof. intros N. apply loose_chars in N. revert N. apply Forall_impl. unfold num_char, digit, neutral. cbn [In]. lia. Qed.
Lemma neutral_1 c : neutral c -> forall d r, squash d None (c :: r) = pre [c] (squash d None r).
Proof. intros N d r. exact (squash_neutral [c] ltac:(repeat constructor; exact N) d r). Qed.
Ltac neut := unfold neutral; cbn [In]; lia.

Theorem squash_skips :
  (forall t v, uvalue t v -> forall d r, 1 <= d -> squash d None (t ++ r) = pre t (squash d None r)) /\
  (forall t vs, uitems t vs -> forall d r, 1 <= d -> squash d None (t ++ r) = pre t (squash d None r)) /\
  (forall t ms, umembers t ms -> forall d r, 1 <= d -> squash d None (t ++ r) = pre t (squash d None r)).
Proof.
  apply json_mut.
  - intros d r _. apply squash_neutral. repeat constructor; neut.
  - intros d r _. apply squash_neutral. repeat constructor; neut.
  - intros d r _. apply squash_neutral. repeat constructor; neut.
  - intros t N d r _. now apply squash_neutral, num_neutral.
  - intros t s [G _] d r _. cbn [app]. rewrite <- app_assoc. cbn [app]. rewrite squash_quoted by exact G. reflexivity.
  - intros w W d r D. cbn [app]. rewrite <- app_assoc. cbn [app]. rewrite squash_open by auto.
    rewrite (squash_neutral w (ws_neutral _ W)). rewrite squash_close by (auto; lia). rewrite !pre_pre.
    replace (d + 1 - 1) with d by lia. reflexivity.
  - intros t vs _ IH d r D. cbn [app]. rewrite <- app_assoc. cbn [app]. rewrite squash_open by auto.
    rewrite IH by lia. rewrite squash_close by (auto; lia). rewrite !pre_pre. replace (d + 1 - 1) with d by lia. reflexivity.
  - intros w W d r D. cbn [app]. rewrite <- app_assoc. cbn [app]. rewrite squash_open by auto.
    rewrite (squash_neutral w (ws_neutral _ W)). rewrite squash_close by (auto; lia). rewrite !pre_pre.
    replace (d + 1 - 1) with d by lia. reflexivity.
  - intros t ms _ IH d r D. cbn [app]. rewrite <- app_assoc. cbn [app]. rewrite squash_open by auto.
    rewrite IH by lia. rewrite squash_close by (auto; lia). rewrite !pre_pre. replace (d + 1 - 1) with d by lia. reflexivity.
  - intros w1 t v w2 W1 _ IH W2 d r D. rewrite <- !app_assoc.
    rewrite (squash_neutral w1 (ws_neutral _ W1)), IH, (squash_neutral w2 (ws_neutral _ W2)) by lia. now rewrite !pre_pre, <- !app_assoc.
  - intros w1 t v w2 r' vs W1 _ IH W2 _ IHI d r D. repeat (rewrite <- !app_assoc; cbn [app]).
    rewrite (squash_neutral w1 (ws_neutral _ W1)), IH, (squash_neutral w2 (ws_neutral _ W2)) by lia.
    rewrite neutral_1 by neut. rewrite IHI by lia. rewrite !pre_pre. repeat (rewrite <- !app_assoc; cbn [app]). reflexivity.
  - intros w1 k s w2 w3 t v w4 W1 [G _] W2 W3 _ IH W4 d r D. repeat (rewrite <- !app_assoc; cbn [app]).
    rewrite (squash_neutral w1 (ws_neutral _ W1)), squash_quoted by exact G.
    rewrite (squash_neutral w2 (ws_neutral _ W2)), neutral_1 by neut.
    rewrite (squash_neutral w3 (ws_neutral _ W3)), IH, (squash_neutral w4 (ws_neutral _ W4)) by lia.
    rewrite !pre_pre. repeat (rewrite <- !app_assoc; cbn [app]). reflexivity.
  - intros w1 k s w2 w3 t v w4 r' ms W1 [G _] W2 W3 _ IH W4 _ IHM d r D. repeat (rewrite <- !app_assoc; cbn [app]).
    rewrite (squash_neutral w1 (ws_neutral _ W1)), squash_quoted by exact G.
    rewrite (squash_neutral w2 (ws_neutral _ W2)), neutral_1 by neut.
    rewrite (squash_neutral w3 (ws_neutral _ W3)), IH, (squash_neutral w4 (ws_neutral _ W4)) by lia.
    rewrite neutral_1 by neut. rewrite IHM by lia.
    rewrite !pre_pre. repeat (rewrite <- !app_assoc; cbn [app]). reflexivity.
Qed.
Lemma squash_inner c t r : c = 125 \/ c = 93 ->
  (forall d r, 1 <= d -> squash d None (t ++ r) = pre t (squash d None r)) ->
  squash 1 None (t ++ c :: r) = (t ++ [c], r).
Proof. intros C H. rewrite H by lia. rewrite squash_last by exact C. reflexivity. Qed.
(* a value that is an array or an object, up to its closing bracket *)
Lemma squash_value c t v r : uvalue (c :: t) v -> c = 123 \/ c = 91 -> squash_from c (t ++ r) = (c :: t, r).
Proof.
  intros V C. unfold squash_from.
  assert (squash 1 None (t ++ r) = (t, r)) as ->; [|reflexivity].
  inversion V as [| | |? N| |w W|? vs I|w W|? ms M]; subst; try lia.
  - apply loose_first in N as (x & y & E & [D|D]); injection E as -> ->; unfold digit in *; lia.
  - rewrite <- app_assoc. cbn [app]. apply squash_inner; [auto|]. intros; apply squash_neutral, ws_neutral, W.
  - rewrite <- app_assoc. cbn [app]. apply squash_inner; [auto|]. apply (proj1 (proj2 squash_skips) _ _ I).
  - rewrite <- app_assoc. cbn [app]. apply squash_inner; [auto|]. intros; apply squash_neutral, ws_neutral, W.
  - rewrite <- app_assoc. cbn [app]. apply squash_inner; [auto|]. apply (proj2 (proj2 squash_skips) _ _ M).
Qed.

(* ---------------------------------------------------------------- one value *)

(* the result for a value written t, followed by the spaces w where the rest is kept *)
Definition resw (t : bytes) (v : jdata) (w : bytes) : result :=
  match v with
  | DNull => RNull
  | DBool b => if b then RTrue else RFalse
  | DNum _ => RNum t
  | DStr s => RStr s
  | DArr _ | DObj _ => RJson (t ++ w)
  end.
Definition res (t : bytes) (v : jdata) : result := resw t v [].
Lemma literal_ok c t r : forallb (fun c => (97 <=? c) && (c <=? 122)) t = true -> ends r ->
  parse_literal (c :: t ++ r) = (c :: t, r).
Proof.
  intros F E. unfold parse_literal, span1. rewrite span_app; [reflexivity|exact F|].
  destruct r as [|d r]; [auto|]. cbn in E. unfold ws_char in E. lia.
Qed.
Lemma parse_any_value t v r : uvalue t v -> ends r -> parse_any (t ++ r) = Some (res t v, r).
Proof.
  intros V E. pose proof V as V0. unfold res. destruct V0 as [| | |t N|t s [G U]|w W|t vs I|w W|t ms M]; cbn [resw].
  - pose proof (literal_ok 110 [117; 108; 108] r eq_refl E) as L. cbn [app] in *. cbn [parse_any]. now rewrite L.
  - pose proof (literal_ok 116 [114; 117; 101] r eq_refl E) as L. cbn [app] in *. cbn [parse_any]. now rewrite L.
  - pose proof (literal_ok 102 [97; 108; 115; 101] r eq_refl E) as L. cbn [app] in *. cbn [parse_any]. now rewrite L.
  - pose proof (parse_number_ok t r N E) as P. destruct (loose_first t N) as (c & t' & -> & C). cbn [app parse_any].
    cbn [app] in P. unfold digit in C. replace ((c =? 123) || (c =? 91)) with false by lia.
    replace (c <=? 32) with false by lia. replace (c =? 34) with false by lia.
    replace ((c =? 45) || is_digit c) with true by (unfold is_digit; lia). now rewrite P.
  - cbn [app parse_any Z.eqb Pos.eqb orb]. change (34 <=? 32) with false. cbn iota. rewrite <- app_assoc. cbn [app].
    rewrite (parse_string_gbody t r G). now rewrite (str_of_ub t s (conj G U)).
  - cbn [app parse_any Z.eqb Pos.eqb orb]. rewrite (squash_value 91 (w ++ [93]) _ r V) by auto. now rewrite app_nil_r.
  - cbn [app parse_any Z.eqb Pos.eqb orb]. rewrite (squash_value 91 (t ++ [93]) _ r V) by auto. now rewrite app_nil_r.
  - cbn [app parse_any Z.eqb Pos.eqb orb]. rewrite (squash_value 123 (w ++ [125]) _ r V) by auto. now rewrite app_nil_r.
  - cbn [app parse_any Z.eqb Pos.eqb orb]. rewrite (squash_value 123 (t ++ [125]) _ r V) by auto. now rewrite app_nil_r.
Qed.
Lemma each_item_value n t v r : uvalue t v -> ends r -> r <> [] ->
  each_item (S n) (t ++ r) = (l <- each_item n r ;; Ret (res t v :: l)).
Proof.
  intros V E NR. pose proof V as V0. unfold res. destruct V0 as [| | |t N|t s [G U]|w W|t vs I|w W|t ms M]; cbn [resw].
  - pose proof (literal_ok 110 [117; 108; 108] r eq_refl E) as L. cbn [app] in *. cbn [each_item]. now rewrite L.
  - pose proof (literal_ok 116 [114; 117; 101] r eq_refl E) as L. cbn [app] in *. cbn [each_item]. now rewrite L.
  - pose proof (literal_ok 102 [97; 108; 115; 101] r eq_refl E) as L. cbn [app] in *. cbn [each_item]. now rewrite L.
  - pose proof (tonum_ok t r N E) as P. destruct (loose_first t N) as (c & t' & -> & C). cbn [app each_item].
    cbn [app] in P. unfold digit in C. replace (c <=? 32) with false by lia.
    replace ((c =? 93) || (c =? 125)) with false by lia. replace ((c =? 123) || (c =? 91)) with false by lia.
    replace (c =? 110) with false by lia. replace (c =? 116) with false by lia. replace (c =? 102) with false by lia.
    replace (c =? 34) with false by lia.
    replace ((c =? 45) || is_digit c) with true by (unfold is_digit; lia). now rewrite P.
  - cbn [app each_item Z.eqb Pos.eqb orb]. change (34 <=? 32) with false. cbn iota. rewrite <- app_assoc. cbn [app].
    now rewrite (tostr_ub t s r (conj G U) NR).
  - cbn [app each_item Z.eqb Pos.eqb orb]. change (91 <=? 32) with false. cbn iota. rewrite (squash_value 91 (w ++ [93]) _ r V) by auto. now rewrite app_nil_r.
  - cbn [app each_item Z.eqb Pos.eqb orb]. change (91 <=? 32) with false. cbn iota. rewrite (squash_value 91 (t ++ [93]) _ r V) by auto. now rewrite app_nil_r.
  - cbn [app each_item Z.eqb Pos.eqb orb]. change (123 <=? 32) with false. cbn iota. rewrite (squash_value 123 (w ++ [125]) _ r V) by auto. now rewrite app_nil_r.
  - cbn [app each_item Z.eqb Pos.eqb orb]. change (123 <=? 32) with false. cbn iota. rewrite (squash_value 123 (t ++ [125]) _ r V) by auto. now rewrite app_nil_r.
Qed.
Lemma parse_value_value t v w : uvalue t v -> ws w -> parse_value (t ++ w) = resw t v w.
Proof.
  intros V W. destruct V as [| | |t N|t s U|w' W'|t vs I|w' W'|t ms M]; cbn [resw]; try reflexivity.
  - assert (ends w) as E by (rewrite <- (app_nil_r w); apply ends_ws; [exact W|exact I]).
    pose proof (tonum_ok t w N E) as P. destruct (loose_first t N) as (c & t' & -> & C). cbn [app parse_value].
    cbn [app] in P. unfold digit in C. replace ((c =? 123) || (c =? 91)) with false by lia.
    replace (c <=? 32) with false by lia.
    replace (c =? 110) with false by lia. replace (c =? 116) with false by lia. replace (c =? 102) with false by lia.
    replace (c =? 34) with false by lia.
    replace ((c =? 45) || is_digit c) with true by (unfold is_digit; lia). now rewrite P.
  - cbn [app parse_value Z.eqb Pos.eqb orb]. change (34 <=? 32) with false. cbn iota. rewrite <- app_assoc. cbn [app].
    now rewrite (tostr_fst t s w U).
Qed.
Lemma parse_value_ws w s : ws w -> parse_value (w ++ s) = parse_value s.
Proof.
  induction 1 as [|c w H F IH]; [reflexivity|]. cbn [app parse_value]. unfold ws_char in H.
  replace ((c =? 123) || (c =? 91)) with false by lia. replace (c <=? 32) with true by lia. exact IH.
Qed.

(* ------------------------------------------------------------ items, members *)

Lemma each_item_skip w s k rs : Forall (fun c => c <= 32 \/ c = 44) w ->
  (forall n, (k < n)%nat -> each_item n s = Ret rs) ->
  forall n, (k + length w < n)%nat -> each_item n (w ++ s) = Ret rs.
Proof.
  intros F H. induction F as [|c w C F IH]; intros n L; [apply H; cbn [length] in L; lia|].
  cbn [length] in L. destruct n as [|n]; [lia|]. cbn [app each_item].
  destruct (Z.leb_spec c 32); [apply IH; lia|]. destruct C as [C|C]; [lia|]. subst c. cbn. apply IH. lia.
Qed.
Lemma ws_skip w : ws w -> Forall (fun c => c <= 32 \/ c = 44) w.
Proof. apply Forall_impl. unfold ws_char. lia. Qed.
Lemma each_member_skip w s k rs : Forall (fun c => c <> 34) w ->
  (forall n, (k < n)%nat -> each_member n s = Ret rs) ->
  forall n, (k + length w < n)%nat -> each_member n (w ++ s) = Ret rs.
Proof.
  intros F H. induction F as [|c w C F IH]; intros n L; [apply H; cbn [length] in L; lia|].
  cbn [length] in L. destruct n as [|n]; [lia|]. cbn [app each_member].
  replace (c =? 34) with false by lia. apply IH. lia.
Qed.
Lemma each_member_end w n : Forall (fun c => c <> 34) w -> (length w < n)%nat -> each_member n w = Ret [].
Proof.
  intros F L. rewrite <- (app_nil_r w). apply (each_member_skip w [] 0 []); [exact F| |lia].
  intros m M. destruct m; [lia|reflexivity].
Qed.
Lemma ws_no_quote w : ws w -> Forall (fun c => c <> 34) w.
Proof. apply Forall_impl. unfold ws_char. lia. Qed.
Lemma skip_sep_app w s : Forall (fun c => c <= 32 \/ c = 44 \/ c = 58) w -> skip_sep (w ++ s) = skip_sep s.
Proof.
  induction 1 as [|c w C F IH]; [reflexivity|]. cbn [app skip_sep].
  now replace ((c <=? 32) || (c =? 44) || (c =? 58)) with true by lia.
Qed.
Lemma skip_sep_first c s : first_char c -> skip_sep (c :: s) = c :: s.
Proof.
  unfold first_char, digit. intros H. cbn [skip_sep].
  now replace ((c <=? 32) || (c =? 44) || (c =? 58)) with false by lia.
Qed.
Lemma ws_sep w : ws w -> Forall (fun c => c <= 32 \/ c = 44 \/ c = 58) w.
Proof. apply Forall_impl. unfold ws_char. lia. Qed.
(* one member, from its opening quote on *)
Lemma each_member_value n k s w2 w3 t v r : ub k s -> ws w2 -> ws w3 -> uvalue t v -> ends r ->
  each_member (S n) (34 :: k ++ 34 :: w2 ++ 58 :: w3 ++ t ++ r) =
  (l <- each_member n (next r) ;; Ret ((s, res t v) :: l)).
Proof.
  intros K W2 W3 V E. cbn [each_member Z.eqb Pos.eqb]. rewrite (parse_string_gbody k _ (proj1 K)), (str_of_ub k s K).
  rewrite skip_sep_app by (apply ws_sep, W2). change (58 :: w3 ++ t ++ r) with ([58] ++ w3 ++ t ++ r).
  rewrite skip_sep_app by (repeat constructor; lia). rewrite skip_sep_app by (apply ws_sep, W3).
  pose proof V as V'. apply value_first in V' as (c & t' & -> & C); [|auto]. cbn [app]. rewrite skip_sep_first by exact C.
  change (c :: t' ++ r) with ((c :: t') ++ r). rewrite (parse_any_value _ v r V E). reflexivity.
Qed.

Lemma Forall2_impl {A B} (P Q : A -> B -> Prop) l m : (forall a b, P a b -> Q a b) -> Forall2 P l m -> Forall2 Q l m.
Proof. intros H. induction 1; constructor; auto. Qed.
Section Get.
Variable pf : bytes -> Z * bool.
Variable ff : Z -> bytes.
Notation gv := (get_value pf ff).
Notation vo := (value_of (num_value pf ff)).

Lemma map_vals_ok f rs vs : Forall2 (fun r v => f r = Ret (vo v)) rs vs -> map_vals f rs = Ret (values_of (num_value pf ff) vs).
Proof.
  induction 1 as [|r v rs vs H F IH]; [reflexivity|]. cbn [map_vals values_of]. rewrite H. cbn [bind].
  destruct (vo v); [|reflexivity]. rewrite IH. cbn [bind]. destruct (values_of _ vs); reflexivity.
Qed.
Lemma map_elems_ok f rs ms : Forall2 (fun r m => fst r = fst m /\ f (snd r) = Ret (vo (snd m))) rs ms ->
  map_elems f rs = Ret (elems_of (num_value pf ff) ms).
Proof.
  induction 1 as [|[k r] [k' v] rs ms [K H] F IH]; [reflexivity|]. cbn [fst snd] in *. subst k'.
  cbn [map_elems elems_of]. rewrite H. cbn [bind].
  destruct (vo v); [|reflexivity]. rewrite IH. cbn [bind]. destruct (elems_of _ ms); reflexivity.
Qed.

Theorem get_value_ok :
  (forall t v, uvalue t v -> forall w n, ws w -> (length t <= n)%nat -> gv (S n) (resw t v w) = Ret (vo v)) /\
  (forall t vs, uitems t vs -> exists rs,
     (forall n r, (length t < n)%nat -> each_item n (t ++ 93 :: r) = Ret rs) /\
     Forall2 (fun x v => forall n, (length t <= n)%nat -> gv (S n) x = Ret (vo v)) rs vs) /\
  (forall t ms, umembers t ms -> exists rs,
     (forall n w, ws w -> (length t + length w + 1 < n)%nat -> each_member n (t ++ 125 :: w) = Ret rs) /\
     Forall2 (fun x m => fst x = fst m /\ forall n, (length t <= n)%nat -> gv (S n) (snd x) = Ret (vo (snd m))) rs ms).
Proof.
  apply json_mut.
  - intros w n W L. reflexivity.
  - intros w n W L. reflexivity.
  - intros w n W L. reflexivity.
  - intros t N w n W L. reflexivity.
  - intros t s [G U] w n W L. reflexivity.
  - intros w' W' w n W L. cbn [resw app get_value]. unfold items_of. cbn [next].
    rewrite <- app_assoc. cbn [app]. rewrite (each_item_skip w' (93 :: w) 0 []); [reflexivity|apply ws_skip, W'| |].
    + intros m M. destruct m; [lia|reflexivity].
    + cbn [length]. rewrite !app_length. cbn [length]. lia.
  - intros t vs I (rs & E & F) w n W L. cbn [length] in L. rewrite app_length in L. cbn [length] in L.
    cbn [resw]. rewrite value_of_arr. cbn [app get_value]. unfold items_of. cbn [next]. rewrite <- app_assoc. cbn [app].
    rewrite E by (cbn [length]; rewrite !app_length; cbn [length]; lia). cbn [bind].
    destruct n as [|n]; [lia|]. rewrite (map_vals_ok (gv (S n)) rs vs); [cbn [bind]; destruct (values_of _ vs); reflexivity|].
    eapply Forall2_impl; [|exact F]. cbn. intros x v H. apply H. lia.
  - intros w' W' w n W L. cbn [resw app get_value]. unfold members_of. cbn [next].
    rewrite (each_member_end ((w' ++ [125]) ++ w)); [reflexivity| |].
    + apply Forall_app. split; [apply Forall_app; split|]; try (now apply ws_no_quote). repeat constructor. lia.
    + cbn [length]. lia.
  - intros t ms M (rs & E & F) w n W L. cbn [length] in L. rewrite app_length in L. cbn [length] in L.
    cbn [resw]. rewrite value_of_obj. cbn [app get_value]. unfold members_of. cbn [next]. rewrite <- app_assoc. cbn [app].
    rewrite E by (auto; cbn [length]; rewrite !app_length; cbn [length]; lia). cbn [bind].
    destruct n as [|n]; [lia|]. rewrite (map_elems_ok (gv (S n)) rs ms); [cbn [bind]; destruct (elems_of _ ms); reflexivity|].
    eapply Forall2_impl; [|exact F]. cbn. intros x v [K H]. split; [exact K|]. apply H. lia.
  - intros w1 t v w2 W1 V IH W2. exists [res t v]. split.
    + intros n r L. rewrite !app_length in L. rewrite <- !app_assoc.
      apply (each_item_skip w1 _ (length t + length w2) [res t v]); [apply ws_skip, W1| |lia].
      intros m M. destruct m as [|m]; [lia|].
      rewrite (each_item_value m t v (w2 ++ 93 :: r) V); [|apply ends_ws; cbn; auto|destruct w2; discriminate].
      assert (each_item m (w2 ++ 93 :: r) = Ret []) as ->; [|reflexivity].
      pose proof V as V'. apply value_first in V' as (c & t' & -> & C); [|auto]. cbn [length] in M.
      apply (each_item_skip w2 _ 0 []); [apply ws_skip, W2| |lia]. intros m' M'. destruct m'; [lia|reflexivity].
    + constructor; [|constructor]. intros n L. rewrite !app_length in L. apply IH; [constructor|lia].
  - intros w1 t v w2 r' vs W1 V IH W2 I (rs & E & F). exists (res t v :: rs). split.
    + intros n r L. repeat (rewrite !app_length in L; cbn [length] in L). repeat (rewrite <- !app_assoc; cbn [app]).
      apply (each_item_skip w1 _ (length t + length w2 + 1 + length r') (res t v :: rs)); [apply ws_skip, W1| |lia].
      intros m M. destruct m as [|m]; [lia|].
      rewrite (each_item_value m t v (w2 ++ 44 :: r' ++ 93 :: r) V); [|apply ends_ws; cbn; auto|destruct w2; discriminate].
      assert (each_item m (w2 ++ 44 :: r' ++ 93 :: r) = Ret rs) as ->; [|reflexivity].
      pose proof V as V'. apply value_first in V' as (c & t' & -> & C); [|auto]. cbn [length] in M.
      change (w2 ++ 44 :: r' ++ 93 :: r) with (w2 ++ [44] ++ (r' ++ 93 :: r)). rewrite app_assoc.
      apply (each_item_skip (w2 ++ [44]) _ (length r') rs).
      * apply Forall_app. split; [apply ws_skip, W2|repeat constructor; lia].
      * intros m' M'. now apply E.
      * rewrite app_length. cbn [length]. lia.
    + constructor.
      * intros n L. repeat (rewrite !app_length in L; cbn [length] in L). apply IH; [constructor|lia].
      * eapply Forall2_impl; [|exact F]. cbn. intros x y H n L. repeat (rewrite !app_length in L; cbn [length] in L). apply H. lia.
  - intros w1 k s w2 w3 t v w4 W1 K W2 W3 V IH W4. exists [(s, res t v)]. split.
    + intros n w W L. repeat (rewrite !app_length in L; cbn [length] in L). repeat (rewrite <- !app_assoc; cbn [app]).
      apply (each_member_skip w1 _ (length w4 + length w + 1) [(s, res t v)]); [apply ws_no_quote, W1| |lia].
      intros m M. destruct m as [|m]; [lia|].
      rewrite (each_member_value m k s w2 w3 t v (w4 ++ 125 :: w)); auto; [|apply ends_ws; cbn; auto].
      rewrite each_member_end; [reflexivity| |].
      * assert (Forall (fun c => c <> 34) (w4 ++ 125 :: w)) as Q.
        { apply Forall_app. split; [apply ws_no_quote, W4|constructor; [lia|apply ws_no_quote, W]]. }
        destruct (w4 ++ 125 :: w); [constructor|]. cbn [next]. now inversion Q.
      * assert (length (next (w4 ++ 125%Z :: w)) <= length w4 + length w)%nat; [|lia].
        destruct w4; cbn [app next]; [lia|]. rewrite app_length. cbn [length]. lia.
    + constructor; [|constructor]. split; [reflexivity|]. intros n L. cbn [snd].
      repeat (rewrite !app_length in L; cbn [length] in L). apply IH; [constructor|lia].
  - intros w1 k s w2 w3 t v w4 r' ms W1 K W2 W3 V IH W4 M (rs & E & F). exists ((s, res t v) :: rs). split.
    + intros n w W L. repeat (rewrite !app_length in L; cbn [length] in L). repeat (rewrite <- !app_assoc; cbn [app]).
      apply (each_member_skip w1 _ (length w4 + length r' + length w + 3) ((s, res t v) :: rs)); [apply ws_no_quote, W1| |lia].
      intros m L2. destruct m as [|m]; [lia|].
      rewrite (each_member_value m k s w2 w3 t v (w4 ++ 44 :: r' ++ 125 :: w)); auto; [|apply ends_ws; cbn; auto].
      assert (each_member m (next (w4 ++ 44 :: r' ++ 125 :: w)) = Ret rs) as ->; [|reflexivity].
      assert (exists u, Forall (fun c => c <> 34) u /\ (length u <= length w4)%nat /\
        next (w4 ++ 44 :: r' ++ 125 :: w) = u ++ r' ++ 125 :: w) as (u & U1 & U2 & ->).
      { destruct w4 as [|c w4]; [exists []; cbn; auto|]. exists (w4 ++ [44]). inversion W4; subst. cbn [app next]. split; [|split].
        - apply Forall_app. split; [now apply ws_no_quote|repeat constructor; lia].
        - rewrite app_length. cbn [length]. lia.
        - rewrite <- app_assoc. reflexivity. }
      apply (each_member_skip u _ (length r' + length w + 1) rs); [exact U1| |lia].
      intros m' M'. apply E; [exact W|lia].
    + constructor.
      * split; [reflexivity|]. intros n L. cbn [snd]. repeat (rewrite !app_length in L; cbn [length] in L). apply IH; [constructor|lia].
      * eapply Forall2_impl; [|exact F]. cbn. intros x y [H1 H2]. split; [exact H1|]. intros n L.
        repeat (rewrite !app_length in L; cbn [length] in L). apply H2. lia.
Qed.
End Get.
