(* Properties of JSON: strings, documents, and what the parser makes of a text. *)
Require Import ZArith List Bool Lia ZifyBool ZifyNat String Ascii.
From Verif Require Import Base BSpec Elements Value Api Dec128 DecProofs JsonSpec Json JsonProofs JsonParse.
Import List ListNotations.
Open Scope Z_scope.

(* ------------------------------------------------------------- any JSON text *)

Lemma text_mono (N N' : bytes -> Prop) (S S' : bytes -> bytes -> Prop) :
  (forall t, N t -> N' t) -> (forall t s, S t s -> S' t s) ->
  (forall t v, value_text N S t v -> value_text N' S' t v) /\
  (forall t vs, items N S t vs -> items N' S' t vs) /\
  (forall t ms, members N S t ms -> members N' S' t ms).
Proof.
  intros HN HS. apply json_mut; intros; try (now constructor; auto).
Qed.
(* the strings of a text that is only known to be grammatical *)
Lemma text_ub N : (forall t v, value_text N gr t v -> exists v', value_text N ub t v') /\
  (forall t vs, items N gr t vs -> exists vs', items N ub t vs') /\
  (forall t ms, members N gr t ms -> exists ms', members N ub t ms').
Proof.
  apply json_mut.
  - exists DNull. constructor.
  - exists (DBool true). constructor.
  - exists (DBool false). constructor.
  - intros t H. exists (DNum t). now constructor.
  - intros t s G. exists (DStr (unescape t)). apply vt_str. now split.
  - intros w W. exists (DArr []). now apply vt_arr0.
  - intros t vs _ (vs' & I). exists (DArr vs'). now apply vt_arr.
  - intros w W. exists (DObj []). now apply vt_obj0.
  - intros t ms _ (ms' & I). exists (DObj ms'). now apply vt_obj.
  - intros w1 t v w2 W1 _ (v' & V) W2. exists [v']. now apply it_one.
  - intros w1 t v w2 r vs W1 _ (v' & V) W2 _ (vs' & I). exists (v' :: vs'). now apply it_more.
  - intros w1 k s w2 w3 t v w4 W1 G W2 W3 _ (v' & V) W4. exists [(unescape k, v')]. apply me_one; auto. now split.
  - intros w1 k s w2 w3 t v w4 r ms W1 G W2 W3 _ (v' & V) W4 _ (ms' & M). exists ((unescape k, v') :: ms').
    apply me_more; auto. now split.
Qed.

Section Reading.
Variable pf : bytes -> Z * bool.
Variable ff : Z -> bytes.
Notation num := (num_value pf ff).

Lemma accepted_value w1 t v w2 : ws w1 -> value_text loose_number ub t v -> ws w2 ->
  validate_json (w1 ++ t ++ w2) = Ret true -> parse_bytes (w1 ++ t ++ w2) = Ret (inl (resw t v w2)).
Proof.
  intros W1 V W2 A. unfold parse_bytes. rewrite A. cbn [bind].
  now rewrite parse_value_ws, (parse_value_value t v w2 V W2).
Qed.
Lemma accepted_read s v : text loose_number ub s v -> validate_json s = Ret true ->
  val_bytes pf ff s = Ret (value_of num v) /\
  doc_bytes pf ff s = Ret (match v with DObj ms => elems_of num ms | _ => inr e_kind end) /\
  arr_bytes pf ff s = Ret (match v with DArr vs => values_of num vs | _ => inr e_kind end).
Proof.
  intros (w1 & t & w2 & W1 & V & W2 & ->) A. pose proof (accepted_value w1 t v w2 W1 V W2 A) as P.
  pose proof (proj1 (get_value_ok pf ff) t v V w2 (List.length (w1 ++ t ++ w2)) W2 ltac:(rewrite !app_length; lia)) as G.
  unfold val_bytes, doc_bytes, arr_bytes. rewrite P. cbn [bind]. rewrite G. split; [reflexivity|].
  destruct v as [|b|u|u|vs|ms]; cbn [resw] in *; try (split; reflexivity).
  - destruct b; split; reflexivity.
  - assert (exists t', t = 91 :: t') as [t' ->].
    { inversion V; eexists; reflexivity. }
    cbn [app] in *. rewrite G, value_of_arr. cbn [bind]. split; [reflexivity|]. destruct (values_of num vs); reflexivity.
  - assert (exists t', t = 123 :: t') as [t' ->].
    { inversion V; eexists; reflexivity. }
    cbn [app] in *. rewrite G, value_of_obj. cbn [bind]. split; [|reflexivity]. destruct (elems_of num ms); reflexivity.
Qed.

(* C76: every JSON text is accepted and read as what it stands for. *)
Theorem C76_reads s v : json s v ->
  val_bytes pf ff s = Ret (value_of num v) /\
  doc_bytes pf ff s = Ret (match v with DObj ms => elems_of num ms | _ => inr e_kind end) /\
  arr_bytes pf ff s = Ret (match v with DArr vs => values_of num vs | _ => inr e_kind end).
Proof.
  intros (w1 & t & w2 & W1 & V & W2 & ->). apply accepted_read.
  - exists w1, t, w2. split; [exact W1|]. split; [|auto].
    apply (proj1 (text_mono number loose_number body ub rfc_loose body_ub)). exact V.
  - apply (validate_complete _ v). exists w1, t, w2. split; [exact W1|]. split; [|auto].
    apply (proj1 (text_mono number number body gr (fun _ H => H) body_gbody)). exact V.
Qed.

(* an integer literal in the range of int64 is read as that integer *)
Lemma digits_all ds : Forall digit ds -> forallb is_digit ds = true.
Proof. intros F. apply forallb_forall. intros c I. rewrite Forall_forall in F. now apply digit_is, F. Qed.
Lemma parse_int_digits (neg : bool) ds : digits1 ds -> is_i64 (if neg then - value ds else value ds) ->
  parse_int ((if neg then [45] else []) ++ ds) = Some (if neg then - value ds else value ds).
Proof.
  intros (N & D) R. unfold parse_int. destruct ds as [|d ds]; [contradiction|].
  assert (digits_val (d :: ds) = Some (value (d :: ds))) as K.
  { unfold digits_val. now rewrite (digits_all _ D). }
  inversion D as [|? ? D1 D2]; subst. unfold digit in D1. unfold is_i64 in R. destruct neg; cbn [app].
  - cbn [Z.eqb Pos.eqb]. rewrite K.
    now replace ((-9223372036854775808 <=? - value (d :: ds)) && (- value (d :: ds) <=? 9223372036854775807)) with true by lia.
  - replace (d =? 45) with false by lia. replace (d =? 43) with false by lia. rewrite K.
    now replace ((-9223372036854775808 <=? value (d :: ds)) && (value (d :: ds) <=? 9223372036854775807)) with true by lia.
Qed.
Theorem C76_integers (neg : bool) ds : digits1 ds -> is_i64 (if neg then - value ds else value ds) ->
  num_value pf ff ((if neg then [45] else []) ++ ds) = inl (JInt KInt (if neg then - value ds else value ds)).
Proof.
  intros D R. unfold num_value, num_text. pose proof (parse_int_digits neg ds D R) as P.
  destruct D as (N & D). pose proof (digits_all ds D) as A. destruct neg; cbn [app] in *.
  - cbn [Z.eqb Pos.eqb]. rewrite A. now rewrite P.
  - destruct ds as [|d ds]; [contradiction|]. inversion D as [|? ? D1 D2]; subst. unfold digit in D1.
    replace (d =? 45) with false by lia. rewrite A. now rewrite P.
Qed.

(* C77: a text is never the cause of a panic or of a loop without end ... *)
Theorem C77_total s : (exists r, val_bytes pf ff s = Ret r) /\ (exists r, doc_bytes pf ff s = Ret r) /\
  (exists r, arr_bytes pf ff s = Ret r).
Proof.
  destruct (validate_total s) as [[|] A].
  - destruct (validate_sound s A) as (v & w1 & t & w2 & W1 & V & W2 & ->).
    destruct (proj1 (text_ub loose_number) t v V) as [v' V'].
    destruct (accepted_read (w1 ++ t ++ w2) v') as (R1 & R2 & R3); [exists w1, t, w2; auto|exact A|].
    split; [|split]; eexists; eassumption.
  - unfold val_bytes, doc_bytes, arr_bytes, parse_bytes. rewrite A. cbn [bind].
    split; [|split]; eexists; reflexivity.
Qed.
(* ... and whatever is accepted is JSON, but for numbers without digits after the minus. *)
Theorem C77_only_json_partial s v : val_bytes pf ff s = Ret (inl v) -> exists d, text loose_number (fun t _ => gbody t) s d.
Proof.
  unfold val_bytes, parse_bytes. destruct (validate_total s) as [[|] A]; rewrite A; cbn [bind]; [|discriminate].
  intros _. exact (validate_sound s A).
Qed.
End Reading.
Theorem C77_accepts s : is_json s -> validate_json s = Ret true.
Proof. intros [v T]. exact (validate_complete s v T). Qed.


(* -e5 is not JSON, but is read as 0: ParseFloat gives 0 and an error for what is not a number,
   and FormatFloat writes 0 as 0 *)
Definition t_e5 : bytes := bstr "-e5".
Lemma not_number_e5 : ~ number t_e5.
Proof.
  intros (m & i & f & x & M & ((N & D) & _) & F & X & E). destruct i as [|d i]; [contradiction|].
  inversion D as [|? ? D1 D2]; subst. unfold digit in D1.
  destruct M as [-> | ->]; cbn in E; injection E; intros; subst; lia.
Qed.
Lemma last_ws w : forall t c d, ws w -> t ++ w = c ++ [d] -> ~ ws_char d -> w = [].
Proof.
  intros t c d W E NW. destruct w as [|b w]; [reflexivity|]. destruct (exists_last (l := b :: w) ltac:(discriminate)) as (w' & x & EW).
  exfalso. rewrite EW in *.
  rewrite app_assoc in E. apply app_inj_tail in E. destruct E as [_ ->]. unfold ws in W. apply Forall_app in W. destruct W as [_ W].
  inversion W; auto.
Qed.
Theorem C77_only_json_refuted : ~ is_json t_e5 /\
  forall pf ff, pf t_e5 = (0, false) -> ff 0 = [48] -> val_bytes pf ff t_e5 = Ret (inl (JInt KInt 0)).
Proof.
  split.
  - intros (v & w1 & u & w2 & W1 & V & W2 & E).
    destruct (value_first _ _ u v rfc_loose V) as (c & u' & -> & F).
    assert (w1 = []) as ->.
    { destruct w1 as [|a w1]; [reflexivity|]. cbn in E. injection E as <- _. inversion W1 as [|? ? A _]. unfold ws_char in A. lia. }
    assert (w2 = []) as ->.
    { apply (last_ws w2 (c :: u') (bstr "-e") 53 W2); [|unfold ws_char; lia]. symmetry. exact E. }
    rewrite app_nil_r in E. cbn in E. injection E as <- E. inversion V; subst. now apply not_number_e5.
  - intros pf ff P F.
    replace (val_bytes pf ff t_e5) with (Ret (num_value pf ff t_e5) : go (jval + gerr)) by reflexivity.
    unfold num_value. replace (num_text pf ff t_e5) with (ff (fst (pf t_e5))) by reflexivity.
    rewrite P. cbn [fst]. rewrite F. reflexivity.
Qed.

(* An unpaired high surrogate swallows the escape that follows it.  (What it stands for itself
   JSON leaves open; the character that follows is lost.) *)
Theorem C76_unpaired_refuted a b c d hi e f g h n t : hex4 a b c d hi -> 55296 <= hi < 57344 -> hex4 e f g h n ->
  ~ (hi < 56320 /\ 56320 <= n < 57344) -> gbody t ->
  unescape (92 :: 117 :: a :: b :: c :: d :: 92 :: 117 :: e :: f :: g :: h :: t) = [239; 191; 189] ++ unescape t.
Proof.
  intros H1 R H2 NP _. rewrite unescape_u. destruct (hex4_val _ _ _ _ _ H1) as (-> & _).
  destruct (hex4_val _ _ _ _ _ H2) as (-> & _). unfold is_surrogate at 1.
  replace ((55296 <=? hi) && (hi <? 57344)) with true by lia. cbn [andb Z.eqb Pos.eqb]. unfold decode_rune.
  replace ((55296 <=? hi) && (hi <? 56320) && (56320 <=? n) && (n <? 57344)) with false by lia. reflexivity.
Qed.

(* ------------------------------------------------------------------- writing *)

(* C26: a string is written as a JSON string literal that stands for it, and is read back. *)
Theorem C26_string s : bytes_ok s -> exists t, val_marshal (JString s) = Ret (inl (34 :: t ++ [34])) /\ body t s.
Proof. intros B. exists (esc_all s). cbn [val_marshal]. rewrite write_string_spec. split; [reflexivity|now apply esc_body]. Qed.
Lemma ws_nil : ws []. Proof. constructor. Qed.
Lemma value_json t v : value_text number body t v -> json t v.
Proof. intros V. exists [], t, []. rewrite app_nil_r. auto using ws_nil. Qed.
Theorem C26_round_trip pf ff s t : bytes_ok s -> val_marshal (JString s) = Ret (inl t) ->
  val_bytes pf ff t = Ret (inl (JString s)).
Proof.
  intros B M. destruct (C26_string s B) as (u & E & U). rewrite M in E. injection E as ->.
  apply (C76_reads pf ff _ (DStr s)). apply value_json. now apply vt_str.
Qed.

(* the documents of C27: keys without control characters, quotes and backslashes, integers of
   their type, finite floats, and nothing nil in them *)
Definition plain_key (k : bytes) : Prop := Forall (fun c => 32 <= c < 256 /\ c <> 34 /\ c <> 92) k.
Fixpoint jgood (v : jval) : Prop :=
  match v with
  | JString s => bytes_ok s
  | JInt _ n => is_i64 n
  | JFloat _ x => 0 <= x < 18446744073709551616 /\ f_exp x <> 2047
  | JNull | JBool _ => True
  | JDoc es => (fix all (es : list jelem) : Prop :=
      match es with [] => True | JNoElem :: _ => False | JElem k v :: r => plain_key k /\ jgood v /\ all r end) es
  | JArr vs => (fix all (vs : list jval) : Prop := match vs with [] => True | v :: r => jgood v /\ all r end) vs
  | JNil | JZero | JNilDoc | JNilArr => False
  end.
(* what they stand for *)
Fixpoint data_of (v : jval) : jdata :=
  match v with
  | JString s => DStr s
  | JInt _ n => DNum (itoa_signed n)
  | JFloat _ x => DNum (fmt_f x)
  | JBool b => DBool b
  | JDoc es => DObj ((fix all (es : list jelem) : list (bytes * jdata) :=
      match es with [] => [] | JNoElem :: r => all r | JElem k v :: r => (k, data_of v) :: all r end) es)
  | JArr vs => DArr (map data_of vs)
  | _ => DNull
  end.
Fixpoint elems_data (es : list jelem) : list (bytes * jdata) :=
  match es with [] => [] | JNoElem :: r => elems_data r | JElem k v :: r => (k, data_of v) :: elems_data r end.
(* the same value with every integer an int *)
Fixpoint as_int (v : jval) : jval :=
  match v with
  | JInt _ n => JInt KInt n
  | JDoc es => JDoc ((fix all (es : list jelem) : list jelem :=
      match es with [] => [] | JNoElem :: r => JNoElem :: all r | JElem k v :: r => JElem k (as_int v) :: all r end) es)
  | JArr vs => JArr (map as_int vs)
  | v => v
  end.
(* the floats that six decimals are enough for, and that are not integers: strconv reads the
   text written by fmt and the text it writes itself back, and writes a point *)
Definition six_decimals (pf : bytes -> Z * bool) (ff : Z -> bytes) (x : Z) : Prop :=
  pf (fmt_f x) = (x, true) /\ pf (ff x) = (x, true) /\ In 46 (ff x).
Fixpoint float_back (pf : bytes -> Z * bool) (ff : Z -> bytes) (v : jval) : Prop :=
  match v with
  | JFloat k x => k = K64 /\ six_decimals pf ff x
  | JDoc es => (fix all (es : list jelem) : Prop :=
      match es with [] => True | JNoElem :: r => all r | JElem k v :: r => float_back pf ff v /\ all r end) es
  | JArr vs => (fix all (vs : list jval) : Prop := match vs with [] => True | v :: r => float_back pf ff v /\ all r end) vs
  | _ => True
  end.

Section Induction.
Variable P : jval -> Prop.
Hypothesis base : forall v, (match v with JDoc _ | JArr _ => False | _ => True end) -> P v.
Hypothesis doc : forall es, Forall (fun e => match e with JElem _ v => P v | JNoElem => True end) es -> P (JDoc es).
Hypothesis arr : forall vs, Forall P vs -> P (JArr vs).
Fixpoint jval_tree (v : jval) : P v :=
  match v return P v with
  | JDoc es => doc es ((fix all es : Forall (fun e => match e with JElem _ v => P v | JNoElem => True end) es :=
      match es with
      | [] => Forall_nil _
      | JNoElem :: r => Forall_cons JNoElem I (all r)
      | JElem k v :: r => Forall_cons (JElem k v) (jval_tree v) (all r)
      end) es)
  | JArr vs => arr vs ((fix all vs : Forall P vs :=
      match vs with [] => Forall_nil _ | v :: r => Forall_cons v (jval_tree v) (all r) end) vs)
  | v => base v I
  end.
End Induction.

Lemma numeral_int ds n : numeral ds n -> int_part ds.
Proof. intros (N1 & N2 & _ & N4). split; [split; auto|auto]. Qed.
Lemma number_itoa n : number (itoa_signed n).
Proof.
  unfold itoa_signed. destruct (Z.ltb_spec n 0).
  - exists [45], (itoa (- n)), [], []. rewrite !app_nil_r.
    split; [right; auto|]. split; [apply (numeral_int _ (- n)), itoa_numeral; lia|]. split; [now left|]. split; [now left|reflexivity].
  - exists [], (itoa n), [], []. rewrite !app_nil_r.
    split; [left; auto|]. split; [apply (numeral_int _ n), itoa_numeral; lia|]. split; [now left|]. split; [now left|reflexivity].
Qed.
Lemma pad_digits_ok k : forall n, Forall digit (pad_digits k n) /\ List.length (pad_digits k n) = k.
Proof.
  induction k as [|k IH]; intros n; cbn [pad_digits]; [split; [constructor|auto]|].
  destruct (IH (n / 10)) as [A B]. rewrite app_length, B. split; [|cbn; lia].
  apply Forall_app. split; [exact A|]. constructor; [|constructor]. unfold digit. pose proof (Z.mod_pos_bound n 10). lia.
Qed.
Lemma f_mant_nonneg x : 0 <= f_mant x.
Proof.
  unfold f_mant, f_frac. pose proof (Z.mod_pos_bound x 4503599627370496 ltac:(lia)). destruct (f_exp x =? 0); lia.
Qed.
Lemma near_nonneg n d : 0 <= n -> 0 < d -> 0 <= near n d.
Proof.
  intros N D. pose proof (Z.div_pos n d N D). unfold near. destruct (2 * (n mod d) <? d); [lia|].
  destruct (d <? 2 * (n mod d)); [lia|]. destruct (Z.even (n / d)); lia.
Qed.
Lemma f_millionths_nonneg x : 0 <= f_millionths x.
Proof.
  pose proof (f_mant_nonneg x). unfold f_millionths. destruct (Z.leb_spec 0 (f_ex x)).
  - pose proof (Z.pow_pos_nonneg 2 (f_ex x) ltac:(lia) ltac:(lia)). nia.
  - apply near_nonneg; [lia|]. apply Z.pow_pos_nonneg; lia.
Qed.
Lemma number_fmt x : f_exp x <> 2047 -> number (fmt_f x).
Proof.
  intros F. unfold fmt_f. replace (f_exp x =? 2047) with false by lia. cbv zeta.
  pose proof (f_millionths_nonneg x) as N.
  exists (if f_neg x then [45] else []), (itoa (f_millionths x / 1000000)), (46 :: pad_digits 6 (f_millionths x mod 1000000)), [].
  split; [unfold minus; destruct (f_neg x); auto|].
  split; [apply (numeral_int _ (f_millionths x / 1000000)), itoa_numeral; apply Z.div_pos; lia|].
  split; [right; eexists; split; [|reflexivity]|].
  - destruct (pad_digits_ok 6 (f_millionths x mod 1000000)) as [A B]. split; [|exact A].
    intros E. rewrite E in B. discriminate.
  - split; [now left|]. now rewrite app_nil_r.
Qed.
Lemma plain_key_body k : plain_key k -> body k k.
Proof. induction 1 as [|c k (H1 & H2 & H3) _ IH]; [constructor|now apply bo_plain]. Qed.

Fixpoint marshal_elems (out : bytes) (first : bool) (es : list jelem) : go (bytes + gerr) :=
  match es with
  | [] => Ret (inl (out ++ [125]))
  | JNoElem :: _ => Panic PNil
  | JElem k v :: r =>
      let out := (if first then out else out ++ [44]) ++ 34 :: k ++ [34; 58] in
      x <- val_marshal v ;;
      match x with inr e => Ret (inr e) | inl t => marshal_elems (out ++ t) false r end
  end.
Fixpoint marshal_vals (out : bytes) (first : bool) (vs : list jval) : go (bytes + gerr) :=
  match vs with
  | [] => Ret (inl (out ++ [93]))
  | v :: r =>
      let out := if first then out else out ++ [44] in
      x <- val_marshal v ;;
      match x with inr e => Ret (inr e) | inl t => marshal_vals (out ++ t) false r end
  end.
Lemma marshal_doc es : val_marshal (JDoc es) = marshal_elems [123] true es.
Proof. reflexivity. Qed.
Lemma marshal_arr vs : val_marshal (JArr vs) = marshal_vals [91] true vs.
Proof. reflexivity. Qed.

Definition writes (v : jval) : Prop :=
  jgood v -> exists t, val_marshal v = Ret (inl t) /\ value_text number body t (data_of v).
Lemma marshal_vals_ok vs : Forall writes vs -> jgood (JArr vs) -> forall out first, vs <> [] ->
  exists t, marshal_vals out first vs = Ret (inl (out ++ (if first then [] else [44]) ++ t ++ [93])) /\
    items number body t (map data_of vs).
Proof.
  induction 1 as [|v vs W _ IH]; intros G out first N; [contradiction|]. cbn [jgood] in G. destruct G as [G1 G2].
  destruct (W G1) as (t & M & V). cbn [marshal_vals]. rewrite M. cbn [bind]. destruct vs as [|v2 vs].
  - exists t. cbn [marshal_vals map]. split.
    + f_equal. f_equal. destruct first; cbn [app]; rewrite <- ?app_assoc; reflexivity.
    + pose proof (it_one number body [] t (data_of v) [] ws_nil V ws_nil) as I. rewrite app_nil_r in I. exact I.
  - destruct (IH G2 ((if first then out else out ++ [44]) ++ t) false ltac:(discriminate)) as (t' & -> & I).
    exists (t ++ 44 :: t'). split.
    + f_equal. f_equal. destruct first; repeat (rewrite <- app_assoc; cbn [app]); reflexivity.
    + exact (it_more number body [] t (data_of v) [] t' _ ws_nil V ws_nil I).
Qed.
Lemma marshal_elems_ok es : Forall (fun e => match e with JElem _ v => writes v | JNoElem => True end) es -> jgood (JDoc es) ->
  forall out first, es <> [] ->
  exists t, marshal_elems out first es = Ret (inl (out ++ (if first then [] else [44]) ++ t ++ [125])) /\
    members number body t (elems_data es).
Proof.
  induction 1 as [|[|k v] es W _ IH]; intros G out first N; [contradiction|contradiction|]. cbn [jgood] in G. destruct G as (K & G1 & G2).
  destruct (W G1) as (t & M & V). cbn [marshal_elems]. rewrite M. cbn [bind]. pose proof (plain_key_body k K) as B. destruct es as [|e2 es].
  - exists (34 :: k ++ 34 :: 58 :: t). cbn [marshal_elems elems_data]. split.
    + f_equal. f_equal. destruct first; repeat (rewrite <- app_assoc; cbn [app]); reflexivity.
    + pose proof (me_one number body [] k k [] [] t (data_of v) [] ws_nil B ws_nil ws_nil V ws_nil) as I. cbn [app] in I.
      rewrite app_nil_r in I. exact I.
  - destruct (IH G2 (((if first then out else out ++ [44]) ++ 34 :: k ++ [34; 58]) ++ t) false ltac:(discriminate)) as (t' & -> & I).
    exists (34 :: k ++ 34 :: 58 :: t ++ 44 :: t'). split.
    + f_equal. f_equal. destruct first; repeat (rewrite <- app_assoc; cbn [app]); reflexivity.
    + exact (me_more number body [] k k [] [] t (data_of v) [] t' _ ws_nil B ws_nil ws_nil V ws_nil I).
Qed.
Lemma marshal_ok v : writes v.
Proof.
  induction v as [v B|es F|vs F] using jval_tree; intros G.
  - destruct v; try contradiction; cbn [val_marshal data_of]; eexists; (split; [reflexivity|]).
    + rewrite write_string_spec. apply vt_str. now apply esc_body.
    + apply vt_num, number_itoa.
    + apply vt_num, number_fmt. apply G.
    + apply vt_null.
    + destruct b; [apply vt_true|apply vt_false].
  - rewrite marshal_doc. change (data_of (JDoc es)) with (DObj (elems_data es)). destruct es as [|e es].
    + exists [123; 125]. split; [reflexivity|]. exact (vt_obj0 number body [] ws_nil).
    + destruct (marshal_elems_ok (e :: es) F G [123] true ltac:(discriminate)) as (t & -> & I).
      eexists. split; [reflexivity|]. exact (vt_obj number body t _ I).
  - rewrite marshal_arr. change (data_of (JArr vs)) with (DArr (map data_of vs)). destruct vs as [|v vs].
    + exists [91; 93]. split; [reflexivity|]. exact (vt_arr0 number body [] ws_nil).
    + destruct (marshal_vals_ok (v :: vs) F G [91] true ltac:(discriminate)) as (t & -> & I).
      eexists. split; [reflexivity|]. exact (vt_arr number body t _ I).
Qed.

Lemma num_itoa pf ff n : is_i64 n -> num_value pf ff (itoa_signed n) = inl (JInt KInt n).
Proof.
  intros R. unfold itoa_signed. destruct (Z.ltb_spec n 0).
  - destruct (itoa_numeral (- n) ltac:(lia)) as (N1 & N2 & N3 & _).
    pose proof (C76_integers pf ff true (itoa (- n)) (conj N1 N2)) as C. rewrite N3, Z.opp_involutive in C. exact (C R).
  - destruct (itoa_numeral n ltac:(lia)) as (N1 & N2 & N3 & _).
    pose proof (C76_integers pf ff false (itoa n) (conj N1 N2)) as C. rewrite N3 in C. exact (C R).
Qed.
Lemma forallb_dot t : In 46 t -> forallb is_digit t = false.
Proof.
  intros I. destruct (forallb is_digit t) eqn:A; [|reflexivity]. rewrite forallb_forall in A. discriminate (A _ I).
Qed.
Lemma fmt_dot x : f_exp x <> 2047 -> In 46 (fmt_f x).
Proof.
  intros F. unfold fmt_f. replace (f_exp x =? 2047) with false by lia. cbv zeta.
  apply in_or_app; right; apply in_or_app; right; left; reflexivity.
Qed.
Lemma num_text_dot pf ff t : In 46 t -> num_text pf ff t = ff (fst (pf t)).
Proof.
  intros I. unfold num_text. destruct t as [|c r]; [reflexivity|].
  rewrite forallb_dot; [reflexivity|]. destruct (Z.eqb_spec c 45); [|exact I]. destruct I as [I|I]; [lia|exact I].
Qed.
Lemma parse_int_dot t : In 46 t -> parse_int t = None.
Proof.
  intros I. unfold parse_int. destruct t as [|c r]; [contradiction|].
  assert (forall u, In 46 u -> digits_val u = None) as D.
  { intros u U. unfold digits_val. destruct u as [|d u]; [contradiction|]. now rewrite forallb_dot. }
  destruct (Z.eqb_spec c 45); [|destruct (Z.eqb_spec c 43)].
  - rewrite D; [reflexivity|]. destruct I; [lia|auto].
  - rewrite D; [reflexivity|]. destruct I; [lia|auto].
  - now rewrite D.
Qed.
Lemma num_six pf ff x : f_exp x <> 2047 -> six_decimals pf ff x -> num_value pf ff (fmt_f x) = inl (JFloat K64 x).
Proof.
  intros F (P1 & P2 & D). unfold num_value. rewrite (num_text_dot pf ff _ (fmt_dot x F)), P1. cbn [fst].
  now rewrite (parse_int_dot _ D), P2.
Qed.
Lemma data_value pf ff v : jgood v -> float_back pf ff v -> value_of (num_value pf ff) (data_of v) = inl (as_int v).
Proof.
  induction v as [v B|es F|vs F] using jval_tree; intros G N.
  - destruct v; try contradiction; try reflexivity; [apply num_itoa; exact G|].
    destruct N as [-> N]. destruct G as [_ G]. exact (num_six pf ff bits G N).
  - change (data_of (JDoc es)) with (DObj (elems_data es)). rewrite value_of_obj.
    assert (elems_of (num_value pf ff) (elems_data es) = inl ((fix all (es : list jelem) : list jelem :=
      match es with [] => [] | JNoElem :: r => JNoElem :: all r | JElem k v :: r => JElem k (as_int v) :: all r end) es)) as ->; [|reflexivity].
    induction F as [|[|k v] es E _ IH]; [reflexivity|contradiction|]. destruct G as (_ & G1 & G2). destruct N as [N1 N2].
    cbn [elems_data elems_of]. rewrite (E G1 N1). now rewrite (IH G2 N2).
  - change (data_of (JArr vs)) with (DArr (map data_of vs)). rewrite value_of_arr.
    assert (values_of (num_value pf ff) (map data_of vs) = inl (map as_int vs)) as ->; [|reflexivity].
    induction F as [|v vs E _ IH]; [reflexivity|]. destruct G as (G1 & G2). destruct N as [N1 N2].
    cbn [map values_of]. rewrite (E G1 N1). now rewrite (IH G2 N2).
Qed.

(* C27: a document, array or value is written as JSON that stands for it, and reading that
   gives the value back, with its integers as int.  Missing: floats that need more than six
   decimals or are integers, and keys that need escapes (see below). *)
Theorem C27_partial pf ff v : jgood v -> exists t, val_marshal v = Ret (inl t) /\ json t (data_of v) /\
  val_bytes pf ff t = Ret (value_of (num_value pf ff) (data_of v)) /\
  (float_back pf ff v -> val_bytes pf ff t = Ret (inl (as_int v))).
Proof.
  intros G. destruct (marshal_ok v G) as (t & M & V). apply value_json in V. exists t. split; [exact M|]. split; [exact V|].
  destruct (C76_reads pf ff t _ V) as [R _]. split; [exact R|]. intros N. rewrite R. now rewrite (data_value pf ff v G N).
Qed.
Fixpoint elems_int (es : list jelem) : list jelem :=
  match es with [] => [] | JNoElem :: r => JNoElem :: elems_int r | JElem k v :: r => JElem k (as_int v) :: elems_int r end.
Theorem C27_document_partial pf ff es : jgood (JDoc es) -> float_back pf ff (JDoc es) ->
  exists t, doc_marshal es = Ret (inl t) /\ doc_bytes pf ff t = Ret (inl (elems_int es)).
Proof.
  intros G N. destruct (marshal_ok (JDoc es) G) as (t & M & V). apply value_json in V. exists t. split; [exact M|].
  destruct (C76_reads pf ff t _ V) as (_ & R & _). rewrite R. change (data_of (JDoc es)) with (DObj (elems_data es)) in *.
  pose proof (data_value pf ff (JDoc es) G N) as D. change (data_of (JDoc es)) with (DObj (elems_data es)) in D.
  rewrite value_of_obj in D. destruct (elems_of (num_value pf ff) (elems_data es)); [|discriminate].
  change (as_int (JDoc es)) with (JDoc (elems_int es)) in D. injection D as ->. reflexivity.
Qed.
Theorem C27_array_partial pf ff vs : jgood (JArr vs) -> float_back pf ff (JArr vs) ->
  exists t, arr_marshal vs = Ret (inl t) /\ arr_bytes pf ff t = Ret (inl (map as_int vs)).
Proof.
  intros G N. destruct (marshal_ok (JArr vs) G) as (t & M & V). apply value_json in V. exists t. split; [exact M|].
  destruct (C76_reads pf ff t _ V) as (_ & _ & R). rewrite R. change (data_of (JArr vs)) with (DArr (map data_of vs)) in *.
  pose proof (data_value pf ff (JArr vs) G N) as D. change (data_of (JArr vs)) with (DArr (map data_of vs)) in D.
  rewrite value_of_arr in D. destruct (values_of (num_value pf ff) (map data_of vs)); [|discriminate].
  cbn [as_int] in D. injection D as ->. reflexivity.
Qed.

(* Keys are written without escapes: a document with one element is written like one with two. *)
Definition e_colon : bytes := bstr """:null,""".
Theorem C27_keys_refuted pf ff k1 k2 s : plain_key k1 -> plain_key k2 -> bytes_ok s ->
  exists t, doc_marshal [JElem (k1 ++ e_colon ++ k2) (JString s)] = Ret (inl t) /\
    doc_bytes pf ff t = Ret (inl [JElem k1 JNull; JElem k2 (JString s)]).
Proof.
  intros K1 K2 B.
  destruct (C27_document_partial pf ff [JElem k1 JNull; JElem k2 (JString s)]) as (t & M & R); [cbn; auto|cbn; auto|].
  exists t. split; [|exact R]. rewrite <- M. unfold doc_marshal. rewrite !marshal_doc. cbn [marshal_elems val_marshal bind].
  f_equal. f_equal. repeat (rewrite <- app_assoc; cbn [app]). reflexivity.
Qed.
(* and with some keys the text is not JSON at all *)
Lemma not_json t : validate_json t = Ret false -> ~ is_json t.
Proof. intros E J. rewrite (C77_accepts t J) in E. discriminate. Qed.
Theorem C27_quote_refuted : exists t, doc_marshal [JElem [34] JNull] = Ret (inl t) /\ ~ is_json t /\
  forall pf ff, doc_bytes pf ff t = Ret (inr e_invalid).
Proof.
  eexists. split; [reflexivity|]. split; [apply not_json; reflexivity|]. intros pf ff. reflexivity.
Qed.
(* NaN and the infinities are not JSON *)
Theorem C27_infinite_refuted pf ff k x : f_exp x = 2047 -> exists t, val_marshal (JFloat k x) = Ret (inl t) /\ ~ is_json t /\
  val_bytes pf ff t = Ret (inr e_invalid).
Proof.
  intros E. cbn [val_marshal]. unfold fmt_f. rewrite E, Z.eqb_refl.
  destruct (f_frac x =? 0); [destruct (f_neg x)|]; eexists; (split; [reflexivity|]); (split; [apply not_json; reflexivity|reflexivity]).
Qed.
(* The text of a finite float: the sign, the digits, a point and six digits, which together
   are the number nearest to its magnitude in millionths, the even one of two.  The magnitude
   of the float is m * b / a. *)
Lemma near_spec n d : 0 < d -> 2 * Z.abs (near n d * d - n) <= d /\ (2 * Z.abs (near n d * d - n) = d -> Z.even (near n d) = true).
Proof.
  intros D. pose proof (Z.div_mod n d ltac:(lia)) as E. pose proof (Z.mod_pos_bound n d D) as B. unfold near.
  set (q := n / d) in *. set (r := n mod d) in *.
  destruct (Z.ltb_spec (2 * r) d); [split; [nia|intros; nia]|]. destruct (Z.ltb_spec d (2 * r)); [split; [nia|intros; nia]|].
  destruct (Z.even q) eqn:Ev; (split; [nia|]); [auto|]. intros _. rewrite Z.add_1_r, Z.even_succ, <- Z.negb_even, Ev. reflexivity.
Qed.
Lemma pad_digits_value k : forall n, 0 <= n < 10 ^ Z.of_nat k -> value (pad_digits k n) = n.
Proof.
  induction k as [|k IH]; intros n B; [cbn in *; unfold value; cbn; lia|]. cbn [pad_digits]. rewrite value_snoc.
  rewrite Nat2Z.inj_succ, Z.pow_succ_r in B by lia.
  rewrite IH by (split; [apply Z.div_pos; lia|apply Z.div_lt_upper_bound; lia]). pose proof (Z.div_mod n 10 ltac:(lia)). lia.
Qed.
Theorem C27_float_text k (neg : bool) e f : 0 <= e < 2047 -> 0 <= f < 4503599627370496 ->
  let x := (if neg then 9223372036854775808 else 0) + e * 4503599627370496 + f in
  let m := if e =? 0 then f else 4503599627370496 + f in
  let a := 2 ^ Z.max 0 (1075 - Z.max 1 e) in let b := 2 ^ Z.max 0 (Z.max 1 e - 1075) in
  exists i d, val_marshal (JFloat k x) = Ret (inl ((if neg then [45] else []) ++ i ++ 46 :: d)) /\
    int_part i /\ Forall digit d /\ List.length d = 6%nat /\
    2 * Z.abs (value (i ++ d) * a - m * b * 1000000) <= a /\
    (2 * Z.abs (value (i ++ d) * a - m * b * 1000000) = a -> Z.even (value (i ++ d)) = true).
Proof.
  intros He Hf x m a b.
  assert (Ed : x / 4503599627370496 = (if neg then 2048 else 0) + e).
  { unfold x. replace ((if neg then 9223372036854775808 else 0) + e * 4503599627370496 + f)
      with (f + ((if neg then 2048 else 0) + e) * 4503599627370496) by (destruct neg; lia).
    rewrite Z.div_add by lia. rewrite Z.div_small by lia. lia. }
  assert (Em : x mod 4503599627370496 = f).
  { unfold x. replace ((if neg then 9223372036854775808 else 0) + e * 4503599627370496 + f)
      with (f + ((if neg then 2048 else 0) + e) * 4503599627370496) by (destruct neg; lia).
    rewrite Z_mod_plus_full. apply Z.mod_small. lia. }
  assert (Ee : f_exp x = e).
  { unfold f_exp. rewrite Ed. destruct neg; [|apply Z.mod_small; lia].
    replace (2048 + e) with (e + 1 * 2048) by lia. rewrite Z_mod_plus_full. apply Z.mod_small. lia. }
  assert (En : f_neg x = neg) by (unfold f_neg, x; destruct neg; lia).
  assert (Ea : f_mant x = m) by (unfold f_mant, f_frac, m; now rewrite Ee, Em).
  assert (N : 2 * Z.abs (f_millionths x * a - m * b * 1000000) <= a /\
    (2 * Z.abs (f_millionths x * a - m * b * 1000000) = a -> Z.even (f_millionths x) = true)).
  { unfold f_millionths, f_ex. rewrite Ea, Ee. unfold a, b. destruct (Z.leb_spec 0 (Z.max 1 e - 1075)) as [L|L].
    - replace (Z.max 0 (1075 - Z.max 1 e)) with 0 by lia. rewrite (Z.max_r 0 (Z.max 1 e - 1075)) by lia. cbn [Z.pow].
      replace (m * 2 ^ (Z.max 1 e - 1075) * 1000000 * 1 - m * 2 ^ (Z.max 1 e - 1075) * 1000000) with 0 by lia. cbn. lia.
    - replace (Z.max 0 (Z.max 1 e - 1075)) with 0 by lia. rewrite (Z.max_r 0 (1075 - Z.max 1 e)) by lia.
      replace (- (Z.max 1 e - 1075)) with (1075 - Z.max 1 e) by lia. change (2 ^ 0) with 1. rewrite Z.mul_1_r.
      apply near_spec. apply Z.pow_pos_nonneg; lia. }
  pose proof (f_millionths_nonneg x) as P. set (n := f_millionths x) in *.
  destruct (itoa_numeral (n / 1000000)) as (I1 & I2 & I3 & I4); [apply Z.div_pos; lia|].
  destruct (pad_digits_ok 6 (n mod 1000000)) as [D1 D2].
  assert (V : value (itoa (n / 1000000) ++ pad_digits 6 (n mod 1000000)) = n).
  { rewrite value_app, I3. replace (zlen (pad_digits 6 (n mod 1000000))) with 6 by (unfold zlen; rewrite D2; reflexivity).
    rewrite pad_digits_value by (change (10 ^ Z.of_nat 6) with 1000000; apply Z.mod_pos_bound; lia).
    change (10 ^ 6) with 1000000. pose proof (Z.div_mod n 1000000 ltac:(lia)). lia. }
  exists (itoa (n / 1000000)), (pad_digits 6 (n mod 1000000)).
  split; [cbn [val_marshal]; unfold fmt_f; rewrite Ee, En; replace (e =? 2047) with false by lia; reflexivity|].
  split; [split; [split; assumption|assumption]|]. split; [exact D1|]. split; [exact D2|]. rewrite V. exact N.
Qed.
(* A float that is an integer comes back as an int, if ParseFloat reads its text exactly and
   FormatFloat writes it as that integer. *)
Theorem C27_floats_refuted pf ff k x n : f_exp x <> 2047 -> is_i64 n ->
  pf (fmt_f x) = (x, true) -> ff x = itoa_signed n ->
  exists t, val_marshal (JFloat k x) = Ret (inl t) /\ val_bytes pf ff t = Ret (inl (JInt KInt n)).
Proof.
  intros F R P Q. exists (fmt_f x). split; [reflexivity|].
  destruct (C76_reads pf ff (fmt_f x) (DNum (fmt_f x))) as [E _]; [apply value_json, vt_num, number_fmt, F|].
  rewrite E. cbn [value_of]. f_equal. unfold num_value.
  rewrite (num_text_dot pf ff _ (fmt_dot x F)), P. cbn [fst]. rewrite Q.
  pose proof (num_itoa pf ff n R) as V. unfold num_value in V.
  assert (num_text pf ff (itoa_signed n) = itoa_signed n) as E2.
  { unfold num_text, itoa_signed. destruct (Z.ltb_spec n 0).
    - cbn [Z.eqb Pos.eqb]. destruct (itoa_numeral (- n) ltac:(lia)) as (_ & N2 & _). now rewrite (digits_all _ N2).
    - destruct (itoa_numeral n ltac:(lia)) as (N1 & N2 & _). destruct (itoa n) as [|d ds] eqn:U; [contradiction|].
      assert (d =? 45 = false) as -> by (inversion N2 as [|? ? D _]; unfold digit in D; lia). now rewrite (digits_all _ N2). }
  rewrite E2 in V. exact V.
Qed.
(* A document that holds a nil document makes MarshalJSON panic. *)
Theorem C27_nil_refuted k es : (forall e, In e es -> exists k s, e = JElem k (JString s)) ->
  doc_marshal (es ++ [JElem k JNilDoc]) = Panic PNil.
Proof.
  unfold doc_marshal. rewrite marshal_doc. generalize [123] as out. generalize true as first.
  induction es as [|e es IH]; intros first out H; [reflexivity|].
  destruct (H e (or_introl eq_refl)) as (k' & s & ->). cbn [app marshal_elems val_marshal bind]. apply IH.
  intros e' I. apply H. now right.
Qed.

(* --------------------------------------------------------------- not vacuous *)

(* {"a" : [1, -2.5e3, "\ud83d\ude00"]} *)
Definition t_ex : bytes := bstr "{""a"" : [1, -2.5e3, ""\ud83d\ude00""]}".
Ltac dig := split; [discriminate|cbn; repeat (apply Forall_cons; [unfold digit; lia|]); apply Forall_nil].
Example C76_reads_case : json t_ex (DObj [([97], DArr [DNum (bstr "1"); DNum (bstr "-2.5e3"); DStr [240; 159; 152; 128]])]).
Proof.
  apply value_json. refine (vt_obj number body (bstr """a"" : [1, -2.5e3, ""\ud83d\ude00""]") _ _).
  refine (me_one number body [] [97] [97] [32] [32] (bstr "[1, -2.5e3, ""\ud83d\ude00""]") _ [] ws_nil _ _ _ _ ws_nil).
  - apply bo_plain; [lia|lia|lia|constructor].
  - constructor; [now left|constructor].
  - constructor; [now left|constructor].
  - refine (vt_arr number body (bstr "1, -2.5e3, ""\ud83d\ude00""") _ _).
    refine (it_more number body [] (bstr "1") _ [] (bstr " -2.5e3, ""\ud83d\ude00""") _ ws_nil _ ws_nil _).
    { apply vt_num. exists [], [49], [], []. split; [now left|]. split; [split; [dig|cbn; lia]|]. split; [now left|]. split; [now left|reflexivity]. }
    refine (it_more number body [32] (bstr "-2.5e3") _ [] (bstr " ""\ud83d\ude00""") _ _ _ ws_nil _).
    { constructor; [now left|constructor]. }
    { apply vt_num. exists [45], [50], [46; 53], [101; 51]. split; [now right|]. split; [split; [dig|cbn; lia]|].
      split; [right; exists [53]; split; [dig|reflexivity]|].
      split; [right; exists 101, [], [51]; split; [now left|]; split; [now left|]; split; [dig|reflexivity]|reflexivity]. }
    refine (it_one number body [32] (bstr """\ud83d\ude00""") _ [] _ _ ws_nil).
    { constructor; [now left|constructor]. }
    refine (vt_str number body (bstr "\ud83d\ude00") _ _).
    refine (bo_pair 100 56 51 100 55357 100 101 48 48 56832 [240; 159; 152; 128] [] [] _ _ _ _ _ bo_nil).
    + exists 13, 8, 3, 13. unfold hex1. lia.
    + lia.
    + exists 13, 14, 0, 0. unfold hex1. lia.
    + lia.
    + cbn. unfold tail8. lia.
Qed.
Example C76_integers_case : digits1 (bstr "42") /\ is_i64 (- value (bstr "42")).
Proof. split; [dig|unfold is_i64; cbn; lia]. Qed.
(* \ud800\u0041x *)
Example C76_unpaired_case : hex4 100 56 48 48 55296 /\ hex4 48 48 52 49 65 /\ gbody [120].
Proof.
  split; [exists 13, 8, 0, 0; unfold hex1; lia|]. split; [exists 0, 0, 4, 1; unfold hex1; lia|].
  apply gb_plain; [lia|lia|lia|constructor].
Qed.
Example C77_case : forall pf ff, val_bytes pf ff (bstr "[true") = Ret (inr e_invalid) /\
  val_bytes pf ff (bstr " [ true ] ") = Ret (inl (JArr [JBool true])).
Proof. intros; split; reflexivity. Qed.
(* a quote, a newline, a NUL and a byte that is not UTF-8 *)
Example C26_case : bytes_ok [34; 10; 0; 255; 65] /\
  val_marshal (JString [34; 10; 0; 255; 65]) = Ret (inl (34 :: bstr "\""\n\u0000" ++ [255; 65; 34])).
Proof. split; [repeat (constructor; [unfold is_u8; lia|]); constructor|reflexivity]. Qed.
Definition ex_doc : list jelem :=
  [JElem (bstr "a") (JInt KInt64 (-7)); JElem (bstr "b") (JArr [JNull; JBool true; JDoc []; JString [9]])].
Example C27_case : jgood (JDoc ex_doc) /\ (forall pf ff, float_back pf ff (JDoc ex_doc)) /\
  doc_marshal ex_doc = Ret (inl (bstr "{""a"":-7,""b"":[null,true,{},""\t""]}")).
Proof.
  split; [|split; [intros; cbn; tauto|reflexivity]]. cbn.
  assert (forall c, 97 <= c <= 98 -> plain_key [c]) as K by (intros c H; constructor; [lia|constructor]).
  split; [apply K; lia|]. split; [unfold is_i64; lia|]. split; [apply K; lia|].
  split; [|auto]. split; [auto|]. split; [auto|]. split; [auto|]. split; [|auto].
  constructor; [unfold is_u8; lia|constructor].
Qed.
Example C27_keys_case : plain_key (bstr "a") /\ plain_key (bstr "b") /\ bytes_ok (bstr "x").
Proof. split; [|split]; cbn; (apply Forall_cons; [unfold is_u8; lia|constructor]). Qed.
(* 1.0 *)
Definition one : Z := 4607182418800017408.
Example C27_floats_case : f_exp one <> 2047 /\ is_i64 1 /\ fmt_f one = bstr "1.000000" /\ itoa_signed 1 = bstr "1" /\
  exists (pf : bytes -> Z * bool) (ff : Z -> bytes), pf (fmt_f one) = (one, true) /\ ff one = itoa_signed 1.
Proof.
  split; [discriminate|]. split; [unfold is_i64; lia|]. split; [vm_compute; reflexivity|]. split; [reflexivity|].
  exists (fun _ => (one, true)), (fun _ => itoa_signed 1). auto.
Qed.
(* 2.5 *)
Example C27_partial_case : jgood (JFloat K64 4612811918334230528) /\
  val_marshal (JFloat K64 4612811918334230528) = Ret (inl (bstr "2.500000")).
Proof. split; [cbn; split; [lia|discriminate]|vm_compute; reflexivity]. Qed.
Example C27_float_case : exists pf ff, float_back pf ff (JArr [JFloat K64 4612811918334230528]).
Proof.
  exists (fun _ => (4612811918334230528, true)), (fun _ => bstr "2.5"). cbn. split; [|exact I].
  split; [reflexivity|]. split; [reflexivity|]. split; [reflexivity|]. cbn. tauto.
Qed.
(* +Inf *)
Example C27_infinite_case : f_exp 9218868437227405312 = 2047 /\
  val_marshal (JFloat K64 9218868437227405312) = Ret (inl (bstr "+Inf")).
Proof. split; vm_compute; reflexivity. Qed.

Print Assumptions C26_string.
Print Assumptions C26_round_trip.
Print Assumptions C27_partial.
Print Assumptions C27_document_partial.
Print Assumptions C27_array_partial.
Print Assumptions C27_keys_refuted.
Print Assumptions C27_quote_refuted.
Print Assumptions C27_infinite_refuted.
Print Assumptions C27_float_text.
Print Assumptions C27_floats_refuted.
Print Assumptions C27_nil_refuted.
Print Assumptions C76_reads.
Print Assumptions C76_integers.
Print Assumptions C76_unpaired_refuted.
Print Assumptions C77_total.
Print Assumptions C77_accepts.
Print Assumptions C77_only_json_partial.
Print Assumptions C77_only_json_refuted.
