(* Model of elements/elements.go: the encoders that write one value into a byte slice.
   A writer takes the slice and returns (slice after the call, n, err).
   Simplification: start is a non-negative integer and start+n does not overflow uint64. *)
Require Import ZArith List Bool Lia ZifyBool ZifyNat.
From Verif Require Import Base BSpec.
Import ListNotations.
Open Scope Z_scope.

Definition wres := (bytes * Z * option gerr)%type.

(* The pattern "n, err := A; start += n; total += n; if err != nil {return total, err};
   n, err = B; total += n; return total, err" repeated through elements.go. *)
Definition andthen (r : wres) (k : bytes -> Z -> wres) : wres :=
  match r with
  | (w, n, Some e) => (w, n, Some e)
  | (w, n, None) => let '(w2, n2, e2) := k w n in (w2, n + n2, e2)
  end.

(* elements.go:935-943 BSONByteNS.Encode *)
Definition byte_encode (start : Z) (w : bytes) (t : Z) : wres :=
  if zlen w <? start + 1 then (w, 0, Some ETooSmall)
  else (put w start [t], 1, None).

(* elements.go:921-931 CStringNS.Encode *)
Definition cstring_encode (start : Z) (w : bytes) (s : bytes) : wres :=
  if zlen w <? start + 1 + zlen s then (w, 0, Some ETooSmall)
  else (put (put w start s) (start + zlen s) [0], zlen s + 1, None).

(* elements.go:945-953 encodeByteSlice *)
Definition encode_byte_slice (start : Z) (w b : bytes) : wres :=
  if zlen w <? start + zlen b then (w, 0, Some ETooSmall)
  else (put w start b, zlen b, None).

(* elements.go:955-963 encodeUint32 *)
Definition encode_u32 (start : Z) (w : bytes) (u : Z) : wres :=
  if zlen w <? start + 4 then (w, 0, Some ETooSmall)
  else (put w start (le32 u), 4, None).

(* elements.go:965-973 encodeUint64 *)
Definition encode_u64 (start : Z) (w : bytes) (u : Z) : wres :=
  if zlen w <? start + 8 then (w, 0, Some ETooSmall)
  else (put w start (le64 u), 8, None).

(* elements.go:738-746 Int32NS.Encode; signed32ToUnsigned is u32 *)
Definition int32_encode (start : Z) (w : bytes) (i : Z) : wres :=
  if zlen w <? start + 4 then (w, 0, Some ETooSmall)
  else (put w start (le32 (u32 i)), 4, None).

(* elements.go:831-835 Int64NS.Encode *)
Definition int64_encode (start : Z) (w : bytes) (i : Z) : wres :=
  encode_u64 start w (u64 i).

(* elements.go:112-121 DoubleNS.Encode; a float64 is its bit pattern *)
Definition double_encode (start : Z) (w : bytes) (bits : Z) : wres :=
  if zlen w <? start + 8 then (w, 0, Some ETooSmall)
  else (put w start (le64 bits), 8, None).

(* elements.go:156-174 StringNS.Encode *)
Definition string_encode (start : Z) (w : bytes) (s : bytes) : wres :=
  andthen (int32_encode start w (i32 (i32 (zlen s) + 1)))
          (fun w n => cstring_encode (start + n) w s).

(* elements.go:283-310, 312-345 BinNS.Encode and encodeSubtype2 *)
Definition binary_encode (start : Z) (w b : bytes) (bt : Z) : wres :=
  if bt =? 2 then
    if zlen w <? start + 9 + zlen b then (w, 0, Some ETooSmall)
    else
      andthen (int32_encode start w (i32 (i32 (zlen b) + 4))) (fun w n =>
      andthen (put w (start + n) [2], 1, None) (fun w n1 =>
      andthen (int32_encode (start + n + n1) w (i32 (zlen b))) (fun w n2 =>
      (put w (start + n + n1 + n2) b, zlen b, None))))
  else
    if zlen w <? start + 5 + zlen b then (w, 0, Some ETooSmall)
    else
      andthen (int32_encode start w (i32 (zlen b))) (fun w n =>
      andthen (put w (start + n) [bt], 1, None) (fun w n1 =>
      (put w (start + n + n1) b, zlen b, None))).

(* elements.go:378-380 ObjectIDNS.Encode; the id is a list of 12 bytes *)
Definition objectid_encode (start : Z) (w o : bytes) : wres := encode_byte_slice start w o.

(* elements.go:415-427 BooleanNS.Encode *)
Definition boolean_encode (start : Z) (w : bytes) (b : bool) : wres :=
  if zlen w <? start + 1 then (w, 0, Some ETooSmall)
  else (put w start [if b then 1 else 0], 1, None).

(* elements.go:462-464 DatetimeNS.Encode *)
Definition datetime_encode (start : Z) (w : bytes) (dt : Z) : wres := int64_encode start w dt.

(* elements.go:499-513 RegexNS.Encode *)
Definition regex_encode (start : Z) (w p o : bytes) : wres :=
  andthen (cstring_encode start w p) (fun w n => cstring_encode (start + n) w o).

(* elements.go:556-570 DBPointerNS.Encode *)
Definition dbpointer_encode (start : Z) (w ns o : bytes) : wres :=
  andthen (string_encode start w ns) (fun w n => objectid_encode (start + n) w o).

(* elements.go:605-607, 642-644 JavaScriptNS.Encode, SymbolNS.Encode *)
Definition javascript_encode := string_encode.
Definition symbol_encode := string_encode.

(* elements.go:679-704 CodeWithScopeNS.Encode *)
Definition code_encode (start : Z) (w code doc : bytes) : wres :=
  andthen (int32_encode start w (i32 (9 + i32 (zlen code) + i32 (zlen doc)))) (fun w n =>
  andthen (string_encode (start + n) w code) (fun w n1 =>
  encode_byte_slice (start + n + n1) w doc)).

(* elements.go:781-796 TimestampNS.Encode: increment first, then seconds *)
Definition timestamp_encode (start : Z) (w : bytes) (t i : Z) : wres :=
  andthen (encode_u32 start w i) (fun w n => encode_u32 (start + n) w t).

(* elements.go:870-886 Decimal128NS.Encode: low half first *)
Definition decimal_encode (start : Z) (w : bytes) (h l : Z) : wres :=
  andthen (encode_u64 start w l) (fun w n => encode_u64 (start + n) w h).

(* elements.go:209-211, 246-248 DocumentNS.Encode, ArrayNS.Encode *)
Definition document_encode (start : Z) (w doc : bytes) : wres := encode_byte_slice start w doc.

(* The common prefix of every XxxNS.Element (e.g. elements.go:125-147): type byte, key,
   then the Encode of the type. *)
Definition element_of (t : Z) (enc : Z -> bytes -> wres) (start : Z) (w key : bytes) : wres :=
  andthen (byte_encode start w t) (fun w n =>
  andthen (cstring_encode (start + n) w key) (fun w n1 =>
  enc (start + n + n1) w)).

(* elements.go:125-147, 178-201, ... the Element functions *)
Definition double_element start w key bits := element_of 1 (fun s w => double_encode s w bits) start w key.
Definition string_element start w key v := element_of 2 (fun s w => string_encode s w v) start w key.
Definition document_element start w key d := element_of 3 (fun s w => document_encode s w d) start w key.
Definition array_element start w key d := element_of 4 (fun s w => document_encode s w d) start w key.
Definition binary_element start w key b bt := element_of 5 (fun s w => binary_encode s w b bt) start w key.
Definition objectid_element start w key o := element_of 7 (fun s w => objectid_encode s w o) start w key.
Definition boolean_element start w key b := element_of 8 (fun s w => boolean_encode s w b) start w key.
Definition datetime_element start w key dt := element_of 9 (fun s w => datetime_encode s w dt) start w key.
(* elements.go:517-552 RegexNS.Element writes the two strings itself; same writes as Encode *)
Definition regex_element start w key p o := element_of 11 (fun s w => regex_encode s w p o) start w key.
Definition dbpointer_element start w key ns o := element_of 12 (fun s w => dbpointer_encode s w ns o) start w key.
Definition javascript_element start w key c := element_of 13 (fun s w => javascript_encode s w c) start w key.
Definition symbol_element start w key c := element_of 14 (fun s w => symbol_encode s w c) start w key.
Definition code_element start w key c d := element_of 15 (fun s w => code_encode s w c d) start w key.
Definition int32_element start w key i := element_of 16 (fun s w => int32_encode s w i) start w key.
Definition timestamp_element start w key t i := element_of 17 (fun s w => timestamp_encode s w t i) start w key.
Definition int64_element start w key i := element_of 18 (fun s w => int64_encode s w i) start w key.
Definition decimal_element start w key h l := element_of 19 (fun s w => decimal_encode s w h l) start w key.

(* ------------------------------------------------------------ specification *)

(* A writer asked to write bs at start: it succeeds exactly when bs fits, and then has
   replaced exactly that window; otherwise it reports ErrTooSmall, and neither the length
   of the slice nor anything before start changes. *)
Definition writes (bs : bytes) (start : Z) (w : bytes) (r : wres) : Prop :=
  (start + zlen bs <= zlen w -> r = (put w start bs, zlen bs, None)) /\
  (zlen w < start + zlen bs ->
     exists w' n, r = (w', n, Some ETooSmall) /\ zlen w' = zlen w /\
       firstn (Z.to_nat start) w' = firstn (Z.to_nat start) w).

Lemma put_put {A} (w a b : list A) start :
  0 <= start -> start + zlen a + zlen b <= zlen w ->
  put (put w start a) (start + zlen a) b = put w start (a ++ b).
Proof.
  intros H0 H. destruct (split_at w start) as (p & r & -> & Hp). { zl. }
  destruct (split_at r (zlen a)) as (o1 & r2 & -> & H1). { zl. }
  destruct (split_at r2 (zlen b)) as (o2 & r3 & -> & H2). { zl. }
  rewrite put_app by lia.
  rewrite app_assoc, put_app by zl.
  rewrite (app_assoc o1), put_app by zl. now rewrite <- !app_assoc.
Qed.

Lemma put_firstn {A} (w bs : list A) start n :
  (n <= Z.to_nat start)%nat -> 0 <= start <= zlen w -> firstn n (put w start bs) = firstn n w.
Proof.
  intros H1 H2. destruct (split_at w start) as (p & r & -> & Hp); [lia|].
  unfold put. rewrite <- Hp, to_nat_zlen in *.
  rewrite (firstn_app (length p) p r), (firstn_all p), Nat.sub_diag, firstn_O, app_nil_r.
  rewrite !firstn_app. replace (n - length p)%nat with O by lia. now rewrite !firstn_O.
Qed.

Lemma writes_seq a b start w r k :
  0 <= start ->
  writes a start w r ->
  (forall w', zlen w' = zlen w -> writes b (start + zlen a) w' (k w' (zlen a))) ->
  writes (a ++ b) start w (andthen r k).
Proof.
  intros H0 [S1 F1] HB. split; intros H; zlens_in H.
  - rewrite S1 by (posl; lia). cbn [andthen].
    assert (L : zlen (put w start a) = zlen w) by (apply put_zlen; posl; lia).
    destruct (HB _ L) as [S2 _]. rewrite S2 by (rewrite L; lia).
    rewrite put_put by lia. now zlens.
  - destruct (Z.ltb_spec (zlen w) (start + zlen a)) as [Hlt|Hge].
    + destruct F1 as (w' & n & -> & ?); auto. cbn. eauto.
    + rewrite S1 by lia. cbn [andthen].
      assert (L : zlen (put w start a) = zlen w) by (apply put_zlen; posl; lia).
      destruct (HB _ L) as [_ F2]. destruct F2 as (w' & n & -> & L' & E); [lia|].
      do 2 eexists. split; [reflexivity|]. split; [lia|].
      transitivity (firstn (Z.to_nat start) (put w start a)).
      * replace (firstn (Z.to_nat start) w') with
          (firstn (Z.to_nat start) (firstn (Z.to_nat (start + zlen a)) w')).
        2:{ rewrite firstn_firstn. f_equal. posl; lia. }
        rewrite E, firstn_firstn. f_equal. posl; lia.
      * apply put_firstn; posl; lia.
Qed.

Lemma byte_writes start w t : 0 <= start -> writes [t] start w (byte_encode start w t).
Proof.
  intros. unfold byte_encode, writes. zlens. split; intros.
  - now replace (zlen w <? start + 1) with false by lia.
  - replace (zlen w <? start + 1) with true by lia. eauto.
Qed.

Lemma cstring_writes start w s : 0 <= start -> writes (enc_cstring s) start w (cstring_encode start w s).
Proof.
  intros. unfold cstring_encode, writes, enc_cstring. zlens. posl. split; intros.
  - replace (zlen w <? start + 1 + zlen s) with false by lia.
    rewrite put_put by (zlens; lia). reflexivity.
  - replace (zlen w <? start + 1 + zlen s) with true by lia. eauto.
Qed.

Lemma slice_writes start w s : 0 <= start -> writes s start w (encode_byte_slice start w s).
Proof.
  intros. unfold encode_byte_slice, writes. split; intros.
  - now replace (zlen w <? start + zlen s) with false by lia.
  - replace (zlen w <? start + zlen s) with true by lia. eauto.
Qed.

Lemma u32_writes start w u : 0 <= start -> writes (le32 u) start w (encode_u32 start w u).
Proof.
  intros. unfold encode_u32, writes. zlens. split; intros.
  - now replace (zlen w <? start + 4) with false by lia.
  - replace (zlen w <? start + 4) with true by lia. eauto.
Qed.

Lemma u64_writes start w u : 0 <= start -> writes (le64 u) start w (encode_u64 start w u).
Proof.
  intros. unfold encode_u64, writes. zlens. split; intros.
  - now replace (zlen w <? start + 8) with false by lia.
  - replace (zlen w <? start + 8) with true by lia. eauto.
Qed.

Lemma double_writes start w u : 0 <= start -> writes (le64 u) start w (double_encode start w u).
Proof. apply u64_writes. Qed.

Lemma int32_writes start w i : 0 <= start -> writes (le32 i) start w (int32_encode start w i).
Proof. intros. rewrite <- le32_u32. now apply u32_writes. Qed.

Lemma int64_writes start w i : 0 <= start -> writes (le64 i) start w (int64_encode start w i).
Proof. intros. rewrite <- le64_u64. now apply u64_writes. Qed.

Lemma boolean_writes start w (b : bool) : 0 <= start ->
  writes [if b then 1 else 0] start w (boolean_encode start w b).
Proof. apply byte_writes. Qed.

Lemma le32_i32 z : le32 (i32 z) = le32 z.
Proof. rewrite <- le32_u32, <- (le32_u32 z). f_equal. unfold u32, i32. lia. Qed.

Lemma le32_eq a b : (a - b) mod 4294967296 = 0 -> le32 a = le32 b.
Proof. intros. rewrite <- (le32_u32 a), <- (le32_u32 b). f_equal. unfold u32. lia. Qed.

Lemma string_writes start w s : 0 <= start -> writes (enc_string s) start w (string_encode start w s).
Proof.
  intros. unfold string_encode, enc_string.
  replace (le32 (zlen s + 1)) with (le32 (i32 (i32 (zlen s) + 1))).
  2:{ apply le32_eq. unfold i32. lia. }
  apply writes_seq; auto using int32_writes. intros. zlens.
  apply cstring_writes. lia.
Qed.

Lemma put_writes start w bs : 0 <= start -> start + zlen bs <= zlen w ->
  writes bs start w (put w start bs, zlen bs, None).
Proof. intros. split; intros; auto. lia. Qed.

Lemma binary_writes start w b bt : 0 <= start ->
  writes (enc_body (BBinary bt b)) start w (binary_encode start w b bt).
Proof.
  intros. unfold binary_encode, enc_body. destruct (bt =? 2) eqn:E.
  - destruct (Z.ltb_spec (zlen w) (start + 9 + zlen b)) as [Hlt|Hge].
    { unfold writes. split; intros HH; zlens_in HH; posl; [lia|]. eauto. }
    replace (le32 (zlen b + 4)) with (le32 (i32 (i32 (zlen b) + 4)))
      by (apply le32_eq; unfold i32; lia).
    apply writes_seq; auto using int32_writes. intros w1 L1. zlens.
    apply (writes_seq [2]); [lia|apply (put_writes _ _ [2]); zlens; posl; lia|]. intros w2 L2. zlens.
    replace (le32 (zlen b)) with (le32 (i32 (zlen b))) by apply le32_i32.
    apply writes_seq; [lia|apply int32_writes; lia|]. intros w3 L3. zlens.
    apply put_writes; lia.
  - destruct (Z.ltb_spec (zlen w) (start + 5 + zlen b)) as [Hlt|Hge].
    { unfold writes. split; intros HH; zlens_in HH; posl; [lia|]. eauto. }
    replace (le32 (zlen b)) with (le32 (i32 (zlen b))) by apply le32_i32.
    apply writes_seq; auto using int32_writes. intros w1 L1. zlens.
    apply (writes_seq [bt]); [lia|apply (put_writes _ _ [bt]); zlens; posl; lia|]. intros w2 L2. zlens.
    apply put_writes; lia.
Qed.

Lemma regex_writes start w p o : 0 <= start ->
  writes (enc_body (BRegex p o)) start w (regex_encode start w p o).
Proof.
  intros. cbn. apply writes_seq; auto using cstring_writes. intros. apply cstring_writes. posl. lia.
Qed.

Lemma dbpointer_writes start w ns o : 0 <= start ->
  writes (enc_body (BDBPointer ns o)) start w (dbpointer_encode start w ns o).
Proof.
  intros. cbn. apply writes_seq; auto using string_writes. intros. apply slice_writes. posl. lia.
Qed.

Lemma timestamp_writes start w t i : 0 <= start ->
  writes (enc_body (BTimestamp t i)) start w (timestamp_encode start w t i).
Proof.
  intros. cbn. apply writes_seq; auto using u32_writes. intros. zlens. apply u32_writes. lia.
Qed.

Lemma decimal_writes start w h l : 0 <= start ->
  writes (enc_body (BDecimal h l)) start w (decimal_encode start w h l).
Proof.
  intros. cbn. apply writes_seq; auto using u64_writes. intros. zlens. apply u64_writes. lia.
Qed.

Lemma code_writes start w c d : 0 <= start ->
  writes (le32 (4 + zlen (enc_string c) + zlen d) ++ enc_string c ++ d) start w (code_encode start w c d).
Proof.
  intros. unfold code_encode.
  replace (le32 (4 + zlen (enc_string c) + zlen d)) with (le32 (i32 (9 + i32 (zlen c) + i32 (zlen d)))).
  2:{ apply le32_eq. rewrite zlen_enc_string. unfold i32. lia. }
  apply writes_seq; auto using int32_writes. intros w1 L1. zlens.
  apply writes_seq; [lia|apply string_writes; lia|]. intros w2 L2.
  apply slice_writes. posl. lia.
Qed.

Lemma element_writes t enc bs start w key : 0 <= start ->
  (forall s w, 0 <= s -> writes bs s w (enc s w)) ->
  writes (t :: enc_cstring key ++ bs) start w (element_of t enc start w key).
Proof.
  intros H He. unfold element_of.
  apply (writes_seq [t]); auto using byte_writes. intros w1 L1. zlens.
  apply writes_seq; [lia|apply cstring_writes; lia|]. intros w2 L2.
  apply He. posl. lia.
Qed.

(* What the constructors need: writing into a fresh slice of the exact size. *)
Lemma writes_exact bs w r : zlen w = zlen bs -> writes bs 0 w r -> r = (bs, zlen bs, None).
Proof.
  intros L [H _]. rewrite H by lia. f_equal. f_equal.
  pose proof (put_app [] w [] bs 0 eq_refl L) as P. cbn in P.
  now rewrite !app_nil_r in P.
Qed.
