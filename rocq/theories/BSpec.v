(* Independent specification of BSON (bsonspec.org, version 1.1): a tree type for
   values and the encoding of a tree as bytes.  Nothing here is taken from /repo. *)
Require Import ZArith List Bool Lia ZifyBool ZifyNat Decimal.
From Verif Require Import Base.
Import ListNotations.
Open Scope Z_scope.

Inductive bval :=
| BDouble (bits : Z)                                (* IEEE-754 bits *)
| BString (s : bytes)
| BDoc (fs : list (bytes * bval))
| BArray (vs : list bval)
| BBinary (sub : Z) (b : bytes)
| BUndefined
| BOid (o : bytes)
| BBool (b : bool)
| BDateTime (ms : Z)
| BNull
| BRegex (p o : bytes)
| BDBPointer (ns o : bytes)
| BJavaScript (s : bytes)
| BSymbol (s : bytes)
| BCode (code : bytes) (scope : list (bytes * bval))
| BInt32 (i : Z)
| BTimestamp (t i : Z)                              (* seconds, increment *)
| BInt64 (i : Z)
| BDecimal (h l : Z)                                (* high and low halves *)
| BMinKey
| BMaxKey.

Section Ind.
  Variable P : bval -> Prop.
  Hypothesis Hdouble : forall b, P (BDouble b).
  Hypothesis Hstring : forall s, P (BString s).
  Hypothesis Hdoc : forall fs, Forall (fun kv => P (snd kv)) fs -> P (BDoc fs).
  Hypothesis Harray : forall vs, Forall P vs -> P (BArray vs).
  Hypothesis Hbinary : forall s b, P (BBinary s b).
  Hypothesis Hundef : P BUndefined.
  Hypothesis Hoid : forall o, P (BOid o).
  Hypothesis Hbool : forall b, P (BBool b).
  Hypothesis Hdate : forall b, P (BDateTime b).
  Hypothesis Hnull : P BNull.
  Hypothesis Hregex : forall p o, P (BRegex p o).
  Hypothesis Hdbp : forall n o, P (BDBPointer n o).
  Hypothesis Hjs : forall s, P (BJavaScript s).
  Hypothesis Hsym : forall s, P (BSymbol s).
  Hypothesis Hcode : forall c fs, Forall (fun kv => P (snd kv)) fs -> P (BCode c fs).
  Hypothesis Hi32 : forall i, P (BInt32 i).
  Hypothesis Hts : forall t i, P (BTimestamp t i).
  Hypothesis Hi64 : forall i, P (BInt64 i).
  Hypothesis Hdec : forall h l, P (BDecimal h l).
  Hypothesis Hmin : P BMinKey.
  Hypothesis Hmax : P BMaxKey.

  Fixpoint bval_ind' (t : bval) : P t :=
    match t with
    | BDouble b => Hdouble b
    | BString s => Hstring s
    | BDoc fs => Hdoc fs ((fix go l : Forall (fun kv => P (snd kv)) l :=
        match l with [] => Forall_nil _ | kv :: r => Forall_cons _ (bval_ind' (snd kv)) (go r) end) fs)
    | BArray vs => Harray vs ((fix go l : Forall P l :=
        match l with [] => Forall_nil _ | v :: r => Forall_cons _ (bval_ind' v) (go r) end) vs)
    | BBinary s b => Hbinary s b
    | BUndefined => Hundef
    | BOid o => Hoid o
    | BBool b => Hbool b
    | BDateTime b => Hdate b
    | BNull => Hnull
    | BRegex p o => Hregex p o
    | BDBPointer n o => Hdbp n o
    | BJavaScript s => Hjs s
    | BSymbol s => Hsym s
    | BCode c fs => Hcode c fs ((fix go l : Forall (fun kv => P (snd kv)) l :=
        match l with [] => Forall_nil _ | kv :: r => Forall_cons _ (bval_ind' (snd kv)) (go r) end) fs)
    | BInt32 i => Hi32 i
    | BTimestamp t i => Hts t i
    | BInt64 i => Hi64 i
    | BDecimal h l => Hdec h l
    | BMinKey => Hmin
    | BMaxKey => Hmax
    end.
End Ind.

(* The element type byte. *)
Definition tag (t : bval) : Z :=
  match t with
  | BDouble _ => 1 | BString _ => 2 | BDoc _ => 3 | BArray _ => 4 | BBinary _ _ => 5
  | BUndefined => 6 | BOid _ => 7 | BBool _ => 8 | BDateTime _ => 9 | BNull => 10
  | BRegex _ _ => 11 | BDBPointer _ _ => 12 | BJavaScript _ => 13 | BSymbol _ => 14
  | BCode _ _ => 15 | BInt32 _ => 16 | BTimestamp _ _ => 17 | BInt64 _ => 18
  | BDecimal _ _ => 19 | BMinKey => 255 | BMaxKey => 127
  end.

(* The decimal numeral of an array index, through Coq's own decimal conversion. *)
Fixpoint uint_bytes (d : uint) : bytes :=
  match d with
  | Nil => []
  | D0 d => 48 :: uint_bytes d | D1 d => 49 :: uint_bytes d | D2 d => 50 :: uint_bytes d
  | D3 d => 51 :: uint_bytes d | D4 d => 52 :: uint_bytes d | D5 d => 53 :: uint_bytes d
  | D6 d => 54 :: uint_bytes d | D7 d => 55 :: uint_bytes d | D8 d => 56 :: uint_bytes d
  | D9 d => 57 :: uint_bytes d
  end.
Definition index_key (i : nat) : bytes := uint_bytes (Nat.to_uint i).

Definition enc_cstring (s : bytes) : bytes := s ++ [0].
Definition enc_string (s : bytes) : bytes := le32 (zlen s + 1) ++ s ++ [0].
Definition enc_frame (c : bytes) : bytes := le32 (zlen c + 5) ++ c ++ [0].

Fixpoint enc_body (t : bval) : bytes :=
  match t with
  | BDouble b => le64 b
  | BString s => enc_string s
  | BDoc fs => enc_frame ((fix go fs :=
      match fs with
      | [] => []
      | (k, v) :: r => (tag v :: enc_cstring k ++ enc_body v) ++ go r
      end) fs)
  | BArray vs => enc_frame ((fix go i vs :=
      match vs with
      | [] => []
      | v :: r => (tag v :: enc_cstring (index_key i) ++ enc_body v) ++ go (S i) r
      end) O vs)
  | BBinary s b =>
      if s =? 2 then le32 (zlen b + 4) ++ [2] ++ le32 (zlen b) ++ b
      else le32 (zlen b) ++ [s] ++ b
  | BUndefined => []
  | BOid o => o
  | BBool b => [if b then 1 else 0]
  | BDateTime ms => le64 ms
  | BNull => []
  | BRegex p o => enc_cstring p ++ enc_cstring o
  | BDBPointer ns o => enc_string ns ++ o
  | BJavaScript s => enc_string s
  | BSymbol s => enc_string s
  | BCode c fs =>
      let scope := enc_frame ((fix go fs :=
        match fs with
        | [] => []
        | (k, v) :: r => (tag v :: enc_cstring k ++ enc_body v) ++ go r
        end) fs) in
      le32 (4 + zlen (enc_string c) + zlen scope) ++ enc_string c ++ scope
  | BInt32 i => le32 i
  | BTimestamp t i => le32 i ++ le32 t
  | BInt64 i => le64 i
  | BDecimal h l => le64 l ++ le64 h
  | BMinKey => []
  | BMaxKey => []
  end.

Definition enc_elem (k : bytes) (t : bval) : bytes := tag t :: enc_cstring k ++ enc_body t.

Fixpoint enc_elems (fs : list (bytes * bval)) : bytes :=
  match fs with
  | [] => []
  | (k, v) :: r => enc_elem k v ++ enc_elems r
  end.

Fixpoint enc_items (i : nat) (vs : list bval) : bytes :=
  match vs with
  | [] => []
  | v :: r => enc_elem (index_key i) v ++ enc_items (S i) r
  end.

Definition enc_doc (fs : list (bytes * bval)) : bytes := enc_frame (enc_elems fs).
Definition enc_array (vs : list bval) : bytes := enc_frame (enc_items 0 vs).

Lemma enc_body_doc fs : enc_body (BDoc fs) = enc_doc fs.
Proof. reflexivity. Qed.
Lemma enc_body_array vs : enc_body (BArray vs) = enc_array vs.
Proof. reflexivity. Qed.
Lemma enc_body_code c fs :
  enc_body (BCode c fs)
  = le32 (4 + zlen (enc_string c) + zlen (enc_doc fs)) ++ enc_string c ++ enc_doc fs.
Proof.
  rewrite <- enc_body_doc. reflexivity.
Qed.

#[global] Arguments enc_cstring : simpl never.
#[global] Arguments enc_string : simpl never.
#[global] Arguments enc_frame : simpl never.
#[global] Arguments enc_elem : simpl never.
#[global] Arguments enc_doc : simpl never.
#[global] Arguments enc_array : simpl never.

(* The fields of an array written as a document. *)
Fixpoint index_fields (i : nat) (vs : list bval) : list (bytes * bval) :=
  match vs with
  | [] => []
  | v :: r => (index_key i, v) :: index_fields (S i) r
  end.
Lemma enc_items_fields vs : forall i, enc_items i vs = enc_elems (index_fields i vs).
Proof. induction vs; intros; cbn; [auto|]. now rewrite IHvs. Qed.

(* Well-formedness: ranges of the scalars, NUL-free C strings, binary subtypes. *)
Definition nul_free (s : bytes) := Forall (fun b => b <> 0) s.
Definition cstr_ok (s : bytes) := bytes_ok s /\ nul_free s.
Definition subtype_ok (s : Z) := 0 <= s <= 5 \/ 128 <= s <= 255.

Fixpoint wf (t : bval) : Prop :=
  match t with
  | BDouble b => is_u64 b
  | BString s => bytes_ok s
  | BDoc fs => (fix go fs := match fs with
      | [] => True | (k, v) :: r => cstr_ok k /\ wf v /\ go r end) fs
  | BArray vs => (fix go vs := match vs with [] => True | v :: r => wf v /\ go r end) vs
  | BBinary s b => subtype_ok s /\ bytes_ok b
  | BUndefined => True
  | BOid o => bytes_ok o /\ zlen o = 12
  | BBool _ => True
  | BDateTime ms => is_i64 ms
  | BNull => True
  | BRegex p o => cstr_ok p /\ cstr_ok o
  | BDBPointer ns o => bytes_ok ns /\ bytes_ok o /\ zlen o = 12
  | BJavaScript s => bytes_ok s
  | BSymbol s => bytes_ok s
  | BCode c fs => bytes_ok c /\ (fix go fs := match fs with
      | [] => True | (k, v) :: r => cstr_ok k /\ wf v /\ go r end) fs
  | BInt32 i => is_i32 i
  | BTimestamp t i => is_u32 t /\ is_u32 i
  | BInt64 i => is_i64 i
  | BDecimal h l => is_u64 h /\ is_u64 l
  | BMinKey => True
  | BMaxKey => True
  end.

Definition wf_field (kv : bytes * bval) := cstr_ok (fst kv) /\ wf (snd kv).
Definition wf_fields (fs : list (bytes * bval)) := Forall wf_field fs.

Lemma wf_doc fs : wf (BDoc fs) <-> wf_fields fs.
Proof.
  cbn. induction fs as [|[k v] r IH].
  - split; intros; [constructor|auto].
  - unfold wf_fields in *. rewrite Forall_cons_iff. unfold wf_field at 1. cbn. tauto.
Qed.
Lemma wf_array vs : wf (BArray vs) <-> Forall wf vs.
Proof.
  cbn. induction vs as [|v r IH].
  - split; intros; [constructor|auto].
  - rewrite Forall_cons_iff. tauto.
Qed.
Lemma wf_code c fs : wf (BCode c fs) <-> bytes_ok c /\ wf_fields fs.
Proof. rewrite <- wf_doc. reflexivity. Qed.

(* A document is small when its length fits the int32 length field. *)
Definition small (fs : list (bytes * bval)) := zlen (enc_doc fs) < 2147483648.

Lemma tag_range t : 1 <= tag t <= 255.
Proof. destruct t; cbn; lia. Qed.

Lemma zlen_enc_string s : zlen (enc_string s) = zlen s + 5.
Proof. unfold enc_string. zl. Qed.
Lemma zlen_enc_cstring s : zlen (enc_cstring s) = zlen s + 1.
Proof. unfold enc_cstring. zl. Qed.
Lemma zlen_enc_frame s : zlen (enc_frame s) = zlen s + 5.
Proof. unfold enc_frame. zl. Qed.

Ltac zlens ::=
  repeat first [ rewrite zlen_cons | rewrite zlen_app | (match goal with |- context [zlen (@nil ?A)] => change (zlen (@nil A)) with 0 end)
               | rewrite zlen_le32 | rewrite zlen_le64 | rewrite zlen_map
               | rewrite zlen_repeat | rewrite zlen_enc_string | rewrite zlen_enc_cstring
               | rewrite zlen_enc_frame ].
Ltac zlens_in H ::=
  repeat first [ rewrite zlen_cons in H | rewrite zlen_app in H | (match type of H with context [zlen (@nil ?A)] => change (zlen (@nil A)) with 0 in H end)
               | rewrite zlen_le32 in H | rewrite zlen_le64 in H | rewrite zlen_map in H
               | rewrite zlen_repeat in H | rewrite zlen_enc_string in H
               | rewrite zlen_enc_cstring in H | rewrite zlen_enc_frame in H ].

Lemma le32_u32 z : le32 (u32 z) = le32 z.
Proof. unfold le32, u32. repeat (f_equal; [lia|]). f_equal; lia. Qed.
Lemma le64_u64 z : le64 (u64 z) = le64 z.
Proof. unfold le64, u64. f_equal; f_equal; lia. Qed.

Lemma bytes_ok_app a b : bytes_ok a -> bytes_ok b -> bytes_ok (a ++ b).
Proof. intros. apply Forall_app; auto. Qed.
Lemma bytes_ok_cons x b : is_u8 x -> bytes_ok b -> bytes_ok (x :: b).
Proof. intros. constructor; auto. Qed.
Lemma bytes_ok_nil : bytes_ok [].
Proof. constructor. Qed.
Ltac u8 := unfold is_u8; lia.
#[global] Hint Extern 1 (is_u8 _) => u8 : bok.
#[global] Hint Resolve bytes_ok_app bytes_ok_cons bytes_ok_nil le32_ok le64_ok : bok.

Lemma uint_bytes_ok d : cstr_ok (uint_bytes d).
Proof.
  induction d as [|d [IH1 IH2]|d [IH1 IH2]|d [IH1 IH2]|d [IH1 IH2]|d [IH1 IH2]|d [IH1 IH2]
    |d [IH1 IH2]|d [IH1 IH2]|d [IH1 IH2]|d [IH1 IH2]]; cbn;
    split; constructor; auto; unfold is_u8; lia.
Qed.
Lemma index_key_ok i : cstr_ok (index_key i).
Proof. apply uint_bytes_ok. Qed.

Lemma enc_body_ok t : wf t -> bytes_ok (enc_body t).
Proof.
  assert (forall k v, cstr_ok k -> bytes_ok (enc_body v) -> bytes_ok (enc_elem k v)) as HE.
  { intros k v [Hk _] Hv. unfold enc_elem, enc_cstring. pose proof (tag_range v).
    apply bytes_ok_cons; [unfold is_u8; lia|].
    auto with bok. }
  assert (forall c, bytes_ok c -> bytes_ok (enc_frame c)) as HF.
  { intros. unfold enc_frame. auto with bok. }
  assert (forall s, bytes_ok s -> bytes_ok (enc_string s)) as HS.
  { intros. unfold enc_string. auto with bok. }
  assert (forall fs, Forall (fun kv => wf (snd kv) -> bytes_ok (enc_body (snd kv))) fs ->
    wf_fields fs -> bytes_ok (enc_elems fs)) as HD.
  { induction 1 as [|[k v] r Hv Hr IH]; cbn; intros W; [constructor|].
    apply Forall_cons_iff in W as [[Wk Wv] Wr]. cbn in *. apply bytes_ok_app; auto. }
  induction t using bval_ind'; try rewrite enc_body_doc; try rewrite enc_body_array;
    try rewrite enc_body_code; intros W; try (cbn [enc_body]; auto with bok; fail).
  - apply HF. apply wf_doc in W. auto.
  - apply wf_array in W. apply HF. rewrite enc_items_fields. generalize O.
    revert H W. induction vs as [|v r IH]; intros Hf W i; cbn; [constructor|].
    inversion_clear Hf. inversion_clear W. apply bytes_ok_app; auto.
    apply HE; auto. apply index_key_ok.
  - cbn in *. destruct W as [W1 W2]. unfold subtype_ok in W1.
    destruct (s =? 2); auto 8 with bok.
  - cbn in *. tauto.
  - cbn. destruct b; auto with bok.
  - cbn in *. destruct W as [[W1 W2] [W3 W4]]. unfold enc_cstring.
    auto with bok.
  - cbn in *. destruct W as [W1 [W2 W3]]. auto with bok.
  - apply wf_code in W as [W1 W2]. unfold enc_doc. auto with bok.
Qed.

Lemma enc_elems_ok fs : wf_fields fs -> bytes_ok (enc_elems fs).
Proof.
  intros H. induction H as [|[k v] r [[H1 H1'] H2] H3 IH]; cbn in *; [constructor|].
  apply bytes_ok_app; auto. unfold enc_elem, enc_cstring. pose proof (tag_range v).
  apply bytes_ok_cons; [unfold is_u8; lia|].
  auto using enc_body_ok with bok.
Qed.
Lemma enc_doc_ok fs : wf_fields fs -> bytes_ok (enc_doc fs).
Proof. intros. rewrite <- enc_body_doc. apply enc_body_ok. now apply wf_doc. Qed.
