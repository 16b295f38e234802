(* C30 for bodies of arbitrary bytes: what can keep Header.Parse from returning. *)
Require Import ZArith List Bool Lia ZifyBool ZifyNat.
From Verif Require Import Base BSpec Elements Value Codec CodecRead Itoa CodecRep Api ApiProofs Tree ReadSafe
  CodecProps Wire WireSpec WireProofs WireHostile WireProps.
Import ListNotations.
Open Scope Z_scope.

(* C30, in part.  A body of arbitrary bytes below 2^31 in which no string or code with scope
   has a negative length is parsed or rejected, for every operation but OP_MSG, unless it is a
   kill-cursors message with a negative count, a command query without fields, or one of its
   documents has a negative length or is one that can be read but that Validate rejects.
   Missing: those do panic (the theorems named _refuted). *)
Theorem C30_total_partial fuel h body : zlen body + 16 <= 2147483648 -> enough fuel (zlen body) ->
  ~ negative_length body -> ~ negative_code body -> h_op h <> 2013 ->
  returns (parse fuel h body) \/
  (h_op h = 2007 /\ negative_cursors body) \/
  (h_op h = 2004 /\ empty_command fuel body) \/
  (exists p, document_at fuel (h_op h) body p /\ bad_document fuel (h_op h) (at_ body p)).
Proof. intros. now apply WireHostile.parse_ok. Qed.

(* C30, in part.  For OP_MSG the same, unless a length field of a document has no room in the
   body, is negative or points past its end, or a body section is a document that can be read
   but that Validate rejects. *)
Theorem C30_msg_total_partial fuel h body : zlen body + 16 <= 2147483648 -> enough fuel (zlen body) ->
  ~ negative_length body -> ~ negative_code body -> h_op h = 2013 ->
  returns (parse fuel h body) \/ bad_message fuel body.
Proof.
  intros Hs Hf NL NC O. unfold parse. rewrite O. cbn [Z.eqb Pos.eqb]. now apply parse_msg_ok.
Qed.

(* C30 is false: every kill-cursors message with a negative count panics, *)
Theorem C30_cursors_refuted fuel h body : h_op h = 2007 -> negative_cursors body -> parse fuel h body = Panic PMake.
Proof.
  intros O (a & n4 & b & n & -> & La & Ln & Rn & N). unfold parse. rewrite O. cbn [Z.eqb Pos.eqb]. unfold parse_kill_cursors.
  pose proof (zlen_nonneg b). assert (L : zlen (a ++ n4 ++ b) = 8 + zlen b) by (rewrite !zlen_app; lia).
  replace (zlen (a ++ n4 ++ b) <? 8) with false by lia.
  destruct (w_i32_ok (a ++ n4 ++ b)) as (r & ->); [lia|]. cbn [bind].
  rewrite (from_app a (n4 ++ b) 4) by auto. cbn [bind].
  assert (E : w_i32 (n4 ++ b) = Ret n).
  { unfold w_i32. rewrite <- Rn. destruct n4 as [|x0 [|x1 [|x2 [|x3 [|]]]]]; try (unfold zlen in Ln; cbn [length] in Ln; lia). reflexivity. }
  rewrite E. cbn [bind]. rewrite app_assoc, (from_app (a ++ n4) b 8) by (rewrite zlen_app; lia). cbn [bind].
  replace (zlen b <? n * 8) with false by lia. replace (n <? 0) with true by lia. reflexivity.
Qed.
(* and so does every OP_MSG whose first section is a document with a negative length. *)
Theorem C30_section_refuted fuel h flags l4 l rest : h_op h = 2013 -> zlen flags = 4 -> zlen l4 = 4 -> readi32 l4 = Ret l -> l < 0 ->
  parse fuel h (flags ++ 0 :: l4 ++ rest) = Panic PIndex.
Proof.
  intros O Lf Ll Rl N. unfold parse. rewrite O. cbn [Z.eqb Pos.eqb]. unfold parse_msg.
  pose proof (zlen_nonneg rest). assert (L : zlen (flags ++ 0 :: l4 ++ rest) = 9 + zlen rest) by (rewrite zlen_app, zlen_cons, zlen_app; lia).
  replace (zlen _ <? 4) with false by lia. rewrite from_skip by lia. cbn [bind].
  destruct (w_i32_ok (skipn (Z.to_nat 0) (flags ++ 0 :: l4 ++ rest))) as (r & ->); [rewrite zlen_skip; lia|]. cbn [bind].
  assert (P : parse_sections (length (flags ++ 0 :: l4 ++ rest)) fuel (flags ++ 0 :: l4 ++ rest) 4 [] = Panic PIndex); [|now rewrite P].
  destruct (length _) as [|k] eqn:Ek; [unfold zlen in L; rewrite Ek in L; lia|]. cbn [parse_sections].
  replace (4 <? _) with true by lia. unfold parse_section.
  rewrite (goindex_app flags 0) by auto. cbn [bind Z.eqb].
  change (flags ++ 0 :: l4 ++ rest) with (flags ++ [0] ++ l4 ++ rest) at 1. rewrite app_assoc, (from_app (flags ++ [0])) by (rewrite zlen_app; change (zlen [0]) with 1; lia).
  cbn [bind]. assert (E : w_i32 (l4 ++ rest) = Ret l).
  { unfold w_i32. rewrite <- Rl. destruct l4 as [|x0 [|x1 [|x2 [|x3 [|]]]]]; try (unfold zlen in Ll; cbn [length] in Ll; lia). reflexivity. }
  rewrite E. cbn [bind]. unfold goslice. replace (_ && _) with false by (symmetry; lia). reflexivity.
Qed.

(* Negative string lengths in codes with scope make Validate report the size 0 for a document
   that was read; an insert or reply message that holds one is not parsed in any number of
   iterations: the loop appends the document for ever. *)
Definition zero_doc : bytes :=
  le32 44 ++ [5; 0] ++ le32 12 ++ [0] ++ [5; 0; 0; 0; 0] ++ [0; 0; 0; 0; 0; 0; 0] ++
  [15; 0] ++ le32 8 ++ le32 (-22) ++ [15; 0] ++ le32 8 ++ le32 (-32) ++ [0].
Definition zero_body : bytes := le32 0 ++ [97; 0] ++ zero_doc.
Theorem C30_loop_refuted :
  (exists d, read_document 100 zero_doc = Ret (inl d) /\ doc_validate 100 d = Ret (0, None)) /\
  parse 100 (MkHdr 0 1 0 2002) zero_body = parse_docs (length zero_body) 100 zero_body 6 []
     (fun docs => Ret (Some (MInsert (MkHdr 0 1 0 2002) 0 [97] docs), None)) /\
  forall n acc k, parse_docs n 100 zero_body 6 acc k = Fuel.
Proof.
  assert (X : exists d, read_document 100 zero_doc = Ret (inl d) /\ doc_validate 100 d = Ret (0, None)).
  { assert (C : match read_document 100 zero_doc with
                | Ret (inl d) => match doc_validate 100 d with Ret (n, None) => n =? 0 | _ => false end
                | _ => false end = true) by (vm_compute; reflexivity).
    destruct (read_document 100 zero_doc) as [[d|]| |]; try discriminate. exists d. split; [reflexivity|].
    destruct (doc_validate 100 d) as [[n [e|]]| |]; try discriminate. now apply Z.eqb_eq in C as ->. }
  split; [exact X|]. split; [vm_compute; reflexivity|].
  destruct X as (d & R & V). intros n. induction n as [|n IH]; intros acc k; cbn [parse_docs];
    replace (6 <? zlen zero_body) with true by reflexivity; [reflexivity|].
  replace (from zero_body 6) with (Ret zero_doc) by reflexivity. cbn [bind]. unfold read_doc_then. rewrite R. cbn [bind].
  cbn [get_doc_size]. rewrite V. cbn [bind]. replace (6 + 0) with 6 by lia. apply IH.
Qed.

(* garbage that meets the hypotheses: a delete message whose filter has an unknown type byte,
   which is rejected, and an OP_MSG with a section of an unknown kind *)
Lemma no_fields b : (forall t, In t b -> ~ In t [2; 5; 12; 13; 14; 15]) -> ~ negative_length b /\ ~ negative_code b.
Proof.
  intros F. split.
  - intros (a & t & k & l4 & l & c & -> & Ht & _). apply (F t); [apply in_or_app; right; now left|exact Ht].
  - intros (a & k & l4 & s4 & sl & c & -> & _). apply (F 15); [apply in_or_app; right; now left|cbn; auto 10].
Qed.
Definition junk : bytes := le32 0 ++ [97; 0] ++ le32 1 ++ [9; 0; 0; 0; 77; 65; 0; 3; 4].
Definition junk_msg : bytes := le32 0 ++ [7] ++ [9; 0; 0; 0; 77; 65; 0; 3; 4].
Example C30_total_nonvacuous :
  (zlen junk + 16 <= 2147483648 /\ ~ negative_length junk /\ ~ negative_code junk /\
   parse 40 (MkHdr 0 1 0 2006) junk = Ret (None, Some EInvalidElement)) /\
  (zlen junk_msg + 16 <= 2147483648 /\ ~ negative_length junk_msg /\ ~ negative_code junk_msg /\
   parse 40 (MkHdr 0 1 0 2013) junk_msg = Ret (None, Some (EOther 115))).
Proof.
  split; (split; [vm_compute; discriminate|]); rewrite <- and_assoc; (split; [|vm_compute; reflexivity]); apply no_fields;
    intros t Ht H; vm_compute in Ht; cbn [In] in H; lia.
Qed.
(* and ones that do not return: the causes named are those of the theorems *)
Example C30_causes_nonvacuous :
  negative_cursors (le32 0 ++ le32 (-1)) /\
  empty_command 40 (le32 0 ++ [97; 46; 36; 99; 109; 100; 0] ++ (le32 0 ++ le32 0) ++ le32 5 ++ [0]) /\
  (document_at 40 2006 (le32 0 ++ [97; 0] ++ le32 1 ++ le32 (-1) ++ [0]) 10 /\
   bad_document 40 2006 (at_ (le32 0 ++ [97; 0] ++ le32 1 ++ le32 (-1) ++ [0]) 10)) /\
  bad_message 40 (le32 0 ++ [0] ++ le32 (-1) ++ [0; 0; 0; 0]).
Proof.
  split; [|split; [|split; [split|]]].
  - exists (le32 0), (le32 (-1)), [], (-1). repeat split; reflexivity || lia.
  - exists (le32 0), [97; 46; 36; 99; 109; 100], (le32 0 ++ le32 0), (le32 5 ++ [0]).
    split; [reflexivity|]. split; [reflexivity|]. split; [repeat constructor; lia|]. split; [reflexivity|].
    split; [|vm_compute; reflexivity]. exists [97], [99; 109; 100]. split; [reflexivity|]. constructor; [lia|constructor].
  - apply da_first; [|vm_compute; discriminate]. right. right. left.
    exists (le32 0), [97], (le32 1 ++ le32 (-1) ++ [0]). split; [reflexivity|]. split; [repeat constructor; lia|].
    split; [reflexivity|]. right. right. right. split; reflexivity.
  - left. exists (-1). split; [vm_compute; reflexivity|lia].
  - left. exists 4. split; [apply sa_first|]. split; [vm_compute; reflexivity|]. split; [vm_compute; reflexivity|].
    left. right. exists (-1). split; [vm_compute; reflexivity|left; lia].
Qed.
Print Assumptions C30_total_partial.
Print Assumptions C30_msg_total_partial.
Print Assumptions C30_cursors_refuted.
Print Assumptions C30_section_refuted.
Print Assumptions C30_loop_refuted.
