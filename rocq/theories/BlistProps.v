(* C96: the linked-list document keeps its fields in order. *)
Require Import ZArith List Bool Lia ZifyBool ZifyNat.
From Verif Require Import Base BSpec Elements Value Codec CodecRead Itoa CodecRep Api ApiProofs Tree GetterProofs
  CodecProps Search DocOps EmptyProps Blist.
Import ListNotations.
Open Scope Z_scope.

Definition field := (bytes * bval)%type.
(* an element a client holds *)
Definition client (fuel : nat) (v : value) (f : field) : Prop :=
  obtained (fst f) (snd f) v /\ nul_free (fst f) /\ wf (snd f) /\ zlen (enc_elem (fst f) (snd f)) < 2147483648 /\
  enough fuel (zlen (enc_body (snd f))).

(* The specification, on the fields. *)
Inductive f_op :=
| FAppend (l : list field) | FAppendOmit (l : list field) | FPrepend (l : list field)
| FSet (f : field) | FDelete (k : bytes) | FValidate.
Definition kept (f : field) : bool := negb (is_oid (snd f) || zero_value (snd f)).
Fixpoint replace_first (f : field) (fs : list field) : list field :=
  match fs with
  | [] => []
  | g :: r => if bytes_eqb (fst g) (fst f) then f :: r else g :: replace_first f r
  end.
Fixpoint without_first (k : bytes) (fs : list field) : list field :=
  match fs with
  | [] => []
  | g :: r => if bytes_eqb (fst g) k then r else g :: without_first k r
  end.
Definition f_step (fs : list field) (o : f_op) : list field :=
  match o with
  | FAppend l => fs ++ l
  | FAppendOmit l => fs ++ filter kept l
  | FPrepend l => rev l ++ fs
  | FSet f => replace_first f fs
  | FDelete k => without_first k fs
  | FValidate => fs
  end.
(* a call and what it means; a nil element given to AppendOmitEmpty is passed over *)
Inductive call (fuel : nat) : bl_op -> f_op -> Prop :=
| C_append vs l : Forall2 (client fuel) vs l -> call fuel (BAppend (map Some vs)) (FAppend l)
| C_omit vs l vo : Forall2 (client fuel) vs l -> filter (fun o => match o with Some _ => true | None => false end) vo = map Some vs ->
    call fuel (BAppendOmit vo) (FAppendOmit l)
| C_prepend vs l : Forall2 (client fuel) vs l -> call fuel (BPrepend (map Some vs)) (FPrepend l)
| C_set v f : client fuel v f -> call fuel (BSet v) (FSet f)
| C_delete k : call fuel (BDelete k) (FDelete k)
| C_validate : call fuel BValidate FValidate.
(* what a call answers, when the fields are fs before it *)
Definition answers (fuel : nat) (fs : list field) (o : f_op) (r : go bl_res) : Prop :=
  match o with
  | FDelete k =>
      match find (fun f => bytes_eqb (fst f) k) fs with
      | Some f => exists v, r = Ret (RElem (Some v)) /\ client fuel v f
      | None => r = Ret (RElem None)
      end
  | FValidate => zlen (enc_doc fs) < 4294967296 -> r = Ret (RSize (zlen (enc_doc fs)) None)
  | _ => r = Ret RDone
  end.
Inductive answered (fuel : nat) : list field -> list f_op -> list (go bl_res) -> list field -> Prop :=
| A_nil fs : answered fuel fs [] [] fs
| A_cons fs o r os rs fs' : answers fuel fs o r -> answered fuel (f_step fs o) os rs fs' -> answered fuel fs (o :: os) (r :: rs) fs'.

Lemma client_rep fuel v f : client fuel v f -> rep (fst f) v (snd f).
Proof. intros (O & N & W & L & F). now apply CodecProps.obtained_rep. Qed.
Lemma client_key fuel v f : client fuel v f -> elem_key (Some v) = Ret (fst f).
Proof. intros C. apply (elem_key_rep (fst f) v (snd f)). eapply client_rep; eauto. Qed.

Lemma append_some d vs : bl_append d (map Some vs) = (d ++ vs, Ret tt).
Proof. revert d. induction vs as [|v vs IH]; intros d; cbn; [now rewrite app_nil_r|]. now rewrite IH, <- app_assoc. Qed.
Lemma prepend_some d vs : bl_prepend d (map Some vs) = (rev vs ++ d, Ret tt).
Proof. revert d. induction vs as [|v vs IH]; intros d; cbn; [reflexivity|]. now rewrite IH, <- app_assoc. Qed.
Lemma omit_some fuel vo : forall d vs l, Forall2 (client fuel) vs l ->
  filter (fun o => match o with Some _ => true | None => false end) vo = map Some vs ->
  exists ws, bl_append_omit fuel d vo = (d ++ ws, Ret tt) /\ Forall2 (client fuel) ws (filter kept l).
Proof.
  induction vo as [|[v|] vo IH]; intros d vs l F E; cbn [filter] in E.
  - destruct vs; [|discriminate]. inversion F; subst. exists []. rewrite app_nil_r. split; [reflexivity|constructor].
  - destruct vs as [|v' vs]; [discriminate|]. cbn in E. injection E as <- E. inversion F as [|? f ? l' C F']; subst.
    assert (Em : v_is_empty fuel (Some v) = Ret (is_oid (snd f) || zero_value (snd f))).
    { pose proof (client_rep _ _ _ C) as R. destruct C as (O & N & W & L & Fu). now apply (is_empty_rep fuel (fst f)). }
    cbn [bl_append_omit filter]. rewrite Em. unfold kept at 1.
    destruct (is_oid (snd f) || zero_value (snd f)); cbn [negb]; [now apply IH with (vs := vs)|].
    destruct (IH (d ++ [v]) vs l' F' E) as (ws & E' & Fw). exists (v :: ws). rewrite E', <- app_assoc. split; [reflexivity|now constructor].
  - cbn [bl_append_omit]. now apply IH with (vs := vs).
Qed.
Lemma set_some fuel d fs v f : Forall2 (client fuel) d fs -> client fuel v f ->
  exists d', bl_set d v = Ret d' /\ Forall2 (client fuel) d' (replace_first f fs).
Proof.
  intros F C. induction F as [|x g d fs Cx F (d' & E & Fd)]; [exists []; split; [reflexivity|constructor]|].
  cbn [bl_set replace_first]. rewrite (client_key _ _ _ Cx), (client_key _ _ _ C). cbn [bind].
  destruct (bytes_eqb (fst g) (fst f)).
  - eexists. split; [reflexivity|]. now constructor.
  - rewrite E. cbn [bind]. eexists. split; [reflexivity|]. now constructor.
Qed.
Lemma delete_some fuel d fs k : Forall2 (client fuel) d fs ->
  exists d' o, bl_delete d k = Ret (d', o) /\ Forall2 (client fuel) d' (without_first k fs) /\
    match find (fun f => bytes_eqb (fst f) k) fs with
    | Some f => exists v, o = Some v /\ client fuel v f
    | None => o = None
    end.
Proof.
  induction 1 as [|x g d fs Cx F (d' & o & E & Fd & A)]; [exists [], None; repeat split; constructor|].
  cbn [bl_delete without_first find]. rewrite (client_key _ _ _ Cx). cbn [bind].
  destruct (bytes_eqb (fst g) k).
  - do 2 eexists. split; [reflexivity|]. split; [exact F|]. eauto.
  - rewrite E. cbn [bind]. do 2 eexists. split; [reflexivity|]. split; [now constructor|exact A].
Qed.
Lemma validate_some fuel d fs : Forall2 (client fuel) d fs -> forall n, 0 <= n -> n + zlen (enc_elems fs) < 4294967296 ->
  bl_sizes fuel n d = Ret (n + zlen (enc_elems fs), None).
Proof.
  induction 1 as [|x [k t] d fs Cx F IH]; intros n Hn L; [change (zlen (enc_elems [])) with 0; cbn; repeat f_equal; lia|].
  cbn [bl_sizes]. rewrite zlen_enc_elems_cons in *. posl.
  pose proof (client_rep _ _ _ Cx) as R. destruct Cx as (_ & _ & W & Lx & Fu). cbn [fst snd] in *.
  rewrite (elem_validate_rep k x t fuel) by (auto using vgood_all). cbn [bind].
  pose proof (zlen_nonneg (enc_elem k t)). unfold u32. rewrite Z.mod_small by lia. rewrite IH by lia. now rewrite Z.add_assoc.
Qed.

(* Any calls in any order, with elements however they came about: after each of them the list holds
   the fields the specification says, and each call answers as it should. *)
Theorem C96_history : forall fuel os fos d fs, Forall2 (call fuel) os fos -> Forall2 (client fuel) d fs ->
  exists d' rs fs', bl_run fuel d os = (d', rs) /\ answered fuel fs fos rs fs' /\ Forall2 (client fuel) d' fs'.
Proof.
  intros fuel os fos d fs H. revert d fs. induction H as [|o fo os fos C H IH]; intros d fs F.
  - exists d, [], fs. split; [reflexivity|]. split; [constructor|exact F].
  - assert (X : exists d1 r, bl_exec fuel d o = (d1, r) /\ answers fuel fs fo r /\ Forall2 (client fuel) d1 (f_step fs fo)).
    { destruct C as [vs l Fl|vs l vo Fl E|vs l Fl|v f Cv|k|]; cbn [bl_exec answers f_step].
      - rewrite append_some. cbn [bind]. do 2 eexists. repeat split. now apply Forall2_app.
      - destruct (omit_some fuel vo d vs l Fl E) as (ws & -> & Fw). cbn [bind]. do 2 eexists. repeat split. now apply Forall2_app.
      - rewrite prepend_some. cbn [bind]. do 2 eexists. repeat split. apply Forall2_app; [|exact F].
        clear - Fl. induction Fl; cbn; [constructor|]. apply Forall2_app; auto.
      - destruct (set_some fuel d fs v f F Cv) as (d' & -> & Fd). do 2 eexists. repeat split. exact Fd.
      - destruct (delete_some fuel d fs k F) as (d' & oo & -> & Fd & A). do 2 eexists. split; [reflexivity|]. split; [|exact Fd].
        destruct (find (fun f : bytes * bval => bytes_eqb (fst f) k) fs); [destruct A as (v & -> & Cv); eauto|now subst].
      - do 2 eexists. split; [reflexivity|]. split; [|exact F]. intros L. unfold bl_validate, enc_doc in *. zlens_in L.
        rewrite (validate_some fuel d fs F) by lia. cbn [bind]. unfold enc_doc. zlens. do 2 f_equal. lia. }
    destruct X as (d1 & r & E & A & F1). destruct (IH d1 _ F1) as (d' & rs & fs' & E' & A' & F').
    exists d', (r :: rs), fs'. cbn [bl_run]. rewrite E, E'. split; [reflexivity|]. split; [econstructor; eauto|exact F'].
Qed.
Print Assumptions C96_history.

(* Len never returns: it calls itself, whatever the list holds. *)
Theorem C96_len_refuted : forall fuel d, bl_len fuel d = Fuel.
Proof. induction fuel; cbn; auto. Qed.
Print Assumptions C96_len_refuted.
(* Set of a key that is not there does nothing; Document.Set of package birch adds the element. *)
Theorem C96_set_refuted : forall fuel d fs v f, Forall2 (client fuel) d fs -> client fuel v f -> ~ In (fst f) (map fst fs) ->
  bl_set d v = Ret d.
Proof.
  intros fuel d fs v f F C. induction F as [|x g d fs Cx F IH]; intros N; [reflexivity|].
  cbn [bl_set]. rewrite (client_key _ _ _ Cx), (client_key _ _ _ C). cbn [bind map In] in *.
  destruct (bytes_eqb (fst g) (fst f)) eqn:E; [apply bytes_eqb_eq in E; tauto|]. now rewrite IH by tauto.
Qed.
Print Assumptions C96_set_refuted.
(* A nil element stops Append and Prepend with a panic; those before it stay. *)
Theorem C96_nil : forall d vs rest,
  bl_append d (map Some vs ++ None :: rest) = (d ++ vs, Panic (PErr ENilElement)) /\
  bl_prepend d (map Some vs ++ None :: rest) = (rev vs ++ d, Panic (PErr ENilElement)).
Proof.
  intros d vs rest. split; revert d; induction vs as [|v vs IH]; intros d; cbn; rewrite ?app_nil_r; auto; now rewrite IH, <- app_assoc.
Qed.
Print Assumptions C96_nil.

Example C96_used : exists a b c, client 100 a ([97], BInt32 1) /\ client 100 b ([98], BNull) /\ client 100 c ([97], BString [120]) /\
  bl_run 100 [] [BAppend [Some a; Some b]; BPrepend [Some b; Some a]; BSet c; BDelete [98]; BAppendOmit [None; Some c]; BValidate] =
    ([c; a; b; c], [Ret RDone; Ret RDone; Ret RDone; Ret (RElem (Some b)); Ret RDone; Ret (RSize 33 None)]).
Proof.
  assert (X : exists a b c, build [97] (BInt32 1) = Ret a /\ build [98] BNull = Ret b /\ build [97] (BString [120]) = Ret c)
    by (do 3 eexists; repeat split; vm_compute; reflexivity).
  destruct X as (a & b & c & A & B & C). exists a, b, c.
  assert (Q : forall k t v, build k t = Ret v -> nul_free k -> wf t -> zlen (enc_elem k t) < 2147483648 -> enough 100 (zlen (enc_body t)) -> client 100 v (k, t))
    by (intros; repeat split; auto; now apply ob_built).
  split; [apply Q; auto; vm_compute; repeat constructor; discriminate|].
  split; [apply Q; auto; vm_compute; repeat constructor; discriminate|].
  split; [apply Q; auto; vm_compute; repeat constructor; discriminate|].
  vm_compute in A, B, C. injection A as <-. injection B as <-. injection C as <-. vm_compute. reflexivity.
Qed.
