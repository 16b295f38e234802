(* The properties of the streaming FTDC collectors: C40, C66 and C67. *)
Require Import ZArith List Bool Lia ZifyBool ZifyNat.
From Verif Require Import Base BSpec Elements Value Codec CodecRead Itoa CodecRep Api ApiProofs Tree
  GetterProofs ReaderOps CodecProps DocOps Stream Search FtdcSpec Ftdc FtdcProofs FtdcRestore FtdcProps FtdcFlatProps
  Collect CollectProofs CollectProps.
Import ListNotations.
Open Scope Z_scope.

(* --------------------------------------------------------------- specification *)

(* The calls of a client: Add of a document at a time, or FlushCollector. *)
Inductive sop := OAdd (now : Z) (es : document) | OFlush.
(* the documents of the calls *)
Definition sop_is (fuel : nat) (o : sop) (d : option fields) : Prop :=
  match o, d with
  | OAdd _ es, Some fs => sample fuel es fs
  | OFlush, None => True
  | _, _ => False
  end.
(* the samples whose Add returned nil *)
Fixpoint taken (ds : list (option fields)) (rs : list (go (option gerr))) : list fields :=
  match ds, rs with
  | Some d :: ds, Ret None :: r => d :: taken ds r
  | _ :: ds, _ :: r => taken ds r
  | _, _ => []
  end.
(* Every answer is nil, or that the schema differs from the last accepted sample's. *)
Fixpoint fair (acc : list fields) (ds : list (option fields)) (rs : list (go (option gerr))) : Prop :=
  match ds, rs with
  | [], [] => True
  | None :: ds, r :: rs => r = Ret None /\ fair acc ds rs
  | Some d :: ds, Ret None :: rs => fair (acc ++ [d]) ds rs
  | Some d :: ds, r :: rs => r = Ret (Some e_schema) /\ acc <> [] /\ schema d <> schema (last acc []) /\ fair acc ds rs
  | _, _ => False
  end.
(* A sample is refused only if its keys have the hash of the last accepted sample's. *)
Fixpoint clash (acc : list fields) (ds : list (option fields)) (rs : list (go (option gerr))) : Prop :=
  match ds, rs with
  | Some d :: ds, Ret None :: rs => clash (acc ++ [d]) ds rs
  | Some d :: ds, _ :: rs => key_hash d = key_hash (last acc []) /\ clash acc ds rs
  | None :: ds, _ :: rs => clash acc ds rs
  | _, _ => True
  end.
Definition samekeys (g : list fields) : Prop := forall a b, In a g -> In b g -> key_hash a = key_hash b.

Section Runs.
Variable nan : Z -> Z -> Z.
Variable zip : bytes -> bytes.
Variable to_json : document -> go (bytes + gerr).
Fixpoint sc_run (fuel : nat) (c : streaming) (w : writer) (ops : list sop) : streaming * writer * list (go (option gerr)) :=
  match ops with
  | [] => (c, w, [])
  | o :: ops =>
      let '(c, w, r) := match o with OAdd now es => sc_add nan zip to_json fuel now c w es | OFlush => sc_flush zip to_json fuel c w end in
      let '(c, w, l) := sc_run fuel c w ops in (c, w, r :: l)
  end.
Fixpoint sd_run (fuel : nat) (c : sdynamic) (w : writer) (ops : list sop) : sdynamic * writer * list (go (option gerr)) :=
  match ops with
  | [] => (c, w, [])
  | o :: ops =>
      let '(c, w, r) := match o with OAdd now es => sd_add nan zip to_json fuel now c w es | OFlush => sd_flush zip to_json fuel c w end in
      let '(c, w, l) := sd_run fuel c w ops in (c, w, r :: l)
  end.
End Runs.
Definition streaming_with (max : Z) (md : option document) : streaming :=
  match md with None => new_streaming max | Some es => sc_set_metadata (new_streaming max) es end.
Definition sdynamic_with (max : Z) (md : option document) : sdynamic :=
  MkSD None 0 (streaming_with max md).

(* ---------------------------------------------------------------------- proofs *)

Section Str.
Variable nan : Z -> Z -> Z.
Variables (zip : bytes -> bytes) (unzip : bytes -> option bytes).
Hypothesis codec : codec_ok zip unzip.
Variable to_json : document -> go (bytes + gerr).
Variable fuel : nat.
Variable max : Z.
Hypothesis Mx : 0 <= max < 4294967296.
Variable w0 : writer.

(* what the writer has got: rests of writes that failed, and chunks *)
Definition piece := (bytes + seg)%type.
Definition pbytes (p : piece) : bytes := match p with inl b => b | inr s => seg_bytes nan zip s end.
Definition segs (ps : list piece) : list seg := flat_map (fun p => match p with inl _ => [] | inr s => [s] end) ps.
Definition groups (ps : list piece) : list (list fields) := map snd (segs ps).
Definition is_seg (p : piece) : Prop := match p with inl _ => False | inr _ => True end.
Definition good_group (g : list fields) : Prop := 1 <= zlen g <= max + 1 /\ uniform g /\ Forall small g.
Definition wrote (w : writer) (ps : list piece) : Prop :=
  w_out w = w_out w0 ++ concat (map pbytes ps) /\ Forall (seg_ok fuel) (segs ps) /\ Forall good_group (groups ps) /\
  (w_plan w0 = [] -> w_plan w = [] /\ Forall is_seg ps).

Lemma segs_app a b : segs (a ++ b) = segs a ++ segs b.
Proof. apply flat_map_app. Qed.
Lemma groups_app a b : groups (a ++ b) = groups a ++ groups b.
Proof. unfold groups. now rewrite segs_app, map_app. Qed.

Lemma flush_spec b md mfs acc w ps : cstate nan b md max acc -> Forall small acc -> uniform acc -> zlen acc <= max + 1 ->
  Forall (room fuel (max + 1)) acc -> meta_is md mfs -> (forall start, meta_fits fuel start mfs) -> wrote w ps ->
  exists w' bb r new, flush_write zip to_json fuel (CB b) w = (w', bb, Ret r) /\ wrote w' (ps ++ new) /\
    Forall (fun s : seg => fst (fst s) = mfs) (segs new) /\
    ((acc = [] /\ bb = false /\ r = None /\ new = [] /\ w' = w) \/
     (acc <> [] /\ bb = true /\ r = None /\ groups new = [acc]) \/
     (acc <> [] /\ bb = false /\ r <> None /\ groups new = [] /\ w_plan w0 <> [])).
Proof.
  intros C S U L Ro Mi Mf W. unfold flush_write. cbn [c_samples c_resolve]. rewrite (cstate_count _ _ _ _ _ C).
  destruct acc as [|a acc].
  { change (zlen [] =? 0) with true. cbn iota. exists w, false, None, []. rewrite app_nil_r.
    split; [reflexivity|]. split; [exact W|]. split; [constructor|]. left. auto. }
  remember (a :: acc) as g eqn:Eg. assert (N : g <> []) by (subst; discriminate).
  assert (Ng : zlen g =? 0 = false) by (subst; zlens; pose proof (zlen_nonneg acc); lia).
  rewrite Ng. assert (Rg : room fuel (zlen g) (hd [] g)).
  { apply (room_le fuel (max + 1)); [pose proof (zlen_nonneg g); lia|]. subst g. inversion Ro; auto. }
  destruct Rg as [R1 R2].
  destruct (resolve_seg nan zip unzip codec fuel b md mfs max g C N Mi Mf ltac:(lia) R1 R2) as (start & E & Ok).
  rewrite E. unfold w_write. destruct W as (Wo & Ws & Wg & Wp).
  assert (Gg : good_group g) by (split; [pose proof (zlen_nonneg g); lia|auto]).
  assert (Good : forall plan, (w_plan w0 = [] -> plan = []) -> wrote (MkW (w_out w ++ seg_bytes nan zip (mfs, start, g)) plan) (ps ++ [inr (mfs, start, g)])).
  { intros plan Hp. split; [|split; [|split]].
    - cbn [w_out]. rewrite Wo, map_app, concat_app, <- app_assoc. cbn. now rewrite app_nil_r.
    - rewrite segs_app. apply Forall_app. split; [exact Ws|]. constructor; [exact Ok|constructor].
    - rewrite groups_app. apply Forall_app. split; [exact Wg|]. constructor; [exact Gg|constructor].
    - intros P0. split; [apply Hp; exact P0|]. apply Forall_app. split; [apply Wp; exact P0|]. constructor; [exact I|constructor]. }
  assert (Bad : forall x plan, w_plan w <> [] -> wrote (MkW (w_out w ++ x) plan) (ps ++ [inl x])).
  { intros x plan Np. split; [|split; [|split]].
    - cbn [w_out]. rewrite Wo, map_app, concat_app, <- app_assoc. cbn. now rewrite app_nil_r.
    - rewrite segs_app, app_nil_r. exact Ws.
    - rewrite groups_app. cbn. rewrite app_nil_r. exact Wg.
    - intros P0. destruct (Wp P0). contradiction. }
  destruct (w_plan w) as [|[n e] plan] eqn:Ep.
  - rewrite Z.eqb_refl. cbn [negb]. eexists _, true, None, [inr (mfs, start, g)]. split; [reflexivity|].
    split; [apply Good; auto|]. split; [constructor; [reflexivity|constructor]|]. right. left. auto.
  - assert (P0 : w_plan w0 <> []) by (intros Q; destruct (Wp Q) as [Q' _]; discriminate).
    set (p := seg_bytes nan zip (mfs, start, g)) in *. destruct e as [e|].
    + eexists _, false, (Some e), [inl (firstn (Z.to_nat n) p)]. split; [reflexivity|]. split; [apply Bad; discriminate|].
      split; [constructor|]. right. right. repeat split; auto. discriminate.
    + destruct (Z.eqb_spec n (zlen p)) as [En|En]; cbn [negb].
      * eexists _, true, None, [inr (mfs, start, g)]. split; [reflexivity|]. split; [|split; [constructor; [reflexivity|constructor]|right; left; auto]].
        rewrite firstn_all2 by (unfold zlen in En; lia). apply Good. congruence.
      * eexists _, false, (Some e_flush), [inl (firstn (Z.to_nat n) p)]. split; [reflexivity|]. split; [apply Bad; discriminate|].
        split; [constructor|]. right. right. repeat split; auto. discriminate.
Qed.

Definition sinv (md : option document) (mfs : option fields) (c : streaming) (w : writer) (ps : list piece) (acc : list fields) : Prop :=
  sc_max c = max /\ sc_count c = zlen acc /\ (exists b, sc_inner c = CB b /\ cstate nan b md max acc) /\
  Forall small acc /\ uniform acc /\ zlen acc <= max + 1 /\ Forall (room fuel (max + 1)) acc /\ wrote w ps.

Lemma uniform_nil : uniform [].
Proof. intros ? ? []. Qed.

Lemma sflush md mfs c w ps acc : meta_is md mfs -> (forall start, meta_fits fuel start mfs) -> sinv md mfs c w ps acc ->
  exists w' bb r new, flush_write zip to_json fuel (sc_inner c) w = (w', bb, Ret r) /\
    Forall (fun s : seg => fst (fst s) = mfs) (segs new) /\ wrote w' (ps ++ new) /\
    ((acc = [] /\ bb = false /\ r = None /\ groups new = [] /\ sinv md mfs c w' (ps ++ new) acc) \/
     (acc <> [] /\ bb = true /\ r = None /\ groups new = [acc] /\ sinv md mfs (sc_reset c) w' (ps ++ new) []) \/
     (acc <> [] /\ bb = false /\ r <> None /\ groups new = [] /\ w_plan w0 <> [] /\ sinv md mfs c w' (ps ++ new) acc)).
Proof.
  intros Mi Mf (Em & Ec & (b & Eb & C) & S & U & L & Ro & W).
  destruct (flush_spec b md mfs acc w ps C S U L Ro Mi Mf W) as (w' & bb & r & new & E & W' & Mn & Cs).
  rewrite Eb. exists w', bb, r, new. split; [exact E|]. split; [exact Mn|]. split; [exact W'|].
  destruct Cs as [(Na & -> & -> & -> & ->)|[(Na & -> & -> & Gn)|(Na & -> & Nr & Gn & P0)]].
  - left. do 4 (split; [assumption||reflexivity|]). split; [exact Em|]. split; [exact Ec|]. split; [eauto|]. auto 10.
  - right. left. do 4 (split; [assumption||reflexivity|]). split; [exact Em|]. split; [reflexivity|].
    split; [exists (b_reset b); split; [cbn; now rewrite Eb|]|].
    + destruct C as (C1 & C2 & _). repeat split; auto.
    + repeat (split; [solve [constructor|apply uniform_nil|zlens; lia]|]). exact W'.
  - right. right. do 5 (split; [assumption||reflexivity|]). split; [exact Em|]. split; [exact Ec|]. split; [eauto|]. auto 10.
Qed.

Lemma sadd md mfs c w ps acc now es d : meta_is md mfs -> (forall start, meta_fits fuel start mfs) -> sinv md mfs c w ps acc ->
  sample fuel es d -> room fuel (max + 1) d ->
  exists c' w' r new acc', sc_add nan zip to_json fuel now c w es = (c', w', Ret r) /\ sinv md mfs c' w' (ps ++ new) acc' /\
    Forall (fun s : seg => fst (fst s) = mfs) (segs new) /\
    ((r = None /\ concat (groups new) ++ acc' = acc ++ [d] /\ acc' <> [] /\ (acc' = acc ++ [d] \/ (groups new = [acc] /\ acc' = [d]))) \/
     (r <> None /\ groups new = [] /\ acc' = acc /\ acc <> [] /\ (w_plan w0 = [] -> r = Some e_schema /\ schema d <> schema (last acc [])))).
Proof.
  intros Mi Mf Iv Sa Rd. unfold sc_add. pose proof Iv as (Em & Ec & (b & Eb & C) & S & U & L & Ro & W).
  assert (Add : forall c acc w ps, sinv md mfs c w ps acc -> zlen acc <= max ->
    exists i r, c_add nan fuel now (sc_inner c) es = (i, Ret r) /\
      ((r = None /\ sinv md mfs (MkStr (sc_max c) (sc_count c + 1) i) w ps (acc ++ [d])) \/
       (r = Some e_schema /\ acc <> [] /\ schema d <> schema (last acc []) /\ sinv md mfs (MkStr (sc_max c) (sc_count c) i) w ps acc))).
  { clear -Mx Sa Rd. intros c acc w ps (Em & Ec & (b & Eb & C) & S & U & L & Ro & W) La.
    rewrite Eb. cbn [c_add]. destruct (add_step nan fuel now b md max acc es d C Sa ltac:(lia)) as (b' & E & C').
    rewrite E. exists (CB b'). destruct acc as [|a acc].
    - cbn [s_take err_of] in *. exists None. split; [reflexivity|]. left. split; [reflexivity|].
      split; [exact Em|]. split; [cbn; zlens; zlens_in Ec; lia|]. split; [exists b'; auto|]. cbn [app].
      split; [constructor; [apply Sa|constructor]|]. split; [apply uniform_one|]. split; [zlens; lia|]. split; [constructor; auto|exact W].
    - cbn [s_take] in *. zlens_in La. replace (max <=? zlen acc) with false in * by lia. unfold zs_eqb in *.
      destruct (list_eq_dec Z.eq_dec (schema d) (schema a)) as [Es|Es]; cbn [err_of].
      + exists None. split; [reflexivity|]. left. split; [reflexivity|]. split; [exact Em|]. split; [cbn [sc_count]; rewrite Ec; zlens; lia|].
        split; [exists b'; auto|]. split; [apply Forall_app; split; [exact S|constructor; [apply Sa|constructor]]|].
        split; [apply uniform_snoc; auto|]. split; [zlens; lia|]. split; [apply Forall_app; split; [exact Ro|constructor; auto]|exact W].
      + exists (Some e_schema). split; [reflexivity|]. right. split; [reflexivity|]. split; [discriminate|].
        split; [rewrite uniform_last by (auto; discriminate); exact Es|]. split; [exact Em|]. split; [exact Ec|].
        split; [exists b'; auto|]. auto 10. }
  rewrite Em, Ec. destruct (Z.leb_spec max (zlen acc - 1)) as [Lf|Lf].
  - assert (Na : acc <> []) by (intros ->; zlens_in Lf; lia).
    unfold sc_flush. destruct (sflush md mfs c w ps acc Mi Mf Iv) as (w' & bb & r & new & E & Mn & W' & Cs). rewrite E.
    destruct Cs as [(Q & _)|[(_ & -> & -> & Gn & Iv')|(_ & -> & Nr & Gn & P0 & Iv')]]; [contradiction| |].
    + destruct (Add _ _ _ _ Iv' ltac:(zlens; lia)) as (i & r & Ea & [(-> & Iv2)|(-> & Q & _)]); [|contradiction]. rewrite Ea.
      eexists _, w', None, new, [d]. split; [reflexivity|]. split; [exact Iv2|]. split; [exact Mn|].
      left. split; [reflexivity|]. rewrite Gn. cbn [concat]. rewrite app_nil_r. split; [reflexivity|]. split; [discriminate|auto].
    + destruct r as [e|]; [|contradiction]. exists c, w', (Some e), new, acc. split; [reflexivity|]. split; [exact Iv'|].
      split; [exact Mn|]. right. repeat split; auto; try discriminate; intros; contradiction.
  - destruct (Add _ _ _ _ Iv ltac:(lia)) as (i & r & Ea & [(-> & Iv2)|(-> & Q & Sd & Iv2)]); rewrite Ea, ?app_nil_r.
    + eexists _, w, None, [], (acc ++ [d]). rewrite app_nil_r. split; [reflexivity|].
      split; [rewrite ?Em, ?Ec in *; exact Iv2|]. split; [constructor|]. left. split; [reflexivity|]. split; [reflexivity|].
      split; [intros X; now destruct (app_cons_not_nil _ _ _ (eq_sym X))|auto].
    + eexists _, w, (Some e_schema), [], acc. rewrite app_nil_r. split; [reflexivity|]. split; [rewrite ?Em, ?Ec in *; exact Iv2|].
      split; [constructor|]. right. repeat split; auto; discriminate.
Qed.

Definition room_of (o : option fields) : Prop := match o with Some d => room fuel (max + 1) d | None => True end.

Lemma srun md mfs ops ds : meta_is md mfs -> (forall start, meta_fits fuel start mfs) ->
  Forall2 (sop_is fuel) ops ds -> Forall room_of ds -> forall c w ps acc, sinv md mfs c w ps acc ->
  exists c' w' rs new acc', sc_run nan zip to_json fuel c w ops = (c', w', rs) /\ sinv md mfs c' w' (ps ++ new) acc' /\
    Forall (fun s : seg => fst (fst s) = mfs) (segs new) /\
    concat (groups new) ++ acc' = acc ++ taken ds rs /\ (w_plan w0 = [] -> forall pre, fair (pre ++ acc) ds rs).
Proof.
  intros Mi Mf F. induction F as [|o d ops ds Ho F IH]; intros Ro c w ps acc Iv.
  - exists c, w, [], [], acc. cbn [taken fair sc_run]. rewrite !app_nil_r. split; [reflexivity|]. split; [exact Iv|]. split; [constructor|]. split; [reflexivity|]. auto.
  - inversion_clear Ro as [|? ? Rd Ro']. destruct o as [now es|], d as [d|]; cbn [sop_is] in Ho; try contradiction; cbn [sc_run].
    + destruct (sadd md mfs c w ps acc now es d Mi Mf Iv Ho Rd) as (c1 & w1 & r & n1 & a1 & E1 & I1 & M1 & Cs).
      destruct (IH Ro' c1 w1 _ a1 I1) as (c2 & w2 & rs & n2 & a2 & E2 & I2 & M2 & D2 & A2). rewrite E1, E2.
      exists c2, w2, (Ret r :: rs), (n1 ++ n2), a2. split; [reflexivity|]. rewrite app_assoc. split; [exact I2|].
      rewrite segs_app. split; [apply Forall_app; auto|]. rewrite groups_app, concat_app, <- app_assoc, D2, app_assoc.
      destruct Cs as [(-> & D1 & _)|(Nr & Gn & -> & Na & Fa)].
      * rewrite D1. cbn [taken fair]. split; [now rewrite <- app_assoc|]. intros P0 pre.
        rewrite <- app_assoc, <- D1, app_assoc. now apply A2.
      * rewrite Gn. cbn [concat app]. destruct r as [e|]; [|congruence]. cbn [taken fair]. split; [reflexivity|].
        intros P0 pre. destruct (Fa P0) as [Q1 Q2]. injection Q1 as ->. split; [reflexivity|].
        split; [intros X; apply app_eq_nil in X as [_ X]; contradiction|]. rewrite last_app by assumption. split; [exact Q2|]. now apply A2.
    + unfold sc_flush. destruct (sflush md mfs c w ps acc Mi Mf Iv) as (w1 & bb & r & n1 & E1 & M1 & W1 & Cs). rewrite E1.
      assert (Q : exists c1 a1, (if bb then sc_reset c else c) = c1 /\ sinv md mfs c1 w1 (ps ++ n1) a1 /\ concat (groups n1) ++ a1 = acc /\ (w_plan w0 = [] -> r = None)).
      { destruct Cs as [(Na & -> & -> & Gn & I1)|[(Na & -> & -> & Gn & I1)|(Na & -> & Nr & Gn & P0 & I1)]]; eexists _, _; split; try reflexivity; split; try exact I1;
        rewrite Gn; cbn [concat app]; rewrite ?app_nil_r; split; auto; intros; contradiction. }
      destruct Q as (c1 & a1 & -> & I1 & D1 & Rn).
      destruct (IH Ro' c1 w1 _ a1 I1) as (c2 & w2 & rs & n2 & a2 & E2 & I2 & M2 & D2 & A2). rewrite E2.
      exists c2, w2, (Ret r :: rs), (n1 ++ n2), a2. split; [reflexivity|]. rewrite app_assoc. split; [exact I2|].
      rewrite segs_app. split; [apply Forall_app; auto|]. rewrite groups_app, concat_app, <- app_assoc, D2, app_assoc, D1.
      split; [reflexivity|]. intros P0 pre. rewrite (Rn P0). cbn [fair]. split; [reflexivity|].
      rewrite <- D1, app_assoc. now apply A2.
Qed.

Lemma sinv_start md mfs w : w = w0 -> sinv md mfs (streaming_with max md) w [] [].
Proof.
  intros ->. unfold streaming_with. destruct md as [es|]; (split; [reflexivity|]; split; [reflexivity|]; split; [eexists; split; [reflexivity|repeat split; auto]|]).
  all: repeat (split; [solve [constructor|apply uniform_nil|zlens; lia]|]).
  all: split; [now rewrite app_nil_r|]; repeat (split; [constructor|]); auto.
Qed.

Lemma pieces_out ps : Forall is_seg ps -> concat (map pbytes ps) = concat (map (seg_bytes nan zip) (segs ps)).
Proof. induction 1 as [|[b|s] ps Hp _ IH]; cbn; [reflexivity|contradiction|]. now rewrite IH. Qed.

(* each piece of the output is the rest of a failed write or can be read *)
Definition readable (mfs : option fields) (p : bytes * option (list fields)) : Prop :=
  match snd p with Some g => reads_back nan unzip fuel (fst p) [g] mfs | None => True end.
Lemma good_small gs : Forall good_group gs -> Forall (Forall small) gs.
Proof. apply Forall_impl. unfold good_group. tauto. Qed.
Lemma pieces_read md mfs : meta_is md mfs -> (forall start, meta_fits fuel start mfs) ->
  forall ps, Forall (seg_ok fuel) (segs ps) -> Forall good_group (groups ps) -> Forall (fun s : seg => fst (fst s) = mfs) (segs ps) ->
  exists qs, concat (map pbytes ps) = concat (map fst qs) /\ flat_map (fun q => match snd q with Some g => [g] | None => [] end) qs = groups ps /\
    Forall (readable mfs) qs.
Proof.
  intros Mi Mf. induction ps as [|[b|s] ps IH]; intros Ok Gg Fm.
  - exists []. repeat split; constructor.
  - destruct (IH Ok Gg Fm) as (qs & E & G & R). exists ((b, None) :: qs). cbn. rewrite E. repeat split; auto.
    constructor; [exact I|exact R].
  - inversion_clear Ok as [|? ? Os Ok']. inversion_clear Gg as [|? ? Gs Gg']. inversion_clear Fm as [|? ? Ms Fm'].
    destruct (IH Ok' Gg' Fm') as (qs & E & G & R). exists ((seg_bytes nan zip s, Some (snd s)) :: qs). cbn. rewrite E, G.
    repeat split; auto. constructor; [|exact R]. intros st n D Ee Ln. cbn [fst snd] in *.
    destruct (read_kept nan zip unzip codec fuel mfs [s] st n) as (cs & Rc & H1 & H2); eauto.
    + constructor; [apply Gs|constructor].
    + unfold meta_is in Mi. destruct md, mfs; try contradiction; auto. split; [apply Mi|exact Mf].
    + cbn. rewrite app_nil_r. exact D.
Qed.
End Str.

Definition stream_room (fuel : nat) (max : Z) (ds : list (option fields)) : Prop := Forall (room_of fuel max) ds.

(* C40.  With a writer that takes everything: each Flush succeeds, each Add succeeds or says
   that the schema changed; the chunks written and the samples buffered are the accepted
   samples, in order; chunks have at most max+1 samples; Info counts the buffered ones; and
   reading what was written gives exactly these chunks, with the metadata. *)
Theorem C40_streaming : forall nan zip unzip to_json fuel max md mfs ops ds out c w rs,
  codec_ok zip unzip -> 0 <= max < 4294967296 -> meta_ok fuel md mfs ->
  Forall2 (sop_is fuel) ops ds -> stream_room fuel max ds ->
  sc_run nan zip to_json fuel (streaming_with max md) (MkW out []) ops = (c, w, rs) ->
  fair [] ds rs /\
  exists gs pending new, concat gs ++ pending = taken ds rs /\
    Forall (fun g => 1 <= zlen g <= max + 1) gs /\ Forall uniform gs /\ zlen pending <= max + 1 /\
    c_samples (sc_inner c) = zlen pending /\
    w_out w = out ++ new /\ reads_back nan unzip fuel new gs mfs.
Proof.
  intros nan zip unzip to_json fuel max md mfs ops ds out c w rs Cz Mx Mo F Ro Run. destruct (meta_ok_fits _ _ _ Mo) as [Mi Mf].
  set (w0 := MkW out []) in *.
  destruct (srun nan zip unzip Cz to_json fuel max Mx w0 md mfs ops ds Mi Mf F Ro _ _ [] [] (sinv_start nan zip to_json fuel max Mx w0 md mfs w0 eq_refl))
    as (c' & w' & rs' & ps & acc & E & Iv & Fm & D & A).
  rewrite E in Run. injection Run as -> -> ->. cbn [app] in *. split; [apply (A eq_refl [])|].
  destruct Iv as (Em & Ec & (b & Eb & C) & S & U & L & Rm & Wo & Ws & Wg & Wp).
  exists (groups ps), acc, (concat (map (pbytes nan zip) ps)). split; [exact D|].
  split; [eapply Forall_impl; [|exact Wg]; unfold good_group; tauto|]. split; [eapply Forall_impl; [|exact Wg]; unfold good_group; tauto|].
  split; [exact L|]. split; [rewrite Eb; cbn [c_samples]; apply (cstate_count _ _ _ _ _ C)|]. split; [exact Wo|].
  intros st n Ds Ee Ln. destruct (Wp eq_refl) as [_ Al]. rewrite (pieces_out nan zip ps Al) in Ds.
  destruct (read_kept nan zip unzip Cz fuel mfs (segs ps) st n) as (cs & Rc & H1 & H2); eauto.
  - eapply good_small; eauto.
  - unfold meta_is in Mi. destruct md, mfs; try contradiction; auto. split; [apply Mi|exact Mf].
  - destruct (segs ps) as [|s r]; [exact I|]. inversion_clear Fm as [|? ? Q1 Q2]. split; [exact Q1|]. eapply Forall_impl; [|exact Q2]. auto.
  - unfold groups in Ln. rewrite map_length in Ln. exact Ln.
Qed.
Print Assumptions C40_streaming.

(* C67.  With any writer: the samples whose Add returned nil are the complete chunks in the
   output, in order, and then the buffered ones; a failed flush loses and repeats nothing,
   and only leaves part of a chunk in the output. *)
Theorem C67_writer_errors : forall nan zip unzip to_json fuel max md mfs ops ds w0 c w rs,
  codec_ok zip unzip -> 0 <= max < 4294967296 -> meta_ok fuel md mfs ->
  Forall2 (sop_is fuel) ops ds -> stream_room fuel max ds ->
  sc_run nan zip to_json fuel (streaming_with max md) w0 ops = (c, w, rs) ->
  Forall (fun r => exists e, r = Ret e) rs /\
  exists pieces pending, 
    concat (flat_map (fun q => match snd q with Some g => [g] | None => [] end) pieces) ++ pending = taken ds rs /\
    w_out w = w_out w0 ++ concat (map fst pieces) /\ Forall (readable nan unzip fuel mfs) pieces /\
    c_samples (sc_inner c) = zlen pending.
Proof.
  intros nan zip unzip to_json fuel max md mfs ops ds w0 c w rs Cz Mx Mo F Ro Run. destruct (meta_ok_fits _ _ _ Mo) as [Mi Mf].
  destruct (srun nan zip unzip Cz to_json fuel max Mx w0 md mfs ops ds Mi Mf F Ro _ _ [] [] (sinv_start nan zip to_json fuel max Mx w0 md mfs w0 eq_refl))
    as (c' & w' & rs' & ps & acc & E & Iv & Fm & D & A).
  rewrite E in Run. injection Run as -> -> ->. cbn [app] in *.
  split.
  { clear -Cz Mx Mi Mf F Ro E. assert (I0 := sinv_start nan zip to_json fuel max Mx w0 md mfs w0 eq_refl).
    remember (streaming_with max md) as c0 eqn:H; clear H. remember w0 as w1 eqn:H in E, I0 at 2; clear H.
    remember (@nil fields) as a0 eqn:H; clear H. remember (@nil piece) as p0 eqn:H; clear H.
    revert c0 w1 a0 p0 rs E I0. induction F as [|o d ops ds Ho F IH]; intros c0 w1 a0 p0 rs E I0; cbn [sc_run] in E.
    - injection E as _ _ <-. constructor.
    - inversion_clear Ro as [|? ? Rd Ro']. destruct o as [now es|], d as [d|]; cbn [sop_is] in Ho; try contradiction.
      + destruct (sadd nan zip unzip Cz to_json fuel max Mx w0 md mfs _ _ _ _ now es d Mi Mf I0 Ho Rd) as (c1 & w2 & r & n1 & a1 & E1 & I1 & _).
        rewrite E1 in E. destruct (sc_run nan zip to_json fuel c1 w2 ops) as [[c2 w3] l] eqn:E2. injection E as -> -> <-.
        constructor; [eauto|]. eapply IH; eauto.
      + unfold sc_flush in E. destruct (sflush nan zip unzip Cz to_json fuel max Mx w0 md mfs _ _ _ _ Mi Mf I0) as (w2 & bb & r & n1 & E1 & M1 & W1 & Cs).
        rewrite E1 in E. destruct (sc_run nan zip to_json fuel (if bb then sc_reset c0 else c0) w2 ops) as [[c2 w3] l] eqn:E2. injection E as -> -> <-.
        constructor; [eauto|]. destruct Cs as [(_ & -> & _ & _ & I1)|[(_ & -> & _ & _ & I1)|(_ & -> & _ & _ & _ & I1)]]; eapply IH; eauto. }
  destruct Iv as (Em & Ec & (b & Eb & C) & S & U & L & Rm & Wo & Ws & Wg & Wp).
  destruct (pieces_read nan zip unzip Cz fuel max md mfs Mi Mf ps Ws Wg Fm) as (qs & Q1 & Q2 & Q3).
  exists qs, acc. rewrite Q2, <- Q1. split; [exact D|]. split; [exact Wo|]. split; [exact Q3|].
  rewrite Eb. cbn [c_samples]. apply (cstate_count _ _ _ _ _ C).
Qed.
Print Assumptions C67_writer_errors.

(* ------------------------------------------------------------------------- C66 *)

Section SDyn.
Variable nan : Z -> Z -> Z.
Variables (zip : bytes -> bytes) (unzip : bytes -> option bytes).
Hypothesis codec : codec_ok zip unzip.
Variable to_json : document -> go (bytes + gerr).
Variable fuel : nat.
Variable max : Z.
Hypothesis Mx : 0 <= max < 4294967296.
Variable w0 : writer.
Variable md : option document.
Variable mfs : option fields.
Hypothesis Mi : meta_is md mfs.
Hypothesis Mf : forall start, meta_fits fuel start mfs.

Notation smeta s := (fst (fst (s : seg))).
Definition metas_ok (l : list seg) : Prop :=
  match l with [] => True | s :: r => smeta s = mfs /\ Forall (fun s => smeta s = None \/ smeta s = mfs) r end.
Lemma metas_app a b ms : metas_ok a -> Forall (fun s => smeta s = ms) b -> ms = mfs \/ (ms = None /\ a <> []) -> metas_ok (a ++ b).
Proof.
  intros A B [->|[-> N]].
  - destruct a as [|s a]; cbn [app metas_ok] in *.
    + destruct B as [|s b Hs B]; [exact I|]. split; [exact Hs|]. eapply Forall_impl; [|exact B]. auto.
    + destruct A as [A1 A2]. split; [exact A1|]. apply Forall_app. split; [exact A2|]. eapply Forall_impl; [|exact B]. auto.
  - destruct a as [|s a]; [congruence|]. destruct A as [A1 A2]. split; [exact A1|]. apply Forall_app. split; [exact A2|].
    eapply Forall_impl; [|exact B]. auto.
Qed.

(* the state without the hash *)
Definition dcore (s : streaming) (w : writer) (ps : list piece) (acc : list fields) : Prop :=
  metas_ok (segs ps) /\
  exists m ms, sinv nan zip fuel max w0 m ms s w ps acc /\ ((m = md /\ ms = mfs) \/ (m = None /\ ms = None /\ segs ps <> [])).

Lemma cur_meta m ms (ps : list piece) : ((m = md /\ ms = mfs) \/ (m = None /\ ms = None /\ segs ps <> [])) ->
  meta_is m ms /\ (forall start, meta_fits fuel start ms) /\ (ms = mfs \/ (ms = None /\ segs ps <> [])).
Proof. intros [(-> & ->)|(-> & -> & N)]; cbn; auto. Qed.

Lemma dflush s w ps acc : dcore s w ps acc ->
  exists w' bb r new, flush_write zip to_json fuel (sc_inner s) w = (w', bb, Ret r) /\
    ((acc = [] /\ bb = false /\ r = None /\ groups new = [] /\ dcore s w' (ps ++ new) acc) \/
     (acc <> [] /\ bb = true /\ r = None /\ groups new = [acc] /\ dcore (new_streaming max) w' (ps ++ new) []) \/
     (acc <> [] /\ bb = false /\ r <> None /\ groups new = [] /\ w_plan w0 <> [] /\ dcore s w' (ps ++ new) acc)).
Proof.
  intros (Mo & m & ms & Iv & Cu). destruct (cur_meta m ms ps Cu) as (Mi' & Mf' & Mc).
  destruct (sflush nan zip unzip codec to_json fuel max Mx w0 m ms s w ps acc Mi' Mf' Iv) as (w' & bb & r & new & E & Mn & W' & Cs).
  exists w', bb, r, new. split; [exact E|].
  assert (Mo' : metas_ok (segs (ps ++ new))) by (rewrite segs_app; eapply metas_app; eauto).
  assert (Cu' : (m = md /\ ms = mfs) \/ (m = None /\ ms = None /\ segs (ps ++ new) <> [])).
  { destruct Cu as [Cu|(Q1 & Q2 & Q3)]; [auto|right]. repeat split; auto. rewrite segs_app. intros Q. apply app_eq_nil in Q as [Q _]. contradiction. }
  destruct Cs as [(Na & -> & -> & Gn & I1)|[(Na & -> & -> & Gn & I1)|(Na & -> & Nr & Gn & P0 & I1)]].
  - left. do 4 (split; [assumption||reflexivity|]). split; [exact Mo'|]. eauto.
  - right. left. do 4 (split; [assumption||reflexivity|]). split; [exact Mo'|]. exists None, None. split.
    + split; [reflexivity|]. split; [reflexivity|]. split; [exists (new_base max); split; [reflexivity|repeat split; auto]|].
      repeat (split; [solve [constructor|apply uniform_nil|zlens; lia]|]). exact W'.
    + right. repeat split; auto. rewrite segs_app. intros Q. apply app_eq_nil in Q as [_ Q]. unfold groups in Gn. rewrite Q in Gn. discriminate.
  - right. right. do 5 (split; [assumption||reflexivity|]). split; [exact Mo'|]. eauto.
Qed.

Lemma dadd s w ps acc now es d : dcore s w ps acc -> sample fuel es d -> room fuel (max + 1) d ->
  exists s' w' r new acc', sc_add nan zip to_json fuel now s w es = (s', w', Ret r) /\ dcore s' w' (ps ++ new) acc' /\
    ((r = None /\ concat (groups new) ++ acc' = acc ++ [d] /\ acc' <> [] /\ (acc' = acc ++ [d] /\ groups new = [] \/ (groups new = [acc] /\ acc' = [d]))) \/
     (r <> None /\ groups new = [] /\ acc' = acc /\ acc <> [] /\ (w_plan w0 = [] -> r = Some e_schema /\ schema d <> schema (last acc [])))).
Proof.
  intros (Mo & m & ms & Iv & Cu) Sa Rd. destruct (cur_meta m ms ps Cu) as (Mi' & Mf' & Mc).
  destruct (sadd nan zip unzip codec to_json fuel max Mx w0 m ms s w ps acc now es d Mi' Mf' Iv Sa Rd) as (s' & w' & r & new & acc' & E & I1 & Mn & Cs).
  exists s', w', r, new, acc'. split; [exact E|]. split.
  - split; [rewrite segs_app; eapply metas_app; eauto|]. exists m, ms. split; [exact I1|].
    destruct Cu as [Cu|(Q1 & Q2 & Q3)]; [auto|right]. repeat split; auto. rewrite segs_app. intros Q. apply app_eq_nil in Q as [Q _]. contradiction.
  - destruct Cs as [(-> & D1 & Na & [Q|Q])|Cs]; [left|left|right; exact Cs]; repeat (split; [assumption||reflexivity|]); auto.
    left. split; [exact Q|]. rewrite Q in D1. destruct (groups new) as [|g gs] eqn:Eg; [reflexivity|exfalso].
    assert (Fg : Forall (good_group max) (groups (ps ++ new))) by apply I1. rewrite groups_app, Eg in Fg. apply Forall_app in Fg as [_ Fg].
    apply Forall_inv in Fg. destruct Fg as [Fg _]. apply (f_equal (@length _)) in D1. cbn [concat] in D1. rewrite !app_length in D1. unfold zlen in Fg. lia.
Qed.

Definition keys_ok (c : sdynamic) (acc : list fields) : Prop :=
  samekeys acc /\
  match sd_hash c with
  | None => zlen acc <= 1
  | Some h => acc <> [] /\ Forall (fun a => key_hash a = (h, sd_num c)) acc
  end.
Lemma samekeys_one d : samekeys [d].
Proof. intros a b [<-|[]] [<-|[]]. reflexivity. Qed.

Lemma last_in {A} (l : list A) x : l <> [] -> In (last l x) l.
Proof. induction l as [|a [|b l] IH]; intros H; [congruence|now left|]. right. apply IH. discriminate. Qed.

Lemma sdadd c w ps acc now es d : dcore (sd_str c) w ps acc -> sample fuel es d -> room fuel (max + 1) d ->
  exists c' w' r new acc', sd_add nan zip to_json fuel now c w es = (c', w', Ret r) /\ dcore (sd_str c') w' (ps ++ new) acc' /\
    ((r = None /\ concat (groups new) ++ acc' = acc ++ [d]) \/
     (r <> None /\ concat (groups new) ++ acc' = acc /\ (w_plan w0 = [] -> r = Some e_schema /\ acc <> [] /\ schema d <> schema (last acc [])))) /\
    (w_plan w0 = [] -> keys_ok c acc -> Forall samekeys (groups new) /\ keys_ok c' acc' /\ (r <> None -> key_hash d = key_hash (last acc []))).
Proof.
  intros Dc Sa Rd. unfold sd_add. rewrite (sample_obs _ _ _ Sa), key_hash_swap.
  destruct (key_hash d) as [h n] eqn:Eh.
  assert (Cnt : sc_count (sd_str c) = zlen acc) by (destruct Dc as (_ & m & ms & (_ & Q & _) & _); exact Q).
  assert (Smax : sc_max (sd_str c) = max) by (destruct Dc as (_ & m & ms & (Q & _) & _); exact Q).
  (* after no flush *)
  assert (NoFlush : forall c1, sd_str c1 = sd_str c ->
    (w_plan w0 = [] -> keys_ok c acc -> sd_hash c1 = Some h /\ sd_num c1 = n /\ Forall (fun a => key_hash a = (h, n)) acc) ->
    exists c' w' r new acc',
      (let '(s, w, r) := sc_add nan zip to_json fuel now (sd_str c1) w es in (MkSD (sd_hash c1) (sd_num c1) s, w, r)) = (c', w', Ret r) /\
      dcore (sd_str c') w' (ps ++ new) acc' /\
      ((r = None /\ concat (groups new) ++ acc' = acc ++ [d]) \/
       (r <> None /\ concat (groups new) ++ acc' = acc /\ (w_plan w0 = [] -> r = Some e_schema /\ acc <> [] /\ schema d <> schema (last acc [])))) /\
      (w_plan w0 = [] -> keys_ok c acc -> Forall samekeys (groups new) /\ keys_ok c' acc' /\ (r <> None -> (h, n) = key_hash (last acc [])))).
  { intros c1 E1 Hk. rewrite E1. destruct (dadd (sd_str c) w ps acc now es d Dc Sa Rd) as (s' & w' & r & new & acc' & E & D1 & Cs).
    rewrite E. exists (MkSD (sd_hash c1) (sd_num c1) s'), w', r, new, acc'. split; [reflexivity|]. split; [exact D1|].
    split.
    - destruct Cs as [(-> & D2 & _)|(Nr & Gn & -> & Na & Cs)]; [left; auto|right]. rewrite Gn. split; [exact Nr|]. split; [reflexivity|]. intros P0. destruct (Cs P0). auto.
    - intros P0 Kk. destruct (Hk P0 Kk) as (H1 & H2 & H3). unfold keys_ok. cbn [sd_hash sd_num]. rewrite H1, H2.
      assert (H4 : Forall (fun a => key_hash a = (h, n)) [d]) by (constructor; auto).
      assert (Sk : forall l, Forall (fun a => key_hash a = (h, n)) l -> samekeys l).
      { intros l Hl a b Ha Hb. rewrite Forall_forall in Hl. now rewrite (Hl a Ha), (Hl b Hb). }
      destruct Cs as [(-> & D2 & Na & [(-> & Gn)|(Gn & ->)])|(Nr & Gn & -> & Na & Cs)]; rewrite Gn.
      + split; [constructor|]. assert (Q : Forall (fun a => key_hash a = (h, n)) (acc ++ [d])) by (apply Forall_app; auto). split; [auto|congruence].
      + split; [constructor; [now apply Sk|constructor]|]. split; [|congruence]. split; [now apply Sk|]. split; [discriminate|exact H4].
      + split; [constructor|]. split; [auto|]. intros _. symmetry. rewrite Forall_forall in H3. apply H3. now apply last_in. }
  (* after a flush *)
  assert (Flush : forall c1, sd_str c1 = sd_str c -> (w_plan w0 = [] -> keys_ok c acc -> acc <> []) ->
    exists c' w' r new acc',
      (let '(c2, w2, r) := sd_flush zip to_json fuel c1 w in
       match r with
       | Ret None => let '(s, w, r) := sc_add nan zip to_json fuel now (sd_str c2) w2 es in (MkSD (sd_hash c2) (sd_num c2) s, w, r)
       | r => (c2, w2, r)
       end) = (c', w', Ret r) /\
      dcore (sd_str c') w' (ps ++ new) acc' /\
      ((r = None /\ concat (groups new) ++ acc' = acc ++ [d]) \/
       (r <> None /\ concat (groups new) ++ acc' = acc /\ (w_plan w0 = [] -> r = Some e_schema /\ acc <> [] /\ schema d <> schema (last acc [])))) /\
      (w_plan w0 = [] -> keys_ok c acc -> Forall samekeys (groups new) /\ keys_ok c' acc' /\ (r <> None -> (h, n) = key_hash (last acc [])))).
  { intros c1 E1 Hk. unfold sd_flush. rewrite E1. destruct (dflush (sd_str c) w ps acc Dc) as (w1 & bb & r & n1 & E & Cs). rewrite E.
    destruct Cs as [(Na & -> & -> & Gn & D1)|[(Na & -> & -> & Gn & D1)|(Na & -> & Nr & Gn & P0 & D1)]].
    - rewrite E1. destruct (dadd (sd_str c) w1 _ acc now es d D1 Sa Rd) as (s' & w2 & r & n2 & acc' & E2 & D2 & C2). rewrite E2.
      exists (MkSD (sd_hash c1) (sd_num c1) s'), w2, r, (n1 ++ n2), acc'. split; [reflexivity|]. rewrite app_assoc. split; [exact D2|].
      rewrite groups_app, Gn. cbn [app]. split.
      + destruct C2 as [(-> & C2 & _)|(Nr & Gn2 & -> & Na2 & C2)]; [left; auto|contradiction].
      + intros P0 Kk. specialize (Hk P0 Kk). contradiction.
    - unfold sd_reset, new_sdynamic. cbn [sd_str sd_hash sd_num]. rewrite E1, Smax.
      destruct (dadd _ w1 _ [] now es d D1 Sa Rd) as (s' & w2 & r & n2 & acc' & E2 & D2 & C2). rewrite E2.
      exists (MkSD None 0 s'), w2, r, (n1 ++ n2), acc'. split; [reflexivity|]. rewrite app_assoc. split; [exact D2|].
      destruct C2 as [(-> & C2 & C3 & C4)|(_ & _ & _ & Q & _)]; [|congruence].
      assert (Q : acc' = [d] /\ groups n2 = []).
      { destruct C4 as [[-> C4]|[C4 ->]]; [auto|]. rewrite C4 in C2. cbn in C2. split; [reflexivity|].
        exfalso. assert (Fg : Forall (good_group max) (groups ((ps ++ n1) ++ n2))) by (destruct D2 as (_ & ? & ? & I2 & _); apply I2).
        rewrite groups_app, C4 in Fg. apply Forall_app in Fg as [_ Fg]. apply Forall_inv in Fg. destruct Fg as [Fg _]. zlens_in Fg. lia. }
      destruct Q as [-> Gn2]. rewrite groups_app, Gn, Gn2. cbn [concat app]. rewrite ?app_nil_r. split; [left; auto|].
      intros P0 (Sk & _). split; [constructor; [exact Sk|constructor]|]. split; [|congruence]. split; [apply samekeys_one|]. cbn. zlens. lia.
    - destruct r as [e|]; [|contradiction]. exists c1, w1, (Some e), n1, acc. split; [reflexivity|]. rewrite E1. split; [exact D1|].
      rewrite Gn. split; [right|intros; contradiction]. repeat split; auto; intros; contradiction. }
  destruct (sd_hash c) as [h'|] eqn:Hc.
  - destruct (Z.eqb_spec (sd_num c) n) as [En|En]; [destruct (Z.eqb_spec h' h) as [E2|E2]|]; cbn [negb orb].
    + apply NoFlush; [reflexivity|]. intros P0 (_ & Kk). rewrite Hc in *. subst. tauto.
    + apply Flush; [reflexivity|]. intros P0 (_ & Kk). rewrite Hc in *. tauto.
    + apply Flush; [reflexivity|]. intros P0 (_ & Kk). rewrite Hc in *. tauto.
  - cbn [sd_str]. rewrite Cnt. destruct (Z.ltb_spec 0 (zlen acc)) as [L|L].
    + apply Flush; [reflexivity|]. intros _ _ ->. zlens_in L. lia.
    + apply (NoFlush (MkSD (Some h) n (sd_str c))); [reflexivity|]. intros P0 _. cbn. repeat split.
      destruct acc; [constructor|]. zlens_in L. pose proof (zlen_nonneg acc). lia.
Qed.

Lemma sdrun ops ds : Forall2 (sop_is fuel) ops ds -> Forall (room_of fuel max) ds -> forall c w ps acc, dcore (sd_str c) w ps acc ->
  exists c' w' rs new acc', sd_run nan zip to_json fuel c w ops = (c', w', rs) /\ dcore (sd_str c') w' (ps ++ new) acc' /\
    concat (groups new) ++ acc' = acc ++ taken ds rs /\ (w_plan w0 = [] -> forall pre, fair (pre ++ acc) ds rs) /\
    (w_plan w0 = [] -> keys_ok c acc -> Forall samekeys (groups new) /\ keys_ok c' acc' /\ forall pre, clash (pre ++ acc) ds rs).
Proof.
  intros F. induction F as [|o d ops ds Ho F IH]; intros Ro c w ps acc Iv.
  - exists c, w, [], [], acc. cbn [taken fair sd_run]. rewrite !app_nil_r. split; [reflexivity|]. split; [exact Iv|]. split; [reflexivity|].
    split; [auto|]. intros _ Kk. split; [constructor|]. split; [exact Kk|]. intros pre. exact I.
  - inversion_clear Ro as [|? ? Rd Ro']. destruct o as [now es|], d as [d|]; cbn [sop_is] in Ho; try contradiction; cbn [sd_run].
    + destruct (sdadd c w ps acc now es d Iv Ho Rd) as (c1 & w1 & r & n1 & a1 & E1 & I1 & Cs & K1).
      destruct (IH Ro' c1 w1 _ a1 I1) as (c2 & w2 & rs & n2 & a2 & E2 & I2 & D2 & A2 & K2). rewrite E1, E2.
      exists c2, w2, (Ret r :: rs), (n1 ++ n2), a2. split; [reflexivity|]. rewrite app_assoc. split; [exact I2|].
      rewrite groups_app, concat_app, <- app_assoc, D2, app_assoc. split; [|split].
      * destruct Cs as [(-> & ->)|(Nr & -> & _)]; [cbn [taken]; now rewrite <- app_assoc|]. destruct r; [reflexivity|congruence].
      * intros P0 pre. destruct Cs as [(-> & D1)|(Nr & D1 & Cs)].
        -- cbn [fair]. rewrite <- app_assoc, <- D1, app_assoc. now apply A2.
        -- destruct (Cs P0) as (-> & Na & Sd). cbn [fair]. split; [reflexivity|].
           split; [intros X; apply app_eq_nil in X as [_ X]; contradiction|]. rewrite last_app by assumption. split; [exact Sd|].
           rewrite <- D1, app_assoc. now apply A2.
      * intros P0 Kk. destruct (K1 P0 Kk) as (K3 & K4 & Kc). destruct (K2 P0 K4) as (K5 & K6 & K7). split; [apply Forall_app; auto|]. split; [exact K6|]. intros pre.
        destruct Cs as [(-> & D1)|(Nr & D1 & Cs)].
        -- cbn [clash]. rewrite <- app_assoc, <- D1, app_assoc. apply K7.
        -- destruct (Cs P0) as (-> & Na & Sd). cbn [clash]. rewrite last_app by assumption. split; [now apply Kc|]. rewrite <- D1, app_assoc. apply K7.
    + unfold sd_flush. destruct (dflush (sd_str c) w ps acc Iv) as (w1 & bb & r & n1 & E1 & Cs). rewrite E1.
      assert (Smax : sc_max (sd_str c) = max) by (destruct Iv as (_ & m & ms & (Q & _) & _); exact Q).
      assert (Q : exists c1 a1, (if bb then sd_reset c else c) = c1 /\ dcore (sd_str c1) w1 (ps ++ n1) a1 /\ concat (groups n1) ++ a1 = acc /\ (w_plan w0 = [] -> r = None) /\
        (w_plan w0 = [] -> keys_ok c acc -> Forall samekeys (groups n1) /\ keys_ok c1 a1)).
      { destruct Cs as [(Na & -> & -> & Gn & I1)|[(Na & -> & -> & Gn & I1)|(Na & -> & Nr & Gn & P0 & I1)]].
        - exists c, acc. rewrite Gn. do 4 (split; [auto; intros; contradiction|]). intros _ Kk. split; [constructor|exact Kk].
        - exists (sd_reset c), []. rewrite Gn. cbn [concat]. rewrite !app_nil_r. unfold sd_reset. rewrite Smax. do 4 (split; [auto; intros; contradiction|]).
          intros _ (Kk & _). split; [constructor; [exact Kk|constructor]|]. split; [intros ? ? []|]. cbn. zlens. lia.
        - exists c, acc. rewrite Gn. do 4 (split; [auto; intros; contradiction|]); intros; contradiction. }
      destruct Q as (c1 & a1 & -> & I1 & D1 & Rn & K1).
      destruct (IH Ro' c1 w1 _ a1 I1) as (c2 & w2 & rs & n2 & a2 & E2 & I2 & D2 & A2 & K2). rewrite E2.
      exists c2, w2, (Ret r :: rs), (n1 ++ n2), a2. split; [reflexivity|]. rewrite app_assoc. split; [exact I2|].
      rewrite groups_app, concat_app, <- app_assoc, D2, app_assoc, D1. split; [reflexivity|]. split.
      * intros P0 pre. rewrite (Rn P0). cbn [fair]. split; [reflexivity|]. rewrite <- D1, app_assoc. now apply A2.
      * intros P0 Kk. destruct (K1 P0 Kk) as [K3 K4]. destruct (K2 P0 K4) as (K5 & K6 & K7). split; [apply Forall_app; auto|]. split; [exact K6|].
        intros pre. cbn [clash]. rewrite <- D1, app_assoc. apply K7.
Qed.
End SDyn.

(* C66.  As C40, samples in one chunk have keys with the same hash, and a sample is refused
   only if its keys have the hash of the last one's and its types differ.  Missing:
   consecutive samples of the same schema need not share a chunk, see C66_refuted. *)
Theorem C66_streaming_dynamic_partial : forall nan zip unzip to_json fuel max md mfs ops ds out c w rs,
  codec_ok zip unzip -> 0 <= max < 4294967296 -> meta_ok fuel md mfs ->
  Forall2 (sop_is fuel) ops ds -> stream_room fuel max ds ->
  sd_run nan zip to_json fuel (sdynamic_with max md) (MkW out []) ops = (c, w, rs) ->
  fair [] ds rs /\ clash [] ds rs /\
  exists gs pending new, concat gs ++ pending = taken ds rs /\
    Forall (fun g => 1 <= zlen g <= max + 1) gs /\ Forall uniform gs /\ Forall samekeys gs /\ samekeys pending /\
    c_samples (sc_inner (sd_str c)) = zlen pending /\
    w_out w = out ++ new /\ reads_back nan unzip fuel new gs mfs.
Proof.
  intros nan zip unzip to_json fuel max md mfs ops ds out c w rs Cz Mx Mo F Ro Run. destruct (meta_ok_fits _ _ _ Mo) as [Mi Mf].
  set (w0 := MkW out []) in *.
  assert (D0 : dcore nan zip fuel max w0 md mfs (sd_str (sdynamic_with max md)) w0 [] []).
  { split; [exact I|]. exists md, mfs. split; [apply (sinv_start nan zip to_json fuel max Mx w0 md mfs w0 eq_refl)|auto]. }
  destruct (sdrun nan zip unzip Cz to_json fuel max Mx w0 md mfs Mi Mf ops ds F Ro _ _ [] [] D0) as (c' & w' & rs' & ps & acc & E & Iv & D & A & Kk).
  rewrite E in Run. injection Run as -> -> ->. cbn [app] in *. split; [apply (A eq_refl [])|].
  destruct Iv as (Mk & m & ms & (Em & Ec & (b & Eb & C) & S & U & L & Rm & Wo & Ws & Wg & Wp) & _).
  destruct (Kk eq_refl) as (K1 & [K2 _] & K3); [split; [intros ? ? []|cbn; zlens; lia]|]. split; [apply (K3 [])|].
  exists (groups ps), acc, (concat (map (pbytes nan zip) ps)). split; [exact D|].
  split; [eapply Forall_impl; [|exact Wg]; unfold good_group; tauto|]. split; [eapply Forall_impl; [|exact Wg]; unfold good_group; tauto|].
  split; [exact K1|]. split; [exact K2|]. split; [rewrite Eb; cbn [c_samples]; apply (cstate_count _ _ _ _ _ C)|]. split; [exact Wo|].
  intros st n Ds Ee Ln. destruct (Wp eq_refl) as [_ Al]. rewrite (pieces_out nan zip ps Al) in Ds.
  destruct (read_kept nan zip unzip Cz fuel mfs (segs ps) st n) as (cs & Rc & H1 & H2); eauto.
  - eapply good_small; eauto.
  - unfold meta_is in Mi. destruct md, mfs; try contradiction; auto. split; [apply Mi|exact Mf].
  - unfold groups in Ln. rewrite map_length in Ln. exact Ln.
Qed.
Print Assumptions C66_streaming_dynamic_partial.

(* The claim is false: after the first change of keys the hash is not kept, and every sample
   is written alone.  Here five deltas fit in a chunk and the last two samples are the same,
   but only one is buffered.  Samples with the same keys and other types are refused. *)
Definition no_nan (_ _ : Z) : Z := 0.
Definition keep (b : bytes) : bytes := b.
Definition unkeep (b : bytes) : option bytes := Some b.
Definition no_json (_ : document) : go (bytes + gerr) := Ret (inr e_format).
Definition adds (dfs : list fields) : list sop :=
  match mapM build_doc dfs with Ret docs => map (OAdd 0) docs | _ => [] end.
Definition doc_at : fields := [(k_a, BBool true)].
Lemma keep_ok : codec_ok keep unkeep.
Proof. intros b B. unfold unkeep, keep. pose proof (zlen_nonneg b). repeat split; auto. lia. Qed.
Theorem C66_refuted :
  codec_ok keep unkeep /\
  (let '(c, _, rs) := sd_run no_nan keep no_json 3000 (new_sdynamic 5) (MkW [] []) (adds [doc_a; doc_b; doc_b]) in
   rs = [Ret None; Ret None; Ret None] /\ c_samples (sc_inner (sd_str c)) = 1) /\
  (let '(c, _, rs) := sd_run no_nan keep no_json 3000 (new_sdynamic 5) (MkW [] []) (adds [doc_a; doc_at]) in
   rs = [Ret None; Ret (Some e_schema)]).
Proof. split; [exact keep_ok|]. split; vm_compute; auto. Qed.
Print Assumptions C66_refuted.

(* A case for C40, C66 and C67: three samples and two flushes, with a writer that fails once. *)
Example C40_nonvacuous :
  let ds := [Some (one (BInt64 1)); Some (one (BInt64 2)); None; Some (one (BInt64 3))] in
  exists ops, Forall2 (sop_is 3000) ops ds /\ stream_room 3000 1 ds.
Proof.
  set (dfs := [one (BInt64 1); one (BInt64 2); one (BInt64 3)]).
  assert (T : Forall (fun d => short d /\ zlen (doc_leaves d) = 1) dfs).
  { repeat (apply Forall_cons; [split; [split; [repeat constructor; try (vm_compute; intuition congruence)|vm_compute; reflexivity]|vm_compute; reflexivity]|]). apply Forall_nil. }
  destruct (short_samples dfs) as (docs & _ & B); [eapply Forall_impl; [|exact T]; cbn; tauto|].
  unfold dfs in B. destruct docs as [|d1 [|d2 [|d3 [|? ?]]]]; cbn [at0 map] in B;
    try (repeat match goal with H : Forall2 _ _ _ |- _ => inversion_clear H end; fail).
  repeat match goal with H : Forall2 _ (_ :: _) (_ :: _) |- _ => inversion_clear H end. cbn [snd] in *.
  exists [OAdd 0 d1; OAdd 0 d2; OFlush; OAdd 0 d3]. split; [repeat (apply Forall2_cons; [exact I || assumption|]); apply Forall2_nil|].
  assert (Q : forall d, In d dfs -> room 3000 (1 + 1) d).
  { rewrite Forall_forall in T. intros d Hd. destruct (T d Hd) as [[_ L] E]. unfold room, chunk_room, enough. rewrite E. lia. }
  repeat (apply Forall_cons; [exact I || (apply Q; cbn; auto)|]). apply Forall_nil.
Qed.
