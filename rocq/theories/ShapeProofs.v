(** Proofs for C69. *)
From Coq Require Import ZArith Bool String Lia.
From stdpp Require Import base list option strings.
From Verif Require Import Per PerSpec Base SyncModel SyncSpec SyncFacts SyncMore SyncKeys Num Agg AggSpec AggProofs Attr AttrSpec AttrProofs AggSync AggProps View Data Flow FlowSpec
  FlowProofs FlowProps Exp ExpSpec ExpProofs ExpProps Sent SentSpec SentProofs ShapeSpec.
Local Open Scope Z_scope.

Section shape.
Context (farm : string -> Z) (kinds : nat -> agg_kind) (keys : nat -> option (list string)) (views : list SyncModel.view).
Context (insts : list (list nat)) (periods ilimit : Z) (ignore : bool).
Notation c := (int_config farm kinds keys views insts periods ilimit ignore).
Context (desc : nat -> descriptor) (mono : nat -> bool) (lib : scope) (res : string).
Notation data_of := (data_of farm kinds keys views insts periods ilimit ignore desc mono lib res).
Notation data_instr := (data_instr farm kinds keys views insts periods ilimit ignore desc mono).
Notation data_point := (data_point farm kinds keys views insts periods ilimit ignore mono).
Notation fam_of := (fam_of kinds mono).
Context (H : hlib) (rs : string -> list kv).

(** The points of a metric, one by one. *)
Definition same_point (v : nat) (sq : sequence) (p : SyncModel.point c) (q : list (string * pvalue) * Z * Z) : Prop :=
  attrs_say (p_key p) q.1.1 /\ right_times (kinds v) (vdelta c v) sq q.
Lemma points_say v sq (l : list (SyncModel.point c)) d : l <> [] -> data_says H true (fam_of v) (map (data_point v sq) l) d ->
  right_type (kinds v) (mono v) (vdelta c v) d /\ Forall2 (same_point v sq) l (points_of d).
Proof.
  intros NE. unfold SentProofs.fam_of, data_says, right_type, same_point, right_times. change (map ?f ?l) with (f <$> l).
  assert (TT : forall t p, tempo_says (pt_tempo (data_point v sq p)) t -> t = if vdelta c v then PDelta else PCumulative).
  { intros t p. cbn. by destruct (vdelta c v), t. }
  destruct (kinds v) eqn:K; rewrite ?K.
  - intros (t & q & -> & F). rewrite Forall2_fmap_l in F. split.
    + split; [done|]. destruct F as [|p y ? ? S F]; [done|]. destruct S as (_ & _ & _ & T & _). by eapply TT.
    + cbn [points_of]. change (map ?f ?l) with (f <$> l). rewrite Forall2_fmap_r. eapply Forall2_impl; [exact F|]. intros p y (A & B & C & _). cbn in *. by rewrite B, C.
  - intros (q & -> & F). rewrite Forall2_fmap_l in F. split; [done|]. cbn [points_of]. change (map ?f ?l) with (f <$> l). rewrite Forall2_fmap_r.
    eapply Forall2_impl; [exact F|]. intros p y (A & B & C & _). cbn in *. by rewrite B, C.
  - intros (t & q & -> & F). rewrite Forall2_fmap_l in F. split.
    + destruct F as [|p y ? ? S F]; [done|]. destruct S as ((_ & _ & _ & T) & _). by eapply TT.
    + cbn [points_of]. change (map ?f ?l) with (f <$> l). rewrite Forall2_fmap_r. eapply Forall2_impl; [exact F|]. intros p y ((A & B & C & _) & _). cbn in *. by rewrite B, C.
Qed.
(** The points of a collection on a stream. *)
Definition on_stream (s : SyncModel.state c) (k v : nat) : list (SyncModel.point c) :=
  List.filter (fun p : SyncModel.point c => Nat.eqb (p_tid p) k && Nat.eqb (p_view p) v) (s_out s).
Definition metric_for (s : SyncModel.state c) (k : nat) (sq : sequence) (v : nat) (m : pmetric) : Prop :=
  pm_name m = i_name (desc v) /\ pm_unit m = i_unit (desc v) /\ pm_desc m = i_desc (desc v) /\ on_stream s k v <> [] /\
  right_type (kinds v) (mono v) (vdelta c v) (pm_data m) /\ Forall2 (same_point v sq) (on_stream s k v) (points_of (pm_data m)).
Definition nonempty (s : SyncModel.state c) (k v : nat) : bool := match on_stream s k v with [] => false | _ => true end.
Lemma metrics_say s k sq vs ms : Forall2 (metric_says H true) (List.filter has_points (map (data_instr s k sq) vs)) ms ->
  Forall2 (metric_for s k sq) (List.filter (nonempty s k) vs) ms.
Proof.
  revert ms. induction vs as [|v vs IH]; intros ms F; [inversion F; constructor|]. cbn [map List.filter] in *. unfold has_points at 1 in F. cbn [Sent.data_instr in_points vis] in F.
  unfold nonempty at 1. unfold on_stream at 1. destruct (List.filter (fun p : SyncModel.point c => Nat.eqb (p_tid p) k && Nat.eqb (p_view p) v) (s_out s)) as [|p0 l0] eqn:L.
  - by apply IH.
  - cbn [map] in F. inversion F as [|? m ? ms' (M1 & M1' & M1'' & f & M2 & M3) F' E1]; subst. constructor; [|by apply IH].
    assert (f = fam_of v) as ->.
    { specialize (M2 (data_point v sq p0)). cbn [Sent.data_instr in_points vis] in M2. rewrite L in M2. specialize (M2 ltac:(left)). cbn in M2. injection M2 as <-. apply dyn_of. }
    assert (NE : on_stream s k v <> []) by (unfold on_stream; by rewrite L).
    unfold metric_for. split; [done|]. split; [done|]. split; [done|]. split; [done|]. by apply points_say.
Qed.
Lemma scopes_say s k sq ans rd o : export_says H rs true (data_of rd s k sq, ans) o ->
  resource_says (rs res) (px_resource o.1.1) /\ o.2 = ans o.1.1 /\ (exists t, o.1.2 = [t] /\ telemetry_says "num_points" (points_given (data_of rd s k sq)) o.2 t) /\
  exists q, px_scopes o.1.1 = [q] /\ ps_name q = sc_name lib /\ ps_version q = sc_version lib /\ ps_schema q = sc_schema lib /\
    Forall2 (metric_for s k sq) (List.filter (nonempty s k) (views_of c rd)) (ps_metrics q).
Proof.
  destruct o as [[x ts] e]. intros (R & F & E & T). cbn [fst snd]. split; [done|]. split; [done|]. split; [done|].
  cbn [Sent.data_of mt_scopes vis] in F. inversion F as [|? q ? qs (S1 & S2 & S3 & M) F' E1 E2]; subst. inversion F'; subst. exists q.
  split; [done|]. split; [done|]. split; [done|]. split; [done|]. by apply metrics_say.
Qed.
Lemma points_counted s k sq rd ms : Forall2 (metric_for s k sq) (List.filter (nonempty s k) (views_of c rd)) ms ->
  points_given (data_of rd s k sq) = length (flat_map (fun m => points_of (pm_data m)) ms).
Proof.
  unfold points_given. cbn [Sent.data_of mt_scopes vis map foldr os_insts]. rewrite Nat.add_0_r. revert ms.
  induction (views_of c rd) as [|v vs IH]; intros ms F; [by inversion F|]. cbn [map foldr]. cbn [List.filter] in F. unfold nonempty at 1 in F.
  cbn [Sent.data_instr in_points vis]. rewrite map_length. change (List.filter _ (s_out s)) with (on_stream s k v).
  destruct (on_stream s k v) as [|p0 l0] eqn:L; [by apply IH|]. inversion F as [|? m ? ms' (_ & _ & _ & _ & _ & P) F' E1]; subst. cbn [flat_map].
  rewrite app_length, <- (IH _ F'). f_equal. rewrite <- L. by eapply Forall2_length.
Qed.
(** A series has at most one point in a request. *)
Lemma one_point (ls : list (label c)) s k sq rd ms name ky : run (init c) ls = Some s -> no_empty_slices ky ->
  (forall v v', read_by c rd v -> read_by c rd v' -> i_name (desc v) = i_name (desc v') -> v = v') ->
  Forall2 (metric_for s k sq) (List.filter (nonempty s k) (views_of c rd)) ms ->
  forall i j a b m m' p p', ms !! i = Some m -> ms !! j = Some m' -> pm_name m = name -> pm_name m' = name ->
  points_of (pm_data m) !! a = Some p -> points_of (pm_data m') !! b = Some p' -> attrs_say ky p.1.1 -> attrs_say ky p'.1.1 -> i = j /\ a = b.
Proof.
  intros R NE DN F i j a b m m' p p' Hi Hj N1 N2 Ha Hb A1 A2.
  destruct (Forall2_lookup_r _ _ _ _ _ F Hi) as (v & Vi & (X1 & _ & _ & _ & _ & P1)). destruct (Forall2_lookup_r _ _ _ _ _ F Hj) as (v' & Vj & (X2 & _ & _ & _ & _ & P2)).
  assert (ND : NoDup (List.filter (nonempty s k) (views_of c rd))) by (apply NoDup_ListNoDup, List.NoDup_filter, List.NoDup_filter, seq_NoDup).
  assert (RB : forall i v, List.filter (nonempty s k) (views_of c rd) !! i = Some v -> read_by c rd v).
  { intros i' w E. apply elem_of_list_lookup_2, elem_of_list_In, filter_In in E as [E _]. apply views_read. by apply elem_of_list_In. }
  assert (v = v') as <- by (apply DN; [by eapply RB|by eapply RB|congruence]).
  assert (i = j) as <- by (by eapply NoDup_lookup). rewrite Hi in Hj. injection Hj as <-. split; [done|].
  destruct (Forall2_lookup_r _ _ _ _ _ P1 Ha) as (u & Ua & (S1 & _)). destruct (Forall2_lookup_r _ _ _ _ _ P2 Hb) as (u' & Ub & (S2 & _)).
  pose proof (attrs_say_inj _ _ _ NE A1 S1) as E1. pose proof (attrs_say_inj _ _ _ NE A2 S2) as E2.
  pose proof (out_unique _ _ R) as OU.
  assert (G : forall (g : SyncModel.point c -> bool) (l : list (SyncModel.point c)), NoDup (map (fun p : SyncModel.point c => (p_tid p, p_view p, p_key p)) l) ->
    NoDup (map (fun p : SyncModel.point c => (p_tid p, p_view p, p_key p)) (List.filter g l))).
  { clear. intros g l. induction l as [|x l IH]; [done|]. cbn [map List.filter]. intros N. apply list.NoDup_cons in N as [N1 N2]. destruct (g x); [|by apply IH].
    cbn [map]. constructor; [|by apply IH]. intros X. apply N1. change (map ?f ?l) with (f <$> l) in *. apply elem_of_list_fmap in X as (y & E & Hy).
    apply elem_of_list_fmap. exists y. split; [done|]. by apply elem_of_list_In, filter_In in Hy as [Hy%elem_of_list_In _]. }
  eapply NoDup_lookup; [exact (G (fun p : SyncModel.point c => Nat.eqb (p_tid p) k && Nat.eqb (p_view p) v) _ OU)| |]; change (map ?f ?l) with (f <$> l).
  - rewrite list_lookup_fmap. change (List.filter _ (s_out s)) with (on_stream s k v). rewrite Ua. cbn. reflexivity.
  - rewrite list_lookup_fmap. change (List.filter _ (s_out s)) with (on_stream s k v). rewrite Ub. cbn. f_equal.
    assert (M : forall a u, on_stream s k v !! a = Some u -> p_tid u = k /\ p_view u = v).
    { intros a' w E. apply elem_of_list_lookup_2, elem_of_list_In, filter_In in E as [_ E]. apply andb_true_iff in E as [E3 E4]. by apply Nat.eqb_eq in E3, E4. }
    destruct (M _ _ Ua) as [-> ->], (M _ _ Ub) as [-> ->]. f_equal. congruence.
Qed.
End shape.
