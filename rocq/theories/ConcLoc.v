(** Conc: one collection of the reader of a view, from its beginning until it has collected that view. *)
From Coq Require Import ZArith Bool String Lia.
From stdpp Require Import base list option strings.
From Verif Require Import Num Agg AggSpec Attr Async AsyncSpec AsyncProofs Conc ConcSpec ConcProofs ConcStep ConcInv ConcCells ConcSnap ConcIn.

Section conc.
Context {N : arith} (c : acfg) (vr : nat -> nat) (decl : list (list nat)).
Implicit Types (s : cst N) (k : coll N) (x : thr N) (y : vw N) (es : list (ent N)).
Notation threads := (nat -> option (thr N)).
Notation runs := (nat -> option bool).
Context (v : nat) (w : aview) (sd : sound c) (Hw : a_views c !! v = Some w) (Hlim : (1 <= av_limit w)%nat).

Definition finished k : Prop := match k_phase k with KDone => True | KColl todo => v ∉ todo | _ => False end.
Global Instance finished_dec k : Decision (finished k).
Proof. unfold finished. destruct (k_phase k); apply _. Defined.
Definition busy k (th : threads) y : Prop :=
  match k_phase k with
  | KRun _ _ => placed w (map fst (trip v w k th)) y /\ zerod y
  | _ => exists D, snapinv v w k y D
  end.
Record loc (cl : Prop) (pr : list (list kv * N)) k (th : threads) y (L : list nat) (d : list (list kv * N)) : Prop := {
  o_lin : lin c vr v k th L;
  o_fin : finished k -> cl -> reports k v = [(collect_view w (VSt d pr)).1] /\ totals_of w d (inputs c v w (obsl th L));
  o_un : ~ finished k -> cl -> reports k v = [] /\ cok y /\ (stateful w = true -> values y (w_prior y) = pr) /\ busy k th y;
  o_nd : forall todo, k_phase k = KColl todo -> NoDup todo
}.

Lemma part_ext k (th th' : threads) : (forall t, th' t = th t) -> part v w k th' = part v w k th.
Proof. intros E. unfold part. destruct (k_lock k); try done. by rewrite E. Qed.
Lemma loc_ext cl pr k (th th' : threads) y L d : (forall t, th' t = th t) -> loc cl pr k th y L d -> loc cl pr k th' y L d.
Proof.
  intros E [A B C D]. split; auto.
  - by eapply lin_ext.
  - by rewrite (obsl_th th th' L E).
  - intros H1 H2. destruct (C H1 H2) as (? & ? & ? & Hb). split; [done|]. split; [done|]. split; [done|]. unfold busy, trip in *. by rewrite (part_ext k th th' E).
Qed.
Lemma loc_cl (cl cl' : Prop) pr k (th : threads) y L d : (cl' -> cl) -> loc cl pr k th y L d -> loc cl' pr k th y L d.
Proof. intros E [A B C D]. split; auto. Qed.
Lemma loc_fin (cl : Prop) pr k (th : threads) y y' L d : finished k -> loc cl pr k th y L d -> loc cl pr k th y' L d.
Proof. intros E [A B C D]. split; auto. intros H. done. Qed.

Lemma done_stays k th ru y k' th' ru' y' : lstep c vr decl v w k th ru y k' th' ru' y' -> k_phase k = KDone -> k_phase k' = KDone.
Proof. intros H E. destruct H; cbn; congruence. Qed.
Lemma nd_step k th ru y k' th' ru' y' : lstep c vr decl v w k th ru y k' th' ru' y' -> (forall todo, k_phase k = KColl todo -> NoDup todo) ->
  forall todo, k_phase k' = KColl todo -> NoDup todo.
Proof.
  clear sd Hw Hlim. intros H E todo. destruct H; cbn; try discriminate; try apply E.
  - intros [= <-]. unfold collectors. apply NoDup_ListNoDup, List.NoDup_filter, seq_NoDup.
  - intros [= <-]. specialize (E _ H). by apply list.NoDup_cons in E as [_ E].
Qed.
Lemma fin_step k th ru y k' th' ru' y' : lstep c vr decl v w k th ru y k' th' ru' y' -> idle th -> finished k ->
  y' = y /\ finished k' /\ reports k' v = reports k v.
Proof.
  intros Ls Hi Hf.
  assert (Idle : forall t x, th t = Some x -> t_pc x = TCheck \/ exists r, t_pc x = TEnd r) by apply Hi.
  unfold finished in *.
  destruct Ls as [cb todo j Hph Hru Hno|todo j Hph Hru|Hph|i todo Hph Hlk|todo pend n z a Hph Hz Ha|todo Hph|Hph|u todo pts Hph Hpts|Hph
    |t x b Hth Hru Hpc|t x cb b Hth Hpc Hru|t x e Hth Hpc Hlk Hfe|t x Hth Hpc Hlk Hfe|t x u todo accs h y1 Hth Hpc Hfs|t x accs Hth Hpc
    |t x e pos a Hth Hpc Ha|t x e pos Hth Hpc Ha];
    try (exfalso; destruct (Idle _ _ Hth) as [?|[? ?]]; congruence); try (exfalso; by rewrite Hph in Hf); try done.
  rewrite Hph in Hf. apply not_elem_of_cons in Hf as [H1 H2]. destruct (Nat.eqb_spec u v) as [->|Hne]; [done|]. cbn. split; [done|]. split; [done|].
  unfold reports. cbn. rewrite List.filter_app. cbn. rewrite (proj2 (Nat.eqb_neq u v) Hne). by rewrite app_nil_r.
Qed.
Lemma run_phase k th ru y k' th' ru' y' : lstep c vr decl v w k th ru y k' th' ru' y' -> in_run k ->
  k_out k' = k_out k /\ (in_run k' \/ k_phase k = KRun [] None /\ k' = set_phase k (KSnap (seq 0 (length (a_insts c))) None) /\ th' = th /\ y' = y).
Proof.
  intros Ls (td0 & cur0 & Hrun). unfold in_run.
  destruct Ls; try congruence; cbn; (split; [done|]); first [left; by eauto|right; done].
Qed.
Lemma snap_phase k th ru y k' th' ru' y' : lstep c vr decl v w k th ru y k' th' ru' y' -> ~ in_run k -> ~ finished k -> (forall td, k_phase k <> KColl (v :: td)) ->
  vr v = k_reader k ->
  reports k' v = reports k v /\ ~ in_run k' /\ ~ finished k'.
Proof.
  intros Ls Hnr Hf Hnv Hr. unfold finished, in_run in *.
  destruct Ls as [cb todo j Hph Hru Hno|todo j Hph Hru|Hph|i todo Hph Hlk|todo pend n z a Hph Hz Ha|todo Hph|Hph|u todo pts Hph Hpts|Hph
    |t x b Hth Hru Hpc|t x cb b Hth Hpc Hru|t x e Hth Hpc Hlk Hfe|t x Hth Hpc Hlk Hfe|t x u todo accs h y1 Hth Hpc Hfs|t x accs Hth Hpc
    |t x e pos a Hth Hpc Ha|t x e pos Hth Hpc Ha]; try (by (edestruct Hnr; eauto)); cbn [set_phase set_lock set_store k_phase k_out] in *; try done;
    try (split; [done|]; split; [by intros (? & ? & ?)|intros []; fail]).
  - split; [done|]. split; [by intros (? & ? & ?)|]. intros H. apply H. unfold collectors. apply elem_of_list_In, filter_In. split.
    + apply in_seq. apply lookup_lt_Some in Hw. lia.
    + by apply Nat.eqb_eq.
  - rewrite Hph in Hf. assert (Hne : u <> v). { intros ->. by apply (Hnv todo). } split; [|split; [by intros (? & ? & ?)|]].
    + unfold reports. cbn. rewrite List.filter_app. cbn. rewrite (proj2 (Nat.eqb_neq u v) Hne). by rewrite app_nil_r.
    + intros H. apply Hf. by apply not_elem_of_cons.
  - exfalso. apply Hf. rewrite Hph. apply not_elem_of_nil.
Qed.

(** ** What collecting the view does *)
Lemma value_ext y d p h : value_of (Vw (w_cells y) d p) h = value_of y h.
Proof. done. Qed.
Lemma collect_fst y : (collect_cells w y).1 = (collect_view w (VSt (values y (w_data y)) (values y (w_prior y)))).1.
Proof. unfold collect_cells. destruct (stateful w); [|done]. by destruct (cell overflow_set (w_data y)). Qed.
Lemma collect_prior d p p' : stateful w = false -> (collect_view (N:=N) w (VSt d p)).1 = (collect_view w (VSt d p')).1.
Proof. unfold collect_view. by intros ->. Qed.
Lemma collect_snd y : cok y ->
  (stateful w = true -> values (collect_cells w y).2 (w_prior (collect_cells w y).2) = values y (w_data y)) /\
  ((stateful w = true -> overflow_set ∉ map fst (values y (w_data y))) -> cok (collect_cells w y).2 /\ w_data (collect_cells w y).2 = []).
Proof.
  intros [C1 C2]. unfold collect_cells. rewrite map_app in C1. destruct (stateful w).
  - destruct (cell overflow_set (w_data y)) as [h|] eqn:E; cbn [snd w_prior w_data].
    + split.
      * intros _. apply values_app_cells. intros h' Hh'. apply C2. rewrite map_app, elem_of_app. by left.
      * intros H. exfalso. apply H; [done|]. apply cell_elem in E. unfold values. rewrite map_map. cbn. apply elem_of_list_fmap. by exists (overflow_set, h).
    + split; [done|]. intros _. split; [|done]. split; cbn [w_data w_prior app w_cells].
      * by apply NoDup_app in C1 as (C1 & _ & _).
      * intros h Hh. apply C2. rewrite map_app, elem_of_app. by left.
  - split; [done|]. intros _. cbn. split; [|done]. split; cbn.
    + by apply NoDup_app in C1 as (_ & _ & C1).
    + intros h Hh. apply C2. rewrite map_app, elem_of_app. by right.
Qed.

Lemma loc_step cl pr k th ru y k' th' ru' y' L d : cinv c vr k th ru -> lstep c vr decl v w k th ru y k' th' ru' y' -> k_reader k = vr v ->
  ((forall todo j, k_phase k <> KRun todo (Some j)) -> idle th) -> loc cl pr k th y L d ->
  exists L' d', loc cl pr k' th' y' L' d' /\
    (L' = L \/ exists t x, L' = L ++ [t] /\ th t = Some x /\ forall r, t_pc x <> TEnd r) /\
    (finished k -> y' = y /\ d' = d /\ finished k') /\
    (~ finished k -> finished k' -> cl -> (stateful w = true -> values y' (w_prior y') = d') /\
       ((stateful w = true -> overflow_set ∉ map fst d') -> cok y' /\ w_data y' = [])).
Proof.
  intros CI Ls Hr Hid [O1 O2 O3 O4]. pose proof (nd_step _ _ _ _ _ _ _ _ Ls O4) as Hnd.
  destruct (decide (finished k)) as [Hf|Hf].
  { assert (Hnr : forall td j, k_phase k <> KRun td j). { intros td j E. unfold finished in Hf. by rewrite E in Hf. }
    assert (Hi : idle th). { apply Hid. intros td j. apply Hnr. }
    destruct (fin_step _ _ _ _ _ _ _ _ Ls Hi Hf) as (Hy & Hf' & Hre). destruct (lin_idle c vr decl v w _ _ _ _ _ _ _ _ L CI Ls Hi Hnr O1) as [Hl Ho].
    exists L, d. split; [|split; [by left|split; [by auto|by intros ?]]]. split; auto.
    - intros _ Hc. rewrite Hre, Ho. by apply O2.
    - done. }
  assert (Hrun : in_run k \/ ~ in_run k).
  { unfold in_run. destruct (k_phase k) as [td cur| | |]; [left; eauto|right; by intros (? & ? & ?)..]. }
  destruct Hrun as [Hrun|Hnr].
  - (* callbacks run *)
    destruct (lin_step c vr decl v sd w _ _ _ _ _ _ _ _ L CI O1 Ls) as (L' & Hl & HL').
    destruct (run_phase _ _ _ _ _ _ _ _ Ls Hrun) as [Hout Hph].
    assert (Hf' : ~ finished k').
    { destruct Hph as [(td & cur & E)|(_ & -> & _)]; unfold finished; [rewrite E; by intros []|by intros []]. }
    exists L', d. split; [|split; [done|split; [by intros ?|by intros ? ?]]]. split; auto.
    + done.
    + intros _ Hc. destruct (O3 Hf Hc) as (R1 & R2 & R3 & R4).
      unfold busy in R4. pose proof Hrun as (td & cur & E). rewrite E in R4. destruct R4 as [P Z].
      destruct (run_step c vr decl v w _ _ _ _ _ _ _ _ CI Ls Hrun R2 P Z) as (Q1 & Q2 & Q3 & Q4 & Q5).
      split; [unfold reports in *; by rewrite Hout|]. split; [done|]. split; [intros Hs; rewrite Q4, Q5; by apply R3|].
      destruct Hph as [(td' & cur' & E')|(E0 & -> & -> & ->)]; unfold busy.
      * by rewrite E'.
      * cbn [set_phase k_phase]. exists []. apply (snap_start c vr v w k th ru y CI); auto. apply Hid. congruence.
  - assert (Hnr' : forall td j, k_phase k <> KRun td j). { intros td j E. apply Hnr. by exists td, j. }
    assert (Hi : idle th). { apply Hid. intros td j. apply Hnr'. }
    destruct (lin_idle c vr decl v w _ _ _ _ _ _ _ _ L CI Ls Hi Hnr' O1) as [Hl Ho].
    assert (Hc : (exists td, k_phase k = KColl (v :: td)) \/ forall td, k_phase k <> KColl (v :: td)).
    { destruct (k_phase k) as [| |[|u td]|]; try (by right). destruct (Nat.eq_dec u v) as [->|Hne]; [left; eauto|right; congruence]. }
    destruct Hc as [(td & Hph)|Hnv].
    + (* the view is collected, or a call is made *)
      assert (Same : y' = y -> k' = k -> exists L' d', loc cl pr k' th' y' L' d' /\
        (L' = L \/ exists t x, L' = L ++ [t] /\ th t = Some x /\ forall r, t_pc x <> TEnd r) /\
        (finished k -> y' = y /\ d' = d /\ finished k') /\
        (~ finished k -> finished k' -> cl -> (stateful w = true -> values y' (w_prior y') = d') /\
           ((stateful w = true -> overflow_set ∉ map fst d') -> cok y' /\ w_data y' = []))).
      { intros -> ->. exists L, d. split; [|split; [by left|split; [by intros ?|by intros ? ?]]]. split; auto; [by rewrite Ho|].
        intros H1 H2. destruct (O3 H1 H2) as (R1 & R2 & R3 & R4). split; [done|]. split; [done|]. split; [done|]. unfold busy in *. by rewrite Hph in *. }
      assert (Idle : forall t x, th t = Some x -> t_pc x = TCheck \/ exists r, t_pc x = TEnd r) by apply Hi.
      destruct Ls as [cb todo j Hph' Hru Hno|todo j Hph' Hru|Hph'|i todo Hph' Hlk|todo pend n z a Hph' Hz Ha|todo Hph'|Hph'|u todo pts Hph' Hpts|Hph'
        |t x b Hth Hru Hpc|t x cb b Hth Hpc Hru|t x e Hth Hpc Hlk Hfe|t x Hth Hpc Hlk Hfe|t x u todo accs h y1 Hth Hpc Hfs|t x accs Hth Hpc
        |t x e pos a Hth Hpc Ha|t x e pos Hth Hpc Ha];
        try (exfalso; destruct (Idle _ _ Hth) as [?|[? ?]]; congruence); try congruence; try (by apply Same).
      rewrite Hph' in Hph. injection Hph as -> ->. rewrite Nat.eqb_refl. specialize (Hpts eq_refl).
      set (k1 := Coll _ _ _ _ _) in *. set (d1 := values y (w_data y)).
      assert (Hf1 : finished k1). { unfold finished, k1. cbn. specialize (O4 _ Hph'). by apply list.NoDup_cons in O4 as [? _]. }
      exists L, d1. split; [|split; [by left|split; [by intros ?|]]].
      * split; auto; [|done]. intros _ Hcl. destruct (O3 Hf Hcl) as (R1 & R2 & R3 & R4). unfold busy in R4. rewrite Hph' in R4. destruct R4 as (D & [S1 S2 S3 S4]).
        split.
        -- unfold reports in *. unfold k1. cbn [k_out]. rewrite List.filter_app, map_app, R1. cbn. rewrite Nat.eqb_refl. cbn. f_equal. rewrite Hpts, collect_fst.
           destruct (stateful w) eqn:Hs; [by rewrite (R3 eq_refl)|]. by apply collect_prior.
        -- rewrite Hph' in S4. cbn [restl] in S4. rewrite app_nil_r in S4. apply (totals_cells vr v w y (stri v w (k_store k)) D); auto.
           by apply (inputs_store c vr v w sd k th ru).
      * intros _ _ Hcl. destruct (O3 Hf Hcl) as (R1 & R2 & R3 & R4). by apply collect_snd.
    + destruct (snap_phase _ _ _ _ _ _ _ _ Ls Hnr Hf Hnv (eq_sym Hr)) as (Hre & Hnr1 & Hf').
      exists L, d. split; [|split; [by left|split; [by intros ?|by intros ? ?]]]. split; auto; [done|].
      intros _ Hcl. destruct (O3 Hf Hcl) as (R1 & R2 & R3 & R4).
      assert (R4' : exists D, snapinv v w k y D). { unfold busy in R4. destruct (k_phase k) eqn:E; try done. by destruct (Hnr' todo cur). }
      destruct R4' as [D SI]. destruct (snap_step c vr decl v w _ _ _ _ _ _ _ _ D Ls Hi Hnr' Hnv SI) as (D' & SI' & Hst & Q4 & Q5).
      split; [by rewrite Hre|]. split; [apply SI'|]. split; [intros Hs; rewrite Q4, Q5; by apply R3|].
      unfold busy. destruct (k_phase k') as [td cur| | |] eqn:E; [|by exists D'..]. exfalso. apply Hnr1. by exists td, cur.
Qed.
End conc.
