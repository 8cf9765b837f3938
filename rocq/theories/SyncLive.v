(** Progress (C07): no reachable state is stuck, no lookup meets an unmapped record, no collection
    initialises a record. *)
From Coq Require Import ZArith Lia Bool.
From stdpp Require Import base list option.
From Verif Require Import Base Lib SyncModel SyncInv SyncStep SyncStepB SyncCases SyncRun SyncSpec.
Local Open Scope Z_scope.

Section live.
Context {c : config}.
Notation st := (state c).
Notation pcT := (pc c).
Implicit Types (ls : list (label c)) (s : st) (p : pcT).

Lemma step_in_wl s t p o : Inv s -> s_thr s !! t = Some p -> in_wl p = Some o -> can_step s t.
Proof.
  intros I Ht E. unfold can_step. cbn [step]. rewrite Ht. exists 0%nat.
  destruct p; try done; cbn [step_pc];
    repeat (match goal with |- exists _, match ?x with _ => _ end = _ => destruct x; [try by eexists..] end); try by eexists.
  all: try (destruct (_ && _); by eexists).
Qed.
Lemma step_in_il s t p v : s_thr s !! t = Some p -> in_il p = Some v -> can_step s t.
Proof.
  intros Ht E. unfold can_step. cbn [step]. rewrite Ht. exists 0%nat.
  destruct p; try done; cbn [step_pc].
  - destruct todo as [|h todo]; [by eexists|]. cbn [lookup list_lookup]. destruct (s_holds s !! h); [|by eexists].
    destruct (vdelta c v0); by eexists.
  - destruct (s_holds s !! h); by eexists.
  - destruct (s_holds s !! h); [|by eexists]. destruct (c_change c _ a); by eexists.
Qed.
Lemma goc_some v k s : exists s1 h, get_or_create v k s = (s1, h).
Proof. destruct (get_or_create v k s) as [s1 h]. by exists s1, h. Qed.

Theorem no_deadlock ls s t p :
  wf c -> run (init c) ls = Some s -> s_thr s !! t = Some p -> ended p = false -> exists t', can_step s t'.
Proof.
  intros WF R Ht He. assert (I : Inv s) by (apply reachable_inv; by exists ls). inv_I I.
  destruct (decide (Exists (fun q => in_wl q <> None \/ in_il q <> None) (s_thr s))) as [X|NX].
  { apply list.Exists_exists in X as (q & Hq & Hl). apply elem_of_list_lookup in Hq as (t' & Hq). exists t'.
    destruct (in_wl q) as [o|] eqn:E1; [by eapply step_in_wl|]. destruct (in_il q) as [v|] eqn:E2; [by eapply step_in_il|].
    by destruct Hl. }
  assert (NL : forall t' q, s_thr s !! t' = Some q -> in_wl q = None /\ in_il q = None).
  { intros t' q Hq. destruct (in_wl q) as [o|] eqn:E1; [|destruct (in_il q) as [v|] eqn:E2; [|done]];
      destruct NX; apply list.Exists_exists; exists q; (split; [by eapply elem_of_list_lookup_2|]); rewrite ?E1, ?E2; [by left|by right]. }
  assert (FW : forall o, (o < length (c_insts c))%nat -> s_wl s !! o = Some None).
  { intros o Ho. destruct Iwl as (L & _ & L2). destruct (s_wl s !! o) as [[t'|]|] eqn:E; [|done|].
    - destruct (L2 _ _ E) as (q & Hq & Q). destruct (NL _ _ Hq). congruence.
    - apply lookup_ge_None in E. lia. }
  assert (FI : forall o, (o < length (c_views c))%nat -> s_il s !! o = Some None).
  { intros o Ho. destruct Iil as (L & _ & L2). destruct (s_il s !! o) as [[t'|]|] eqn:E; [|done|].
    - destruct (L2 _ _ E) as (q & Hq & Q). destruct (NL _ _ Hq). congruence.
    - apply lookup_ge_None in E. lia. }
  assert (VE : forall o j v, iviews c o !! j = Some v -> (v < length (c_views c))%nat).
  { intros o j v Hv. unfold iviews in Hv. destruct (c_insts c !! o) as [l|] eqn:E; cbn in Hv; [|done].
    eapply WF; [exact E|]. by eapply elem_of_list_lookup_2. }
  assert (PIV : forall t' i n j, s_thr s !! t' = Some (PInitV i n j) -> can_step s t').
  { intros t' i n j H'. unfold can_step. cbn [step]. rewrite H'. exists 0%nat. cbn [step_pc].
    destruct (s_recs s !! i) as [r|] eqn:Er; [|by eexists]. destruct (iviews c (r_inst r) !! j) as [v|] eqn:Ev; [|by eexists].
    rewrite (FI v) by (by eapply VE). destruct (get_or_create _ _ s) as [s1 h]. destruct (s_holds s1 !! h); by eexists. }
  pose proof (IT _ _ Ht) as T. destruct (NL _ _ Ht) as [N1 N2].
  destruct p; try done; try (cbn in N1; done); try (cbn in N2; done).
  - exists t, 0%nat. cbn [step]. rewrite Ht. cbn [step_pc]. rewrite (FW _ T). destruct (try_read o k s) as [s1 [i|]]; [by eexists|].
    destruct (_ <=? _); [|by eexists]. destruct (try_read o (c_ovk c) s1) as [s2 [i|]]; by eexists.
  - exists t, 0%nat. cbn [step]. rewrite Ht. cbn [step_pc]. rewrite (FW _ T). destruct (find_write o k s) as [i|]; [|by eexists].
    destruct (ref i s); by eexists.
  - destruct T as (r0 & Hr). destruct (r_once r0) eqn:Eo.
    + exists t, 0%nat. cbn [step]. rewrite Ht. cbn [step_pc]. rewrite Hr, Eo. by eexists.
    + destruct (IR _ _ Hr) as (_ & _ & _ & _ & R5 & _). rewrite Eo in R5. destruct R5 as (_ & _ & R5).
      assert (0 < ninit (s_thr s) r) as Hn by lia. apply zsum_pos in Hn as (t' & q & Hq & Hn).
      exists t'. destruct q; cbn in Hn; try lia. by eapply PIV.
    + exists t, 0%nat. cbn [step]. rewrite Ht. cbn [step_pc]. rewrite Hr, Eo. by eexists.
  - exists t. by eapply PIV.
  - exists t, 0%nat. cbn [step]. rewrite Ht. cbn [step_pc]. destruct (s_recs s !! r) as [r0|]; [|by eexists].
    destruct (r_accs r0 !! j) as [a|]; [|by eexists]. destruct (s_holds s !! a_hold a); by eexists.
  - exists t, 0%nat. cbn [step]. rewrite Ht. cbn [step_pc]. destruct (s_recs s !! r) as [r0|]; by eexists.
  - exists t, 0%nat. cbn [step]. rewrite Ht. cbn [step_pc]. destruct (s_recs s !! r) as [r0|]; by eexists.
  - exists t, 0%nat. cbn [step]. rewrite Ht. cbn [step_pc]. destruct os as [|o os]; [by eexists|].
    apply list.Forall_cons in T as [T _]. rewrite (FW _ T). by eexists.
  - exists t, 0%nat. cbn [step]. rewrite Ht. cbn [step_pc]. destruct vs as [|v vs]; [by eexists|].
    apply list.Forall_cons in T as [T _]. rewrite (FI _ T). by eexists.
Qed.

(** A record found by a lookup is not marked as unmapped. *)
Theorem found_mapped ls s o k i r :
  run (init c) ls = Some s -> s_wl s !! o = Some None ->
  find_read o k s = Some i \/ find_write o k s = Some i -> s_recs s !! i = Some r -> Z.even (r_val r) = true.
Proof.
  intros R W F Hr. assert (I : Inv s) by (apply reachable_inv; by exists ls). inv_I I.
  assert (r_live r = true /\ r_inst r = o) as [Hl Ho].
  { destruct F as [F|F]; apply find_last_Some in F as (r' & Hr' & F); assert (r' = r) by congruence; subst;
      rewrite !andb_true_iff in F; destruct F as (((F1 & F2) & _) & _); apply Nat.eqb_eq in F2; done. }
  destruct (IR _ _ Hr) as (R1 & _). rewrite Hl in R1.
  assert (nunm (s_thr s) i = 0) as N.
  { destruct (Z.ltb_spec 0 (nunm (s_thr s) i)) as [P|P].
    - apply zsum_pos in P as (t & p & Ht & P). pose proof (IT _ _ Ht) as T. destruct Iwl as (_ & L & _).
      assert (exists q, in_wl p = Some (j_inst q) /\ unmapping i p = true /\ liver (s_recs s) (j_inst q) i) as (q & Q1 & _ & (r1 & Hr1 & _ & Q2)).
      { destruct p; cbn in P; try lia.
        - exists q. destruct unm; cbn in P; try lia. destruct (Nat.eqb_spec r0 i); cbn in P; try lia. subst.
          split; [done|]. split; [apply Nat.eqb_refl|]. destruct T as (_ & _ & _ & T). apply T. left.
        - exists q. destruct ph as [[]|]; cbn in P; try lia. destruct (Nat.eqb_spec r0 i); cbn in P; try lia. subst.
          split; [done|]. split; [apply Nat.eqb_refl|]. destruct T as ((_ & _ & _ & T) & _). apply T. left.
        - exists q. destruct ph as [[]|]; cbn in P; try lia. destruct (Nat.eqb_spec r0 i); cbn in P; try lia. subst.
          split; [done|]. split; [apply Nat.eqb_refl|]. destruct T as ((_ & _ & _ & T) & _). apply T. left.
        - exists q. destruct ph as [[]|]; cbn in P; try lia. destruct (Nat.eqb_spec r0 i); cbn in P; try lia. subst.
          split; [done|]. split; [apply Nat.eqb_refl|]. destruct T as ((_ & _ & _ & T) & _). apply T. left. }
      specialize (L _ _ _ Ht Q1). assert (j_inst q = o) by congruence. congruence.
    - pose proof (zsum_nonneg (fun p => b2z (unmapping i p)) (s_thr s) (fun p _ => proj1 (b2z_range _))). unfold nunm in *. lia. }
  rewrite N in R1. rewrite R1, Z.add_0_r. apply Z.even_mul.
Qed.

(** No retry: an insertion step always acquires a record. *)
Theorem insertion_never_retries ls s t o0 k0 n0 ch0 s' :
  run (init c) ls = Some s -> s_thr s !! t = Some (PWrite o0 k0 n0) -> step s (LStep t ch0) = Some s' ->
  exists i, s_thr s' !! t = Some (PInit i n0).
Proof.
  intros R Ht S. assert (I : Inv s) by (apply reachable_inv; by exists ls).
  cbn [step] in S. rewrite Ht in S. apply (step_cases _ _ _ _ _ I Ht) in S as H. clear S.
  assert (t < length (s_thr s))%nat as L by (by eapply lookup_lt_Some). rename Ht into Ht0.
  stepR_cases H; rewrite Ht in Ht0; inversion Ht0; subst; snorm.
  - exists i. by rewrite list_lookup_insert.
  - exists (length (s_recs s)). by rewrite list_lookup_insert.
Qed.

(** No thread ever reaches the stuck program counter, which models dereferencing something that is
    not there and a collection finding an uninitialised record. *)
Theorem never_bad ls s t : run (init c) ls = Some s -> s_thr s !! t <> Some PBad.
Proof. intros R Ht. assert (I : Inv s) by (apply reachable_inv; by exists ls). exact (I_T _ _ _ _ _ I _ _ Ht). Qed.
End live.
