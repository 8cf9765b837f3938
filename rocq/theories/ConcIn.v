(** Conc: once callbacks have returned, what a view was told is what is in the store. *)
From Coq Require Import ZArith Bool String Lia.
From stdpp Require Import base list option strings.
From Verif Require Import Num Agg AggSpec Attr Async AsyncSpec AsyncProofs Conc ConcSpec ConcProofs ConcStep ConcInv ConcCells ConcSnap.

Section conc.
Context {N : arith} (c : acfg) (vr : nat -> nat) (decl : list (list nat)).
Implicit Types (s : cst N) (k : coll N) (x : thr N) (y : vw N) (es : list (ent N)).
Notation threads := (nat -> option (thr N)).
Notation runs := (nat -> option bool).
Context (v : nat) (w : aview) (sd : sound c).

(** ** Idle collections *)
Lemma idle_of s q k : ginv c vr s -> waited (vr v) s -> s_colls s !! q = Some k -> k_reader k = vr v ->
  (forall todo j, k_phase k <> KRun todo (Some j)) -> idle (thr_of s q).
Proof.
  intros G W Hk Hr Hph t x (Hx & r & Hrr & Hq)%thr_of_Some. apply (W t x r k); auto; [by rewrite Hq|].
  destruct (r_live r) eqn:El; [|done]. exfalso. destruct (proj1 (i_live _ _ _ _ _ (g_coll _ _ _ G _ _ Hk) (t_run x))) as [todo Ht].
  - apply run_of_Some. eauto.
  - by destruct (Hph todo (t_run x)).
Qed.
Lemma idle_ext (th th' : threads) : (forall t, th' t = th t) -> idle th -> idle th'.
Proof. intros E H t x. rewrite E. apply H. Qed.
Lemma lin_ext k (th th' : threads) L : (forall t, th' t = th t) -> lin c vr v k th L -> lin c vr v k th' L.
Proof.
  intros E [A B C]. split; [done| |].
  - intros t. rewrite E. apply B.
  - intros en a n H1 H2 H3 H4. apply (C en a n H1 H2 H3). rewrite <- H4. f_equal. unfold obsl. apply list_omap_ext.
    apply Forall2_same_length_lookup. split; [done|]. intros i t t' Ht Ht'. assert (t' = t) as -> by congruence. by rewrite E.
Qed.
Lemma obsl_th (th th' : threads) L : (forall t, th' t = th t) -> obsl th' L = obsl th L.
Proof. intros E. unfold obsl. induction L as [|t L IH]; cbn; [done|]. rewrite E. destruct (th t); cbn; [f_equal|]; exact IH. Qed.

Lemma lin_idle k th ru y k' th' ru' y' L : cinv c vr k th ru -> lstep c vr decl v w k th ru y k' th' ru' y' -> idle th ->
  (forall td j, k_phase k <> KRun td j) -> lin c vr v k th L -> lin c vr v k' th' L /\ obsl th' L = obsl th L.
Proof.
  intros CI Ls Hi Hnr Li.
  assert (Idle : forall t x, th t = Some x -> t_pc x = TCheck \/ exists r, t_pc x = TEnd r) by apply Hi.
  destruct Ls as [cb todo j Hph Hru Hno|todo j Hph Hru|Hph|i todo Hph Hlk|todo pend n z a Hph Hz Ha|todo Hph|Hph|u todo pts Hph Hpts|Hph
    |t x b Hth Hru Hpc|t x cb b Hth Hpc Hru|t x e Hth Hpc Hlk Hfe|t x Hth Hpc Hlk Hfe|t x u todo accs h y1 Hth Hpc Hfs|t x accs Hth Hpc
    |t x e pos a Hth Hpc Ha|t x e pos Hth Hpc Ha];
    try (by edestruct Hnr); try (exfalso; destruct (Idle _ _ Hth) as [?|[? ?]]; congruence);
    try (split; [by eapply lin_same|done]).
  - assert (Hnt : t ∉ L). { intros (x' & Hx' & _)%(l_in _ _ _ _ _ _ Li). congruence. }
    assert (E : obsl (fup th t x) L = obsl th L).
    { apply obsl_ext. intros t' Ht'. pose proof Ht' as (x' & Hx' & _)%(l_in _ _ _ _ _ _ Li). exists x', x'. rewrite fup_other; [done|]. by intros ->. }
    split; [|done]. destruct Li as [A B C]. split; [done| |].
    + intros t'. rewrite B. split.
      * intros (x' & Hx' & H). exists x'. split; [|done]. rewrite fup_other; [done|]. intros ->. congruence.
      * intros (x' & Hx' & Hv & Hd). apply fup_Some in Hx' as [[-> ->]|[Hne Hx']]; [|eauto]. unfold done_v in Hd. by rewrite Hpc in Hd.
    + intros en a n. rewrite E. apply C.
  - destruct b.
    { exfalso. apply (i_live _ _ _ _ _ CI) in Hru as [td ?]. by edestruct Hnr. }
    cbn [check]. split.
    + eapply lin_th; eauto. intros _. unfold done_v. rewrite Hpc. done.
    + apply obsl_ext. intros t' Ht'. pose proof Ht' as (x' & Hx' & _)%(l_in _ _ _ _ _ _ Li). destruct (Nat.eq_dec t' t) as [->|Hne].
      * exists x, (with_pc x (TEnd AfterReturn)). by rewrite fup_same.
      * exists x', x'. by rewrite fup_other.
Qed.

(** ** The store *)
Lemma count_one (l : list nat) : NoDup l -> v ∈ l -> List.filter (Nat.eqb v) l = [v].
Proof.
  induction 1 as [|u l Hu Hd IH]; [by intros ?%elem_of_nil|]. cbn. destruct (Nat.eqb_spec v u) as [->|Hne].
  - intros _. f_equal. clear IH Hd. induction l as [|u' l IHl]; [done|]. apply not_elem_of_cons in Hu as [H1 H2]. cbn. rewrite (proj2 (Nat.eqb_neq _ _) H1). by apply IHl.
  - intros [?|Hin]%elem_of_cons; [done|]. by apply IH.
Qed.
Lemma compiled_views i inst : a_insts c !! i = Some inst -> v ∈ compiled c vr (vr v) i <-> v ∈ ai_views inst.
Proof. intros E. unfold compiled. rewrite E, elem_of_list_In, filter_In, Nat.eqb_eq, <- elem_of_list_In. tauto. Qed.
Lemma feeds_one i : v ∈ compiled c vr (vr v) i -> feeds c v i = 1%nat.
Proof.
  intros H. unfold feeds. destruct (a_insts c !! i) as [inst|] eqn:E; [|unfold compiled in H; rewrite E in H; by apply elem_of_nil in H].
  apply (compiled_views i inst E) in H. rewrite count_one; [done|apply (sd i inst E)|done].
Qed.
Lemma feeds_pos i : (0 < feeds c v i)%nat <-> v ∈ compiled c vr (vr v) i.
Proof.
  split; [|intros H; rewrite (feeds_one i H); lia]. unfold feeds. destruct (a_insts c !! i) as [inst|] eqn:E; [|lia]. intros H.
  apply (compiled_views i inst E). destruct (List.filter (Nat.eqb v) (ai_views inst)) as [|u l] eqn:F; [cbn in H; lia|].
  assert (Hu : List.In u (List.filter (Nat.eqb v) (ai_views inst))) by (rewrite F; by left). apply filter_In in Hu as [Hu ->%Nat.eqb_eq]. by apply elem_of_list_In.
Qed.
Lemma vtri_none z (accs : list (acc N)) : v ∉ map ac_view accs -> vtri v w z accs = [].
Proof.
  unfold vtri. induction accs as [|a l IH]; [done|]. cbn. intros [H1 H2]%not_elem_of_cons. rewrite (proj2 (Nat.eqb_neq _ _)); [by apply IH|]. intros E. by apply H1.
Qed.
Lemma vtri_one z (accs : list (acc N)) : NoDup (map ac_view accs) -> v ∈ map ac_view accs ->
  exists a, a ∈ accs /\ ac_view a = v /\ vtri v w z accs = [(view_key w z, ac_cell a, ac_cur a)].
Proof.
  induction accs as [|a l IH]; cbn; [by intros _ ?%elem_of_nil|]. rewrite list.NoDup_cons. intros [H1 H2] Hin. destruct (Nat.eqb_spec (ac_view a) v) as [E|E].
  - exists a. split; [left|]. split; [done|]. unfold vtri. cbn. rewrite ?(proj2 (Nat.eqb_eq _ _) E). cbn. f_equal. apply (vtri_none z). subst v. done.
  - apply elem_of_cons in Hin as [?|Hin]; [congruence|]. destruct (IH H2 Hin) as (a' & Ha' & Hv & Ht). exists a'. split; [by right|]. split; [done|].
    unfold vtri in *. cbn. by rewrite ?(proj2 (Nat.eqb_neq _ _) E).
Qed.
Lemma last_seen_some (l : list (obs (N:=N))) p : p ∈ map fst l -> exists n, last_seen l p = Some n.
Proof.
  unfold last_seen. induction l as [|o l IH] using rev_ind; [by intros ?%elem_of_nil|]. rewrite map_app, elem_of_app, omap_app. cbn.
  destruct (bool_decide (o.1 = p)) eqn:E; cbn.
  - intros _. exists o.2. apply last_snoc.
  - rewrite app_nil_r. intros [H|H]; [by apply IH|]. apply elem_of_list_singleton in H. apply bool_decide_eq_false in E. congruence.
Qed.
Lemma inputs_store k th ru L : cinv c vr k th ru -> idle th -> k_reader k = vr v -> lin c vr v k th L ->
  inputs c v w (obsl th L) ≡ₚ map (fun t => (t.1.1, t.2)) (stri v w (k_store k)).
Proof.
  intros CI Hi Hr Li.
  set (l := obsl th L). set (F := List.filter (fun en => bool_decide (v ∈ compiled c vr (vr v) (en_inst en))) (k_store k)).
  assert (Hnames : names l ≡ₚ map ename F).
  { apply NoDup_Permutation.
    - apply NoDup_remove_dups.
    - unfold F. pose proof (i_dup _ _ _ _ _ CI) as Hd. clear -Hd. induction (k_store k) as [|en es IH]; [constructor|]. cbn in *. apply list.NoDup_cons in Hd as [H1 H2].
      destruct (bool_decide _); cbn; [|by apply IH]. apply list.NoDup_cons. split; [|by apply IH]. intros (en' & E & Hin)%elem_of_list_fmap. apply H1. rewrite E.
      apply elem_of_list_fmap_1. apply elem_of_list_In, filter_In in Hin as [Hin _]. by apply elem_of_list_In.
    - intros p. unfold names. rewrite elem_of_remove_dups. split.
      + intros Hp. pose proof (lin_names _ _ v _ _ _ _ _ CI Li Hp) as (en & -> & Hen)%elem_of_list_fmap. apply elem_of_list_fmap_1. apply elem_of_list_In, filter_In. split; [by apply elem_of_list_In|].
        apply bool_decide_eq_true_2. apply obsl_in in Hp as (t & x & Ht & Hx & E). apply (l_in _ _ _ _ _ _ Li) in Ht as (x' & Hx' & Hv & _). assert (x' = x) as -> by congruence.
        rewrite Hr in Hv. unfold tname, ename in E. injection E as <- _. done.
      + intros (en & -> & Hen)%elem_of_list_fmap. apply elem_of_list_In, filter_In in Hen as [Hen Hv%bool_decide_eq_true]. apply elem_of_list_In in Hen.
        destruct (i_made _ _ _ _ _ CI _ Hen) as (t & x & Hx & Hn & Hpc). rewrite <- Hn.
        destruct Hpc as [Hpc|(e & pos & Hpc)]; [|destruct (Hi _ _ Hx) as [?|[? ?]]; congruence].
        apply (obsl_name th L t x); [|done]. apply (l_in _ _ _ _ _ _ Li). exists x. split; [done|]. split; [|by unfold done_v; rewrite Hpc].
        unfold tname, ename in Hn. injection Hn as -> _. by rewrite Hr. }
  unfold inputs. set (f := fun p => _). rewrite Hnames. subst f.
  assert (Hall : forall en, en ∈ k_store k -> v ∈ compiled c vr (vr v) (en_inst en) -> ename en ∈ map fst l).
  { intros en Hen Hv. assert (ename en ∈ names l) as Hin. { rewrite Hnames. apply elem_of_list_fmap_1. apply elem_of_list_In, filter_In. split; [by apply elem_of_list_In|]. by apply bool_decide_eq_true_2. }
    unfold names in Hin. by rewrite elem_of_remove_dups in Hin. }
  assert (Hst : forall en, en ∈ k_store k -> map ac_view (en_accs en) = compiled c vr (vr v) (en_inst en)).
  { intros en Hen. rewrite <- Hr. apply (i_ent _ _ _ _ _ CI en Hen). }
  assert (Hcur : forall en a n, en ∈ k_store k -> a ∈ en_accs en -> ac_view a = v -> last_seen l (ename en) = Some n -> ac_cur a = n) by apply (l_cur _ _ _ _ _ _ Li).
  unfold F. clear F Hnames Li. clearbody l. clear CI.
  match goal with |- ?a ≡ₚ ?b => enough (a = b) as -> by done end.
  induction (k_store k) as [|en es IH]; [done|]. cbn [List.filter]. unfold stri. cbn [map concat]. rewrite map_app. fold (stri v w es).
  rewrite <- IH; [|intros; apply Hall; [by right|done]|intros; apply Hst; by right|intros; eapply Hcur; eauto; by right].
  destruct (bool_decide (v ∈ compiled c vr (vr v) (en_inst en))) eqn:Ev.
  - apply bool_decide_eq_true in Ev. cbn. f_equal. destruct (last_seen_some l (ename en)) as [n Hn]; [apply Hall; [left|done]|]. rewrite Hn.
    rewrite (feeds_one (en_inst en) Ev). cbn. destruct (vtri_one (en_set en) (en_accs en)) as (a & Ha & Hv & ->).
    + rewrite Hst by left. by apply compiled_NoDup.
    + rewrite Hst by left. done.
    + cbn. rewrite (Hcur en a n); [done|left|done|done|done].
  - apply bool_decide_eq_false in Ev. rewrite vtri_none; [done|]. rewrite Hst by left. done.
Qed.
End conc.
