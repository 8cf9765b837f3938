(** Structure of the states of Conc: what one collection sees of a step, and what holds in it. *)
From Coq Require Import ZArith Bool String Lia.
From stdpp Require Import base list option strings.
From Verif Require Import Num Agg Attr Async AsyncSpec AsyncProofs Conc ConcSpec.

Section conc.
Context {N : arith} (c : acfg) (vr : nat -> nat) (decl : list (list nat)).
Implicit Types (s : cst N) (k : coll N) (x : thr N).

(** ** What belongs to one collection *)
Definition thr_of s (q t : nat) : option (thr N) :=
  x ← s_thr s !! t; r ← s_runs s !! t_run x; if Nat.eqb (r_coll r) q then Some x else None.
Definition run_of s (q j : nat) : option bool :=
  r ← s_runs s !! j; if Nat.eqb (r_coll r) q then Some (r_live r) else None.
Definition with_pc x (f : pc N) : thr N := Thr (t_run x) (t_obj x) (t_set x) (t_val x) f.
Definition fup {A} (f : nat -> option A) (n : nat) (a : A) : nat -> option A := fun m => if Nat.eqb m n then Some a else f m.

Notation threads := (nat -> option (thr N)).
Notation runs := (nat -> option bool).

(** ** The steps of one collection and the effect on one view *)
Section local.
Context (v : nat) (w : aview).
Definition proc (a : acc N) (y : vw N) : vw N :=
  if Nat.eqb (ac_view a) v
  then Vw (alter (fun z => if av_gauge w then ac_cur a else add z (ac_cur a)) (ac_cell a) (w_cells y)) (w_data y) (w_prior y) else y.
Inductive lstep k (th : threads) (ru : runs) (y : vw N) : coll N -> threads -> runs -> vw N -> Prop :=
| S_call cb todo j : k_phase k = KRun (cb :: todo) None -> ru j = None -> (forall t x, th t = Some x -> t_run x <> j) ->
    lstep k th ru y (set_phase k (KRun todo (Some j))) th (fup ru j true) y
| S_ret todo j : k_phase k = KRun todo (Some j) -> ru j = Some true -> lstep k th ru y (set_phase k (KRun todo None)) th (fup ru j false) y
| S_snap0 : k_phase k = KRun [] None -> lstep k th ru y (set_phase k (KSnap (seq 0 (length (a_insts c))) None)) th ru y
| S_lock i todo : k_phase k = KSnap (i :: todo) None -> k_lock k = Free ->
    lstep k th ru y (set_lock (set_phase k (KSnap todo (Some (accs_of i (k_store k))))) Snapshot) th ru y
| S_one todo pend n z a : k_phase k = KSnap todo (Some pend) -> pend !! n = Some z -> the_acc (k_store k) z = Some a ->
    lstep k th ru y (set_phase k (KSnap todo (Some (delete n pend)))) th ru (proc a y)
| S_unlock todo : k_phase k = KSnap todo (Some []) -> lstep k th ru y (set_lock (set_phase k (KSnap todo None)) Free) th ru y
| S_coll0 : k_phase k = KSnap [] None -> lstep k th ru y (set_phase k (KColl (collectors c vr (k_reader k)))) th ru y
| S_coll u todo pts : k_phase k = KColl (u :: todo) -> (u = v -> pts = (collect_cells w y).1) ->
    lstep k th ru y (Coll (k_reader k) (KColl todo) (k_lock k) (k_store k) (k_out k ++ [(u, pts)])) th ru
      (if Nat.eqb u v then (collect_cells w y).2 else y)
| S_end : k_phase k = KColl [] -> lstep k th ru y (set_phase k KDone) th ru y
| S_new t x b : th t = None -> ru (t_run x) = Some b -> t_pc x = TCheck -> lstep k th ru y k (fup th t x) ru y
| S_check t x cb b : th t = Some x -> t_pc x = TCheck -> ru (t_run x) = Some b ->
    lstep k th ru y k (fup th t (with_pc x (check c vr decl (k_reader k) cb b x))) ru y
| S_find t x e : th t = Some x -> t_pc x = TLock -> k_lock k = Free -> find_entry (inst_of x) (t_set x) (k_store k) = Some e ->
    lstep k th ru y k (fup th t (with_pc x (TUpd e 0))) ru y
| S_make t x : th t = Some x -> t_pc x = TLock -> k_lock k = Free -> find_entry (inst_of x) (t_set x) (k_store k) = None ->
    lstep k th ru y (set_lock k (Thread t)) (fup th t (with_pc x (TMake (compiled c vr (k_reader k) (inst_of x)) []))) ru y
| S_acc t x u todo accs h y' : th t = Some x -> t_pc x = TMake (u :: todo) accs ->
    (if Nat.eqb u v then find_storage (av_limit w) (view_key w (t_set x)) y = (y', h) else y' = y) ->
    lstep k th ru y k (fup th t (with_pc x (TMake todo (accs ++ [Acc u h zero])))) ru y'
| S_add t x accs : th t = Some x -> t_pc x = TMake [] accs ->
    lstep k th ru y (set_lock (set_store k (k_store k ++ [Ent (inst_of x) (t_set x) accs])) Free)
      (fup th t (with_pc x (TUpd (length (k_store k)) 0))) ru y
| S_cur t x e pos a : th t = Some x -> t_pc x = TUpd e pos -> the_acc (k_store k) (e, pos) = Some a ->
    lstep k th ru y (set_store k (put_cur (k_store k) e pos (t_val x))) (fup th t (with_pc x (TUpd e (S pos)))) ru y
| S_done t x e pos : th t = Some x -> t_pc x = TUpd e pos -> the_acc (k_store k) (e, pos) = None ->
    lstep k th ru y k (fup th t (with_pc x (TEnd Recorded))) ru y.
End local.

(** ** What holds in a collection *)
Definition ename (e : ent N) : nat * list kv := (en_inst e, en_set e).
Definition tname x : nat * list kv := (inst_of x, t_set x).
Definition active (f : pc N) : Prop := match f with TCheck => False | TEnd Recorded => True | TEnd _ => False | _ => True end.
Record cinv k (th : threads) (ru : runs) : Prop := {
  i_live : forall j, ru j = Some true <-> exists todo, k_phase k = KRun todo (Some j);
  i_run : forall t x, th t = Some x -> is_Some (ru (t_run x));
  i_lock : forall t, k_lock k = Thread t <-> exists x todo accs, th t = Some x /\ t_pc x = TMake todo accs;
  i_snap : k_lock k = Snapshot <-> exists todo pend, k_phase k = KSnap todo (Some pend);
  i_act : forall t x, th t = Some x -> active (t_pc x) -> compiled c vr (k_reader k) (inst_of x) <> [];
  i_make : forall t x todo accs, th t = Some x -> t_pc x = TMake todo accs ->
    map ac_view accs ++ todo = compiled c vr (k_reader k) (inst_of x) /\ tname x ∉ map ename (k_store k);
  i_dup : NoDup (map ename (k_store k));
  i_ent : forall e, e ∈ k_store k -> map ac_view (en_accs e) = compiled c vr (k_reader k) (en_inst e) /\ compiled c vr (k_reader k) (en_inst e) <> [];
  i_upd : forall t x e pos, th t = Some x -> t_pc x = TUpd e pos -> exists en, k_store k !! e = Some en /\ ename en = tname x;
  i_rec : forall t x, th t = Some x -> t_pc x = TEnd Recorded -> tname x ∈ map ename (k_store k);
  i_made : forall en, en ∈ k_store k -> exists t x, th t = Some x /\ tname x = ename en /\
    (t_pc x = TEnd Recorded \/ exists e pos, t_pc x = TUpd e pos)
}.

Lemma fup_same {A} (f : nat -> option A) n a : fup f n a n = Some a.
Proof. unfold fup. by rewrite Nat.eqb_refl. Qed.
Lemma fup_other {A} (f : nat -> option A) n a m : m <> n -> fup f n a m = f m.
Proof. unfold fup. intros H. by destruct (Nat.eqb_spec m n). Qed.
Lemma fup_Some {A} (f : nat -> option A) n a m b : fup f n a m = Some b -> m = n /\ b = a \/ m <> n /\ f m = Some b.
Proof. unfold fup. destruct (Nat.eqb_spec m n) as [->|H]; [intros [= ->]; by left|intros E; by right]. Qed.

Lemma find_entry_Some i z (es : list (ent N)) e : find_entry i z es = Some e -> exists en, es !! e = Some en /\ ename en = (i, z).
Proof.
  unfold find_entry. intros H. apply fmap_Some in H as ([e' en] & H & ->). apply list_find_Some in H as (H1 & [<- <-] & _). eauto.
Qed.
Lemma find_entry_None i z (es : list (ent N)) : find_entry i z es = None -> (i, z) ∉ map ename es.
Proof.
  unfold find_entry. intros H. apply fmap_None in H. apply list_find_None in H. intros (en & E & Hin)%elem_of_list_fmap.
  rewrite list.Forall_forall in H. apply (H en Hin). unfold ename in E. by injection E as -> ->.
Qed.
Lemma put_cur_names (es : list (ent N)) e pos n : map ename (put_cur es e pos n) = map ename es.
Proof.
  unfold put_cur. apply list_eq. intros m. change (map ename) with (fmap (M:=list) ename). rewrite !list_lookup_fmap.
  destruct (decide (m = e)) as [->|Hne]; [|by rewrite list_lookup_alter_ne by done].
  rewrite list_lookup_alter. by destruct (es !! e).
Qed.
Lemma alter_view (accs : list (acc N)) pos n : map ac_view (alter (fun a => Acc (ac_view a) (ac_cell a) n) pos accs) = map ac_view accs.
Proof.
  apply list_eq. intros m. change (map ac_view) with (fmap (M:=list) (ac_view (N:=N))). rewrite !list_lookup_fmap.
  destruct (decide (m = pos)) as [->|Hne]; [|by rewrite list_lookup_alter_ne by done].
  rewrite list_lookup_alter. by destruct (accs !! pos).
Qed.
Lemma put_cur_elem (es : list (ent N)) e pos n en : en ∈ put_cur es e pos n ->
  exists en', en' ∈ es /\ ename en = ename en' /\ map ac_view (en_accs en) = map ac_view (en_accs en').
Proof.
  intros (m & Hm)%elem_of_list_lookup. unfold put_cur in Hm. destruct (decide (m = e)) as [->|Hne].
  - rewrite list_lookup_alter in Hm. destruct (es !! e) as [y|] eqn:E; [|done]. injection Hm as <-.
    exists y. split; [by eapply elem_of_list_lookup_2|]. split; [done|]. cbn [en_accs]. apply alter_view.
  - rewrite list_lookup_alter_ne in Hm by done. exists en. split; [by eapply elem_of_list_lookup_2|done].
Qed.
Lemma put_cur_lookup (es : list (ent N)) e pos n m en : es !! m = Some en -> exists en', put_cur es e pos n !! m = Some en' /\ ename en' = ename en.
Proof.
  intros H. unfold put_cur. destruct (decide (m = e)) as [->|Hne].
  - rewrite list_lookup_alter, H. eexists. split; [done|done].
  - rewrite list_lookup_alter_ne by done. eauto.
Qed.
Lemma check_active p cb b x : active (check c vr decl p cb b x) -> compiled c vr p (inst_of x) <> [].
Proof.
  unfold check, active, inst_of. destruct b; [|done]. destruct (t_obj x) as [|i]; [done|].
  destruct (existsb _ _); [|done]. destruct (a_insts c !! i); [|done]. destruct (range_test _ _); [|done]. by destruct (compiled c vr p i).
Qed.
Lemma check_pc p cb b x : check c vr decl p cb b x = TLock /\ b = true \/ exists r, check c vr decl p cb b x = TEnd r /\ r <> Recorded.
Proof.
  unfold check. destruct b; [|right; eauto]. destruct (t_obj x) as [|i]; [right; eauto|].
  destruct (existsb _ _); [|right; eauto]. destruct (a_insts c !! i); [|right; eauto]. destruct (range_test _ _); [|right; eauto].
  destruct (compiled c vr p i); [right; eauto|by left].
Qed.

(** A step that changes the phase only, within or out of a phase without a run or snapshot in progress. *)
Lemma cinv_phase k th ru f : cinv k th ru -> (forall todo j, k_phase k <> KRun todo (Some j)) -> (forall todo pend, k_phase k <> KSnap todo (Some pend)) ->
  (forall todo j, f <> KRun todo (Some j)) -> (forall todo pend, f <> KSnap todo (Some pend)) -> cinv (set_phase k f) th ru.
Proof.
  intros [A B C D E F G H I J K] H1 H2 H3 H4. split; cbn; auto.
  - intros j. rewrite A. naive_solver.
  - rewrite D. naive_solver.
Qed.
Lemma cinv_thr k th ru t x f : cinv k th ru -> th t = Some x -> (forall todo accs, t_pc x <> TMake todo accs) -> (forall todo accs, f <> TMake todo accs) ->
  (active f -> compiled c vr (k_reader k) (inst_of x) <> []) -> (forall e pos, f = TUpd e pos -> exists en, k_store k !! e = Some en /\ ename en = tname x) ->
  (f = TEnd Recorded -> tname x ∈ map ename (k_store k)) -> (t_pc x = TEnd Recorded \/ (exists e pos, t_pc x = TUpd e pos) -> f = TEnd Recorded \/ exists e pos, f = TUpd e pos) ->
  cinv k (fup th t (with_pc x f)) ru.
Proof.
  intros [A B C D E F G H I J K] Hx H1 H2 H3 H4 H5 H6. split; auto.
  - intros t' x' [[-> ->]|[Hne Hx']]%fup_Some; cbn; eauto.
  - intros t'. rewrite C. split.
    + intros (x' & todo & accs & Hx' & Hp). exists x', todo, accs. split; [|done]. rewrite fup_other; [done|]. intros ->. rewrite Hx in Hx'. injection Hx' as ->. by apply H1 in Hp.
    + intros (x' & todo & accs & [[-> ->]|[Hne Hx']]%fup_Some & Hp); cbn in Hp; [by apply H2 in Hp|]. eauto.
  - intros t' x' [[-> ->]|[Hne Hx']]%fup_Some; cbn; eauto.
  - intros t' x' todo accs [[-> ->]|[Hne Hx']]%fup_Some; cbn; [intros Hp; by apply H2 in Hp|eauto].
  - intros t' x' e pos [[-> ->]|[Hne Hx']]%fup_Some; cbn; [apply H4|eauto].
  - intros t' x' [[-> ->]|[Hne Hx']]%fup_Some; cbn; [apply H5|eauto].
  - intros en Hen. destruct (K en Hen) as (t' & x' & Hx' & Hn & Hp). destruct (Nat.eq_dec t' t) as [->|Hne].
    + rewrite Hx in Hx'. injection Hx' as ->. exists t, (with_pc x' f). rewrite fup_same. split_and!; [done|done|]. cbn. by apply H6.
    + exists t', x'. by rewrite fup_other.
Qed.

Lemma cinv_step v w k th ru y k' th' ru' y' : cinv k th ru -> lstep v w k th ru y k' th' ru' y' -> cinv k' th' ru'.
Proof.
  intros I0 L. pose proof I0 as [A B C D E F G H I J K].
  destruct L as [cb todo j Hph Hru Hno|todo j Hph Hru|Hph|i todo Hph Hlk|todo pend n z a Hph Hz Ha|todo Hph|Hph|u todo pts Hph Hpts|Hph
    |t x b Hth Hru Hpc|t x cb b Hth Hpc Hru|t x e Hth Hpc Hlk Hfe|t x Hth Hpc Hlk Hfe|t x u todo accs h y1 Hth Hpc Hfs|t x accs Hth Hpc
    |t x e pos a Hth Hpc Ha|t x e pos Hth Hpc Ha].
  - (* call *) split; cbn; auto.
    + intros j'. unfold fup. destruct (Nat.eqb_spec j' j) as [->|Hne]; [naive_solver|]. rewrite A, Hph. split; intros (td & Q); [done|]. congruence.
    + intros t x Hx. rewrite fup_other; [eauto|]. by eapply Hno.
    + rewrite D, Hph. naive_solver.
  - (* return *) split; cbn; auto.
    + intros j'. unfold fup. destruct (Nat.eqb_spec j' j) as [->|Hne]; [naive_solver|]. rewrite A, Hph. split; intros (td & Q); congruence.
    + intros t x Hx. unfold fup. destruct (Nat.eqb _ _); eauto.
    + rewrite D, Hph. naive_solver.
  - apply cinv_phase; auto; rewrite ?Hph; done.
  - (* lock *) split; cbn; auto.
    + intros j. rewrite A, Hph. naive_solver.
    + intros t. rewrite <- C, Hlk. done.
    + naive_solver.
  - (* one *) split; cbn; auto.
    + intros j. rewrite A, Hph. naive_solver.
    + rewrite D, Hph. naive_solver.
  - (* unlock *) assert (Hs : k_lock k = Snapshot) by (apply D; eauto). split; cbn; auto.
    + intros j. rewrite A, Hph. naive_solver.
    + intros t. rewrite <- C, Hs. done.
    + naive_solver.
  - apply cinv_phase; auto; rewrite ?Hph; done.
  - (* collect *) split; cbn; auto.
    + intros j. rewrite A, Hph. naive_solver.
    + rewrite D, Hph. naive_solver.
  - apply cinv_phase; auto; rewrite ?Hph; done.
  - (* new *) split; auto.
    + intros t' x' [[-> ->]|[Hne Hx']]%fup_Some; eauto.
    + intros t'. rewrite C. split.
      * intros (x' & td & accs & Hx' & Hp). exists x', td, accs. split; [|done]. rewrite fup_other; [done|]. congruence.
      * intros (x' & td & accs & [[-> ->]|[Hne Hx']]%fup_Some & Hp); [congruence|eauto].
    + intros t' x' [[-> ->]|[Hne Hx']]%fup_Some; [by rewrite Hpc|eauto].
    + intros t' x' td accs [[-> ->]|[Hne Hx']]%fup_Some; [by rewrite Hpc|eauto].
    + intros t' x' e pos [[-> ->]|[Hne Hx']]%fup_Some; [by rewrite Hpc|eauto].
    + intros t' x' [[-> ->]|[Hne Hx']]%fup_Some; [by rewrite Hpc|eauto].
    + intros en Hen. destruct (K en Hen) as (t' & x' & Hx' & Hp). exists t', x'. rewrite fup_other; [done|]. congruence.
  - (* check *) pose proof (check_active (k_reader k) cb b x) as Hca. destruct (check_pc (k_reader k) cb b x) as [[Hc _]|(r & Hc & Hr)]; rewrite Hc in *.
    + apply cinv_thr; auto; rewrite ?Hpc; try done. intros [?|(? & ? & ?)]; done.
    + apply cinv_thr; auto; rewrite ?Hpc; try done; [congruence|]. intros [?|(? & ? & ?)]; done.
  - (* find *) destruct (find_entry_Some _ _ _ _ Hfe) as (en & Hen & Hn).
    apply cinv_thr; auto; rewrite ?Hpc; try done.
    + intros _. apply (E t x Hth). by rewrite Hpc.
    + intros e' pos [= -> <-]. eauto.
    + intros _. right. eauto.
  - (* make *) apply find_entry_None in Hfe. assert (Hact : compiled c vr (k_reader k) (inst_of x) <> []). { apply (E t x Hth). by rewrite Hpc. }
    split; cbn; auto.
    + intros t' x' [[-> ->]|[Hne Hx']]%fup_Some; cbn; eauto.
    + intros t'. split.
      * intros [= <-]. rewrite fup_same. eexists _, _, _. split; done.
      * intros (x' & td & accs & [[-> ->]|[Hne Hx']]%fup_Some & Hp); [done|]. assert (k_lock k = Thread t'); [|congruence]. apply C. eauto.
    + rewrite <- D, Hlk. done.
    + intros t' x' [[-> ->]|[Hne Hx']]%fup_Some; cbn; eauto.
    + intros t' x' td accs [[-> ->]|[Hne Hx']]%fup_Some; cbn; [|eauto]. intros [= <- <-]. done.
    + intros t' x' e pos [[-> ->]|[Hne Hx']]%fup_Some; cbn; [done|eauto].
    + intros t' x' [[-> ->]|[Hne Hx']]%fup_Some; cbn; [done|eauto].
    + intros en Hen. destruct (K en Hen) as (t' & x' & Hx' & Hn & Hp). exists t', x'. rewrite fup_other; [done|]. intros ->.
      rewrite Hth in Hx'. injection Hx' as <-. rewrite Hpc in Hp. naive_solver.
  - (* acc *) assert (Hact : compiled c vr (k_reader k) (inst_of x) <> []). { apply (E t x Hth). by rewrite Hpc. }
    destruct (F _ _ _ _ Hth Hpc) as [HF1 HF2]. split; cbn; auto.
    + intros t' x' [[-> ->]|[Hne Hx']]%fup_Some; cbn; eauto.
    + intros t'. rewrite C. split.
      * intros (x' & td & ac & Hx' & Hp). destruct (Nat.eq_dec t' t) as [->|Hne]; [rewrite fup_same|rewrite fup_other by done]; eauto 10.
      * intros (x' & td & ac & [[-> ->]|[Hne Hx']]%fup_Some & Hp); eauto.
    + intros t' x' [[-> ->]|[Hne Hx']]%fup_Some; cbn; eauto.
    + intros t' x' td ac [[-> ->]|[Hne Hx']]%fup_Some; cbn; [|eauto]. intros [= <- <-]. split; [|done].
      rewrite map_app, <- app_assoc. cbn. exact HF1.
    + intros t' x' e pos [[-> ->]|[Hne Hx']]%fup_Some; cbn; [done|eauto].
    + intros t' x' [[-> ->]|[Hne Hx']]%fup_Some; cbn; [done|eauto].
    + intros en Hen. destruct (K en Hen) as (t' & x' & Hx' & Hn & Hp). exists t', x'. rewrite fup_other; [done|]. intros ->.
      rewrite Hth in Hx'. injection Hx' as <-. rewrite Hpc in Hp. naive_solver.
  - (* add *) destruct (F _ _ _ _ Hth Hpc) as [HF1 HF2]. rewrite app_nil_r in HF1.
    assert (Hact : compiled c vr (k_reader k) (inst_of x) <> []). { apply (E t x Hth). by rewrite Hpc. }
    assert (Hown : k_lock k = Thread t) by (apply C; eauto).
    assert (Hothers : forall t' x' td ac, th t' = Some x' -> t_pc x' = TMake td ac -> t' = t).
    { intros t' x' td ac H1 H2. assert (k_lock k = Thread t') by (apply C; eauto). congruence. }
    split; cbn; auto.
    + intros t' x' [[-> ->]|[Hne Hx']]%fup_Some; cbn; eauto.
    + intros t'. split; [done|]. intros (x' & td & ac & [[-> ->]|[Hne Hx']]%fup_Some & Hp); [done|]. destruct Hne. by eapply Hothers.
    + rewrite <- D, Hown. done.
    + intros t' x' [[-> ->]|[Hne Hx']]%fup_Some; cbn; eauto.
    + intros t' x' td ac [[-> ->]|[Hne Hx']]%fup_Some; cbn; [done|]. intros Hp. destruct Hne. by eapply Hothers.
    + rewrite map_app. cbn. apply NoDup_app. split; [done|]. split; [|apply NoDup_singleton]. intros z Hz ->%elem_of_list_singleton. done.
    + intros e [He| ->%elem_of_list_singleton]%elem_of_app; [by apply H|]. cbn. by split.
    + intros t' x' e pos [[-> ->]|[Hne Hx']]%fup_Some; cbn.
      * intros [= <- <-]. exists (Ent (inst_of x) (t_set x) accs). split; [|done]. by apply list_lookup_middle.
      * intros Hp. destruct (I _ _ _ _ Hx' Hp) as (en & He & Hn). exists en. split; [|done]. by apply lookup_app_l_Some.
    + intros t' x' [[-> ->]|[Hne Hx']]%fup_Some; cbn; [done|]. intros Hp. rewrite map_app. apply elem_of_app. left. eauto.
    + intros en [He| ->%elem_of_list_singleton]%elem_of_app.
      * destruct (K en He) as (t' & x' & Hx' & Hn & Hp). exists t', x'. rewrite fup_other; [done|]. intros ->.
        rewrite Hth in Hx'. injection Hx' as <-. rewrite Hpc in Hp. naive_solver.
      * exists t, (with_pc x (TUpd (length (k_store k)) 0)). rewrite fup_same. split_and!; [done|done|]. right. eauto.
  - (* cur *) destruct (I _ _ _ _ Hth Hpc) as (en0 & Hen0 & Hn0).
    assert (cinv k (fup th t (with_pc x (TUpd e (S pos)))) ru) as [A' B' C' D' E' F' G' H' I' J' K'].
    { apply cinv_thr; auto; rewrite ?Hpc; try done.
      - intros _. apply (E t x Hth). by rewrite Hpc.
      - intros e' pos' [= <- <-]. eauto.
      - intros _. right. eauto. }
    split; cbn; rewrite ?put_cur_names; auto.
    + intros en (en' & H1 & H2 & H3)%put_cur_elem. assert (en_inst en = en_inst en') as ->. { unfold ename in H2. congruence. } rewrite H3. by apply H.
    + intros t' x' e' pos' H1 H2. destruct (I' _ _ _ _ H1 H2) as (en & H3 & H4).
      destruct (put_cur_lookup _ e pos (t_val x) _ _ H3) as (en' & H5 & H6). exists en'. split; [done|]. congruence.
    + intros en (en' & H1 & H2 & H3)%put_cur_elem. rewrite H2. by apply K'.
  - (* done *) destruct (I _ _ _ _ Hth Hpc) as (en0 & Hen0 & Hn0). apply cinv_thr; auto; rewrite ?Hpc; try done.
    + intros _. apply (E t x Hth). by rewrite Hpc.
    + intros _. rewrite <- Hn0. apply elem_of_list_fmap. exists en0. split; [done|]. by eapply elem_of_list_lookup_2.
Qed.
Lemma cinv_ext k th ru th' ru' : cinv k th ru -> (forall t, th' t = th t) -> (forall j, ru' j = ru j) -> cinv k th' ru'.
Proof.
  intros [A B C D E F G H I J K] Ht Hr. split; auto.
  - intros j. rewrite Hr. apply A.
  - intros t x. rewrite Ht, Hr. apply B.
  - intros t. rewrite C. split; intros (x & td & ac & H1 & H2); exists x, td, ac; [rewrite Ht|rewrite Ht in H1]; done.
  - intros t x. rewrite Ht. apply E.
  - intros t x td ac. rewrite Ht. apply F.
  - intros t x e pos. rewrite Ht. apply I.
  - intros t x. rewrite Ht. apply J.
  - intros en Hen. destruct (K _ Hen) as (t' & x' & Hx' & Hn). exists t', x'. by rewrite Ht.
Qed.
Lemma cinv_init p cbs : cinv (Coll p (KRun cbs None) Free [] []) (fun _ => None) (fun _ => None).
Proof.
  split; cbn; try done.
  - intros j. split; [done|]. intros (td & ?). done.
  - intros t. split; [done|]. intros (? & ? & ? & ? & _). done.
  - split; [done|]. intros (? & ? & ?). done.
  - apply NoDup_nil_2.
  - by intros e ?%elem_of_nil.
  - by intros e ?%elem_of_nil.
Qed.
End conc.
