(** What is true of the attributes of all observations is true of the attributes of all points: an invariant of Conc. *)
From Coq Require Import ZArith Bool String Lia.
From stdpp Require Import base list option strings.
From Verif Require Import Num Agg Attr Async Conc ConcSpec ConcInv.
Local Open Scope nat_scope.

Section keys.
Context {N : arith} (c : acfg) (vr : nat -> nat) (decl : list (list nat)).
Context (P Q : list kv -> Prop).
Notation collectors := (collectors c vr).

Record kinv (s : cst N) : Prop := {
  ki_thr : forall t x, s_thr s !! t = Some x -> P (t_set x);
  ki_views : forall v y e, s_views s !! v = Some y -> e ∈ w_data y ++ w_prior y -> Q e.1;
  ki_out : forall q k o, s_colls s !! q = Some k -> o ∈ k_out k -> o.1 ∈ collectors (k_reader k) /\ forall e, e ∈ o.2 -> Q e.1;
  ki_todo : forall q k todo v, s_colls s !! q = Some k -> k_phase k = KColl todo -> v ∈ todo -> v ∈ collectors (k_reader k)
}.
Lemma kinv_coll q k s : kinv s -> (forall o, o ∈ k_out k -> o.1 ∈ collectors (k_reader k) /\ forall e, e ∈ o.2 -> Q e.1) ->
  (forall todo v, k_phase k = KColl todo -> v ∈ todo -> v ∈ collectors (k_reader k)) -> kinv (put_coll q k s).
Proof.
  intros [I1 I2 I3 I4] A B. constructor; [done|done| |]; cbn.
  - intros q' k' o H. apply list_lookup_insert_Some in H as [(-> & -> & _)|[_ H]]; [apply A|by eapply I3].
  - intros q' k' todo v H. apply list_lookup_insert_Some in H as [(-> & -> & _)|[_ H]]; [apply B|by eapply I4].
Qed.
Lemma kinv_same q k k' s : kinv s -> s_colls s !! q = Some k -> k_reader k' = k_reader k -> k_out k' = k_out k ->
  (forall todo, k_phase k' = KColl todo -> k_phase k = KColl todo) -> kinv (put_coll q k' s).
Proof.
  intros I H R O F. apply kinv_coll; [done| |].
  - intros o. rewrite R, O. by eapply ki_out.
  - intros todo v E. rewrite R. eapply ki_todo; [done|done|by apply F].
Qed.
Lemma kinv_view v y s : kinv s -> (forall e, e ∈ w_data y ++ w_prior y -> Q e.1) -> kinv (put_view v y s).
Proof.
  intros [I1 I2 I3 I4] A. constructor; [done| |done|done]. cbn. intros v' y' e H. apply list_lookup_insert_Some in H as [(-> & -> & _)|[_ H]]; [apply A|by eapply I2].
Qed.
Lemma kinv_run j r s : kinv s -> kinv (put_run j r s).
Proof. intros [I1 I2 I3 I4]. by constructor. Qed.
Lemma kinv_pc t f s : kinv s -> kinv (put_pc t f s).
Proof.
  intros [I1 I2 I3 I4]. unfold put_pc. destruct (s_thr s !! t) as [x|] eqn:E; [|by constructor]. constructor; [|done|done|done]. cbn.
  intros t' x' H. apply list_lookup_insert_Some in H as [(-> & <- & _)|[_ H]]; [cbn; by eapply I1|by eapply I1].
Qed.
Lemma put_pc_colls t f (s : cst N) : s_colls (put_pc t f s) = s_colls s.
Proof. unfold put_pc. by destruct (s_thr s !! t). Qed.

Lemma find_keys lim k (y : vw N) : Q k -> Q overflow_set -> (forall e, e ∈ w_data y ++ w_prior y -> Q e.1) ->
  forall e, e ∈ w_data (find_storage lim k y).1 ++ w_prior (find_storage lim k y).1 -> Q e.1.
Proof.
  intros QK QO A. assert (M : forall k', Q k' -> forall e, e ∈ w_data (make_cell k' y).1 ++ w_prior (make_cell k' y).1 -> Q e.1).
  { intros k' Qk e. cbn. rewrite !elem_of_app, elem_of_list_singleton. intros [[H | ->]|H]; [|done|]; apply A; rewrite elem_of_app; auto. }
  unfold find_storage. repeat (case_match; try done); try (by apply A); try (by apply M).
Qed.
Lemma cell_in k (l : list (list kv * nat)) h : cell k l = Some h -> (k, h) ∈ l.
Proof.
  unfold cell. destruct (find _ l) as [[k' h']|] eqn:F; [|done]. cbn. intros E. injection E as <-. apply find_some in F as [F1 F2]. cbn in F2. apply bool_decide_eq_true in F2 as <-.
  by apply elem_of_list_In.
Qed.
Lemma collect_keys w (y : vw N) : (forall e, e ∈ w_data y ++ w_prior y -> Q e.1) ->
  (forall e, e ∈ (collect_cells w y).1 -> Q e.1) /\ forall e, e ∈ w_data (collect_cells w y).2 ++ w_prior (collect_cells w y).2 -> Q e.1.
Proof.
  intros A. assert (D : forall e, e ∈ values y (w_data y) -> Q e.1).
  { intros e H. unfold values in H. change (map ?f ?l) with (f <$> l) in H. apply elem_of_list_fmap in H as (p & -> & H). cbn. apply A. apply elem_of_app. by left. }
  assert (Pt : forall e, e ∈ (collect_view w (VSt (values y (w_data y)) (values y (w_prior y)))).1 -> Q e.1).
  { intros e. unfold collect_view. cbn [d_data d_prior]. destruct (stateful w); cbn; [|by apply D]. intros H. apply elem_of_list_omap in H as (p & H & E).
    destruct (get p.1 _) as [old|]; [|injection E as <-; by apply D]. destruct (negb _); [|done]. injection E as <-. cbn. by apply D. }
  unfold collect_cells. destruct (stateful w).
  - destruct (cell overflow_set (w_data y)) as [h|] eqn:E; cbn; (split; [exact Pt|]).
    + intros e H. apply elem_of_cons in H as [-> | H]; [|apply A, elem_of_app; by left]. cbn. apply cell_in in E. apply (A (overflow_set, h)). apply elem_of_app. by left.
    + intros e H. apply A, elem_of_app. by left.
  - cbn. split; [exact Pt|]. intros e H. apply A, elem_of_app. by right.
Qed.
Lemma process_kinv a s : kinv s -> kinv (process c a s).
Proof.
  intros I. unfold process. destruct (s_views s !! ac_view a) as [y|] eqn:E; [|done]. destruct (a_views c !! ac_view a); [|done]. apply kinv_view; [done|]. cbn.
  intros e H. by eapply ki_views.
Qed.
Lemma process_colls a (s : cst N) : s_colls (process c a s) = s_colls s.
Proof. unfold process. destruct (s_views s !! ac_view a); [|done]. by destruct (a_views c !! ac_view a). Qed.

Lemma kinv_exec s a s' : Q overflow_set -> (forall w k, P k -> Q (view_key w k)) -> kinv s ->
  (forall j x n l, a = LObserve j x n l -> P (obs_set c l)) -> exec c vr decl s a = Some s' -> kinv s'.
Proof.
  intros QO QK I T E. destruct a as [p cbs|j x n l|q n|t]; cbn [exec] in E.
  - injection E as <-. destruct I as [I1 I2 I3 I4]. constructor; [done|done| |]; cbn.
    + intros q k o H. apply lookup_app_Some in H as [H|[_ H]]; [by eapply I3|]. apply list_lookup_singleton_Some in H as [_ <-]. cbn. intros X. by apply elem_of_nil in X.
    + intros q k todo v H. apply lookup_app_Some in H as [H|[_ H]]; [by eapply I4|]. apply list_lookup_singleton_Some in H as [_ <-]. done.
  - destruct (s_runs s !! j); [|done]. injection E as <-. destruct I as [I1 I2 I3 I4]. constructor; [|done|done|done]. cbn.
    intros t y H. apply lookup_app_Some in H as [H|[_ H]]; [by eapply I1|]. apply list_lookup_singleton_Some in H as [_ <-]. cbn. by eapply T.
  - unfold go in E. destruct (s_colls s !! q) as [k|] eqn:K; [|done]. cbn [mbind option_bind] in E. destruct (k_phase k) as [todo [j|]|todo [pend|]|todo|] eqn:F.
    + assert (E' : (r ← s_runs s !! j; Some (put_coll q (set_phase k (KRun todo None)) (put_run j (Run (r_coll r) (r_cb r) false) s))) = Some s') by (by destruct todo).
      clear E. destruct (s_runs s !! j) as [r|]; [|done]. injection E' as <-. by eapply kinv_same; [apply kinv_run|exact K|..].
    + destruct todo as [|cb todo]; injection E as <-; [by eapply kinv_same|]. eapply (kinv_same q k); [|exact K|done|done|done]. destruct I as [I1 I2 I3 I4]. by constructor.
    + assert (E' : match pend with [] => Some (put_coll q (set_lock (set_phase k (KSnap todo None)) Free) s)
        | _ => x ← pend !! n; a ← the_acc (k_store k) x; Some (put_coll q (set_phase k (KSnap todo (Some (delete n pend)))) (process c a s)) end = Some s') by (by destruct todo).
      clear E. destruct pend as [|p pend]; [injection E' as <-; by eapply kinv_same|]. destruct ((p :: pend) !! n) as [z|]; [|done]. cbn [mbind option_bind] in E'.
      destruct (the_acc (k_store k) z) as [a|]; [|done]. injection E' as <-. eapply (kinv_same q k); [by apply process_kinv|by rewrite process_colls|done|done|done].
    + destruct todo as [|i todo].
      * injection E as <-. apply kinv_coll; [done| |]; cbn.
        -- intros o. by eapply ki_out.
        -- intros todo v X. by injection X as <-.
      * destruct (k_lock k); try done. injection E as <-. by eapply kinv_same.
    + destruct todo as [|v todo]; [injection E as <-; by eapply kinv_same|]. destruct (s_views s !! v) as [y|] eqn:Y; [|done]. cbn [mbind option_bind] in E.
      destruct (a_views c !! v) as [w|]; [|done]. cbn [mbind option_bind] in E.
      destruct (collect_keys w y (fun e => ki_views _ I v y e Y)) as [C1 C2]. destruct (collect_cells w y) as [pts y'] eqn:CC. cbn in C1, C2. injection E as <-.
      apply kinv_coll; [by apply kinv_view| |]; cbn.
      * intros o X. apply elem_of_app in X as [X|X]; [by eapply ki_out|]. apply elem_of_list_singleton in X as ->. cbn. split; [|done]. eapply ki_todo; [done|done|exact F|left].
      * intros todo' u X Hu. injection X as <-. eapply ki_todo; [done|done|exact F|by right].
    + done.
  - unfold step in E. destruct (s_thr s !! t) as [x|] eqn:X; [|done]. cbn [mbind option_bind] in E. destruct (s_runs s !! t_run x) as [r|]; [|done]. cbn [mbind option_bind] in E.
    destruct (s_colls s !! r_coll r) as [k|] eqn:K; [|done]. cbn [mbind option_bind] in E. destruct (t_pc x) as [| |[|v todo] accs|e pos|res].
    + injection E as <-. by apply kinv_pc.
    + destruct (k_lock k); try done. destruct (find_entry _ _ _); injection E as <-; [by apply kinv_pc|]. apply kinv_pc. by eapply kinv_same.
    + injection E as <-. apply kinv_pc. by eapply kinv_same.
    + destruct (s_views s !! v) as [y|] eqn:Y; [|done]. cbn [mbind option_bind] in E. destruct (a_views c !! v) as [w|]; [|done]. cbn [mbind option_bind] in E.
      pose proof (find_keys (av_limit w) (view_key w (t_set x)) y (QK w _ (ki_thr _ I t x X)) QO (fun e => ki_views _ I v y e Y)) as FK.
      destruct (find_storage _ _ y) as [y' h]. injection E as <-. apply kinv_pc. by apply kinv_view.
    + destruct (the_acc _ _); injection E as <-; [|by apply kinv_pc]. apply kinv_pc. by eapply kinv_same.
    + done.
Qed.
Lemma kinv_reached tr s : Q overflow_set -> (forall w k, P k -> Q (view_key w k)) ->
  (forall j x n l, LObserve j x n l ∈ tr -> P (obs_set c l)) -> reached c vr decl tr s -> kinv s.
Proof.
  intros QO QK. revert s. induction tr as [|a tr IH] using rev_ind; intros s T R.
  - injection R as <-. constructor; cbn; try done. intros v y e H. unfold c_init in H. cbn in H. change (map ?f ?l) with (f <$> l) in H. rewrite list_lookup_fmap in H.
    destruct (a_views c !! v); [|done]. injection H as <-. cbn. intros X. by apply elem_of_nil in X.
  - apply reached_snoc in R as (s0 & R & E). eapply kinv_exec; [done|done|apply IH; [|exact R]| |exact E].
    + intros j x n l H. apply (T j x n). apply elem_of_app. by left.
    + intros j x n l ->. apply (T j x n). apply elem_of_app. right. left.
Qed.
End keys.
