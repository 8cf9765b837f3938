(** What a collection has put into its output, whatever else goes on: an invariant of Conc, for C71. *)
From Coq Require Import ZArith Bool String Lia.
From stdpp Require Import base list option strings.
From Verif Require Import Num Agg Attr Async Conc ConcSpec ConcInv ConcKeys.
Local Open Scope nat_scope.

Section out.
Context {N : arith} (c : acfg) (vr : nat -> nat) (decl : list (list nat)).

(** Once the callbacks and the snapshot are over, the views of the reader are collected one after another. *)
Definition out_at (k : coll N) : Prop :=
  match k_phase k with
  | KRun _ _ | KSnap _ _ => k_out k = []
  | KColl todo => map fst (k_out k) ++ todo = collectors c vr (k_reader k)
  | KDone => map fst (k_out k) = collectors c vr (k_reader k)
  end.
Definition oinv (s : cst N) : Prop := forall q k, s_colls s !! q = Some k -> out_at k.
Lemma oinv_coll q k s : oinv s -> out_at k -> oinv (put_coll q k s).
Proof. intros I A q' k' H. cbn in H. apply list_lookup_insert_Some in H as [(-> & -> & _)|[_ H]]; [done|by eapply I]. Qed.
Lemma oinv_same q k k' s : oinv s -> s_colls s !! q = Some k -> k_phase k' = k_phase k -> k_out k' = k_out k -> k_reader k' = k_reader k -> oinv (put_coll q k' s).
Proof. intros I H E1 E2 E3. apply oinv_coll; [done|]. pose proof (I _ _ H) as X. unfold out_at in *. by rewrite E1, E2, E3. Qed.
Lemma oinv_colls s s' : oinv s -> s_colls s' = s_colls s -> oinv s'.
Proof. intros I E q k. rewrite E. apply I. Qed.
Lemma oinv_pc t f s : oinv s -> oinv (put_pc t f s).
Proof. intros I. unfold put_pc. by destruct (s_thr s !! t). Qed.
Lemma oinv_exec s a s' : oinv s -> exec c vr decl s a = Some s' -> oinv s'.
Proof.
  intros I E. destruct a as [p cbs|j x n l|q n|t]; cbn [exec] in E.
  - injection E as <-. intros q k H. cbn in H. apply lookup_app_Some in H as [H|[_ H]]; [by eapply I|]. apply list_lookup_singleton_Some in H as [_ <-]. done.
  - destruct (s_runs s !! j); [|done]. injection E as <-. exact I.
  - unfold go in E. destruct (s_colls s !! q) as [k|] eqn:K; [|done]. cbn [mbind option_bind] in E. pose proof (I _ _ K) as O. unfold out_at in O.
    destruct (k_phase k) as [todo [j|]|todo [pend|]|todo|] eqn:F.
    + assert (E' : (r ← s_runs s !! j; Some (put_coll q (set_phase k (KRun todo None)) (put_run j (Run (r_coll r) (r_cb r) false) s))) = Some s') by (by destruct todo).
      clear E. destruct (s_runs s !! j) as [r|]; [|done]. injection E' as <-. apply oinv_coll; [exact I|exact O].
    + destruct todo as [|cb todo]; injection E as <-; (apply oinv_coll; [exact I|exact O]).
    + assert (E' : match pend with [] => Some (put_coll q (set_lock (set_phase k (KSnap todo None)) Free) s)
        | _ => x ← pend !! n; a ← the_acc (k_store k) x; Some (put_coll q (set_phase k (KSnap todo (Some (delete n pend)))) (process c a s)) end = Some s') by (by destruct todo).
      clear E. destruct pend as [|p pend]; [injection E' as <-; apply oinv_coll; [exact I|exact O]|]. destruct ((p :: pend) !! n) as [z|]; [|done]. cbn [mbind option_bind] in E'.
      destruct (the_acc (k_store k) z) as [a|]; [|done]. injection E' as <-. apply oinv_coll; [|exact O]. by apply (oinv_colls s); [|apply process_colls].
    + destruct todo as [|i todo].
      * injection E as <-. apply oinv_coll; [exact I|]. unfold out_at. cbn. by rewrite O.
      * destruct (k_lock k); try done. injection E as <-. apply oinv_coll; [exact I|exact O].
    + destruct todo as [|v todo]; [injection E as <-; apply oinv_coll; [exact I|]; unfold out_at; cbn; by rewrite app_nil_r in O|].
      destruct (s_views s !! v) as [y|]; [|done]. cbn [mbind option_bind] in E. destruct (a_views c !! v) as [w|]; [|done]. cbn [mbind option_bind] in E.
      destruct (collect_cells w y) as [pts y']. injection E as <-. apply oinv_coll; [exact I|]. unfold out_at. cbn. rewrite map_app. cbn. by rewrite <- app_assoc.
    + done.
  - unfold step in E. destruct (s_thr s !! t) as [x|] eqn:X; [|done]. cbn [mbind option_bind] in E. destruct (s_runs s !! t_run x) as [r|]; [|done]. cbn [mbind option_bind] in E.
    destruct (s_colls s !! r_coll r) as [k|] eqn:K; [|done]. cbn [mbind option_bind] in E. destruct (t_pc x) as [| |[|v todo] accs|e pos|res].
    + injection E as <-. by apply oinv_pc.
    + destruct (k_lock k); try done. destruct (find_entry _ _ _); injection E as <-; [by apply oinv_pc|]. apply oinv_pc. by eapply oinv_same.
    + injection E as <-. apply oinv_pc. by eapply oinv_same.
    + destruct (s_views s !! v) as [y|]; [|done]. cbn [mbind option_bind] in E. destruct (a_views c !! v) as [w|]; [|done]. cbn [mbind option_bind] in E.
      destruct (find_storage _ _ y) as [y' h]. injection E as <-. apply oinv_pc. exact I.
    + destruct (the_acc _ _); injection E as <-; [|by apply oinv_pc]. apply oinv_pc. by eapply oinv_same.
    + done.
Qed.
Lemma oinv_reached tr s : reached c vr decl tr s -> oinv s.
Proof.
  revert s. induction tr as [|a tr IH] using rev_ind; intros s R.
  - injection R as <-. intros q k H. done.
  - apply reached_snoc in R as (s0 & R & E). eapply oinv_exec; [by apply IH|exact E].
Qed.
(** Views that occur once in a list of outputs have one report. *)
Lemma one_report (k : coll N) v : NoDup (map fst (k_out k)) -> v ∈ map fst (k_out k) -> exists pts, reports k v = [pts].
Proof.
  unfold reports. induction (k_out k) as [|[u p] l IH]; cbn [map fst]; intros ND X; [by apply elem_of_nil in X|]. apply list.NoDup_cons in ND as [N1 N2]. cbn [List.filter fst].
  destruct (Nat.eqb_spec u v) as [->|NE].
  - exists p. cbn [map snd]. f_equal. clear IH N2 X. induction l as [|[u' p'] l IH]; [done|]. cbn [List.filter fst map] in *. apply not_elem_of_cons in N1 as [N1 N2].
    destruct (Nat.eqb_spec u' v) as [->|_]; [done|by apply IH].
  - apply elem_of_cons in X as [X|X]; [by subst|]. by apply IH.
Qed.
End out.
