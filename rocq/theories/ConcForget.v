(** C71: attribute sets that are no longer observed are released from memory. *)
From Coq Require Import ZArith Bool String Lia.
From stdpp Require Import base list option strings.
From Verif Require Import Num Agg Attr Async Conc ConcSpec ConcStep ConcInv ConcKeys ConcProps ConcMem ConcOut ConcMemProps.
Local Open Scope nat_scope.

Section forget.
Context {N : arith} (c : acfg) (vr : nat -> nat) (decl : list (list nat)) (v : nat) (w : aview) (key : list kv) (n0 : nat).
Context (Hw : a_views c !! v = Some w) (Hkey : key <> overflow_set).

(** Collection [q], begun after the first [n0], has collected the view. *)
Definition past (s : cst N) (q : nat) : Prop := n0 <= q /\ exists k, s_colls s !! q = Some k /\ v ∈ map fst (k_out k).
Definition forgot (s : cst N) : Prop := forall y, s_views s !! v = Some y ->
  ((exists q, past s q) -> key ∉ map fst (w_data y)) /\ (stateful w = true -> (exists q q', q <> q' /\ past s q /\ past s q') -> key ∉ map fst (w_prior y)).
(** A step that neither collects the view nor puts the attribute set into it. *)
Definition tame (s s' : cst N) : Prop := (forall q, past s' q -> past s q) /\
  forall y', s_views s' !! v = Some y' -> exists y, s_views s !! v = Some y /\ (key ∈ map fst (w_data y') -> key ∈ map fst (w_data y)) /\ (key ∈ map fst (w_prior y') -> key ∈ map fst (w_prior y)).
Lemma tame_refl s : tame s s.
Proof. split; [done|]. intros y Y. by exists y. Qed.
Lemma tame_trans s1 s2 s3 : tame s1 s2 -> tame s2 s3 -> tame s1 s3.
Proof.
  intros [A B] [A' B']. split; [auto|]. intros y3 Y3. destruct (B' _ Y3) as (y2 & Y2 & D2 & P2). destruct (B _ Y2) as (y1 & Y1 & D1 & P1). exists y1. auto.
Qed.
Lemma forgot_tame s s' : forgot s -> tame s s' -> forgot s'.
Proof.
  intros F [A B] y' Y'. destruct (B _ Y') as (y & Y & D & P). destruct (F y Y) as [F1 F2]. split.
  - intros (q & Q) X. apply F1; [by exists q; apply A|by apply D].
  - intros ST (q & q' & NE & Q & Q') X. apply F2; [done| |by apply P]. exists q, q'. auto.
Qed.
Lemma tame_coll q k k' s : s_colls s !! q = Some k -> (v ∈ map fst (k_out k') -> v ∈ map fst (k_out k)) -> tame s (put_coll q k' s).
Proof.
  intros K O. split; [|intros y Y; by exists y]. intros q' (L & k2 & H & X). split; [done|]. cbn in H. apply list_lookup_insert_Some in H as [(-> & -> & _)|[_ H]]; [exists k; auto|by exists k2].
Qed.
Lemma tame_same q k k' s : s_colls s !! q = Some k -> k_out k' = k_out k -> tame s (put_coll q k' s).
Proof. intros K E. apply (tame_coll q k); [done|by rewrite E]. Qed.
Lemma tame_view u y y' s : s_views s !! u = Some y -> (u = v -> (key ∈ map fst (w_data y') -> key ∈ map fst (w_data y)) /\ (key ∈ map fst (w_prior y') -> key ∈ map fst (w_prior y))) ->
  tame s (put_view u y' s).
Proof.
  intros Y A. split; [done|]. intros y2 H. cbn in H. apply list_lookup_insert_Some in H as [(-> & -> & _)|[_ H]]; [|by exists y2]. exists y. split; [done|by apply A].
Qed.
Lemma tame_pc t f s : tame s (put_pc t f s).
Proof. unfold put_pc. destruct (s_thr s !! t); [|apply tame_refl]. split; [done|]. intros y Y. by exists y. Qed.
Lemma tame_process a s : tame s (process c a s).
Proof.
  unfold process. destruct (s_views s !! ac_view a) as [y|] eqn:E; [|apply tame_refl]. destruct (a_views c !! ac_view a) as [w'|]; [|apply tame_refl].
  apply (tame_view _ y); [done|]. by intros _.
Qed.
Lemma find_other lim k (y : vw N) : k <> key -> key ∈ map fst (w_data (find_storage lim k y).1) -> key ∈ map fst (w_data y).
Proof.
  intros NE. assert (M : forall k', k' <> key -> key ∈ map fst (w_data (make_cell k' y).1) -> key ∈ map fst (w_data y)).
  { intros k' NE' X. unfold make_cell in X. cbn in X. rewrite map_app in X. apply elem_of_app in X as [X|X]; [done|]. cbn in X. apply elem_of_list_singleton in X. by subst. }
  unfold find_storage. repeat (case_match; try done); apply M; auto.
Qed.
Lemma forgot_exec s a s' : (forall t x, a = LStep t -> s_thr s !! t = Some x -> view_key w (t_set x) <> key) -> forgot s -> exec c vr decl s a = Some s' -> forgot s'.
Proof.
  intros T F E. destruct a as [p cbs|j x n l|q n|t]; cbn [exec] in E.
  - injection E as <-. apply (forgot_tame s); [done|]. split; [|intros y Y; by exists y]. intros q (L & k & H & X). cbn in H. apply lookup_app_Some in H as [H|[_ H]]; [split; [done|by exists k]|].
    apply list_lookup_singleton_Some in H as [_ <-]. by apply elem_of_nil in X.
  - destruct (s_runs s !! j); [|done]. injection E as <-. apply (forgot_tame s); [done|]. split; [done|]. intros y Y. by exists y.
  - unfold go in E. destruct (s_colls s !! q) as [k|] eqn:K; [|done]. cbn [mbind option_bind] in E.
    destruct (k_phase k) as [todo [j|]|todo [pend|]|todo|] eqn:P.
    + assert (E' : (r ← s_runs s !! j; Some (put_coll q (set_phase k (KRun todo None)) (put_run j (Run (r_coll r) (r_cb r) false) s))) = Some s') by (by destruct todo).
      clear E. destruct (s_runs s !! j) as [r|]; [|done]. injection E' as <-. apply (forgot_tame s); [done|].
      apply (tame_trans _ (put_run j (Run (r_coll r) (r_cb r) false) s)); [split; [done|]; intros y Y; by exists y|]. by apply (tame_same q k).
    + destruct todo as [|cb todo]; injection E as <-; (apply (forgot_tame s); [done|]); [by apply (tame_same q k)|].
      match goal with |- tame s (put_coll q ?kk ?s1) => apply (tame_trans _ s1); [split; [done|]; intros y Y; by exists y|by apply (tame_same q k)] end.
    + assert (E' : match pend with [] => Some (put_coll q (set_lock (set_phase k (KSnap todo None)) Free) s)
        | _ => x ← pend !! n; a ← the_acc (k_store k) x; Some (put_coll q (set_phase k (KSnap todo (Some (delete n pend)))) (process c a s)) end = Some s') by (by destruct todo).
      clear E. destruct pend as [|p pend]; [injection E' as <-; apply (forgot_tame s); [done|]; by apply (tame_same q k)|]. destruct ((p :: pend) !! n) as [z|]; [|done].
      cbn [mbind option_bind] in E'. destruct (the_acc (k_store k) z) as [a|]; [|done]. injection E' as <-. apply (forgot_tame s); [done|].
      apply (tame_trans _ (process c a s)); [apply tame_process|]. apply (tame_same q k); [by rewrite process_colls|done].
    + destruct todo as [|i todo].
      * injection E as <-. apply (forgot_tame s); [done|]. by apply (tame_same q k).
      * destruct (k_lock k); try done. injection E as <-. apply (forgot_tame s); [done|]. by apply (tame_same q k).
    + destruct todo as [|u todo]; [injection E as <-; apply (forgot_tame s); [done|]; by apply (tame_same q k)|].
      destruct (s_views s !! u) as [y|] eqn:Y; [|done]. cbn [mbind option_bind] in E. destruct (a_views c !! u) as [w'|] eqn:W; [|done]. cbn [mbind option_bind] in E.
      destruct (collect_cells w' y) as [pts y'] eqn:C. injection E as <-. destruct (decide (u = v)) as [->|NE].
      * assert (w' = w) as -> by congruence. assert (D : key ∉ map fst (w_data y') /\ (stateful w = true -> w_prior y' = w_data y)).
        { unfold collect_cells in C. destruct (stateful w); [destruct (cell overflow_set (w_data y))|]; injection C as <- <-; cbn; (split; [|done]);
            [intros X; by apply elem_of_list_singleton in X|apply not_elem_of_nil|apply not_elem_of_nil]. }
        destruct D as [D1 D2]. intros y2 Y2. cbn in Y2. rewrite list_lookup_insert in Y2 by (by eapply lookup_lt_Some). injection Y2 as <-. split; [done|].
        intros ST (q1 & q2 & NE & Q1 & Q2). rewrite (D2 ST). apply (F y Y).
        assert (B : forall q', q' <> q -> past (put_coll q (Coll (k_reader k) (KColl todo) (k_lock k) (k_store k) (k_out k ++ [(v, pts)])) (put_view v y' s)) q' -> past s q').
        { intros q' NQ (L & k2 & H & X). cbn in H. rewrite list_lookup_insert_ne in H by done. split; [done|by exists k2]. }
        destruct (decide (q1 = q)) as [->|N1]; [exists q2; apply B; auto|exists q1; apply B; auto].
      * apply (forgot_tame s); [done|]. apply (tame_trans _ (put_view u y' s)); [by apply (tame_view u y)|]. apply (tame_coll q k); [done|]. cbn. rewrite map_app. cbn.
        intros X. apply elem_of_app in X as [X|X]; [done|]. apply elem_of_list_singleton in X. by subst.
    + done.
  - unfold step in E. destruct (s_thr s !! t) as [x|] eqn:X; [|done]. cbn [mbind option_bind] in E. destruct (s_runs s !! t_run x) as [r|]; [|done]. cbn [mbind option_bind] in E.
    destruct (s_colls s !! r_coll r) as [k|] eqn:K; [|done]. cbn [mbind option_bind] in E. apply (forgot_tame s); [done|]. destruct (t_pc x) as [| |[|u todo] accs|e pos|res].
    + injection E as <-. apply tame_pc.
    + destruct (k_lock k); try done. destruct (find_entry _ _ _); injection E as <-; [apply tame_pc|]. eapply tame_trans; [|apply tame_pc]. by eapply tame_same.
    + injection E as <-. eapply tame_trans; [|apply tame_pc]. by eapply tame_same.
    + destruct (s_views s !! u) as [y|] eqn:Y; [|done]. cbn [mbind option_bind] in E. destruct (a_views c !! u) as [w'|] eqn:W; [|done]. cbn [mbind option_bind] in E.
      pose proof (find_other (av_limit w') (view_key w' (t_set x)) y) as FO. pose proof (find_prior (av_limit w') (view_key w' (t_set x)) y) as FP.
      destruct (find_storage _ _ y) as [y' h]. cbn [fst] in FO, FP. injection E as <-. eapply tame_trans; [|apply tame_pc]. apply (tame_view u y); [done|].
      intros ->. assert (w' = w) as -> by congruence. rewrite FP. split; [|done]. apply FO. by eapply T.
    + destruct (the_acc _ _); injection E as <-; [|apply tame_pc]. eapply tame_trans; [|apply tame_pc]. by eapply tame_same.
    + done.
Qed.
Lemma forgot_run tr1 tr2 s1 s2 : reached c vr decl tr1 s1 -> execs c vr decl s1 tr2 = Some s2 -> forgot s1 ->
  (forall t x, LStep t ∈ tr2 -> s_thr s2 !! t = Some x -> view_key w (t_set x) <> key) -> forgot s2.
Proof.
  revert tr1 s1. induction tr2 as [|a tr2 IH]; intros tr1 s1 R X F T; [by injection X as <-|]. pose proof X as X0. cbn in X. destruct (exec c vr decl s1 a) as [s|] eqn:E; cbn in X; [|done].
  assert (R' : reached c vr decl (tr1 ++ [a]) s) by (apply reached_snoc; eauto).
  apply (IH _ _ R' X); [|intros t x Ht; apply T; by right]. eapply forgot_exec; [|exact F|exact E]. intros t x -> Hx.
  destruct (kept_run c vr decl v w tr1 (LStep t :: tr2) s1 s2 Hw R X0) as (_ & KT & _). destruct (KT _ _ Hx) as (x' & Hx' & _ & O & _).
  unfold obs_of in O. injection O as _ O _. rewrite <- O. apply (T t x'); [by left|done].
Qed.
End forget.

(** An attribute set, other than the overflow set, of which no call takes a step any more: when one collection has begun and ended since, the view no longer
    holds it for the next report; when two have, a delta view has no memory of it at all, so nothing of it counts in InMemorySize.  Other calls and
    collections go on as they like. *)
Theorem C71_forgotten : forall (N : arith) c vr decl tr1 tr2 (s1 s2 : cst N) v w y key q k,
  reached c vr decl tr1 s1 -> execs c vr decl s1 tr2 = Some s2 -> a_views c !! v = Some w -> s_views s2 !! v = Some y -> key <> overflow_set ->
  (forall t x, LStep t ∈ tr2 -> s_thr s2 !! t = Some x -> view_key w (t_set x) <> key) ->
  length (s_colls s1) <= q -> s_colls s2 !! q = Some k -> k_reader k = vr v -> k_phase k = KDone ->
  key ∉ map fst (w_data y) /\
  forall q' k', q' <> q -> length (s_colls s1) <= q' -> s_colls s2 !! q' = Some k' -> k_reader k' = vr v -> k_phase k' = KDone -> stateful w = true -> key ∉ map fst (w_prior y).
Proof.
  intros N c vr decl tr1 tr2 s1 s2 v w y key q k R X W Y NE T L K RD D.
  assert (R2 : reached c vr decl (tr1 ++ tr2) s2) by (unfold reached; rewrite execs_app, R; exact X).
  assert (F : forgot v w key (length (s_colls s1)) s2).
  { eapply (forgot_run c vr decl v w key _ W NE tr1 tr2 s1 s2 R X); [|exact T]. intros y1 _. split.
    - intros (q1 & L1 & k1 & K1 & _). apply lookup_lt_Some in K1. lia.
    - intros _ (q1 & _ & _ & (L1 & k1 & K1 & _) & _). apply lookup_lt_Some in K1. lia. }
  assert (PA : forall q k, length (s_colls s1) <= q -> s_colls s2 !! q = Some k -> k_reader k = vr v -> k_phase k = KDone -> past v (length (s_colls s1)) s2 q).
  { intros q1 k1 L1 K1 RD1 D1. split; [done|]. exists k1. split; [done|]. pose proof (oinv_reached c vr decl _ _ R2 q1 k1 K1) as O. unfold out_at in O. rewrite D1 in O. rewrite O.
    apply elem_of_list_In, filter_In. split; [|by apply Nat.eqb_eq]. apply in_seq. apply lookup_lt_Some in W. lia. }
  destruct (F y Y) as [F1 F2]. split; [apply F1; exists q; by eapply PA|]. intros q' k' NQ L' K' RD' D' ST. apply F2; [done|]. exists q', q. split; [done|]. split; by eapply PA.
Qed.

Section stays.
Context {N : arith} (c : acfg) (vr : nat -> nat) (decl : list (list nat)) (v : nat) (w : aview).
Context (Hw : a_views c !! v = Some w) (Hst : stateful w = true).
Definition stays (s : cst N) : Prop := forall y, s_views s !! v = Some y -> overflow_set ∈ map fst (w_data y).
Lemma stays_view u y y' s : s_views s !! u = Some y -> (u = v -> overflow_set ∈ map fst (w_data y) -> overflow_set ∈ map fst (w_data y')) -> stays s -> stays (put_view u y' s).
Proof. intros Y A F y2 H. cbn in H. apply list_lookup_insert_Some in H as [(-> & -> & _)|[_ H]]; [|by apply F]. apply A; [done|by apply F]. Qed.
Lemma stays_views s s' : s_views s' = s_views s -> stays s -> stays s'.
Proof. intros E F y. rewrite E. apply F. Qed.
Lemma stays_pc t f s : stays s -> stays (put_pc t f s).
Proof. intros F. unfold put_pc. by destruct (s_thr s !! t). Qed.
Lemma stays_process a s : stays s -> stays (process c a s).
Proof.
  intros F. unfold process. destruct (s_views s !! ac_view a) as [y|] eqn:E; [|done]. destruct (a_views c !! ac_view a) as [w'|]; [|done]. by apply (stays_view _ y).
Qed.
Lemma find_more lim k (y : vw N) key : key ∈ map fst (w_data y) -> key ∈ map fst (w_data (find_storage lim k y).1).
Proof.
  intros X. assert (M : forall k', key ∈ map fst (w_data (make_cell k' y).1)) by (intros k'; unfold make_cell; cbn; rewrite map_app; apply elem_of_app; by left).
  unfold find_storage. repeat (case_match; try done); apply M.
Qed.
Lemma stays_exec s a s' : stays s -> exec c vr decl s a = Some s' -> stays s'.
Proof.
  intros F E. destruct a as [p cbs|j x n l|q n|t]; cbn [exec] in E.
  - injection E as <-. exact F.
  - destruct (s_runs s !! j); [|done]. injection E as <-. exact F.
  - unfold go in E. destruct (s_colls s !! q) as [k|] eqn:K; [|done]. cbn [mbind option_bind] in E. destruct (k_phase k) as [todo [j|]|todo [pend|]|todo|] eqn:P.
    + assert (E' : (r ← s_runs s !! j; Some (put_coll q (set_phase k (KRun todo None)) (put_run j (Run (r_coll r) (r_cb r) false) s))) = Some s') by (by destruct todo).
      clear E. destruct (s_runs s !! j) as [r|]; [|done]. injection E' as <-. exact F.
    + destruct todo as [|cb todo]; injection E as <-; exact F.
    + assert (E' : match pend with [] => Some (put_coll q (set_lock (set_phase k (KSnap todo None)) Free) s)
        | _ => x ← pend !! n; a ← the_acc (k_store k) x; Some (put_coll q (set_phase k (KSnap todo (Some (delete n pend)))) (process c a s)) end = Some s') by (by destruct todo).
      clear E. destruct pend as [|p pend]; [injection E' as <-; exact F|]. destruct ((p :: pend) !! n) as [z|]; [|done].
      cbn [mbind option_bind] in E'. destruct (the_acc (k_store k) z) as [a|]; [|done]. injection E' as <-. apply (stays_views (process c a s)); [done|by apply stays_process].
    + destruct todo as [|i todo]; [injection E as <-; exact F|]. destruct (k_lock k); try done. injection E as <-. exact F.
    + destruct todo as [|u todo]; [injection E as <-; exact F|].
      destruct (s_views s !! u) as [y|] eqn:Y; [|done]. cbn [mbind option_bind] in E. destruct (a_views c !! u) as [w'|] eqn:W; [|done]. cbn [mbind option_bind] in E.
      destruct (collect_cells w' y) as [pts y'] eqn:C. injection E as <-. apply (stays_views (put_view u y' s)); [done|]. apply (stays_view u y); [done| |done].
      intros -> X. assert (w' = w) as -> by congruence. unfold collect_cells in C. rewrite Hst in C. destruct (cell overflow_set (w_data y)) as [h|] eqn:O; [|by destruct (cell_none _ _ O X)].
      injection C as <- <-. cbn. by apply elem_of_list_singleton.
    + done.
  - unfold step in E. destruct (s_thr s !! t) as [x|] eqn:X; [|done]. cbn [mbind option_bind] in E. destruct (s_runs s !! t_run x) as [r|]; [|done]. cbn [mbind option_bind] in E.
    destruct (s_colls s !! r_coll r) as [k|] eqn:K; [|done]. cbn [mbind option_bind] in E. destruct (t_pc x) as [| |[|u todo] accs|e pos|res].
    + injection E as <-. by apply stays_pc.
    + destruct (k_lock k); try done. destruct (find_entry _ _ _); injection E as <-; by apply stays_pc.
    + injection E as <-. by apply stays_pc.
    + destruct (s_views s !! u) as [y|] eqn:Y; [|done]. cbn [mbind option_bind] in E. destruct (a_views c !! u) as [w'|] eqn:W; [|done]. cbn [mbind option_bind] in E.
      pose proof (find_more (av_limit w') (view_key w' (t_set x)) y overflow_set) as FM. destruct (find_storage _ _ y) as [y' h]. cbn [fst] in FM. injection E as <-.
      apply stays_pc, (stays_view u y); [done|by intros _|done].
    + destruct (the_acc _ _); injection E as <-; by apply stays_pc.
    + done.
Qed.
End stays.
(** The overflow set is the exception: once a delta view holds it for the next report, it does so for ever. *)
Theorem C71_overflow_stays : forall (N : arith) c vr decl tr (s1 s2 : cst N) v w y1 y2, a_views c !! v = Some w -> stateful w = true ->
  execs c vr decl s1 tr = Some s2 -> s_views s1 !! v = Some y1 -> overflow_set ∈ map fst (w_data y1) -> s_views s2 !! v = Some y2 -> overflow_set ∈ map fst (w_data y2).
Proof.
  intros N c vr decl tr s1 s2 v w y1 y2 W ST X Y1 O Y2. assert (S1 : stays v s1) by (intros y Y; congruence). clear Y1 O. enough (S2 : stays v s2) by (by apply S2).
  clear Y2. revert s1 X S1. induction tr as [|a tr IH]; intros s1 X S1; [by injection X as <-|]. cbn in X. destruct (exec c vr decl s1 a) as [s|] eqn:E; cbn in X; [|done].
  apply (IH s X). by eapply stays_exec.
Qed.
(** In the history of [Ex71] a delta view gets the overflow set, and has it in the end. *)
Module Ex71o.
Import Ex63 Ex71.
Definition held (s : cst Int64) : list (list (list kv)) := map (fun y => map fst (w_data y)) (s_views s).
Definition s1 : cst Int64 := default (c_init c) (execs c vr decl (c_init c) (take 33 tr)).
Example with_overflow : held s1 = [[A; overflow_set]; [A; overflow_set]]. Proof. vm_compute. reflexivity. Qed.
Example still : option_map held (execs c vr decl s1 (drop 33 tr)) = Some [[D]; [overflow_set; D]]. Proof. vm_compute. reflexivity. Qed.
Example stays_case s2 y1 y2 := fun X Y1 O Y2 => C71_overflow_stays Int64 c vr decl (drop 33 tr) s1 s2 1 w1 y1 y2 (proj1 hyps) eq_refl X Y1 O Y2.
End Ex71o.

(** A is observed in collection 0 only; collections 1 and 2 observe B.  View 2 has delta temporality. *)
Module Ex71f.
Import Ex63.
Definition one (q t : nat) (l : list kv) : list (label (N:=Int64)) := [LBegin 0 [0]; LGo q 0; obs1 q 5 l] ++ steps t 10 ++ gos q 12.
Definition tr1 : list (label (N:=Int64)) := one 0 0 A.
Definition tr2 : list (label (N:=Int64)) := one 1 1 B ++ one 2 2 B.
Definition w2 : aview := AView true false None 3.
Definition held (s : cst Int64) := (map (fun y => (map fst (w_data y), map fst (w_prior y))) (s_views s), map (fun k => (k_reader k, match k_phase k with KDone => true | _ => false end)) (s_colls s), numbers s).
Definition s1 : cst Int64 := default (c_init c) (execs c vr decl (c_init c) tr1).
Definition s2 : cst Int64 := default (c_init c) (execs c vr decl s1 tr2).
(** After collection 0 a delta view holds A; after the others it does not. *)
Example held1 : held s1 = ([([], []); ([], []); ([], [A]); ([], [])], [(0, true)], [(A, 5%Z)]).
Proof. vm_compute. reflexivity. Qed.
Example held2 : held s2 = ([([], []); ([], []); ([], [B]); ([], [])], [(0, true); (0, true); (0, true)], [(A, 5%Z); (B, 5%Z); (B, 5%Z)]).
Proof. vm_compute. reflexivity. Qed.
Definition made {X} (o : option X) : bool := match o with Some _ => true | None => false end.
Lemma of_made {X} (o : option X) d : made o = true -> o = Some (default d o).
Proof. by destruct o. Qed.
Example run1 : reached c vr decl tr1 s1. Proof. unfold reached, s1. apply of_made. vm_compute. reflexivity. Qed.
Example run2 : execs c vr decl s1 tr2 = Some s2. Proof. unfold s2. apply of_made. vm_compute. reflexivity. Qed.
Definition otherb (s : cst Int64) (a : label (N:=Int64)) : bool :=
  match a with LStep t => match s_thr s !! t with Some x => negb (bool_decide (view_key w2 (t_set x) = A)) | None => true end | _ => true end.
Lemma others_of s tr : forallb (otherb s) tr = true -> forall t x, LStep t ∈ tr -> s_thr s !! t = Some x -> view_key w2 (t_set x) <> A.
Proof.
  intros H t x Ht Hx. rewrite forallb_forall in H. apply elem_of_list_In in Ht. specialize (H _ Ht).
  unfold otherb in H. rewrite Hx in H. apply negb_true_iff in H. by apply bool_decide_eq_false in H.
Qed.
Example others : forallb (otherb s2) tr2 = true. Proof. vm_compute. reflexivity. Qed.
Definition overb (s : cst Int64) (q : nat) : bool := match s_colls s !! q with Some k => Nat.eqb (k_reader k) 0 && match k_phase k with KDone => true | _ => false end | None => false end.
Lemma over_of s q : overb s q = true -> exists k, s_colls s !! q = Some k /\ k_reader k = vr 2 /\ k_phase k = KDone.
Proof. unfold overb. destruct (s_colls s !! q) as [k|]; [|done]. intros [H1 H2]%andb_true_iff. exists k. split; [reflexivity|]. split; [by apply Nat.eqb_eq in H1|by destruct (k_phase k)]. Qed.
Example over1 : overb s2 1 = true. Proof. vm_compute. reflexivity. Qed.
Example over2 : overb s2 2 = true. Proof. vm_compute. reflexivity. Qed.
Example begun : length (s_colls s1) = 1. Proof. vm_compute. reflexivity. Qed.
Example small_hyps : a_views c !! 2 = Some w2 /\ A <> overflow_set /\ stateful w2 = true.
Proof. split; [reflexivity|]. split; [discriminate|reflexivity]. Qed.
Example forgotten_case y : s_views s2 !! 2 = Some y -> A ∉ map fst (w_data y) /\ A ∉ map fst (w_prior y).
Proof.
  intros Y. destruct (over_of s2 1 over1) as (k & K & R & D). destruct (over_of s2 2 over2) as (k' & K' & R' & D'). destruct small_hyps as (W & NE & ST).
  assert (L1 : length (s_colls s1) <= 1) by (rewrite begun; lia). assert (L2 : length (s_colls s1) <= 2) by (rewrite begun; lia).
  destruct (C71_forgotten Int64 c vr decl tr1 tr2 s1 s2 2 w2 y A 1 k run1 run2 W Y NE (others_of s2 tr2 others) L1 K R D) as [F1 F2]. split; [exact F1|].
  exact (F2 2 k' ltac:(discriminate) L2 K' R' D' ST).
Qed.
End Ex71f.
Print Assumptions C71_forgotten.
Print Assumptions C71_overflow_stays.
