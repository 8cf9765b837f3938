(** More proofs for C62: what the callbacks of a collection recorded, and when a collection panics. *)
From Coq Require Import ZArith Bool String Lia.
From stdpp Require Import base list option strings.
From Verif Require Import Lib Num Agg Attr Async AsyncSpec AsyncProofs AsyncRun AsyncHist Inst InstSpec InstProofs.

Lemma bind_eq {A B} (f g : A -> list B) (l : list A) : (forall t x, l !! t = Some x -> f x = g x) -> l ≫= f = l ≫= g.
Proof.
  induction l as [|y l IH]; intros H; [done|]. cbn. f_equal; [apply (H 0%nat); done|]. apply IH. intros t x Hx. apply (H (S t)). done.
Qed.
Lemma omap_zip_eq {A A' B C} (h : A -> A') (F : A' * B -> option C) (G : A * B -> option C) s res :
  (forall n a x, s !! n = Some a -> res !! n = Some x -> F (h a, x) = G (a, x)) -> omap F (zip (map h s) res) = omap G (zip s res).
Proof.
  revert res. induction s as [|a s IH]; intros [|x res] H; try done. cbn. rewrite (H 0%nat a x) by done.
  rewrite (IH res); [done|]. intros n b y Hb Hy. apply (H (S n)); done.
Qed.

Section more.
Context {N : arith} (c : acfg).
Implicit Types (st : ist (N:=N)) (l : list (iop (N:=N))) (rs : list (ires (N:=N))).

Lemma find_owner l rs st r : sim c l rs st -> (snd <$> find (fun p : nat * nat => Nat.eqb p.1 r) (made l rs)) = owner (i_origin st) r.
Proof.
  intros S. unfold owner. destruct (find _ _) as [[r' i]|] eqn:E.
  - apply List.find_some in E as [Hi E]. cbn in E. apply Nat.eqb_eq in E as ->. apply elem_of_list_In in Hi.
    apply (s_made _ _ _ _ S) in Hi as [b ->]. done.
  - cbn. destruct (i_origin st !! r) as [[|i b]|] eqn:O; try done. exfalso.
    assert (H : (r, i) ∈ made l rs) by (apply (s_made _ _ _ _ S); eauto). apply elem_of_list_In in H.
    pose proof (List.find_none _ _ E _ H) as Q. cbn in Q. by rewrite Nat.eqb_refl in Q.
Qed.
(** A collection of the program is one of the meter. *)
Lemma collect_as l rs st order script st' o : sim c l rs st -> iexec c st (ICollect order script) = Some (st', IRCollected o) ->
  exists os mrs script', base c os mrs st /\ (forall r, unregistered c os r <-> r ∈ taken l rs) /\
    mexec c (i_m st) (OCollect order script') = (i_m st', RCollect o) /\
    script' = (fun cb => map (through (i_origin st) (i_table st ++ m_cbs (i_m st)) cb) (script cb)) /\
    map fst (co_ran o) = m_cbs (i_m st).
Proof.
  intros [(os & mrs & B & U) _ _ _] E. cbn [iexec] in E. destruct (existsb _ _); [done|].
  destruct (collect_for c order _ (i_m st)) as [m o'] eqn:Ec. simplify_eq. eexists os, mrs, _. split_and!; [done|done| |done|].
  - cbn [mexec]. rewrite Ec. done.
  - exact (collect_ran_len _ _ _ _ _ _ Ec).
Qed.
Lemma answer_is os mrs m order script m' o t r res n a x : mrun (N:=N) c (m_init c) os = (m, mrs) ->
  mexec c m (OCollect order script) = (m', RCollect o) -> co_ran o !! t = Some (r, res) ->
  script r !! n = Some a -> res !! n = Some x ->
  let j := (runs_before mrs + t)%nat in m_cbs m !! t = Some r /\ x = verdict c j (replicate j None ++ [Some r]) (declared c os) a.
Proof.
  intros Hrun E Ht Ha Hx j. rewrite (collect_ran _ _ _ _ _ _ E) in Ht. destruct (reached_run _ _ _ _ Hrun) as [(R1 & R2 & R3 & R4 & R5) Rr _ _].
  destruct (m_cbs m !! t) as [cb|] eqn:Hcb.
  2: { assert (Hf : map fst (answers c (m_cbs m) script (m_runs m) (m_decl m)) !! t = Some r). { rewrite list_lookup_fmap, Ht. done. }
       rewrite answers_fst in Hf. congruence. }
  rewrite (answers_lookup c _ _ _ _ _ _ Hcb) in Ht. injection Ht as -> <-. split; [done|].
  rewrite list_lookup_fmap, Ha in Hx. cbn in Hx. injection Hx as <-.
  rewrite Rr, replicate_length. fold j. rewrite R1.
  assert (Hruns : replicate (runs_before mrs) None ++ replicate t None ++ [Some r] = replicate j None ++ [Some r]). { rewrite app_assoc. by rewrite <- replicate_add. }
  by rewrite Hruns.
Qed.
Lemma verdict_other j r decl a : default j (at_cs a) <> j -> verdict (N:=N) c j (replicate j None ++ [Some r]) decl a = AfterReturn.
Proof.
  intros H. unfold verdict. destruct (decide (default j (at_cs a) < j)%nat).
  - rewrite lookup_app_l by (by rewrite replicate_length). rewrite lookup_replicate_2 by done. done.
  - rewrite lookup_ge_None_2; [done|]. rewrite app_length, replicate_length. cbn. lia.
Qed.
Lemma verdict_mine j r decl a : default j (at_cs a) = j -> verdict (N:=N) c j (replicate j None ++ [Some r]) decl a =
  match at_obj a with
  | Foreign => NotSDK
  | Inst i => if existsb (Nat.eqb i) (default [] (decl !! r)) then
      match a_insts c !! i with
      | Some inst => if range_test (at_val a) (ai_kind inst) then match ai_views inst with [] => Disabled | _ => Recorded end else OutOfRange
      | None => NotSDK
      end else NotDeclared
  end.
Proof. intros H. unfold verdict. rewrite H, lookup_app_r, replicate_length, Nat.sub_diag by (by rewrite replicate_length). done. Qed.
Lemma through_cs og runs r (a : attempt (N:=N)) : at_cs (through og runs r a) = at_cs a.
Proof. unfold through. by destruct (_ ≫= _). Qed.
Lemma through_mine og runs r (a : attempt (N:=N)) j : default j (at_cs a) = j -> runs !! j = Some r ->
  through og runs r a = match owner og r with Some i => Attempt (at_cs a) (Inst i) (at_val a) (at_attrs a) | None => a end.
Proof.
  intros H Hr. unfold through. destruct (at_cs a) as [k|]; cbn in H |- *; [subst k; rewrite Hr; cbn|]; done.
Qed.
Lemma runs_at st os mrs t r : base c os mrs st -> m_cbs (i_m st) !! t = Some r ->
  (i_table st ++ m_cbs (i_m st)) !! (runs_before mrs + t)%nat = Some r.
Proof. intros [_ _ _ _ B5] H. rewrite lookup_app_r by lia. rewrite B5. replace (runs_before mrs + t - runs_before mrs)%nat with t by lia. done. Qed.

Lemma said_recorded l rs st order script st' o : sim c l rs st -> iexec c st (ICollect order script) = Some (st', IRCollected o) ->
  exists os mrs script', mrun c (m_init c) os = (i_m st, mrs) /\ mexec c (i_m st) (OCollect order script') = (i_m st', RCollect o) /\
    recorded c script' (co_ran o) = said c (made l rs) script (co_ran o).
Proof.
  intros S E. destruct (collect_as _ _ _ _ _ _ _ S E) as (os & mrs & script' & B & U & E' & Es & F). exists os, mrs, script'.
  split; [apply B|]. split; [done|]. unfold recorded, said. apply bind_eq. intros t [r res] Ht. cbn [fst snd].
  assert (Er : script' r = map (through (i_origin st) (i_table st ++ m_cbs (i_m st)) r) (script r)) by (by rewrite Es).
  rewrite (find_owner _ _ _ r S), Er. apply omap_zip_eq. intros n a x Ha Hx.
  assert (Ha' : script' r !! n = Some (through (i_origin st) (i_table st ++ m_cbs (i_m st)) r a)) by (rewrite Er, list_lookup_fmap, Ha; done).
  destruct (answer_is _ _ _ _ _ _ _ _ _ _ _ _ _ (b_run _ _ _ _ B) E' Ht Ha' Hx) as [Hc Hv]. cbv zeta in Hv.
  set (j := (runs_before mrs + t)%nat) in *. destruct (decide (default j (at_cs a) = j)) as [Hj|Hj].
  - rewrite (through_mine _ _ _ _ j Hj (runs_at _ _ _ _ _ B Hc)) in *. destruct (owner (i_origin st) r) as [i|]; destruct a as [cs [|k] v at0]; destruct x; done.
  - rewrite verdict_other in Hv by (by rewrite through_cs). subst x. destruct (through _ _ _ _) as [? [|?] ? ?]; cbn; by destruct a as [? [|?] ? ?], (owner (i_origin st) r).
Qed.

(** ** Panics *)
Definition has_nil l : Prop := exists i fs, ICreate i fs ∈ l /\ of_meter c i /\ false ∈ fs.
Lemma has_nil_snoc l o : has_nil (l ++ [o]) <-> has_nil l \/ exists i fs, o = ICreate i fs /\ of_meter c i /\ false ∈ fs.
Proof.
  unfold has_nil. split.
  - intros (i & fs & [H|H%elem_of_list_singleton]%elem_of_app & R); [left; eauto|right; eauto].
  - intros [(i & fs & H & R)|(i & fs & -> & R)]; exists i, fs; rewrite elem_of_app, elem_of_list_singleton; auto.
Qed.
Lemma nil_origin l st rs : irun c (i_init c) l = Some (st, rs) -> has_nil l <-> exists r i, i_origin st !! r = Some (ByCreation i true).
Proof.
  revert st rs. induction l as [|o l IH] using rev_ind; intros st rs E.
  - cbn in E. simplify_eq. split; [by intros (? & ? & []%elem_of_nil & _)|by intros (? & ? & ?)].
  - apply irun_snoc in E as (st1 & rs1 & r & R & E & ->). specialize (IH _ _ R). rewrite has_nil_snoc, IH.
    pose proof (sim_run _ _ _ _ R) as [(os & mrs & B & _) _ _ _]. clear IH R. destruct o as [i fs|objs f|x|order script|a]; cbn [iexec] in E.
    + destruct (register_callbacks c i fs st1) as [st2 ids] eqn:Er. simplify_eq. destruct (new_own c i) as [[O _]|[O _]].
      * destruct (register_callbacks_base c os mrs st1 i fs B O) as (_ & _ & _ & _ & _ & O' & _). rewrite Er in O'. cbn [fst] in O'. rewrite O'. split.
        -- intros [(r & k & H)|(k & fs' & [= <- <-] & _ & Hf)]; [exists r, k; by apply lookup_app_l_Some|].
           apply elem_of_list_lookup in Hf as [n Hn]. exists (length (i_origin st1) + n)%nat, i.
           rewrite lookup_app_r by lia. replace (length (i_origin st1) + n - length (i_origin st1))%nat with n by lia. rewrite list_lookup_fmap, Hn. done.
        -- intros (r & k & [H|[_ H]]%lookup_app_Some); [left; eauto|right]. rewrite list_lookup_fmap in H.
           destruct (fs !! _) as [f|] eqn:Hf; [|done]. cbn in H. injection H as -> Hf'. destruct f; [done|]. exists k, fs. split_and!; [done|done|].
           by eapply elem_of_list_lookup_2.
      * rewrite (register_callbacks_none c st1 i fs O) in Er. simplify_eq. naive_solver.
    + destruct (register c objs f (i_m st1)) as [m [cb|]]; simplify_eq; cbn [i_origin].
      * split; [intros [(r & k & H)|(k & fs' & ? & _)]; [exists r, k; by apply lookup_app_l_Some|done]|].
        intros (r & k & [H|[_ H]]%lookup_app_Some); [left; eauto|]. by destruct (r - length (i_origin st1))%nat.
      * naive_solver.
    + destruct (existsb _ _); [destruct (unregister x (i_m st1)) as [m b]|]; simplify_eq; cbn [i_origin]; naive_solver.
    + destruct (existsb _ _); [done|]. destruct (collect_for c order _ (i_m st1)) as [m o]. simplify_eq. cbn [i_origin]. naive_solver.
    + destruct (mexec c (i_m st1) _) as [m [| | |x]]; simplify_eq; cbn [i_origin]; naive_solver.
Qed.
Lemma register_callbacks_table st i fs : i_table (register_callbacks c i fs st).1 = i_table st.
Proof.
  revert st. induction fs as [|f fs IH]; intros st; [done|]. cbn [register_callbacks]. destruct (register c [Inst i] true (i_m st)) as [m [cb|]].
  - match goal with |- context [register_callbacks c i fs ?s] => specialize (IH s); destruct (register_callbacks c i fs s) end. exact IH.
  - rewrite IH. done.
Qed.
Lemma table_length l st rs : irun c (i_init c) l = Some (st, rs) -> length (i_table st) = runs_so_far rs.
Proof.
  revert st rs. induction l as [|o l IH] using rev_ind; intros st rs E; [cbn in E; by simplify_eq|].
  apply irun_snoc in E as (st1 & rs1 & r & R & E & ->). specialize (IH _ _ R). unfold runs_so_far in *. rewrite map_app, list_sum_app, <- IH.
  cbn [map list_sum foldr]. destruct o as [i fs|objs f|x|order script|a]; cbn [iexec] in E.
  - pose proof (register_callbacks_table st1 i fs) as T. destruct (register_callbacks c i fs st1) as [st2 ids]. simplify_eq. cbn in *. rewrite T. lia.
  - destruct (register c objs f (i_m st1)) as [m [cb|]]; simplify_eq; cbn; lia.
  - destruct (existsb _ _); [destruct (unregister x (i_m st1)) as [m b]|]; simplify_eq; cbn; lia.
  - destruct (existsb _ _); [done|]. destruct (collect_for c order _ (i_m st1)) as [m o] eqn:Ec. simplify_eq. cbn [i_table].
    rewrite app_length, <- (collect_ran_len _ _ _ _ _ _ Ec), map_length. lia.
  - destruct (mexec c (i_m st1) _) as [m [| | |x]]; simplify_eq; cbn; lia.
Qed.
(** The callbacks in the meter's list. *)
Lemma cbs_are l rs st r : sim c l rs st -> r ∈ m_cbs (i_m st) <-> (exists i, (r, i) ∈ made l rs) \/ r ∈ given l rs /\ r ∉ taken l rs.
Proof.
  intros [(os & mrs & B & U) M G T]. destruct (reached_run _ _ _ _ (b_run _ _ _ _ B)) as [(R1 & R2 & R3 & R4 & R5) _ _ _].
  rewrite R5, G, <- U. setoid_rewrite M. split.
  - intros Hr. assert (Hn : ~ unregistered c os r) by (destruct (R3 _ _ Hr) as [[_ ?]|[? _]]; done).
    apply lookup_lt_Some in Hr. rewrite R2, <- (b_len _ _ _ _ B) in Hr. apply lookup_lt_is_Some in Hr as [[|i b] Ho]; [right|left; eauto].
    split; [|done]. by apply (b_handles _ _ _ _ B).
  - intros H. assert (exists og, i_origin st !! r = Some og /\ ~ unregistered c os r) as (og & Ho & Hn).
    { destruct H as [(i & b & H)|[H1 H2]].
      - exists (ByCreation i b). split; [done|]. rewrite U. intros Ht%T. apply (b_handles _ _ _ _ B) in Ht. congruence.
      - apply (b_handles _ _ _ _ B) in H1. eauto. }
    apply lookup_lt_Some in Ho. rewrite (b_len _ _ _ _ B), <- R2 in Ho. apply lookup_lt_is_Some in Ho as [y Hy]. destruct (R3 _ _ Hy) as [[-> _]|[_ ?]]; done.
Qed.
Lemma panics_iff l st rs order script : irun c (i_init c) l = Some (st, rs) -> iexec c st (ICollect order script) = None <-> has_nil l.
Proof.
  intros R. rewrite (nil_origin _ _ _ R). pose proof (sim_run _ _ _ _ R) as S. cbn [iexec].
  assert (X : existsb (panics (i_origin st)) (m_cbs (i_m st)) = true <-> exists r i, i_origin st !! r = Some (ByCreation i true)).
  { rewrite existsb_exists. split.
    - intros (r & _ & H). unfold panics in H. destruct (i_origin st !! r) as [[|i b]|] eqn:E; try done. subst b. eauto.
    - intros (r & i & H). exists r. unfold panics. rewrite H. split; [|done]. apply elem_of_list_In. apply (cbs_are _ _ _ _ S). left. exists i.
      apply (s_made _ _ _ _ S). eauto. }
  destruct (existsb _ _) eqn:Eb; [by rewrite <- X|]. destruct (collect_for c order _ (i_m st)) as [m o]. split; [done|]. intros H. by apply X in H.
Qed.
End more.
