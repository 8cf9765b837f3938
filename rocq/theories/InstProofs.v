(** Proofs for C62. *)
From Coq Require Import ZArith Bool String Lia.
From stdpp Require Import base list option strings.
From Verif Require Import Lib Num Agg Attr Async AsyncSpec AsyncProofs AsyncRun AsyncHist Inst InstSpec.

Section proofs.
Context {N : arith} (c : acfg).
Implicit Types (st : ist (N:=N)) (l : list (iop (N:=N))) (rs : list (ires (N:=N))).

Record base (os : list (mop (N:=N))) (mrs : list (mres (N:=N))) st : Prop := {
  b_run : mrun c (m_init c) os = (i_m st, mrs);
  b_len : length (i_origin st) = length (registered_ids c os);
  b_own : forall r i b, i_origin st !! r = Some (ByCreation i b) -> declared c os !! r = Some [i];
  b_handles : forall r, r ∈ i_handles st <-> i_origin st !! r = Some ByRegister;
  b_table : length (i_table st) = runs_before mrs
}.
Lemma registered_nodup (os : list (mop (N:=N))) : length (m_decl (mrun c (m_init c) os).1) = length (registered_ids c os).
Proof.
  destruct (mrun c (m_init c) os) as [m rs] eqn:E. destruct (reached_run _ _ _ _ E) as [(R1 & _) _ _ _]. cbn. by rewrite R1, declared_length.
Qed.
Lemma runs_before_snoc (mrs : list (mres (N:=N))) r : runs_before (mrs ++ [r]) =
  (runs_before mrs + match r with RCollect o => length (co_ran o) | _ => 0 end)%nat.
Proof. unfold runs_before. rewrite map_app, list_sum_app. cbn. lia. Qed.

(** One successful registration. *)
Lemma base_register os mrs st objs f ds og hs : base os mrs st -> new_callback c objs f = Some ds ->
  (og = ByRegister /\ hs = i_handles st ++ [length (i_origin st)] \/ (exists i b, og = ByCreation i b /\ objs = [Inst i]) /\ hs = i_handles st) ->
  exists m mrs', register c objs f (i_m st) = (m, Some (length (i_origin st))) /\ m_cbs m = m_cbs (i_m st) ++ [length (i_origin st)] /\
    base (os ++ [ORegister objs f]) mrs' (ISt m (i_origin st ++ [og]) (i_table st) hs).
Proof.
  intros [B1 B2 B3 B4 B5] E Ho. pose proof (registered_nodup os) as Ln. rewrite B1 in Ln. cbn in Ln.
  unfold register. rewrite E, Ln, <- B2. eexists _, _. split; [reflexivity|]. split; [reflexivity|]. split; cbn [i_m i_origin i_table i_handles].
  - rewrite (mrun_snoc _ _ _ _ _ _ B1). cbn [mexec]. unfold register. rewrite E, Ln, <- B2. reflexivity.
  - rewrite registered_snoc, bool_decide_eq_true_2 by (by rewrite E). rewrite !app_length, B2. done.
  - intros r i b Hr. rewrite declared_snoc, bool_decide_eq_true_2 by (by rewrite E). cbn [option_list].
    apply lookup_app_Some in Hr as [Hr|[Hl Hr]]; [apply lookup_app_l_Some; by eapply B3|].
    assert (r = length (i_origin st)). { apply lookup_lt_Some in Hr. cbn in Hr. lia. } subst r. rewrite Nat.sub_diag in Hr. cbn in Hr. injection Hr as ->.
    destruct Ho as [[? _]|[(j & b' & [= <- <-] & ->) _]]; [done|]. rewrite lookup_app_r by (rewrite declared_length; lia).
    rewrite declared_length, B2, Nat.sub_diag. done.
  - intros r. destruct Ho as [[-> ->]|[(j & b' & -> & _) ->]].
    + rewrite elem_of_app, elem_of_list_singleton, B4. split.
      * intros [H| ->]; [by apply lookup_app_l_Some|]. rewrite lookup_app_r, Nat.sub_diag by done. done.
      * intros [H|[Hl H]]%lookup_app_Some; [by left|right]. apply lookup_lt_Some in H. cbn in H. lia.
    + rewrite B4. split; [by apply lookup_app_l_Some|]. intros [H|[Hl H]]%lookup_app_Some; [done|].
      destruct (r - length (i_origin st))%nat as [|?]; done.
  - rewrite runs_before_snoc. cbn. lia.
Qed.
Lemma unregistered_register os (objs : list obj) f r : unregistered c (os ++ [ORegister objs f]) r <-> unregistered (N:=N) c os r.
Proof. rewrite unregistered_snoc. naive_solver. Qed.
Lemma new_own i : (of_meter c i /\ new_callback c [Inst i] true = Some [i]) \/ (~ of_meter c i /\ new_callback c [Inst i] true = None).
Proof.
  cbn. unfold of_meter. destruct (a_insts c !! i) as [inst|].
  - destruct (Nat.eqb_spec (ai_meter inst) (a_meter c)); [left|right]; cbn; naive_solver.
  - right. naive_solver.
Qed.
Lemma st_eta st : ISt (i_m st) (i_origin st) (i_table st) (i_handles st) = st. Proof. by destruct st. Qed.
Lemma register_callbacks_base os mrs st i fs : base os mrs st -> of_meter c i ->
  let st' := (register_callbacks c i fs st).1 in
  exists os' mrs', base os' mrs' st' /\ (forall r, unregistered c os' r <-> unregistered c os r) /\
    i_handles st' = i_handles st /\ i_origin st' = i_origin st ++ map (fun f => ByCreation i (negb f)) fs /\
    m_cbs (i_m st') = m_cbs (i_m st) ++ seq (length (i_origin st)) (length fs) /\
    (register_callbacks c i fs st).2 = seq (length (i_origin st)) (length fs).
Proof.
  intros B O. destruct (new_own i) as [[_ E]|[? _]]; [|done]. clear O. cbv zeta. revert os mrs st B.
  induction fs as [|f fs IH]; intros os mrs st B.
  - cbn. exists os, mrs. rewrite !app_nil_r. done.
  - destruct (base_register os mrs st [Inst i] true [i] (ByCreation i (negb f)) (i_handles st) B E) as (m & mrs' & R & C & B'); [right; eauto|].
    cbn [register_callbacks]. rewrite R. destruct (IH _ _ _ B') as (os2 & mrs2 & B2 & U2 & H2 & O2 & C2 & I2). clear IH.
    destruct (register_callbacks c i fs _) as [st2 ids]. cbn [fst snd i_m i_origin i_handles] in *. exists os2, mrs2. split_and!; [done| |done| | |].
    + intros r. rewrite U2. apply unregistered_register.
    + rewrite O2, <- app_assoc. done.
    + rewrite C2, C, <- app_assoc, app_length. cbn. by rewrite Nat.add_1_r.
    + rewrite I2, app_length. cbn. by rewrite Nat.add_1_r.
Qed.
Lemma register_callbacks_none st i fs : ~ of_meter c i -> register_callbacks c i fs st = (st, []).
Proof.
  intros O. destruct (new_own i) as [[? _]|[_ E]]; [done|]. induction fs as [|f fs IH]; [done|].
  cbn [register_callbacks]. unfold register. rewrite E, st_eta. done.
Qed.

(** ** The whole state *)
Record sim l rs st : Prop := {
  s_base : exists os mrs, base os mrs st /\ forall r, unregistered c os r <-> r ∈ taken l rs;
  s_made : forall r i, (r, i) ∈ made l rs <-> exists b, i_origin st !! r = Some (ByCreation i b);
  s_given : forall r, r ∈ given l rs <-> r ∈ i_handles st;
  s_taken : forall r, r ∈ taken l rs -> r ∈ i_handles st
}.
Lemma irun_length st l st' rs : irun c st l = Some (st', rs) -> length rs = length l.
Proof.
  revert st rs. induction l as [|o l IH]; intros st rs E; cbn in E; [by simplify_eq|].
  destruct (iexec c st o) as [[st1 r]|]; [|done]. destruct (irun c st1 l) as [[st2 rs2]|] eqn:R; [|done]. simplify_eq. cbn. f_equal. by eapply IH.
Qed.
Lemma irun_snoc st l o st' rs : irun c st (l ++ [o]) = Some (st', rs) ->
  exists st1 rs1 r, irun c st l = Some (st1, rs1) /\ iexec c st1 o = Some (st', r) /\ rs = rs1 ++ [r].
Proof.
  revert st rs. induction l as [|p l IH]; intros st rs E; cbn in E |- *.
  - destruct (iexec c st o) as [[st1 r]|] eqn:X; [|done]. simplify_eq. by exists st, [], r.
  - destruct (iexec c st p) as [[st1 r]|]; [|done]. destruct (irun c st1 (l ++ [o])) as [[st2 rs2]|] eqn:R; [|done]. simplify_eq.
    destruct (IH _ _ R) as (st3 & rs3 & r3 & -> & E3 & ->). by exists st3, (r :: rs3), r3.
Qed.
Lemma zip_snoc l rs o r : length rs = length l -> zip (l ++ [o]) (rs ++ [r]) = zip l rs ++ [(o, r)].
Proof. intros L. rewrite zip_with_app by (symmetry; exact L). reflexivity. Qed.
Lemma made_snoc l rs o r : length rs = length l -> made (l ++ [o]) (rs ++ [r]) =
  made l rs ++ match o, r with ICreate i _, IRCreated ids => map (fun r => (r, i)) ids | _, _ => [] end.
Proof. intros L. unfold made. rewrite zip_snoc by done. rewrite bind_app. cbn. by rewrite app_nil_r. Qed.
Lemma given_snoc l rs o r : length rs = length l -> given (l ++ [o]) (rs ++ [r]) =
  given l rs ++ match o, r with IRegister _ _, IRRegistered (Some x) => [x] | _, _ => [] end.
Proof. intros L. unfold given. rewrite zip_snoc by done. rewrite omap_app. cbn. by destruct o, r as [|[]| | |]. Qed.
Lemma taken_snoc l rs o r : length rs = length l -> taken (l ++ [o]) (rs ++ [r]) =
  taken l rs ++ match o, r with IUnregister x, IRUnregistered true => [x] | _, _ => [] end.
Proof. intros L. unfold taken. rewrite zip_snoc by done. rewrite omap_app. cbn. by destruct o, r as [| |[]| |]. Qed.

Lemma collect_ran_len m order script m' o : collect_for (N:=N) c order script m = (m', o) -> map fst (co_ran o) = m_cbs m.
Proof.
  intros E. assert (E' : mexec c m (OCollect order script) = (m', RCollect o)) by (cbn; by rewrite E).
  rewrite (collect_ran _ _ _ _ _ _ E'), answers_fst. done.
Qed.
Lemma sim_same l rs st o r : sim l rs st -> length rs = length l ->
  match o, r with ICreate i _, IRCreated ids => ids = [] | IRegister _ _, IRRegistered (Some x) => False | IUnregister x, IRUnregistered b => b = false | _, _ => True end ->
  sim (l ++ [o]) (rs ++ [r]) st.
Proof.
  intros [B M G T] L H.
  assert (Em : made (l ++ [o]) (rs ++ [r]) = made l rs). { rewrite made_snoc by done. destruct o, r; subst; by rewrite app_nil_r. }
  assert (Eg : given (l ++ [o]) (rs ++ [r]) = given l rs). { rewrite given_snoc by done. destruct o, r as [|[]| | |]; subst; rewrite ?app_nil_r; done. }
  assert (Et : taken (l ++ [o]) (rs ++ [r]) = taken l rs). { rewrite taken_snoc by done. destruct o, r as [| |[]| |]; subst; rewrite ?app_nil_r; done. }
  split; rewrite ?Em, ?Eg, ?Et; done.
Qed.
Lemma sim_step l rs st o st' r : sim l rs st -> length rs = length l -> iexec c st o = Some (st', r) -> sim (l ++ [o]) (rs ++ [r]) st'.
Proof.
  intros S L E.
  pose proof (made_snoc l rs o r L) as Em. pose proof (given_snoc l rs o r L) as Eg. pose proof (taken_snoc l rs o r L) as Et.
  pose proof S as [(os & mrs & B & U) M G T]. destruct o as [i fs|objs f|x|order script|a]; cbn [iexec] in E.
  - destruct (register_callbacks c i fs st) as [st1 ids] eqn:R. simplify_eq. rewrite app_nil_r in Eg, Et.
    destruct (new_own i) as [[O _]|[O _]].
    + destruct (register_callbacks_base os mrs st i fs B O) as (os' & mrs' & B' & U' & H' & O' & _ & I'). rewrite R in *. cbn [fst snd] in *. subst ids.
      split.
      * exists os', mrs'. split; [done|]. intros y. rewrite Et, U'. apply U.
      * intros y j. rewrite Em, elem_of_app, M, O', elem_of_list_fmap. split.
        -- intros [[b Hb]|(k & [= -> ->] & Hk)]; [exists b; by apply lookup_app_l_Some|].
           apply elem_of_list_In, in_seq in Hk. destruct (lookup_lt_is_Some_2 fs (k - length (i_origin st))) as [f Hf]; [lia|].
           exists (negb f). rewrite lookup_app_r by lia. rewrite list_lookup_fmap, Hf. done.
        -- intros [b [Hb|[Hl Hb]]%lookup_app_Some]; [left; by exists b|right]. rewrite list_lookup_fmap in Hb.
           destruct (fs !! (y - length (i_origin st))%nat) as [f|] eqn:Hf; [|done]. cbn in Hb. simplify_eq. exists y. split; [done|].
           apply lookup_lt_Some in Hf. apply elem_of_list_In, in_seq. lia.
      * intros y. rewrite Eg, H'. apply G.
      * intros y. rewrite Et, H'. apply T.
    + rewrite (register_callbacks_none st i fs O) in R. simplify_eq. by apply sim_same.
  - destruct (new_callback c objs f) as [ds|] eqn:Eo.
    + destruct (base_register os mrs st objs f ds ByRegister (i_handles st ++ [length (i_origin st)]) B Eo) as (m & mrs' & R & C & B'); [by left|]. rewrite R in E. simplify_eq.
      rewrite app_nil_r in Em, Et. split; cbn [i_origin i_handles].
      * eexists _, _. split; [exact B'|]. intros y. rewrite unregistered_register, Et. apply U.
      * intros y j. rewrite Em, M. split; intros [b Hb]; exists b; [by apply lookup_app_l_Some|].
        apply lookup_app_Some in Hb as [?|[_ Hb]]; [done|]. by destruct (y - length (i_origin st))%nat.
      * intros y. rewrite Eg, !elem_of_app, G. done.
      * intros y. rewrite Et. intros Hy. apply elem_of_app. left. auto.
    + unfold register in E. rewrite Eo in E. rewrite st_eta in E. simplify_eq. by apply sim_same.
  - destruct (existsb (Nat.eqb x) (i_handles st)) eqn:Hx; [|simplify_eq; by apply sim_same].
    apply existsb_exists in Hx as (x' & Hx%elem_of_list_In & <-%Nat.eqb_eq).
    destruct (unregister x (i_m st)) as [m b] eqn:Eu. simplify_eq. destruct B as [B1 B2 B3 B4 B5].
    pose proof (mrun_snoc _ _ _ (OUnregister x) _ _ B1) as Rn. cbn [mexec] in Rn. rewrite Eu in Rn.
    assert (Eu' : mexec c (i_m st) (OUnregister x) = (m, RUnregister b)) by (cbn; by rewrite Eu).
    destruct (unregister_spec c os _ _ x m b B1 Eu') as [S1 S2].
    assert (Reg : x ∈ registered_ids c os). { apply registered_elem. rewrite <- B2. apply B4 in Hx. by apply lookup_lt_Some in Hx. }
    rewrite app_nil_r in Em, Eg. split; cbn [i_origin i_handles].
    + exists (os ++ [OUnregister x]), (mrs ++ [RUnregister b]). split.
      * split; cbn [i_m i_origin i_table i_handles]; try done.
        -- by rewrite registered_snoc.
        -- intros r i bb Hr. rewrite declared_snoc. cbn. rewrite app_nil_r. by eapply B3.
        -- rewrite runs_before_snoc. cbn. lia.
      * intros y. rewrite Et, unregistered_snoc, elem_of_app, U. destruct b.
        -- rewrite elem_of_list_singleton. naive_solver.
        -- split; [|intros [?|[]%elem_of_nil]; by left]. intros [?|[[= <-] _]]; [by left|]. left.
           destruct (decide (x ∈ taken l rs)) as [D|D]; [done|]. exfalso.
           assert (false = true); [|done]. apply S1. split; [done|]. by rewrite U.
    + intros y j. rewrite Em. apply M.
    + intros y. rewrite Eg. apply G.
    + intros y. rewrite Et. intros [?|Hy]%elem_of_app; [auto|]. destruct b; [|by apply elem_of_nil in Hy].
      apply elem_of_list_singleton in Hy as ->. done.
  - destruct (existsb (panics (i_origin st)) (m_cbs (i_m st))); [done|].
    destruct (collect_for c order _ (i_m st)) as [m o] eqn:Ec. simplify_eq. destruct B as [B1 B2 B3 B4 B5].
    set (script' := fun cb => map _ (script cb)) in Ec.
    pose proof (mrun_snoc _ _ _ (OCollect order script') _ _ B1) as Rn. cbn [mexec] in Rn. rewrite Ec in Rn.
    rewrite app_nil_r in Em, Eg, Et. split; cbn [i_origin i_handles].
    + eexists _, _. split.
      * split; cbn [i_m i_origin i_table i_handles]; [exact Rn| | |done|].
        -- by rewrite registered_snoc.
        -- intros r i bb Hr. rewrite declared_snoc. cbn. rewrite app_nil_r. by eapply B3.
        -- rewrite runs_before_snoc, app_length, B5, <- (collect_ran_len _ _ _ _ _ Ec), map_length. done.
      * intros y. rewrite Et, unregistered_snoc, U. naive_solver.
    + intros y j. rewrite Em. apply M.
    + intros y. rewrite Eg. apply G.
    + intros y. rewrite Et. apply T.
  - destruct B as [B1 B2 B3 B4 B5]. set (a' := through _ _ _ a) in E.
    pose proof (re_runs _ _ _ _ (reached_run _ _ _ _ B1)) as Rr. rewrite (late_eq c (i_m st) a' _ Rr), st_eta in E. simplify_eq. by apply sim_same.
Qed.
Lemma sim_run l st rs : irun c (i_init c) l = Some (st, rs) -> sim l rs st.
Proof.
  revert st rs. induction l as [|o l IH] using rev_ind; intros st rs E.
  - cbn in E. simplify_eq. split; cbn; try done.
    + exists [], []. split; [split; cbn; try done; intros; split; [by intros []%elem_of_nil|done]|]. intros r. split; [intros (os1 & os2 & Q & _)|intros []%elem_of_nil].
      by destruct os1.
    + intros r i. split; [intros []%elem_of_nil|by intros [? ?]].
  - apply irun_snoc in E as (st1 & rs1 & r & R & E & ->). eapply sim_step; [by apply IH|by eapply irun_length|done].
Qed.
End proofs.
