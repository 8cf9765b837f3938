(** Conc: from the invariant of histories to what is reported; progress; late calls. *)
From Coq Require Import ZArith Bool String Lia.
From stdpp Require Import base list option strings.
From Verif Require Import Lib Num Agg AggSpec Attr Async AsyncSpec AsyncProofs AsyncHist Conc ConcSpec ConcProofs ConcStep ConcInv ConcCells ConcSnap ConcIn ConcLoc ConcHist.

Section conc.
Context {N : arith} (c : acfg) (vr : nat -> nat) (decl : list (list nat)).
Implicit Types (s : cst N) (k : coll N) (x : thr N) (y : vw N) (tr : list (label (N:=N))).

Section view.
Context (v : nat) (w : aview) (sd : sound c) (Hw : a_views c !! v = Some w) (Hlim : (1 <= av_limit w)%nat).

Lemma told_hist tr s fl fd y q k : ginv c vr s -> waited (vr v) s -> hist c vr decl v w tr s fl fd y -> s_colls s !! q = Some k -> k_reader k = vr v -> k_phase k = KDone ->
  told c vr decl tr s q v (obsl (thr_of s q) (fl q)).
Proof.
  intros G W H Hk Hr Hd. assert (Hi : idle (thr_of s q)). { apply (idle_of c vr v s q k G W Hk Hr). by rewrite Hd. }
  pose proof (o_lin _ _ _ _ _ _ _ _ _ _ _ (h_loc _ _ _ _ _ _ _ _ _ _ H q k Hk Hr)) as Li.
  exists (fl q). split; [apply Li|]. split.
  - intros t. rewrite (l_in _ _ _ _ _ _ Li). unfold recorded_in. rewrite Hr. split.
    + intros (x & Hx & Hv & Hdn). pose proof Hx as (Hx' & r & Hrr & Hq)%thr_of_Some. exists x, r. split; [done|]. split.
      * unfold done_v in Hdn. destruct (Hi _ _ Hx) as [E|[r' E]]; rewrite E in Hdn; [done|]. destruct r'; try done.
      * split; [done|]. split; [done|]. by apply (feeds_pos c vr v sd).
    + intros (x & r & Hx & Hpc & Hrr & Hq & Hf). exists x. split; [apply thr_of_Some; eauto|]. split; [by apply (feeds_pos c vr v sd)|]. unfold done_v. by rewrite Hpc.
  - split; [exact (h_ord _ _ _ _ _ _ _ _ _ _ H q k Hk Hr)|].
    assert (Hall : forall t, t ∈ fl q -> thr_of s q t = s_thr s !! t). { intros t Ht. apply (l_in _ _ _ _ _ _ Li) in Ht as (x & Hx & _). rewrite Hx. apply thr_of_Some in Hx as [-> _]. done. }
    clear -Hall. unfold obsl. induction (fl q) as [|t L IH]; [done|]. cbn. rewrite (Hall t) by left. destruct (s_thr s !! t); cbn; [f_equal|]; apply IH; intros t' Ht'; apply Hall; by right.
Qed.

(** The points of every finished collection of this reader, from what was told. *)
Lemma history tr s : reached c vr decl tr s -> orderly c vr decl (vr v) tr ->
  exists fl fd, forall q k, s_colls s !! q = Some k -> k_reader k = vr v -> k_phase k = KDone ->
    told c vr decl tr s q v (fl q) /\
    (clean vr v w fd (rd s) q -> reports k v = [(collect_view w (VSt (fd q) (prior_of vr v fd (rd s) q))).1] /\ totals_of w (fd q) (inputs c v w (fl q))) /\
    (forall q0 k0, s_colls s !! q0 = Some k0 -> k_reader k0 = vr v -> (q0 < q)%nat -> k_phase k0 = KDone).
Proof.
  intros Hs Ho. destruct (hist_run c vr decl v w sd Hw Hlim tr s Ho Hs) as (fl & fd & y & H). destruct (ginv_run c vr decl v w tr s Hw Hs) as [G _].
  destruct (Ho tr [] s) as [_ W]; [by rewrite app_nil_r|done|].
  exists (fun q => obsl (thr_of s q) (fl q)), fd. intros q k Hk Hr Hd. split; [by eapply told_hist|]. split.
  - intros Hc. apply (o_fin _ _ _ _ _ _ _ _ _ _ _ (h_loc _ _ _ _ _ _ _ _ _ _ H q k Hk Hr)); [by apply done_finished|done].
  - intros q0 k0 Hk0 Hr0 Hlt. destruct (k_phase k0) eqn:E; [exfalso..|done].
    all: assert (k_phase k0 <> KDone) as Hn by (by rewrite E); pose proof (h_last _ _ _ _ _ _ _ _ _ _ H q0 k0 Hk0 Hr0 Hn q k Hk Hr); lia.
Qed.
End view.

(** ** Accumulators to come exist *)
Definition pend_ok k : Prop := forall todo pend, k_phase k = KSnap todo (Some pend) -> forall z, z ∈ pend -> is_Some (the_acc (k_store k) z).
Lemma accs_of_some i (es : list (ent N)) z : z ∈ accs_of i es -> is_Some (the_acc es z).
Proof.
  unfold accs_of. rewrite elem_of_list_In. intros (l & Hl & Hz)%in_concat. apply elem_of_list_In in Hl. apply elem_of_lookup_imap_1 in Hl as (e & en & -> & He).
  destruct (Nat.eqb (en_inst en) i); [|done]. apply in_map_iff in Hz as (j & <- & Hj%in_seq). unfold the_acc. cbn. rewrite He. cbn. apply lookup_lt_is_Some. lia.
Qed.
Lemma the_acc_app (es es' : list (ent N)) z : is_Some (the_acc es z) -> is_Some (the_acc (es ++ es') z).
Proof.
  unfold the_acc. intros [a H]. destruct (es !! z.1) as [en|] eqn:E; cbn in H; [|done]. exists a. by rewrite (lookup_app_l_Some _ _ _ _ E).
Qed.
Lemma the_acc_cur (es : list (ent N)) e pos n z : is_Some (the_acc es z) -> is_Some (the_acc (put_cur es e pos n) z).
Proof.
  unfold the_acc, put_cur. intros [a H]. destruct (es !! z.1) as [en|] eqn:E; cbn in H; [|done]. destruct (decide (z.1 = e)) as [<-|Hne].
  - rewrite list_lookup_alter, E. cbn. destruct (decide (z.2 = pos)) as [<-|Hne']; [rewrite list_lookup_alter, H; by eexists|].
    rewrite list_lookup_alter_ne by done. by exists a.
  - rewrite list_lookup_alter_ne, E by done. by exists a.
Qed.
Lemma pend_step v w k th ru y k' th' ru' y' : lstep c vr decl v w k th ru y k' th' ru' y' -> pend_ok k -> pend_ok k'.
Proof.
  intros L H td pend. destruct L as [cb todo j Hph Hru Hno|todo j Hph Hru|Hph|i todo Hph Hlk|todo pe n z a Hph Hz Ha|todo Hph|Hph|u todo pts Hph Hpts|Hph
    |t x b Hth Hru Hpc|t x cb b Hth Hpc Hru|t x e Hth Hpc Hlk Hfe|t x Hth Hpc Hlk Hfe|t x u todo accs h y1 Hth Hpc Hfs|t x accs Hth Hpc
    |t x e pos a Hth Hpc Ha|t x e pos Hth Hpc Ha]; cbn; try discriminate; try (exact (H td pend)).
  - intros [= <- <-] z. apply accs_of_some.
  - intros [= <- <-] z' Hz'. apply (H _ _ Hph). apply elem_of_list_lookup in Hz' as [m Hm]. destruct (decide (m < n)%nat).
    + rewrite lookup_delete_lt in Hm by done. by eapply elem_of_list_lookup_2.
    + rewrite lookup_delete_ge in Hm by lia. by eapply elem_of_list_lookup_2.
  - intros E z Hz. apply the_acc_app. by apply (H _ _ E).
  - intros E z Hz. apply the_acc_cur. by apply (H _ _ E).
Qed.
Definition pends s : Prop := forall q k, s_colls s !! q = Some k -> pend_ok k.
Definition in_range s : Prop := forall q k todo, s_colls s !! q = Some k -> k_phase k = KColl todo -> forall u, u ∈ todo -> (u < length (a_views c))%nat.
Lemma pends_run v w tr s : a_views c !! v = Some w -> reached c vr decl tr s -> pends s /\ in_range s.
Proof.
  intros Hw. revert s. induction tr as [|a tr IH] using rev_ind; intros s Hs.
  - unfold reached in Hs. cbn in Hs. injection Hs as <-. done.
  - pose proof Hs as (s0 & Hs0 & E)%reached_snoc. destruct (IH s0 Hs0) as [P IR]. destruct (ginv_run c vr decl v w tr s0 Hw Hs0) as [G CO].
    destruct (exec_moved c vr decl v w s0 a s G CO Hw E) as [(p & cbs & ->)|(q & k & k' & y & y' & M)].
    + split.
      * intros q k. cbn. intros [Hk|[_ Hk]]%lookup_app_Some; [by eapply P|]. destruct (q - _) as [|m]; cbn in Hk; [|done]. injection Hk as <-. done.
      * intros q k todo. cbn. intros [Hk|[_ Hk]]%lookup_app_Some; [by eapply IR|]. destruct (q - _) as [|m]; cbn in Hk; [|done]. injection Hk as <-. done.
    + destruct M as [M1 M2 M3 M4 M5 M6 (th & ru & L & Mt & Mr) M8 M9 M10]. split.
      * intros q0 k0 Hk0. rewrite M2 in Hk0. apply list_lookup_insert_Some in Hk0 as [(-> & <- & _)|[Hne Hk0]]; [|by eapply P]. eapply pend_step; [done|]. by eapply P.
      * intros q0 k0 todo Hk0 Hp u Hu. rewrite M2 in Hk0. apply list_lookup_insert_Some in Hk0 as [(-> & <- & _)|[Hne Hk0]]; [|by eapply IR].
        assert (Hc : k_phase k = k_phase k' \/ todo = collectors c vr (k_reader k) \/ exists u0, k_phase k = KColl (u0 :: todo)).
        { destruct L; cbn in *; try discriminate; try (by left).
          - injection Hp as <-. by right; left.
          - injection Hp as <-. right; right. eauto. }
        destruct Hc as [Hc|[->|(u0 & Hc)]].
        -- rewrite Hp in Hc. by eapply (IR _ k).
        -- unfold collectors in Hu. apply elem_of_list_In, filter_In in Hu as [Hu%in_seq _]. lia.
        -- eapply (IR _ k); [done|done|]. by right.
Qed.

(** ** A call that is given up *)
Lemma check_idle p cb b x : (exists r, check c vr decl p cb b x = TEnd r) \/ check c vr decl p cb b x = TLock.
Proof. unfold check. repeat (case_match; eauto). Qed.

(** Steps of calls. *)
Lemma step_some s t x : ginv c vr s -> sound c -> s_thr s !! t = Some x -> (forall r, t_pc x <> TEnd r) ->
  (t_pc x = TLock -> forall r k, s_runs s !! t_run x = Some r -> s_colls s !! r_coll r = Some k -> k_lock k = Free) ->
  is_Some (step c vr decl t s).
Proof.
  intros G sd Hx Hne Hlk. destruct (g_thr _ _ _ G _ _ Hx) as [r Hr]. destruct (g_run _ _ _ G _ _ Hr) as [k Hk].
  unfold step. rewrite Hx. cbn. rewrite Hr. cbn. rewrite Hk. cbn. destruct (t_pc x) as [| |[|u todo] accs|e pos|r0] eqn:Hpc.
  - by eexists.
  - rewrite (Hlk eq_refl r k Hr Hk). destruct (find_entry _ _ _); by eexists.
  - by eexists.
  - assert (Hth : thr_of s (r_coll r) t = Some x) by (apply thr_of_Some; eauto).
    destruct (i_make _ _ _ _ _ (g_coll _ _ _ G _ _ Hk) t x _ _ Hth Hpc) as [Hc _].
    assert (Hu : u ∈ compiled c vr (k_reader k) (inst_of x)). { rewrite <- Hc. apply elem_of_app. right. left. }
    unfold compiled in Hu. destruct (a_insts c !! inst_of x) as [inst|] eqn:Ei; [|by apply elem_of_nil in Hu]. apply elem_of_list_In, filter_In in Hu as [Hu _].
    destruct (sd _ _ Ei) as [_ Hall]. rewrite list.Forall_forall in Hall. pose proof (Hall u ltac:(by apply elem_of_list_In)) as Hlt.
    assert (is_Some (s_views s !! u)) as [y ->]. { apply lookup_lt_is_Some. by rewrite (g_views _ _ _ G). }
    apply lookup_lt_is_Some in Hlt as [w0 ->]. cbn. destruct (find_storage _ _ _). by eexists.
  - destruct (the_acc _ _); by eexists.
  - by destruct (Hne r0).
Qed.
Lemma lock_owner s q k t : ginv c vr s -> s_colls s !! q = Some k -> k_lock k = Thread t -> exists x td accs, s_thr s !! t = Some x /\ thr_of s q t = Some x /\ t_pc x = TMake td accs.
Proof.
  intros G Hk Hl. apply (i_lock _ _ _ _ _ (g_coll _ _ _ G _ _ Hk)) in Hl as (x & td & accs & Hx & Hpc). exists x, td, accs. split; [by apply thr_of_Some in Hx as [? _]|done].
Qed.
Lemma go_some s q k : ginv c vr s -> pends s -> in_range s -> s_colls s !! q = Some k -> k_phase k <> KDone ->
  (forall i todo, k_phase k = KSnap (i :: todo) None -> k_lock k = Free) -> is_Some (go c vr q 0 s).
Proof.
  intros G P IR Hk Hnd Hlk. unfold go. rewrite Hk. cbn.
  destruct (k_phase k) as [[|cb todo] [j|]|[|i todo] [[|z0 pend]|]|[|u todo]|] eqn:Hph; cbn; try (eexists; reflexivity).
  - assert (Hj : run_of s q j = Some true). { apply (i_live _ _ _ _ _ (g_coll _ _ _ G _ _ Hk)). eauto. } apply run_of_Some in Hj as (r & -> & _). by eexists.
  - assert (Hj : run_of s q j = Some true). { apply (i_live _ _ _ _ _ (g_coll _ _ _ G _ _ Hk)). eauto. } apply run_of_Some in Hj as (r & -> & _). by eexists.
  - destruct (P q k Hk _ _ Hph z0) as [a ->]; [left|]. by eexists.
  - destruct (P q k Hk _ _ Hph z0) as [a ->]; [left|]. by eexists.
  - rewrite (Hlk i todo eq_refl). by eexists.
  - assert (Hlt : (u < length (a_views c))%nat) by (apply (IR q k (u :: todo) Hk Hph); left).
    assert (is_Some (s_views s !! u)) as [y ->]. { apply lookup_lt_is_Some. by rewrite (g_views _ _ _ G). }
    apply lookup_lt_is_Some in Hlt as [w0 ->]. cbn. destruct (collect_cells _ _). by eexists.
  - by destruct Hnd.
Qed.

(** ** Calls made after the callback returned *)
Definition dead s j : Prop := exists r, s_runs s !! j = Some r /\ r_live r = false.
Lemma go_thr s q n s' : go c vr q n s = Some s' -> s_thr s' = s_thr s.
Proof.
  unfold go. intros E. destruct (s_colls s !! q) as [k|]; cbn in E; [|done].
  assert (Hp : forall a, s_thr (process c a s) = s_thr s). { intros a. unfold process. destruct (s_views s !! ac_view a); [|done]. by destruct (a_views c !! ac_view a). }
  repeat (first [discriminate E | progress (injection E as <-; cbn; rewrite ?Hp; try reflexivity) | case_match | progress (cbn in E) |
    match type of E with context [mbind _ ?o] => destruct o eqn:? end ]).
Qed.
Lemma go_dead s q n s' j : go c vr q n s = Some s' -> dead s j -> dead s' j.
Proof.
  unfold go. intros E (r & Hr & Hd). destruct (s_colls s !! q) as [k|]; cbn in E; [|done].
  assert (Hp : forall a, s_runs (process c a s) = s_runs s). { intros a. unfold process. destruct (s_views s !! ac_view a); [|done]. by destruct (a_views c !! ac_view a). }
  assert (Hret : forall j' r' s1, s_runs s1 = <[j' := Run (r_coll r') (r_cb r') false]> (s_runs s) -> dead s1 j).
  { intros j' r' s1 E1. unfold dead. rewrite E1. destruct (Nat.eq_dec j' j) as [->|Hne].
    - eexists. split; [apply list_lookup_insert; by eapply lookup_lt_Some|done].
    - rewrite list_lookup_insert_ne by done. eauto. }
  assert (Hsame : forall s1, s_runs s1 = s_runs s -> dead s1 j). { intros s1 E1. unfold dead. rewrite E1. eauto. }
  assert (Happ : forall s1 l, s_runs s1 = s_runs s ++ l -> dead s1 j). { intros s1 l E1. unfold dead. rewrite E1. exists r. split; [by apply lookup_app_l_Some|done]. }
  destruct (k_phase k) as [[|cb todo] [j'|]|[|i todo] [[|z0 pend]|]|[|u todo]|]; cbn in E; try done.
  - destruct (s_runs s !! j') as [r'|]; cbn in E; [|done]. injection E as <-. by eapply Hret.
  - injection E as <-. by apply Hsame.
  - destruct (s_runs s !! j') as [r'|]; cbn in E; [|done]. injection E as <-. by eapply Hret.
  - injection E as <-. by eapply Happ.
  - injection E as <-. by apply Hsame.
  - destruct ((z0 :: pend) !! n) as [z|]; cbn in E; [|done]. destruct (the_acc (k_store k) z) as [a|]; cbn in E; [|done]. injection E as <-. apply Hsame. cbn. apply Hp.
  - injection E as <-. by apply Hsame.
  - injection E as <-. by apply Hsame.
  - destruct ((z0 :: pend) !! n) as [z|]; cbn in E; [|done]. destruct (the_acc (k_store k) z) as [a|]; cbn in E; [|done]. injection E as <-. apply Hsame. cbn. apply Hp.
  - destruct (k_lock k); try done. injection E as <-. by apply Hsame.
  - injection E as <-. by apply Hsame.
  - destruct (s_views s !! u) as [y|]; cbn in E; [|done]. destruct (a_views c !! u) as [w0|]; cbn in E; [|done]. destruct (collect_cells w0 y). injection E as <-. by apply Hsame.
Qed.
Lemma step_runs s t s' : step c vr decl t s = Some s' -> s_runs s' = s_runs s.
Proof.
  unfold step. intros E. destruct (s_thr s !! t) as [x|]; cbn in E; [|done]. destruct (s_runs s !! t_run x) as [r|]; cbn in E; [|done]. destruct (s_colls s !! r_coll r) as [k|]; cbn in E; [|done].
  repeat (first [discriminate E | progress (injection E as <-; rewrite ?runs_pc; try reflexivity) | case_match | progress (cbn in E) |
    match type of E with context [mbind _ ?o] => destruct o eqn:? end ]).
Qed.
Lemma step_other s t s' t' : step c vr decl t s = Some s' -> t' <> t -> s_thr s' !! t' = s_thr s !! t'.
Proof.
  unfold step. intros E Hne. destruct (s_thr s !! t) as [x|] eqn:Hx; cbn in E; [|done]. destruct (s_runs s !! t_run x) as [r|]; cbn in E; [|done]. destruct (s_colls s !! r_coll r) as [k|]; cbn in E; [|done].
  assert (Hp : forall f s1, s_thr s1 = s_thr s -> s_thr (put_pc t f s1) !! t' = s_thr s !! t').
  { intros f s1 E1. unfold put_pc. rewrite E1, Hx. cbn. by apply list_lookup_insert_ne. }
  repeat (first [discriminate E | progress (injection E as <-; rewrite ?Hp; try reflexivity) | case_match | progress (cbn in E) |
    match type of E with context [mbind _ ?o] => destruct o eqn:? end ]).
Qed.
Definition given_up (f : pc N) : Prop := f = TCheck \/ f = TEnd AfterReturn.
Lemma late_exec s a s' j n : dead s j -> exec c vr decl s a = Some s' -> (n <= length (s_thr s))%nat ->
  (forall t x, (n <= t)%nat -> s_thr s !! t = Some x -> t_run x = j -> given_up (t_pc x)) ->
  dead s' j /\ (n <= length (s_thr s'))%nat /\ forall t x, (n <= t)%nat -> s_thr s' !! t = Some x -> t_run x = j -> given_up (t_pc x).
Proof.
  intros D E Hn H. destruct a as [p cbs|j' o m l|q m|t]; cbn in E.
  - injection E as <-. done.
  - destruct (s_runs s !! j') as [r|]; [|done]. injection E as <-. split; [done|]. cbn. rewrite app_length. split; [lia|].
    intros t x Ht [Hx|[_ Hx]]%lookup_app_Some; [by apply (H t)|]. destruct (t - length (s_thr s)) as [|i]; cbn in Hx; [|done]. injection Hx as <-. by left.
  - split; [by eapply go_dead|]. rewrite (go_thr _ _ _ _ E). done.
  - split; [destruct D as (r & ? & ?); exists r; by rewrite (step_runs _ _ _ E)|]. pose proof E as E0. unfold step in E. destruct (s_thr s !! t) as [x|] eqn:Hx; cbn in E; [|done].
    assert (Hlen : (n <= length (s_thr s'))%nat).
    { destruct (decide (n <= length (s_thr s'))%nat); [done|]. exfalso.
      destruct (Nat.eq_dec (length (s_thr s) - 1) t) as [Ht|Ht].
      - destruct (length (s_thr s)) as [|m] eqn:El; [apply lookup_lt_Some in Hx; lia|].
        destruct (s_runs s !! t_run x) as [r|]; cbn in E; [|done]. destruct (s_colls s !! r_coll r) as [k|]; cbn in E; [|done].
        enough (length (s_thr s') = length (s_thr s)) by lia.
        repeat (first [discriminate E | progress (injection E as <-; rewrite ?length_pc; try reflexivity) | case_match | progress (cbn in E) |
          match type of E with context [mbind _ ?o] => destruct o eqn:? end ]).
      - destruct (length (s_thr s)) as [|m] eqn:El; [lia|]. assert (is_Some (s_thr s !! m)) as [x1 Hx1] by (apply lookup_lt_is_Some; lia).
        rewrite <- (step_other _ _ _ m E0) in Hx1 by lia. apply lookup_lt_Some in Hx1. lia. }
    split; [done|]. intros t' x' Ht' Hx' Hj. destruct (Nat.eq_dec t' t) as [->|Hne]; [|rewrite (step_other _ _ _ _ E0 Hne) in Hx'; by apply (H t')].
    destruct (s_runs s !! t_run x) as [r|] eqn:Hr; cbn in E; [|done]. destruct (s_colls s !! r_coll r) as [k|]; cbn in E; [|done].
    assert (Hrun : t_run x = j).
    { assert (Hpp : forall f s1, s_thr s1 = s_thr s -> s_thr (put_pc t f s1) !! t = Some x' -> t_run x = j).
      { intros f s1 E1. unfold put_pc. rewrite E1, Hx. cbn. rewrite list_lookup_insert by (by eapply lookup_lt_Some). intros [= <-]. done. }
      repeat (first [discriminate E | (injection E as <-; eapply Hpp; [|exact Hx']; reflexivity) | case_match | progress (cbn in E) |
        match type of E with context [mbind _ ?o] => destruct o eqn:? end ]). }
    destruct (H t x Ht' Hx Hrun) as [Hpc|Hpc]; rewrite Hpc in E; [|done]. injection E as <-. rewrite (put_pc_eq _ _ _ _ Hx) in Hx'. cbn in Hx'.
    rewrite list_lookup_insert in Hx' by (by eapply lookup_lt_Some). injection Hx' as <-. cbn. right. destruct D as (r' & Hr' & Hd). assert (r' = r) as -> by congruence. by rewrite Hd.
Qed.
Lemma late_run tr s s' j : dead s j -> execs c vr decl s tr = Some s' ->
  forall t x, (length (s_thr s) <= t)%nat -> s_thr s' !! t = Some x -> t_run x = j -> given_up (t_pc x).
Proof.
  intros D E.
  enough (forall n, (n <= length (s_thr s))%nat -> (forall t x, (n <= t)%nat -> s_thr s !! t = Some x -> t_run x = j -> given_up (t_pc x)) ->
    forall t x, (n <= t)%nat -> s_thr s' !! t = Some x -> t_run x = j -> given_up (t_pc x)) as Hg.
  { apply Hg; [done|]. intros t x Ht Hx. apply lookup_lt_Some in Hx. lia. }
  revert s D E. induction tr as [|a tr IH]; intros s D E n Hn H; cbn in E; [by injection E as <-|].
  destruct (exec c vr decl s a) as [s1|] eqn:E1; cbn in E; [|done]. destruct (late_exec s a s1 j n D E1 Hn H) as (D1 & Hn1 & H1). by apply (IH s1).
Qed.
End conc.
