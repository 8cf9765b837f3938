(** More about the provider: its options, and the streams of its readers. *)
From Coq Require Import ZArith Bool String Lia.
From stdpp Require Import base list option strings gmap.
From Verif Require Import Num Attr AttrProofs View ViewSpec ViewProofs ViewRun ViewHist Data Prov ProvSpec ProvProofs.
Local Open Scope Z_scope.

Lemma configured_spec os : let c := configured os in
  cf_res c = last_given resource_given os /\ cf_readers c = omap reader_given os /\
  cf_perf c = documented (default (Perf false 0 0 0 0) (last_given performance_given os)).
Proof.
  cbn zeta. unfold configured. cbn [cf_res cf_readers cf_perf].
  assert (X : let c := fold_left apply_option os (Config None [] (Perf false 0 0 0 0)) in
    cf_res c = last_given resource_given os /\ cf_readers c = omap reader_given os /\ cf_perf c = default (Perf false 0 0 0 0) (last_given performance_given os)).
  { cbn zeta. induction os as [|o os IH] using rev_ind; [done|]. rewrite fold_left_app. cbn [fold_left]. unfold last_given in *. rewrite !omap_app, !last_app.
    destruct IH as (I1 & I2 & I3). destruct o; cbn; rewrite ?app_nil_r, ?I1, ?I2, ?I3; done. }
  destruct X as (-> & -> & ->). split; [done|]. split; [done|]. unfold perf_validate, documented, or_documented, or_default.
  generalize (default (Perf false 0 0 0 0) (last_given performance_given os)). intros p.
  f_equal; case_decide; match goal with |- context [?a =? 0] => destruct (Z.eqb_spec a 0) end; done.
Qed.

Section prov.
Context (L : libs).
Lemma compile_each_map vs lib f d : compile_each L vs lib (map f vs) d =
  (map (fun v => (compile L v lib (f v) d).1.1) vs, map (fun v => (compile L v lib (f v) d).1.2) vs, concat (map (fun v => (compile L v lib (f v) d).2) vs)).
Proof.
  induction vs as [|v vs IH]; [done|]. cbn [map compile_each concat]. destruct (compile L v lib (f v) d) as [[c ids] es]. rewrite IH. done.
Qed.
Lemma compile_run_snoc v lib ds d : compile_run L v lib (ds ++ [d]) = (compile L v lib (compile_run L v lib ds) d).1.1.
Proof. unfold compile_run. by rewrite fold_left_app. Qed.

Record compiled (l : list act) (p : prov) : Prop := Compiled {
  co_comp : forall i m, pv_ordered p !! i = Some m -> mr_comp m = map (fun v => compile_run L v (mr_lib m) (created i l)) (pv_views p);
  co_old : forall i d, AInst i d ∈ l -> (i < length (pv_ordered p))%nat
}.
Lemma created_none i l : (forall d, AInst i d ∉ l) -> created i l = [].
Proof.
  intros H. unfold created. induction l as [|a l IH]; [done|]. cbn. destruct a as [|i' d| | |]; try (apply IH; intros d' Hd; apply (H d'); by right).
  case_decide as E; [subst; destruct (H d); left|]. apply IH. intros d' Hd. apply (H d'). by right.
Qed.
Lemma created_snoc i l a : created i (l ++ [a]) = created i l ++ created i [a].
Proof. apply omap_app. Qed.
Lemma configure_parts vs m d n cs idss es m' x e : compile_each L vs (mr_lib m) (mr_comp m) d = (cs, idss, es) -> configure L vs m d n = (m', x, e) ->
  mr_lib m' = mr_lib m /\ mr_comp m' = cs /\ e = negb (is_nil es).
Proof.
  intros C E. unfold configure in E. rewrite C in E. destruct (find_pair d (mr_desc m)); [by injection E as <- <- <-|].
  destruct (synchronous (i_kind d)); [destruct (forallb is_nil idss)|]; by injection E as <- <- <-.
Qed.
Lemma step_compiled l p a p' r : compiled l p -> step L p a = Some (p', r) -> compiled (l ++ [a]) p'.
Proof.
  intros [C1 C2] E. destruct p as [vs t0 ord ms nx la cl calls]. cbn [pv_ordered pv_views] in *.
  assert (Same : forall p', pv_ordered p' = ord -> pv_views p' = vs -> (forall i d, a <> AInst i d) -> compiled (l ++ [a]) p').
  { intros q Eo Ev Na. split.
    - intros i m Hm. rewrite Eo in Hm. rewrite Ev, created_snoc. rewrite (created_none i [a]); [rewrite app_nil_r; by apply C1|].
      intros d Hd. apply elem_of_list_singleton in Hd. by destruct (Na i d).
    - intros i d Hd. rewrite Eo. apply elem_of_app in Hd as [Hd|Hd]; [by eapply C2|]. apply elem_of_list_singleton in Hd. by destruct (Na i d). }
  destruct a as [lib|i d|k now| |t errs]; cbn [step] in E.
  - destruct ms as [ml|]; [|injection E as <- <-; by apply Same]. destruct (find_pair lib ml); [injection E as <- <-; by apply Same|].
    injection E as <- <-. split; cbn [pv_ordered pv_views].
    + intros i m Hm. rewrite created_snoc. rewrite (created_none i [AMeter lib]) by (intros d Hd; apply elem_of_list_singleton in Hd; done). rewrite app_nil_r.
      apply lookup_app_Some in Hm as [Hm|[Hl Hm]]; [by apply C1|].
      destruct (i - length ord)%nat as [|j] eqn:Ej; [|done]. injection Hm as <-. cbn. rewrite created_none; [done|].
      intros d Hd. apply C2 in Hd. lia.
    + intros i d Hd. rewrite app_length. apply elem_of_app in Hd as [Hd|Hd]; [apply C2 in Hd; lia|]. by apply elem_of_list_singleton in Hd.
  - destruct (ord !! i) as [m|] eqn:O; [|done]. cbn [mbind option_bind] in E. destruct (configure L vs m d nx) as [[m' x] e] eqn:Cf. injection E as <- <-.
    assert (Cm := C1 _ _ O). destruct (compile_each L vs (mr_lib m) (mr_comp m) d) as [[cs idss] es] eqn:Ce.
    destruct (configure_parts _ _ _ _ _ _ _ _ _ _ Ce Cf) as (P1 & P2 & _). rewrite Cm, compile_each_map in Ce. injection Ce as Ecs _ _. split; cbn [pv_ordered pv_views].
    + intros j mj Hj. rewrite created_snoc. destruct (decide (i = j)) as [->|Ne].
      * rewrite list_lookup_insert in Hj by (by eapply lookup_lt_Some). injection Hj as <-. rewrite P2, P1, <- Ecs. apply map_ext. intros v.
        assert (created j [AInst j d] = [d]) as -> by (cbn; by rewrite decide_True). by rewrite compile_run_snoc.
      * rewrite list_lookup_insert_ne in Hj by done. rewrite (created_none j [AInst i d]); [rewrite app_nil_r; by apply C1|].
        intros d' Hd. apply elem_of_list_singleton in Hd. by injection Hd.
    + intros j d' Hd. rewrite insert_length. apply elem_of_app in Hd as [Hd|Hd]; [by eapply C2|]. apply elem_of_list_singleton in Hd. injection Hd as -> ->. by eapply lookup_lt_Some.
  - destruct (la !! k); [|done]. cbn in E. injection E as <- <-. by apply Same.
  - injection E as <- <-. by apply Same.
  - destruct (cl !! t) as [c|]; [|done]. cbn [mbind option_bind] in E. destruct c as [|n es|es|]; try done.
    + destruct ms; injection E as <- <-; by apply Same.
    + destruct (Nat.ltb n (length vs)); injection E as <- <-; by apply Same.
Qed.
Lemma run_compiled l2 : forall l1 p p' tr, compiled l1 p -> run L p l2 = Some (p', tr) -> compiled (l1 ++ l2) p'.
Proof.
  induction l2 as [|a l2 IH]; intros l1 p p' tr C E; cbn [run] in E; [injection E as <- <-; by rewrite app_nil_r|].
  destruct (step L p a) as [[p1 r]|] eqn:S; [|done]. cbn [mbind option_bind] in E. destruct (run L p1 l2) as [[p2 rs]|] eqn:R; [|done]. cbn in E. injection E as <- <-.
  rewrite cons_middle, app_assoc. eapply IH; [|done]. by eapply step_compiled.
Qed.
Lemma compiled_new os t0 : compiled [] (new_provider L os t0).
Proof. split; [intros i m H; cbn in H; by rewrite lookup_nil in H|intros i d H; by apply elem_of_nil in H]. Qed.

(** Every meter was asked for. *)
Lemma step_asked p a p' r i m : step L p a = Some (p', r) -> pv_ordered p' !! i = Some m ->
  (exists m0, pv_ordered p !! i = Some m0 /\ mr_lib m0 = mr_lib m) \/ (a = AMeter (mr_lib m) /\ r = RMeter i).
Proof.
  intros E H. destruct p as [vs t0 ord ms nx la cl calls]. destruct a as [lib|j d|k now| |t errs]; cbn [step] in E.
  - destruct ms as [ml|]; [|injection E as <- <-; eauto]. destruct (find_pair lib ml); [injection E as <- <-; eauto|].
    injection E as <- <-. cbn in *. apply lookup_app_Some in H as [H|[Hl H]]; [eauto|]. destruct (i - length ord)%nat as [|j] eqn:Ej; [|done]. injection H as <-.
    right. cbn. split; [done|]. f_equal. lia.
  - destruct (ord !! j) as [m0|] eqn:O; [|done]. cbn [mbind option_bind] in E. destruct (configure L vs m0 d nx) as [[m' x] e] eqn:Cf. injection E as <- <-. cbn in *. left.
    destruct (decide (j = i)) as [->|Ne]; [|rewrite list_lookup_insert_ne in H by done; eauto].
    rewrite list_lookup_insert in H by (by eapply lookup_lt_Some). injection H as <-. exists m0. split; [done|].
    destruct (compile_each L vs (mr_lib m0) (mr_comp m0) d) as [[cs idss] es] eqn:Ce. destruct (configure_parts _ _ _ _ _ _ _ _ _ _ Ce Cf) as (P1 & _). done.
  - destruct (la !! k); [|done]. cbn in E. injection E as <- <-. eauto.
  - injection E as <- <-. eauto.
  - destruct (cl !! t) as [c|]; [|done]. cbn [mbind option_bind] in E. destruct c as [|n es|es|]; try done.
    + destruct ms; injection E as <- <-; eauto.
    + destruct (Nat.ltb n (length vs)); injection E as <- <-; eauto.
Qed.
Lemma run_asked l : forall p p' tr i m, run L p l = Some (p', tr) -> pv_ordered p' !! i = Some m ->
  (exists m0, pv_ordered p !! i = Some m0 /\ mr_lib m0 = mr_lib m) \/ (AMeter (mr_lib m), RMeter i) ∈ tr.
Proof.
  induction l as [|a l IH]; intros p p' tr i m E H; cbn [run] in E; [injection E as <- <-; eauto|].
  destruct (step L p a) as [[p1 r]|] eqn:S; [|done]. cbn [mbind option_bind] in E. destruct (run L p1 l) as [[p2 rs]|] eqn:R; [|done]. cbn in E. injection E as <- <-.
  destruct (IH _ _ _ _ _ R H) as [(m1 & H1 & E1)|H1]; [|right; by right].
  destruct (step_asked _ _ _ _ _ _ S H1) as [(m0 & H0 & E0)|[-> ->]]; [left; exists m0; split; [done|congruence]|]. right. rewrite E1. left.
Qed.
Lemma concat_nil {X} (ls : list (list X)) : concat ls = [] <-> forall l, l ∈ ls -> l = [].
Proof.
  induction ls as [|l ls IH]; cbn; [split; [intros _ l Hl; by apply elem_of_nil in Hl|done]|]. split.
  - intros E. apply app_eq_nil in E as [-> E]. intros l Hl. apply elem_of_cons in Hl as [->|Hl]; [done|]. by apply IH.
  - intros H. rewrite (H l) by left. cbn. apply IH. intros l' Hl. apply H. by right.
Qed.
Lemma concat_some {X} (ls : list (list X)) : concat ls <> [] -> exists l, l ∈ ls /\ l <> [].
Proof.
  induction ls as [|l ls IH]; [done|]. cbn. destruct l as [|x l]; [|intros _; exists (x :: l); split; [left|done]].
  intros H. destruct (IH H) as (l & Hl & N). exists l. split; [by right|done].
Qed.
End prov.
