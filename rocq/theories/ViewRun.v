(** Invariants of the view compiler over histories of registrations. *)
From Coq Require Import ZArith Bool String Ascii Lia.
From stdpp Require Import base list option strings gmap.
From Verif Require Import Num Attr AttrProofs View ViewSpec ViewProofs.

Definition listed (st : cstate) (n : string) : list nat := default [] (names st !! n).
(** The map of names lists every collector once, under its output name. *)
Definition wf (st : cstate) : Prop :=
  forall n, NoDup (listed st n) /\ forall i, i ∈ listed st n <-> exists s, collectors st !! i = Some s /\ i_name (s_desc s) = n.
(** Two versions of a stream: only the description changes, and never to a shorter one. *)
Definition grown (s t : stream) : Prop :=
  s_from s = s_from t /\ i_name (s_desc s) = i_name (s_desc t) /\ i_kind (s_desc s) = i_kind (s_desc t) /\ i_num (s_desc s) = i_num (s_desc t) /\
  i_unit (s_desc s) = i_unit (s_desc t) /\ s_agg s = s_agg t /\ s_delta s = s_delta t /\ s_cfg s = s_cfg t /\ s_keys s = s_keys t /\
  String.length (i_desc (s_desc s)) <= String.length (i_desc (s_desc t)).
Definition ext (st st' : cstate) : Prop :=
  (forall i s, collectors st !! i = Some s -> exists t, collectors st' !! i = Some t /\ grown s t) /\
  (forall n, listed st n `prefix_of` listed st' n).

Lemma grown_refl s : grown s s. Proof. repeat split; lia. Qed.
Lemma grown_trans s t u : grown s t -> grown t u -> grown s u.
Proof. unfold grown. intros. destruct_and!. split_and!; try (etrans; eassumption). Qed.
Lemma ext_refl st : ext st st. Proof. split; eauto using grown_refl. Qed.
Lemma ext_trans a b c : ext a b -> ext b c -> ext a c.
Proof.
  intros [H1 H2] [H3 H4]. split; [|intros n; exact (transitivity (H2 n) (H4 n))].
  intros i s Hs. destruct (H1 _ _ Hs) as (t & Ht & G). destruct (H3 _ _ Ht) as (u & Hu & G'). exists u. eauto using grown_trans.
Qed.
Lemma ext_length a b : ext a b -> length (collectors a) <= length (collectors b).
Proof.
  intros [H _]. destruct (Nat.le_gt_cases (length (collectors a)) (length (collectors b))) as [|G]; [done|].
  destruct (lookup_lt_is_Some_2 _ _ G) as [s Hs]. destruct (H _ _ Hs) as (t & Ht%lookup_lt_Some & _). lia.
Qed.
Lemma wf_empty : wf cempty.
Proof. intros n. unfold listed. simpl. rewrite lookup_empty. simpl. split; [constructor|]. intros i. split; [by intros ?%elem_of_nil|]. by intros (s & ? & _). Qed.

Lemma merge_grown t s : grown s (merge_description t s).
Proof. destruct s as [f [n k nk d u] a dl cfg ks]. simpl. destruct (Nat.ltb_spec (String.length d) (String.length t)); repeat split; simpl; lia. Qed.
Lemma merge_length t s : String.length t <= String.length (i_desc (s_desc (merge_description t s))).
Proof. destruct s as [f [n k nk d u] a dl cfg ks]. simpl. destruct (Nat.ltb_spec (String.length d) (String.length t)); simpl; lia. Qed.
Lemma merge_id t s : String.length t <= String.length (i_desc (s_desc s)) -> merge_description t s = s.
Proof. destruct s as [f [n k nk d u] a dl cfg ks]. simpl. intros. by destruct (Nat.ltb_spec (String.length d) (String.length t)); [lia|]. Qed.
Lemma shares_grown s t b : grown s t -> shares t b = shares s b.
Proof. intros (_ & _ & Hk & Hn & Hu & Ha & _ & Hc & Hs & _). unfold shares. by rewrite <- Hk, <- Hn, <- Hu, <- Ha, <- Hc, <- Hs. Qed.

Lemma find_shared_spec l ids b i : find_shared l ids b = Some i -> i ∈ ids /\ exists s, l !! i = Some s /\ shares s b = true.
Proof.
  induction ids as [|j ids IH]; [done|]. cbn [find_shared].
  destruct (l !! j) as [s|] eqn:E; [destruct (shares s b) eqn:F|].
  - intros [= ->]. split; [left|eauto].
  - intros H%IH. rewrite elem_of_cons. naive_solver.
  - intros H%IH. rewrite elem_of_cons. naive_solver.
Qed.
Lemma find_shared_none l ids b i s : find_shared l ids b = None -> i ∈ ids -> l !! i = Some s -> shares s b = false.
Proof.
  induction ids as [|j ids IH]; [by intros _ ?%elem_of_nil|]. cbn [find_shared]. rewrite elem_of_cons.
  destruct (l !! j) as [s'|] eqn:E; [destruct (shares s' b) eqn:F; [done|]|]; intros H [->|Hi] Hs; try (by apply (IH H Hi Hs)); congruence.
Qed.
Lemma find_shared_ext st st' n b i : wf st -> ext st st' -> find_shared (collectors st) (listed st n) b = Some i ->
  find_shared (collectors st') (listed st' n) b = Some i.
Proof.
  intros W [H1 H2]. destruct (H2 n) as [r ->]. destruct (W n) as [_ W2].
  assert (forall j, j ∈ listed st n -> exists s, collectors st !! j = Some s) as Hin by (intros j (s & ? & _)%W2; eauto).
  clear W2. revert Hin. generalize (listed st n) as ids. induction ids as [|j ids IH]; [done|]. intros Hin. cbn [find_shared app].
  destruct (Hin j) as [s Hs]; [left|]. rewrite Hs. destruct (H1 _ _ Hs) as (t & Ht & G). rewrite Ht, (shares_grown _ _ _ G).
  destruct (shares s b); [done|]. apply IH. intros. apply Hin. by right.
Qed.
Lemma find_shared_app l ids b i s : find_shared l ids b = None -> l !! i = Some s -> shares s b = true -> find_shared l (ids ++ [i]) b = Some i.
Proof.
  intros H Hs Sh. induction ids as [|j ids IH]; cbn [find_shared app] in *; [by rewrite Hs, Sh|].
  destruct (l !! j) as [s'|]; [destruct (shares s' b); [done|]|]; auto.
Qed.

(** A behavior whose stream has the aggregation that was asked for. *)
Definition faithful (b : behavior) : Prop := built_agg b = b_agg b.
Lemma same_keys_refl k : same_keys k k = true.
Proof. apply same_keys_spec. destruct k; simpl; done || tauto. Qed.
Lemma shares_build b : faithful b -> shares (build b) b = true.
Proof.
  intros F. unfold shares, build. simpl. rewrite F, eqb_reflx, String.eqb_refl, same_keys_refl, !bool_decide_eq_true_2 by done. done.
Qed.

(** What placing a behavior does. *)
Record placed (k : kind) (st : cstate) (b0 : behavior) (st' : cstate) (i : nat) (cs : list conflict) : Prop := Placed {
  pl_wf : wf st';
  pl_ext : ext st st';
  pl_leaf : exists s, collectors st' !! i = Some s /\ i_name (s_desc s) = i_name (b_desc b0) /\
              String.length (i_desc (b_desc b0)) <= String.length (i_desc (s_desc s)) /\
              (i_desc (s_desc s) = i_desc (b_desc b0) \/ exists s0, collectors st !! i = Some s0 /\ i_desc (s_desc s) = i_desc (s_desc s0)) /\
              (faithful (check_semantic k b0).1 -> shares s (check_semantic k b0).1 = true) /\
              (length (collectors st) <= i -> s = build (check_semantic k b0).1) /\
              (collectors st !! i = None \/ shares s (check_semantic k b0).1 = true);
  pl_find : faithful (check_semantic k b0).1 ->
              find_shared (collectors st') (listed st' (i_name (b_desc b0))) (check_semantic k b0).1 = Some i;
  pl_other : forall j, j <> i -> collectors st' !! j = collectors st !! j;
  pl_conf : cs <> [] <-> (check_semantic k b0).2 <> None \/ exists j s, j <> i /\ collectors st' !! j = Some s /\ i_name (s_desc s) = i_name (b_desc b0);
  pl_sem : (exists c, c ∈ cs /\ cf_semantic c <> None) <-> (check_semantic k b0).2 <> None;
  pl_dups : forall c, c ∈ cs -> cf_duplicates c = listed st' (i_name (b_desc b0))
}.

Lemma check_semantic_desc k b : b_desc (check_semantic k b).1 = b_desc b.
Proof. unfold check_semantic. destruct (b_hinted b); [done|]. by match goal with |- context [if ?c then _ else _] => destruct c end. Qed.

Lemma long_list (l : list nat) i : NoDup l -> i ∈ l -> (Nat.ltb 1 (length l) = true <-> exists j, j <> i /\ j ∈ l).
Proof.
  intros N Hi. rewrite Nat.ltb_lt. split.
  - intros Hl. destruct l as [|a [|b l]]; simpl in *; [lia|lia|]. apply list.NoDup_cons in N as [N _].
    destruct (decide (a = i)) as [->|]; [|exists a; split; [done|left]].
    exists b. split; [|right; left]. intros ->. apply N. left.
  - intros (j & Hj & Hin). destruct l as [|a [|b l]]; simpl; [by apply elem_of_nil in Hi| |lia].
    apply elem_of_list_singleton in Hi, Hin. congruence.
Qed.

Lemma place_spec k st b0 st' i cs : wf st -> place k st b0 = (st', i, cs) -> placed k st b0 st' i cs.
Proof.
  intros W E. unfold place in E. pose proof (check_semantic_desc k b0) as D. destruct (check_semantic k b0) as [b sem] eqn:C.
  cbn [fst] in D. rewrite D in E. fold (listed st (i_name (b_desc b0))) in E.
  set (n := i_name (b_desc b0)) in *.
  destruct (find_shared (collectors st) (listed st n) b) as [i'|] eqn:F.
  - injection E as <- <- <-.
    destruct (find_shared_spec _ _ _ _ F) as (Hin & s & Hs & Sh).
    destruct (W n) as [Nd Wn]. apply Wn in Hin as Hn. destruct Hn as (s0 & Hs0 & Hname). rewrite Hs in Hs0. injection Hs0 as <-.
    set (f := merge_description (i_desc (b_desc b0))). set (st' := CState (alter f i' (collectors st)) (names st)).
    assert (collectors st' !! i' = Some (f s)) as Hs' by (unfold st'; simpl; by rewrite list_lookup_alter, Hs).
    assert (forall j, j <> i' -> collectors st' !! j = collectors st !! j) as Ho by (intros j Hj; unfold st'; simpl; by rewrite list_lookup_alter_ne by done).
    pose proof (merge_grown (i_desc (b_desc b0)) s) as G. fold f in G.
    assert (i_name (s_desc s) = i_name (s_desc (f s))) as Gn by (destruct G as (_ & Gn & _); exact Gn).
    assert (wf st') as W'.
    { intros m. destruct (W m) as [N1 N2]. split; [exact N1|]. intros j. change (listed st' m) with (listed st m). rewrite N2.
      destruct (decide (j = i')) as [->|Hj]; [|by rewrite Ho]. rewrite Hs, Hs'. split; intros (x & [= <-] & <-); eexists; (split; [done|]); first [exact Gn | symmetry; exact Gn]. }
    assert (ext st st') as X.
    { split; [|done]. intros j x Hx. destruct (decide (j = i')) as [->|Hj]; [|rewrite Ho by done; eauto using grown_refl].
      rewrite Hs in Hx. injection Hx as <-. eauto. }
    assert (i_name (s_desc (f s)) = n) as Hn by (rewrite <- Hname; symmetry; exact Gn).
    split; rewrite ?C; cbn [fst snd]; fold n.
    + exact W'.
    + exact X.
    + exists (f s). split; [done|]. split; [done|]. split; [apply merge_length|]. split.
      { unfold f. destruct s as [f0 [n0 k0 nk0 d0 u0] a0 dl0 cfg0 ks0]. simpl. destruct (Nat.ltb_spec (String.length d0) (String.length (i_desc (b_desc b0)))); eauto. }
      assert (shares (f s) b = true) as Sh' by (rewrite (shares_grown s) by done; done).
      split; [done|]. split; [|by right]. intros Hl. apply lookup_lt_Some in Hs. lia.
    + intros _. apply (find_shared_ext st); done.
    + exact Ho.
    + change (listed st n) with (listed st' n) in *.
      pose proof (long_list (listed st' n) i' (proj1 (W' n)) (proj2 (proj2 (W' n) i') (ex_intro _ _ (conj Hs' Hn)))) as LL.
      assert ((exists j, j <> i' /\ j ∈ listed st' n) <-> exists j s, j <> i' /\ collectors st' !! j = Some s /\ i_name (s_desc s) = n) as E1.
      { split; [intros (j & ? & (x & ? & ?)%(W' n)); eauto|]. intros (j & x & ? & ? & ?). exists j. split; [done|]. apply (W' n). eauto. }
      rewrite <- E1, <- LL. destruct (Nat.ltb 1 _), sem; simpl; naive_solver.
    + destruct (Nat.ltb 1 _), sem; simpl; setoid_rewrite elem_of_list_singleton || setoid_rewrite elem_of_nil; naive_solver.
    + intros c Hc. destruct (_ || _); [apply elem_of_list_singleton in Hc as ->; done|by apply elem_of_nil in Hc].
  - injection E as <- <- <-.
    set (i' := length (collectors st)). set (st' := CState _ _).
    assert (collectors st' !! i' = Some (build b)) as Hs' by (unfold st'; simpl; by apply list_lookup_middle).
    assert (forall j, j <> i' -> collectors st' !! j = collectors st !! j) as Ho.
    { intros j Hj. unfold st'. simpl. destruct (Nat.lt_ge_cases j i'); [by rewrite lookup_app_l|].
      rewrite !lookup_ge_None_2; [done|unfold i' in *; lia|rewrite app_length; simpl; unfold i' in *; lia]. }
    assert (forall m, listed st' m = listed st m ++ if decide (m = n) then [i'] else []) as Hlist.
    { intros m. unfold listed, st'. cbn [names]. destruct (decide (m = n)) as [->|Hm]; [by rewrite lookup_insert|].
      rewrite lookup_insert_ne by done. by rewrite app_nil_r. }
    assert (forall m, i' ∉ listed st m) as Hfresh.
    { intros m (x & Hx%lookup_lt_Some & _)%(W m). unfold i' in Hx. lia. }
    assert (i_name (s_desc (build b)) = n) as Hn by (simpl; by rewrite D).
    assert (wf st') as W'.
    { intros m. destruct (W m) as [N1 N2]. rewrite Hlist. split.
      - destruct (decide (m = n)); [|by rewrite app_nil_r]. apply NoDup_app. split; [done|]. split; [|apply NoDup_singleton].
        intros x Hx ->%elem_of_list_singleton. by eapply Hfresh.
      - intros j. rewrite elem_of_app, N2. destruct (decide (j = i')) as [->|Hj].
        + rewrite Hs'. split.
          * intros [(x & Hx%lookup_lt_Some & _)|Hj]; [unfold i' in Hx; lia|]. exists (build b). split; [done|].
            destruct (decide (m = n)); [congruence|by apply elem_of_nil in Hj].
          * intros (x & [= <-] & <-). right. rewrite Hn, decide_True by done. by apply elem_of_list_singleton.
        + rewrite Ho by done. split; [|tauto]. intros [?|Hx]; [done|]. destruct (decide (m = n)); [by apply elem_of_list_singleton in Hx|by apply elem_of_nil in Hx]. }
    assert (ext st st') as X.
    { split; [|intros m; rewrite Hlist; by eexists]. intros j x Hx. exists x. split; [|apply grown_refl].
      rewrite Ho; [done|]. apply lookup_lt_Some in Hx. unfold i'. lia. }
    split; rewrite ?C; cbn [fst snd]; fold n.
    + exact W'.
    + exact X.
    + exists (build b). split; [done|]. split; [done|]. split; [simpl; by rewrite D|]. split; [left; simpl; by rewrite D|].
      split; [apply shares_build|]. split; [done|]. left. by apply lookup_ge_None_2.
    + intros Fa. rewrite Hlist, decide_True by done. apply find_shared_app with (s := build b); [|done|by apply shares_build].
      unfold st'. simpl. destruct (W n) as [_ Wn].
      assert (forall j, j ∈ listed st n -> exists s, collectors st !! j = Some s) as Hin by (intros j (s & ? & _)%Wn; eauto).
      clear -F Hin. revert F Hin. generalize (listed st n) as ids. induction ids as [|j ids IH]; [done|]. cbn [find_shared]. intros F Hin.
      destruct (Hin j) as [s Hs]; [left|]. rewrite Hs in F. rewrite lookup_app_l by (by eapply lookup_lt_Some). rewrite Hs.
      destruct (shares s b); [done|]. apply IH; [done|]. intros. apply Hin. by right.
    + exact Ho.
    + assert (listed st n ++ [i'] = listed st' n) as -> by (by rewrite Hlist, decide_True).
      pose proof (long_list (listed st' n) i' (proj1 (W' n)) (proj2 (proj2 (W' n) i') (ex_intro _ _ (conj Hs' Hn)))) as LL.
      assert ((exists j, j <> i' /\ j ∈ listed st' n) <-> exists j s, j <> i' /\ collectors st' !! j = Some s /\ i_name (s_desc s) = n) as E1.
      { split; [intros (j & ? & (x & ? & ?)%(W' n)); eauto|]. intros (j & x & ? & ? & ?). exists j. split; [done|]. apply (W' n). eauto. }
      rewrite <- E1, <- LL. destruct (Nat.ltb 1 _), sem; simpl; naive_solver.
    + destruct (Nat.ltb 1 _), sem; simpl; setoid_rewrite elem_of_list_singleton || setoid_rewrite elem_of_nil; naive_solver.
    + intros c Hc. assert (listed st' n = listed st n ++ [i']) as -> by (by rewrite Hlist, decide_True).
      destruct (_ || _); [apply elem_of_list_singleton in Hc as ->; done|by apply elem_of_nil in Hc].
Qed.
