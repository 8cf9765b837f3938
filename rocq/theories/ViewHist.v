(** Registrations and histories of the view compiler. *)
From Coq Require Import ZArith Bool String Ascii Lia.
From stdpp Require Import base list option strings gmap.
From Verif Require Import Num Attr AttrProofs View ViewSpec ViewProofs ViewRun.

(** * One registration *)
(** A behavior that has its stream. *)
Definition settled (k : kind) (st : cstate) (b : behavior) (i : nat) : Prop :=
  (exists s, collectors st !! i = Some s /\ i_name (s_desc s) = i_name (b_desc b) /\ String.length (i_desc (b_desc b)) <= String.length (i_desc (s_desc s)) /\
     (faithful (check_semantic k b).1 -> shares s (check_semantic k b).1 = true)) /\
  (faithful (check_semantic k b).1 -> find_shared (collectors st) (listed st (i_name (b_desc b))) (check_semantic k b).1 = Some i).
Lemma settled_ext k st st' b i : wf st -> ext st st' -> settled k st b i -> settled k st' b i.
Proof.
  intros W X [(s & Hs & Hn & Hl & Hf) F]. destruct X as [X1 X2]. destruct (X1 _ _ Hs) as (t & Ht & G). split.
  - exists t. pose proof (shares_grown s t (check_semantic k b).1 G) as S. destruct G as (_ & Gn & _ & _ & _ & _ & _ & _ & _ & Gl).
    split; [done|]. split; [congruence|]. split; [lia|]. rewrite S. done.
  - intros Fa. apply (find_shared_ext st); [done|split; done|auto].
Qed.
Lemma placed_settled k st b st' i cs : placed k st b st' i cs -> settled k st' b i.
Proof. intros P. split; [|apply P]. destruct (pl_leaf _ _ _ _ _ _ P) as (s & Hs & Hn & Hl & _ & Hf & _). eauto. Qed.

(** Every behavior of a list has its stream, new streams come from the list, nothing else changes. *)
Record all_placed (k : kind) (st : cstate) (bs : list behavior) (st' : cstate) (ids : list nat) (cs : list conflict) : Prop := AllPlaced {
  ap_wf : wf st';
  ap_ext : ext st st';
  ap_settled : Forall2 (settled k st') bs ids;
  ap_new : forall j, length (collectors st) <= j < length (collectors st') -> j ∈ ids;
  ap_build : forall j s, length (collectors st) <= j -> collectors st' !! j = Some s -> exists b, b ∈ bs /\ grown (build (check_semantic k b).1) s;
  ap_other : forall j, j ∉ ids -> collectors st' !! j = collectors st !! j;
  ap_conf : cs <> [] <-> (exists b, b ∈ bs /\ (check_semantic k b).2 <> None) \/
                        (exists i j s t, i ∈ ids /\ j <> i /\ collectors st' !! i = Some s /\ collectors st' !! j = Some t /\ i_name (s_desc s) = i_name (s_desc t));
  ap_sem : (exists c, c ∈ cs /\ cf_semantic c <> None) <-> exists b, b ∈ bs /\ (check_semantic k b).2 <> None;
  ap_desc : forall j s, collectors st' !! j = Some s ->
              (exists s0, collectors st !! j = Some s0 /\ i_desc (s_desc s) = i_desc (s_desc s0)) \/
              (exists p b, ids !! p = Some j /\ bs !! p = Some b /\ i_desc (s_desc s) = i_desc (b_desc b))
}.
Lemma grown_name s t : grown s t -> i_name (s_desc s) = i_name (s_desc t).
Proof. by intros (_ & ? & _). Qed.
Lemma place_all_spec k bs : forall st st' ids cs, wf st -> place_all k st bs = (st', ids, cs) -> all_placed k st bs st' ids cs.
Proof.
  induction bs as [|b bs IH]; intros st st' ids cs W E; cbn [place_all] in E.
  - injection E as <- <- <-. split; try done.
    + apply ext_refl.
    + lia.
    + intros j s Hj Hs%lookup_lt_Some. lia.
    + split; [done|]. intros [(b & ?%elem_of_nil & _)|(i & j & s & t & ?%elem_of_nil & _)]; done.
    + split; intros (x & ?%elem_of_nil & _); done.
    + eauto.
  - destruct (place k st b) as [[st1 i] c] eqn:P. destruct (place_all k st1 bs) as [[st2 is] cs'] eqn:R. injection E as <- <- <-.
    apply place_spec in P; [|done]. pose proof (placed_settled _ _ _ _ _ _ P) as S1. destruct P as [W1 X1 Lf Fi Ot Cf Se _].
    apply IH in R; [|done]. destruct R as [W2 X2 St Nw Bu O2 C2 Se2 De].
    destruct Lf as (s1 & Hs1 & Hn1 & Hl1 & Hd1 & _ & Hb1 & _).
    pose proof (ext_length _ _ X1) as L1. pose proof (ext_length _ _ X2) as L2.
    destruct (proj1 X2 _ _ Hs1) as (s2 & Hs2 & G2).
    assert (forall j, length (collectors st) <= j < length (collectors st1) -> j = i) as Only.
    { intros j [H1 H2]. destruct (decide (j = i)) as [|N]; [done|]. apply lookup_lt_is_Some in H2 as [x Hx]. rewrite Ot in Hx by done.
      apply lookup_lt_Some in Hx. lia. }
    split.
    + exact W2.
    + by eapply ext_trans.
    + constructor; [|done]. exact (settled_ext _ _ _ _ _ W1 X2 S1).
    + intros j Hj. apply elem_of_cons. destruct (Nat.lt_ge_cases j (length (collectors st1))); [left|right]; [apply Only; lia|apply Nw; lia].
    + intros j s Hj Hs. destruct (Nat.lt_ge_cases j (length (collectors st1))) as [J|J].
      * assert (j = i) as -> by (apply Only; lia). exists b. split; [left|]. rewrite <- Hb1 by done. rewrite Hs2 in Hs. by injection Hs as <-.
      * destruct (Bu j s J Hs) as (b' & ? & ?). exists b'. split; [by right|done].
    + intros j [Ji Jo]%not_elem_of_cons. rewrite O2 by done. by apply Ot.
    + assert (c ++ cs' <> [] <-> c <> [] \/ cs' <> []) as -> by (destruct c; simpl; [tauto|split; [by left|done]]).
      rewrite Cf, C2. split.
      * intros [[Hs|(j & s & Hj & Hs & Hn)] | [(b' & Hb & Hb')|(i' & j & s & t & Hi & Hj & Hs & Ht & Hn)]].
        -- left. exists b. split; [left|done].
        -- right. destruct (proj1 X2 _ _ Hs) as (t & Ht & G). exists i, j, s2, t. split; [left|]. split; [done|]. split; [done|]. split; [done|].
           rewrite <- (grown_name _ _ G), <- (grown_name _ _ G2). congruence.
        -- left. exists b'. split; [by right|done].
        -- right. exists i', j, s, t. split; [by right|]. done.
      * intros [(b' & [->|Hb]%elem_of_cons & Hb')|(i' & j & s & t & [->|Hi]%elem_of_cons & Hj & Hs & Ht & Hn)].
        -- tauto.
        -- right. left. eauto.
        -- destruct (Nat.lt_ge_cases j (length (collectors st1))) as [J|J].
           ++ left. right. apply lookup_lt_is_Some in J as [x Hx]. destruct (proj1 X2 _ _ Hx) as (y & Hy & Gy). exists j, x. split; [done|]. split; [done|].
              rewrite (grown_name _ _ Gy). rewrite Ht in Hy. injection Hy as <-. rewrite <- Hn. rewrite Hs2 in Hs. injection Hs as <-.
              rewrite <- (grown_name _ _ G2). done.
           ++ right. right. exists j, i, t, s. split; [apply Nw; split; [done|]; by eapply lookup_lt_Some|]. split; [done|]. done.
        -- right. right. eauto 10.
    + setoid_rewrite elem_of_app. setoid_rewrite elem_of_cons. split.
      * intros (x & [Hx|Hx] & Hx'); [exists b; split; [by left|]; apply Se; eauto|].
        destruct (proj1 Se2) as (b' & ? & ?); eauto.
      * intros (b' & [->|Hb] & Hb'); [apply Se in Hb' as (x & ? & ?); eauto|]. destruct (proj2 Se2) as (x & ? & ?); eauto.
    + intros j s Hs. destruct (De j s Hs) as [(s0 & Hs0 & E0)|(p & b' & Hp & Hb & E0)].
      * destruct (decide (j = i)) as [->|Hj].
        -- rewrite Hs1 in Hs0. injection Hs0 as <-. destruct Hd1 as [Hd|(s00 & ? & ?)]; [|left; exists s00; split; [done|congruence]].
           right. exists 0, b. split; [done|]. split; [done|congruence].
        -- left. rewrite Ot in Hs0 by done. eauto.
      * right. exists (S p), b'. done.
Qed.

(** Placing again what is settled changes nothing. *)
Lemma place_settled k st b i : settled k st b i -> faithful (check_semantic k b).1 -> exists cs, place k st b = (st, i, cs).
Proof.
  intros [(s & Hs & Hn & Hl & _) F] Fa. specialize (F Fa). unfold place. pose proof (check_semantic_desc k b) as D.
  destruct (check_semantic k b) as [b' sem]. cbn [fst] in *. rewrite D. fold (listed st (i_name (b_desc b))). rewrite F.
  eexists. f_equal. f_equal. destruct st as [cl nm]. simpl in *. f_equal.
  apply list_eq. intros j. destruct (decide (j = i)) as [->|Hj]; [|by rewrite list_lookup_alter_ne].
  rewrite list_lookup_alter, Hs. simpl. by rewrite merge_id.
Qed.
Lemma place_all_settled k bs : forall st ids, Forall2 (settled k st) bs ids -> (forall b, b ∈ bs -> faithful (check_semantic k b).1) ->
  exists cs, place_all k st bs = (st, ids, cs).
Proof.
  induction bs as [|b bs IH]; intros st ids H Fa; inversion H as [|? i ? is H1 H2]; subst; cbn [place_all]; [eauto|].
  destruct (place_settled _ _ _ _ H1) as [c ->]; [apply Fa; left|]. destruct (IH _ _ H2) as [cs ->]; [intros; apply Fa; by right|]. eauto.
Qed.

(** * Instruments without a hint *)
Definition to_behavior (from : string) (t : tempo) (o : out) : behavior :=
  Behavior from (Descriptor (o_name o) (o_kind o) (o_num o) (o_desc o) (o_unit o)) (o_agg o) t (o_cfg o) (o_keys o) false.
Lemma chosen_filter lib d cs : chosen lib d cs (filter (fun c => matches c lib d = true) cs).
Proof.
  induction cs as [|c cs IH]; [constructor|]. rewrite filter_cons. destruct (decide (matches c lib d = true)) as [E|E].
  - constructor; [by apply matches_spec|done].
  - constructor; [by rewrite <- matches_spec|done].
Qed.
Lemma chosen_unique lib d cs ms ms' : chosen lib d cs ms -> chosen lib d cs ms' -> ms = ms'.
Proof.
  intros H. revert ms'. induction H; intros ms' H'; inversion H'; subst; try done; f_equal; auto.
Qed.
Lemma wanted_unique v lib d os os' : wanted v lib d os -> wanted v lib d os' -> os = os'.
Proof. intros (ms & C & ->) (ms' & C' & ->). by rewrite (chosen_unique _ _ _ _ _ C C'). Qed.
Section L.
Context (L : libs).
Lemma behaviors_wanted v lib d : no_hint L d -> exists os, wanted v lib d os /\
  behaviors L v lib d = (d, map (to_behavior (i_name d) (f_tempo (v_defaults v (i_kind d)))) os).
Proof.
  intros H. pose proof (chosen_filter lib d (v_clauses v)) as C.
  set (ms := filter (fun c => matches c lib d = true) (v_clauses v)) in *.
  eexists. split; [exists ms; split; [exact C|reflexivity]|]. unfold behaviors. fold ms. destruct ms as [|m ms].
  - rewrite no_hint_plain by done. destruct (decide (f_agg (v_defaults v (i_kind d)) = DropAgg)) as [E|E].
    + by rewrite bool_decide_eq_true_2.
    + rewrite bool_decide_eq_false_2 by done. unfold to_behavior, default_out, default_cfg. simpl. destruct d as [n k nk ds u]. done.
  - rewrite clause_behaviors_plain by done. f_equal. rewrite map_map. apply map_ext. intros c. unfold to_behavior, clause_out, view_descriptor, rename, asked. simpl.
    f_equal; try (by destruct (k_agg c)). f_equal. destruct (String.eqb_spec (k_desc c) ""); by case_decide.
Qed.
Lemma plain_faithful from t k o : o_kind o = k -> faithful (check_semantic k (to_behavior from t o)).1 /\
  (check_semantic k (to_behavior from t o)).1 = with_agg (to_behavior from t o) (granted k (o_agg o)) /\
  ((check_semantic k (to_behavior from t o)).2 <> None <-> allowed k (o_agg o) = false).
Proof.
  intros E. destruct (check_semantic_plain k (to_behavior from t o)) as [-> B]; [done..|]. simpl. split; [exact B|]. split; [done|].
  destruct (allowed k (o_agg o)); naive_solver.
Qed.
Lemma wanted_kind v lib d os o : wanted v lib d os -> o ∈ os -> o_kind o = i_kind d.
Proof.
  intros (ms & _ & ->) Ho. destruct ms as [|m ms].
  - case_decide; [by apply elem_of_nil in Ho|]. by apply elem_of_list_singleton in Ho as ->.
  - change (map (clause_out v d)) with (fmap (clause_out v d) : list clause -> list out) in Ho. by apply elem_of_list_fmap in Ho as (c & -> & _).
Qed.
Lemma compile_spec v lib st d st' ids cs : wf st -> compile L v lib st d = (st', ids, cs) ->
  exists d' bs, behaviors L v lib d = (d', bs) /\ all_placed (i_kind d') st bs st' ids cs.
Proof.
  unfold compile. intros W E. destruct (behaviors L v lib d) as [d' bs]. eexists _, _. split; [done|]. by eapply place_all_spec.
Qed.
(** What a registration without a hint does, in terms of the outputs that are wanted. *)
Lemma compile_plain v lib st d st' ids cs : wf st -> no_hint L d -> compile L v lib st d = (st', ids, cs) ->
  exists os, wanted v lib d os /\ all_placed (i_kind d) st (map (to_behavior (i_name d) (f_tempo (v_defaults v (i_kind d)))) os) st' ids cs.
Proof.
  intros W H E. destruct (compile_spec _ _ _ _ _ _ _ W E) as (d' & bs & B & P). destruct (behaviors_wanted v lib d H) as (os & Wa & B').
  rewrite B in B'. injection B' as -> ->. eauto.
Qed.
Lemma shares_carries s from t k o : o_kind o = k -> i_name (s_desc s) = o_name o -> String.length (o_desc o) <= String.length (i_desc (s_desc s)) ->
  shares s (with_agg (to_behavior from t o) (granted k (o_agg o))) = true -> carries s o.
Proof.
  intros <- Hn Hl Sh. unfold shares in Sh. simpl in Sh.
  repeat match goal with H : _ && _ = true |- _ => apply andb_true_iff in H as [? ?] end.
  repeat match goal with H : bool_decide _ = true |- _ => apply bool_decide_eq_true in H end.
  unfold carries. split_and!; try done.
  - by apply String.eqb_eq.
  - by apply same_keys_spec.
  - by apply eqb_prop.
Qed.

(** * Histories *)
Lemma compile_wf v lib st d st' ids cs : wf st -> compile L v lib st d = (st', ids, cs) -> wf st' /\ ext st st'.
Proof. intros W E. destruct (compile_spec _ _ _ _ _ _ _ W E) as (d' & bs & _ & P). split; apply P. Qed.
Definition run_from (v : views) (lib : scope) (st : cstate) (ds : list descriptor) : cstate := fold_left (fun st d => (compile L v lib st d).1.1) ds st.
Lemma run_wf v lib ds : forall st, wf st -> wf (run_from v lib st ds) /\ ext st (run_from v lib st ds).
Proof.
  induction ds as [|d ds IH]; intros st W; [split; [done|apply ext_refl]|]. cbn [run_from fold_left].
  destruct (compile L v lib st d) as [[st1 ids] cs] eqn:E. destruct (compile_wf _ _ _ _ _ _ _ W E) as [W1 X1].
  destruct (IH st1 W1) as [W2 X2]. split; [exact W2|]. exact (ext_trans _ _ _ X1 X2).
Qed.
Lemma compile_run_wf v lib ds : wf (compile_run L v lib ds).
Proof. apply (run_wf v lib ds). apply wf_empty. Qed.
Lemma run_app v lib st ds ds' : run_from v lib st (ds ++ ds') = run_from v lib (run_from v lib st ds) ds'.
Proof. apply fold_left_app. Qed.

(** Registering again gives the same streams and changes nothing. *)
Lemma compile_again v lib st d st1 ids cs ds : wf st -> no_hint L d -> compile L v lib st d = (st1, ids, cs) ->
  exists cs', compile L v lib (run_from v lib st1 ds) d = (run_from v lib st1 ds, ids, cs').
Proof.
  intros W H E. destruct (compile_plain _ _ _ _ _ _ _ W H E) as (os & Wa & P).
  destruct (behaviors_wanted v lib d H) as (os' & Wa' & B). rewrite <- (wanted_unique _ _ _ _ _ Wa Wa') in B. unfold compile. rewrite B.
  destruct (run_wf v lib ds st1 (ap_wf _ _ _ _ _ _ P)) as [W2 X2]. apply place_all_settled.
  - eapply Forall2_impl; [apply P|]. intros b i. apply settled_ext; [apply P|done].
  - intros b Hb. change (map (to_behavior (i_name d) (f_tempo (v_defaults v (i_kind d)))))
      with (fmap (to_behavior (i_name d) (f_tempo (v_defaults v (i_kind d)))) : list out -> list behavior) in Hb.
    apply elem_of_list_fmap in Hb as (o & -> & Ho). apply plain_faithful. exact (wanted_kind _ _ _ _ _ Wa Ho).
Qed.

(** Streams under one name differ: the invariant of histories without hints. *)
Definition apart (st : cstate) : Prop := forall i j s t, i <> j -> collectors st !! i = Some s -> collectors st !! j = Some t ->
  i_name (s_desc s) = i_name (s_desc t) -> ~ alike s t.
Lemma alike_grown s s' t t' : grown s s' -> grown t t' -> alike s' t' -> alike s t.
Proof.
  unfold grown, alike. intros. destruct_and!. split_and!; try congruence.
Qed.
Lemma alike_sym s t : alike s t -> alike t s.
Proof.
  unfold alike. intros. destruct_and!. split_and!; try done.
  match goal with H : keys_alike _ _ |- _ => revert H end. destruct (s_keys s), (s_keys t); simpl; try done.
Qed.
Lemma shares_alike s b : faithful b -> shares s b = true <-> alike s (build b).
Proof.
  intros F. unfold shares, alike, build. simpl. rewrite !andb_true_iff, !bool_decide_eq_true, String.eqb_eq, same_keys_spec, eqb_true_iff, F. tauto.
Qed.
Lemma place_apart k st b st' i cs : wf st -> apart st -> faithful (check_semantic k b).1 -> place k st b = (st', i, cs) -> apart st'.
Proof.
  intros W A F E. pose proof (place_spec _ _ _ _ _ _ W E) as P.
  assert (forall j t, j <> i -> collectors st' !! j = Some t -> forall s, collectors st' !! i = Some s -> i_name (s_desc s) = i_name (s_desc t) -> ~ alike s t) as Key.
  { intros j t Hj Ht s Hs Hn Al. pose proof Ht as Ht0. rewrite (pl_other _ _ _ _ _ _ P) in Ht0 by done.
    destruct (collectors st !! i) as [s0|] eqn:Hs0.
    - destruct (proj1 (pl_ext _ _ _ _ _ _ P) _ _ Hs0) as (s' & Hs' & G). rewrite Hs in Hs'. injection Hs' as <-.
      apply (A i j s0 t); [done..| |]; [rewrite (grown_name _ _ G); done|]. apply (alike_grown s0 s t t G (grown_refl t) Al).
    - destruct (pl_leaf _ _ _ _ _ _ P) as (s' & Hs' & Hn' & _ & _ & Sh & Bd & _). rewrite Hs in Hs'. injection Hs' as <-.
      assert (s = build (check_semantic k b).1) as Eb by (apply Bd; by apply lookup_ge_None).
      pose proof (check_semantic_desc k b) as D.
      unfold place in E. destruct (check_semantic k b) as [b' sem]. cbn [fst] in *. rewrite D in E.
      fold (listed st (i_name (b_desc b))) in E.
      destruct (find_shared (collectors st) (listed st (i_name (b_desc b))) b') as [i'|] eqn:Fs.
      + injection E as <- <- <-. apply find_shared_spec in Fs as (_ & x & Hx & _). congruence.
      + assert (shares t b' = false) as Nt; [|rewrite Eb in Al; apply alike_sym, (shares_alike _ _ F) in Al; congruence].
        eapply find_shared_none; [exact Fs| |exact Ht0]. apply (W (i_name (b_desc b))). exists t. split; [exact Ht0|]. rewrite <- Hn, Hn'. done. }
  intros i' j s t Hij Hs Ht Hn. destruct (decide (i' = i)) as [->|Hi]; [by eapply (Key j t)|].
  destruct (decide (j = i)) as [->|Hj]; [intros Al%alike_sym; revert Al; by eapply (Key i' s)|].
  rewrite (pl_other _ _ _ _ _ _ P) in Hs, Ht by done. exact (A _ _ _ _ Hij Hs Ht Hn).
Qed.
Lemma place_all_apart k bs : forall st st' ids cs, wf st -> apart st -> (forall b, b ∈ bs -> faithful (check_semantic k b).1) ->
  place_all k st bs = (st', ids, cs) -> apart st'.
Proof.
  induction bs as [|b bs IH]; intros st st' ids cs W A F E; cbn [place_all] in E; [by injection E as <- <- <-|].
  destruct (place k st b) as [[st1 i] c] eqn:P. destruct (place_all k st1 bs) as [[st2 is] cs'] eqn:R. injection E as <- <- <-.
  pose proof (place_spec _ _ _ _ _ _ W P) as [W1 _ _ _ _ _ _ _]. eapply IH; [exact W1| |intros; apply F; by right|exact R].
  eapply place_apart; [exact W|exact A|apply F; left|exact P].
Qed.
Lemma compile_apart v lib st d st' ids cs : wf st -> apart st -> no_hint L d -> compile L v lib st d = (st', ids, cs) -> apart st'.
Proof.
  intros W A H E. unfold compile in E. destruct (behaviors_wanted v lib d H) as (os & Wa & B). rewrite B in E.
  eapply place_all_apart; [exact W|exact A| |exact E]. intros b Hb.
  change (map (to_behavior (i_name d) (f_tempo (v_defaults v (i_kind d)))))
      with (fmap (to_behavior (i_name d) (f_tempo (v_defaults v (i_kind d)))) : list out -> list behavior) in Hb.
  apply elem_of_list_fmap in Hb as (o & -> & Ho). apply plain_faithful. exact (wanted_kind _ _ _ _ _ Wa Ho).
Qed.
Lemma run_apart v lib ds : forall st, wf st -> apart st -> (forall d, d ∈ ds -> no_hint L d) -> apart (run_from v lib st ds).
Proof.
  induction ds as [|d ds IH]; intros st W A H; [done|]. cbn [run_from fold_left]. destruct (compile L v lib st d) as [[st1 ids] cs] eqn:E.
  apply IH; [by eapply compile_wf| |intros; apply H; by right]. eapply compile_apart; [exact W|exact A|apply H; left|exact E].
Qed.
Lemma apart_empty : apart cempty. Proof. by intros i j s t _ H. Qed.

(** Where descriptions come from. *)
Definition explained (v : views) (lib : scope) (hist : list (descriptor * list nat)) (st : cstate) : Prop :=
  (forall d ids os p o j, (d, ids) ∈ hist -> wanted v lib d os -> ids !! p = Some j -> os !! p = Some o ->
     exists s, collectors st !! j = Some s /\ String.length (o_desc o) <= String.length (i_desc (s_desc s))) /\
  (forall j s, collectors st !! j = Some s ->
     exists d ids os p o, (d, ids) ∈ hist /\ wanted v lib d os /\ ids !! p = Some j /\ os !! p = Some o /\ i_desc (s_desc s) = o_desc o).
Lemma explained_run v lib ds : forall st hist, wf st -> explained v lib hist st -> (forall d, d ∈ ds -> no_hint L d) ->
  explained v lib (hist ++ registered L v lib st ds) (run_from v lib st ds).
Proof.
  induction ds as [|d ds IH]; intros st hist W Ex H; [cbn; by rewrite app_nil_r|]. cbn [run_from fold_left registered].
  destruct (compile L v lib st d) as [[st1 ids] cs] eqn:E. cbn [fst]. rewrite cons_middle, app_assoc.
  apply IH; [by eapply compile_wf| |intros; apply H; by right].
  destruct (compile_plain v lib st d st1 ids cs W) as (os & Wa & P); [apply H; left|done|].
  set (tb := to_behavior (i_name d) (f_tempo (v_defaults v (i_kind d)))) in *.
  destruct Ex as [Ex1 Ex2]. split.
  - intros d' ids' os' p o j Hin Wa' Hp Ho. apply elem_of_app in Hin as [Hin|Hin].
    + destruct (Ex1 _ _ _ _ _ _ Hin Wa' Hp Ho) as (s & Hs & Hl). destruct (proj1 (ap_ext _ _ _ _ _ _ P) _ _ Hs) as (t & Ht & G).
      exists t. split; [done|]. destruct G as (_ & _ & _ & _ & _ & _ & _ & _ & _ & Gl). lia.
    + apply elem_of_list_singleton in Hin. injection Hin as -> ->. rewrite (wanted_unique _ _ _ _ _ Wa' Wa) in Ho.
      pose proof (ap_settled _ _ _ _ _ _ P) as St. assert (map tb os !! p = Some (tb o)) as Hb by (change (map tb os) with (tb <$> os); by rewrite list_lookup_fmap, Ho).
      destruct (Forall2_lookup_l _ _ _ _ _ St Hb) as (j' & Hj' & (s & Hs & _ & Hl & _) & _). rewrite Hp in Hj'. injection Hj' as <-. eauto.
  - intros j s Hs. destruct (ap_desc _ _ _ _ _ _ P j s Hs) as [(s0 & Hs0 & E0)|(p & b & Hp & Hb & E0)].
    + destruct (Ex2 _ _ Hs0) as (d' & ids' & os' & p & o & Hin & ? & ? & ? & Ed). exists d', ids', os', p, o. split; [apply elem_of_app; by left|]. rewrite E0. done.
    + change (map tb os) with (tb <$> os) in Hb. rewrite list_lookup_fmap in Hb. destruct (os !! p) as [o|] eqn:Ho; [|done]. injection Hb as <-.
      exists d, ids, os, p, o. split; [apply elem_of_app; right; by apply elem_of_list_singleton|]. done.
Qed.
Lemma explained_empty v lib : explained v lib [] cempty.
Proof. split; [by intros ?????? ?%elem_of_nil|done]. Qed.
End L.
