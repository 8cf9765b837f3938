(** The properties of views: C21 to C27 and C54. *)
From Coq Require Import ZArith Bool String Ascii Lia.
From stdpp Require Import base list option strings gmap.
From Verif Require Import Num Attr AttrProofs View ViewSpec CaseSpec ViewProofs ViewRun ViewHist ViewMore.
Local Open Scope string_scope.
Local Open Scope Z_scope.

(** * C21.  A clause built from options matches an instrument exactly when the selectors that were set all accept it. *)
Theorem C21_matching : forall os lib d, matches (new_clause os) lib d = true <-> selected os lib d.
Proof. exact selected_clause. Qed.
(** A clause with no selector matches everything. *)
Theorem C21_unset : forall os lib d,
  (forall o, In o os -> match o with MatchName _ | MatchPattern _ | MatchKind _ | MatchNumber _ | MatchLibrary _ => False | _ => True end) ->
  matches (new_clause os) lib d = true.
Proof.
  intros os lib d H. apply selected_clause.
  assert (forall A (f : clause_option -> option A), (forall o, In o os -> f o = None) -> last_set f os = None) as N.
  { intros A f Hf. unfold last_set. clear H. induction os as [|o os IH] using rev_ind; [done|]. rewrite fold_left_app. simpl.
    rewrite Hf by (apply in_app_iff; simpl; auto). apply IH. intros. apply Hf, in_app_iff. auto. }
  unfold selected. rewrite !N by (intros o Ho; specialize (H o Ho); by destruct o). repeat split; intros; discriminate.
Qed.
Module Ex21.
  Definition d := Descriptor "requests" SyncCounter IntKind "" "".
  Definition lib := Scope "http" "1.2" "".
  (* all selectors set, and all accept *)
  Definition os := [MatchName "other"; MatchKind SyncCounter; MatchNumber IntKind; MatchLibrary (Scope "http" "" ""); WithName "r"; MatchName "requests"].
  Example yes : matches (new_clause os) lib d = true. Proof. vm_compute. reflexivity. Qed.
  Example no : matches (new_clause (os ++ [MatchLibrary (Scope "http" "2" "")])) lib d = false. Proof. vm_compute. reflexivity. Qed.
End Ex21.

(** * C22.  The streams of an instrument without a hint are, in order, those its clauses want, after any history. *)
Theorem C22_streams : forall L v lib ds d st' ids cs, no_hint L d -> compile L v lib (compile_run L v lib ds) d = (st', ids, cs) ->
  exists os, wanted v lib d os /\ Forall2 (fun i o => exists s, collectors st' !! i = Some s /\ carries s o) ids os.
Proof.
  intros L v lib ds d st' ids cs H E. destruct (compile_plain L _ _ _ _ _ _ _ (compile_run_wf L v lib ds) H E) as (os & Wa & P).
  exists os. split; [done|]. pose proof (ap_settled _ _ _ _ _ _ P) as St. apply Forall2_flip.
  set (tb := to_behavior (i_name d) (f_tempo (v_defaults v (i_kind d)))) in St. change (map tb os) with (tb <$> os) in St. rewrite Forall2_fmap_l in St.
  apply Forall2_lookup. intros p. pose proof (proj1 (Forall2_lookup _ _ _) St p) as O.
  destruct (os !! p) as [o|] eqn:Hp; inversion O as [? i Oi Ea Eb|]; constructor.
  apply elem_of_list_lookup_2 in Hp as Ho. destruct Oi as [(s & Hs & Hn & Hl & Sh) _].
  destruct (plain_faithful (i_name d) (f_tempo (v_defaults v (i_kind d))) (i_kind d) o (wanted_kind _ _ _ _ _ Wa Ho)) as (F & Ec & _).
  exists s. split; [done|]. fold tb in F, Ec. rewrite Ec in *.
  exact (shares_carries _ _ _ _ _ (wanted_kind _ _ _ _ _ Wa Ho) Hn Hl (Sh F)).
Qed.
(** A stream that the registration creates has the instrument's kind and its temporality. *)
Theorem C22_new_streams : forall L v lib ds d st' ids cs i s, no_hint L d -> compile L v lib (compile_run L v lib ds) d = (st', ids, cs) ->
  collectors st' !! i = Some s -> (length (collectors (compile_run L v lib ds)) <= i)%nat ->
  i ∈ ids /\ i_kind (s_desc s) = i_kind d /\ s_from s = i_name d /\
  (s_delta s = true <-> f_tempo (v_defaults v (i_kind d)) = DeltaTempo /\ (synchronous (i_kind d) = true \/ s_agg s <> GaugeAgg)).
Proof.
  intros L v lib ds d st' ids cs i s H E Hs Hi. destruct (compile_plain L _ _ _ _ _ _ _ (compile_run_wf L v lib ds) H E) as (os & Wa & P).
  split; [apply (ap_new _ _ _ _ _ _ P); split; [done|by eapply lookup_lt_Some]|].
  destruct (ap_build _ _ _ _ _ _ P i s Hi Hs) as (b & Hb & G).
  set (tb := to_behavior (i_name d) (f_tempo (v_defaults v (i_kind d)))) in Hb. change (map tb os) with (tb <$> os) in Hb. apply elem_of_list_fmap in Hb as (o & -> & Ho).
  pose proof (wanted_kind _ _ _ _ _ Wa Ho) as Hk.
  destruct (plain_faithful (i_name d) (f_tempo (v_defaults v (i_kind d))) (i_kind d) o Hk) as (F & Ec & _). fold tb in F, Ec. rewrite Ec in *.
  destruct G as (Gf & _ & Gk & _ & _ & Ga & Gd & _). cbn in Gf, Gk. rewrite <- Gf, <- Gk, <- Gd, <- Ga. split; [done|]. split; [done|].
  unfold build, tb. cbn [s_delta s_agg b_tempo with_agg to_behavior b_desc i_kind]. rewrite Hk.
  rewrite andb_true_iff, orb_true_iff, negb_true_iff, bool_decide_eq_true, bool_decide_eq_false. tauto.
Qed.
(** One matching clause per output name gives every clause its own stream. *)
Theorem C22_own_stream : forall L v lib ds d st' ids cs os, no_hint L d -> compile L v lib (compile_run L v lib ds) d = (st', ids, cs) ->
  wanted v lib d os -> NoDup (map o_name os) -> NoDup ids.
Proof.
  intros L v lib ds d st' ids cs os H E Wa N. destruct (C22_streams _ _ _ _ _ _ _ _ H E) as (os' & Wa' & F).
  rewrite (wanted_unique _ _ _ _ _ Wa' Wa) in F. clear Wa Wa' E. revert N. induction F as [|i o is os (s & Hs & C) F IH]; intros N; [constructor|].
  simpl in N. apply list.NoDup_cons in N as [N1 N2]. constructor; [|by apply IH]. intros Hi. apply N1.
  apply elem_of_list_lookup in Hi as (p & Hp). destruct (Forall2_lookup_l _ _ _ _ _ F Hp) as (o' & Ho' & s' & Hs' & C').
  rewrite Hs in Hs'. injection Hs' as <-. destruct C as [C _], C' as [C' _]. rewrite <- C, C'. change (map o_name os) with (o_name <$> os).
  apply elem_of_list_fmap. exists o'. split; [done|]. by eapply elem_of_list_lookup_2.
Qed.
(** What a clause says is what its options said last, and nothing where they say nothing. *)
Theorem C22_options : forall os,
  k_keys (new_clause os) = default None (last_set keys_of os) /\
  k_rename (new_clause os) = last_set rename_of os /\
  k_desc (new_clause os) = default "" (last_set description_of os) /\
  k_agg (new_clause os) = default UndefinedAgg (last_set aggregation_of os) /\
  k_cfg (new_clause os) = default (Acfg 0 0) (last_set config_of os).
Proof. exact new_clause_results. Qed.
(** A configuration has the clauses in the order given, and for each kind the defaults that were given last; without any, the natural
    aggregation, cumulative temporality and the limit of the performance settings. *)
Theorem C22_settings : forall name p os, let v := new_views name p os in let lim := if decide (p_aggregator p = 0) then 2000 else p_aggregator p in
  v_name v = name /\ v_limit v = lim /\ v_clauses v = map new_clause (clauses_of os) /\
  forall k, v_defaults v k = Default (match last_option default_agg_of os with Some f => f k | None => natural k end)
                                     (match last_option default_tempo_of os with Some f => f k | None => CumulativeTempo end)
                                     (match last_option default_cfg_of os with Some f => (f k).1 | None => Acfg 0 lim end)
                                     (match last_option default_cfg_of os with Some f => (f k).2 | None => Acfg 0 lim end).
Proof. exact settings_spec. Qed.
Module Ex22o.
  Definition os := [WithName "a"; WithKeys (Some ["k"]); WithName "b"; WithAggregation GaugeAgg; WithKeys None; WithDescription "d"].
  Example last_wins : k_keys (new_clause os) = None /\ option_map (fun f => f "x") (k_rename (new_clause os)) = Some "b" /\ k_agg (new_clause os) = GaugeAgg.
  Proof. repeat split; vm_compute; reflexivity. Qed.
  Definition vs := new_views "r" (Perf false 0 0 7 0)
    [WithDefaultAgg (fun _ => DropAgg); WithClause os; WithDefaultTempo (fun k => if synchronous k then DeltaTempo else CumulativeTempo); WithClause []; WithDefaultAgg (fun _ => GaugeAgg)].
  Example kept : map k_agg (v_clauses vs) = [GaugeAgg; UndefinedAgg] /\ v_defaults vs SyncCounter = Default GaugeAgg DeltaTempo (Acfg 0 7) (Acfg 0 7) /\
    v_defaults vs AsyncCounter = Default GaugeAgg CumulativeTempo (Acfg 0 7) (Acfg 0 7).
  Proof. repeat split; vm_compute; reflexivity. Qed.
End Ex22o.
(** Full statement (does not hold): one stream per clause whatever the clauses.  Two clauses that give the same output feed one stream twice,
    so that every measurement counts twice in it. *)
Module Ex22.
  Definition L := Libs (fun z => (if (z =? 0) then 160 else z, false)) (fun _ => None).
  Definition lib := Scope "http" "1.2" "".
  Definition d := Descriptor "requests" SyncCounter IntKind "a count" "1".
  Definition twice := (validate L (new_views "r" (Perf false 0 0 0 0) [WithClause [MatchName "requests"]; WithClause [MatchKind SyncCounter]])).1.
  (* a clause that renames, a clause that drops, and a clause with keys and an aggregation *)
  Definition v := (validate L (new_views "r" (Perf false 0 0 0 0)
    [WithClause [MatchName "requests"; WithName "r2"; WithDescription "another"]; WithClause [MatchKind SyncCounter; WithAggregation DropAgg];
     WithClause [MatchNumber IntKind; WithAggregation HistogramAgg; WithKeys (Some ["k"])]; WithClause [MatchKind SyncGauge]])).1.
  Example plain : no_hint L d.
  Proof. left. vm_compute. intuition discriminate. Qed.
  Example streams : (compile L v lib cempty d).1.2 = [0%nat; 1%nat] /\
    map (fun s => (i_name (s_desc s), i_desc (s_desc s), s_agg s, s_keys s)) (collectors (compile L v lib cempty d).1.1)
      = [("r2", "another", MonotonicAgg, None); ("requests", "a count", HistogramAgg, Some ["k"])].
  Proof. split; vm_compute; reflexivity. Qed.
End Ex22.
Theorem C22_one_stream_each_refuted : exists L v lib d, no_hint L d /\ views_legal L v /\ length (collectors (compile L v lib cempty d).1.1) = 1%nat /\
  (compile L v lib cempty d).1.2 = [0%nat; 0%nat] /\ (compile L v lib cempty d).2 = [].
Proof.
  exists Ex22.L, Ex22.twice, Ex22.lib, Ex22.d. split; [exact Ex22.plain|]. split.
  { apply validate_legal. intros z. unfold Ex22.L. simpl. destruct (z =? 0) eqn:E; simpl; [done|by rewrite E]. }
  repeat split; vm_compute; reflexivity.
Qed.
(** Full statement (does not hold): what a clause leaves open comes from the reader's defaults.  A clause without an aggregator configuration
    takes the performance settings, not the default configuration of the reader. *)
Theorem C22_default_config_refuted : exists L os d lib, no_hint L d /\
  let v := (validate L (new_views "r" (Perf false 0 0 0 0) (WithDefaultConfig (fun _ => (Acfg 0 10, Acfg 0 10)) :: os))).1 in
  default_cfg v (i_kind d) (i_num d) = Acfg 160 10 /\
  map s_cfg (collectors (compile L v lib cempty d).1.1) = [Acfg 160 2000].
Proof.
  exists Ex22.L, [WithClause [MatchName "requests"; WithName "r2"]], Ex22.d, Ex22.lib. split; [exact Ex22.plain|]. split; vm_compute; reflexivity.
Qed.
(** Full statement (does not hold): every stream an instrument writes to has the temporality of its kind.  A histogram aggregated as a sum
    shares the stream of an existing counter although the reader gives the two kinds different temporality. *)
Theorem C22_temporality_refuted : exists L v lib d d', no_hint L d /\ no_hint L d' /\ i_kind d <> i_kind d' /\
  f_tempo (v_defaults v (i_kind d')) = CumulativeTempo /\
  let st := compile_run L v lib [d] in
  (compile L v lib st d').1.2 = [0%nat] /\ (compile L v lib st d').2 = [] /\ option_map s_delta (collectors (compile L v lib st d').1.1 !! 0%nat) = Some true.
Proof.
  exists Ex22.L, (validate Ex22.L (new_views "r" (Perf false 0 0 0 0)
      [WithDefaultTempo (fun k => match k with SyncCounter => DeltaTempo | _ => CumulativeTempo end); WithClause [MatchKind SyncHistogram; WithAggregation AnySumAgg]])).1,
    Ex22.lib, (Descriptor "x" SyncCounter IntKind "" ""), (Descriptor "x" SyncHistogram IntKind "" "").
  repeat split; try (left; vm_compute; intuition discriminate); try done; vm_compute; reflexivity.
Qed.

(** * C23.  Registering an instrument again, after any further registrations, returns the same streams and changes nothing. *)
Theorem C23_again : forall L v lib ds d ds' st1 ids cs, no_hint L d ->
  compile L v lib (compile_run L v lib ds) d = (st1, ids, cs) ->
  exists cs', compile L v lib (compile_run L v lib (ds ++ d :: ds')) d = (compile_run L v lib (ds ++ d :: ds'), ids, cs').
Proof.
  intros L v lib ds d ds' st1 ids cs H E.
  assert (compile_run L v lib (ds ++ d :: ds') = run_from L v lib st1 ds') as ->.
  { unfold compile_run, run_from. rewrite fold_left_app. simpl. unfold compile_run in E. by rewrite E. }
  by eapply compile_again; [apply compile_run_wf| |].
Qed.
(** Full statement (does not hold): also with a hint.  The hint "sum" makes a new stream of the same name each time. *)
Theorem C23_hint_refuted : exists L v lib d, ~ no_hint L d /\
  length (collectors (compile_run L v lib [d])) = 1%nat /\ length (collectors (compile_run L v lib [d; d; d])) = 3%nat.
Proof.
  exists (Libs (fun z => (z, false)) (fun s => Some (Hint "" "sum" "" 0 0))), (new_views "r" (Perf false 0 0 0 0) []), (Scope "" "" ""),
    (Descriptor "x" SyncCounter IntKind "{}" "").
  split; [|split; vm_compute; reflexivity]. intros [H|H]; [apply H; vm_compute; tauto|discriminate].
Qed.
Module Ex23.
  Definition d2 := Descriptor "requests" SyncHistogram FloatKind "{" "".
  Definition st := compile_run Ex22.L Ex22.v Ex22.lib [d2; Ex22.d; d2].
  Example again : (compile Ex22.L Ex22.v Ex22.lib st Ex22.d).1.2 = [1%nat; 2%nat] /\ length (collectors st) = 3%nat /\
    length (collectors (compile Ex22.L Ex22.v Ex22.lib st Ex22.d).1.1) = 3%nat /\
    (compile Ex22.L Ex22.v Ex22.lib (compile_run Ex22.L Ex22.v Ex22.lib [d2]) Ex22.d).1.2 = [1%nat; 2%nat].
  Proof. repeat split; vm_compute; reflexivity. Qed.
End Ex23.

(** * C24.  A registration reports a conflict exactly when an aggregation it wants is not allowed for its kind, or another stream has the output name
    of one of its streams. *)
Theorem C24_reported : forall L v lib ds d st' ids cs, no_hint L d -> compile L v lib (compile_run L v lib ds) d = (st', ids, cs) ->
  exists os, wanted v lib d os /\
  (cs <> [] <-> (exists o, o ∈ os /\ allowed (i_kind d) (o_agg o) = false) \/
               (exists i j s t, i ∈ ids /\ j <> i /\ collectors st' !! i = Some s /\ collectors st' !! j = Some t /\ i_name (s_desc s) = i_name (s_desc t))).
Proof.
  intros L v lib ds d st' ids cs H E. destruct (compile_plain L _ _ _ _ _ _ _ (compile_run_wf L v lib ds) H E) as (os & Wa & P).
  exists os. split; [done|]. rewrite (ap_conf _ _ _ _ _ _ P).
  set (tb := to_behavior (i_name d) (f_tempo (v_defaults v (i_kind d)))).
  assert ((exists b, b ∈ map tb os /\ (check_semantic (i_kind d) b).2 <> None) <-> exists o, o ∈ os /\ allowed (i_kind d) (o_agg o) = false) as ->; [|done].
  change (map tb os) with (tb <$> os). split.
  - intros (b & (o & -> & Ho)%elem_of_list_fmap & Hb). exists o. split; [done|].
    by apply (plain_faithful (i_name d) (f_tempo (v_defaults v (i_kind d)))) in Hb; [|exact (wanted_kind _ _ _ _ _ Wa Ho)].
  - intros (o & Ho & Ha). exists (tb o). split; [apply elem_of_list_fmap; eauto|]. apply plain_faithful; [exact (wanted_kind _ _ _ _ _ Wa Ho)|done].
Qed.
(** A conflict names the streams in question: the one that the instrument writes to and every other stream of that name. *)
Theorem C24_contents : forall L v lib ds d st' ids cs c, compile L v lib (compile_run L v lib ds) d = (st', ids, cs) -> c ∈ cs ->
  exists i s, i ∈ ids /\ collectors st' !! i = Some s /\ i ∈ cf_duplicates c /\
  (forall j, j ∈ cf_duplicates c -> exists t, collectors st' !! j = Some t /\ i_name (s_desc t) = i_name (s_desc s)) /\
  (forall j t, collectors (compile_run L v lib ds) !! j = Some t -> i_name (s_desc t) = i_name (s_desc s) -> j ∈ cf_duplicates c).
Proof.
  intros L v lib ds d st' ids cs c E Hc. unfold compile in E. destruct (behaviors L v lib d) as [d0 bs0].
  destruct (place_all_dups _ _ _ _ _ _ (compile_run_wf L v lib ds) E c Hc) as (b & _ & H1 & H2 & q & i & _ & Hi & Hd).
  destruct (H1 i Hd) as (s & Hs & Hn). exists i, s. split; [by eapply elem_of_list_lookup_2|]. split; [done|]. split; [done|]. split.
  - intros j Hj. destruct (H1 j Hj) as (t & Ht & Hn'). exists t. by rewrite Hn, Hn'.
  - intros j t Ht Hn'. apply (H2 j t Ht). congruence.
Qed.
(** And two streams of one name do differ, in a way that keeps them from being shared, when no instrument has a hint. *)
Theorem C24_distinct : forall L v lib ds i j s t, (forall d, d ∈ ds -> no_hint L d) -> i <> j ->
  collectors (compile_run L v lib ds) !! i = Some s -> collectors (compile_run L v lib ds) !! j = Some t ->
  i_name (s_desc s) = i_name (s_desc t) -> ~ alike s t.
Proof. intros L v lib ds i j s t H. apply (run_apart L v lib ds cempty wf_empty apart_empty H). Qed.
(** A compatible duplicate: an instrument whose only output can share the only stream of its name is merged silently. *)
Theorem C24_silent : forall L v lib ds d st' ids cs, no_hint L d -> compile L v lib (compile_run L v lib ds) d = (st', ids, cs) ->
  (forall os o, wanted v lib d os -> o ∈ os -> allowed (i_kind d) (o_agg o) = true) ->
  length (collectors st') = length (collectors (compile_run L v lib ds)) ->
  (forall i j s t, collectors (compile_run L v lib ds) !! i = Some s -> collectors (compile_run L v lib ds) !! j = Some t ->
     i_name (s_desc s) = i_name (s_desc t) -> i = j) -> cs = [].
Proof.
  intros L v lib ds d st' ids cs H E Al Ln U. destruct (C24_reported _ _ _ _ _ _ _ _ H E) as (os & Wa & [C _]).
  destruct cs as [|c cs]; [done|]. exfalso. destruct (C ltac:(done)) as [(o & Ho & Ho')|(i & j & s & t & Hi & Hj & Hs & Ht & Hn)].
  - rewrite (Al os o Wa Ho) in Ho'. done.
  - apply Hj. destruct (compile_wf L _ _ _ _ _ _ _ (compile_run_wf L v lib ds) E) as [_ [X _]].
    destruct (lookup_lt_is_Some_2 (collectors (compile_run L v lib ds)) i) as [s0 Hs0]; [rewrite <- Ln; by eapply lookup_lt_Some|].
    destruct (lookup_lt_is_Some_2 (collectors (compile_run L v lib ds)) j) as [t0 Ht0]; [rewrite <- Ln; by eapply lookup_lt_Some|].
    apply (U j i t0 s0 Ht0 Hs0).
    destruct (X _ _ Hs0) as (s1 & Hs1 & G1). destruct (X _ _ Ht0) as (t1 & Ht1 & G2). rewrite Hs in Hs1. rewrite Ht in Ht1. injection Hs1 as <-. injection Ht1 as <-.
    rewrite (grown_name _ _ G1), (grown_name _ _ G2). done.
Qed.
Module Ex24.
  Definition v := (validate Ex22.L (new_views "r" (Perf false 0 0 0 0) [])).1.
  Definition c k n u t := Descriptor "x" k n t u.
  Definition confl ds d := length (compile Ex22.L v Ex22.lib (compile_run Ex22.L v Ex22.lib ds) d).2.
  (* another number kind, another unit: conflicts; another description: none *)
  Example cases : confl [c SyncCounter IntKind "" "a"] (c SyncCounter FloatKind "" "a") = 1%nat /\
    confl [c SyncCounter IntKind "" "a"] (c SyncCounter IntKind "By" "a") = 1%nat /\ confl [c SyncCounter IntKind "" "a"] (c SyncCounter IntKind "" "longer") = 0%nat.
  Proof. repeat split; vm_compute; reflexivity. Qed.
  (* the conflict of the third instrument names the two streams that are called x *)
  Example named : map cf_duplicates (compile Ex22.L v Ex22.lib (compile_run Ex22.L v Ex22.lib [c SyncCounter IntKind "" "a"; Descriptor "y" SyncCounter IntKind "" ""])
    (c SyncCounter FloatKind "" "a")).2 = [[0; 2]%nat].
  Proof. vm_compute. reflexivity. Qed.
End Ex24.

(** * C25.  Whatever a view asks for, the streams of an instrument have an aggregation allowed for its kind, and a request that is not allowed is reported. *)
Theorem C25_allowed : forall L v lib ds d st' ids cs i s, no_hint L d -> compile L v lib (compile_run L v lib ds) d = (st', ids, cs) ->
  i ∈ ids -> collectors st' !! i = Some s -> concrete (s_agg s) /\ allowed (i_kind d) (s_agg s) = true.
Proof.
  intros L v lib ds d st' ids cs i s H E Hi Hs. destruct (C22_streams _ _ _ _ _ _ _ _ H E) as (os & Wa & F).
  apply elem_of_list_lookup in Hi as (p & Hp). destruct (Forall2_lookup_l _ _ _ _ _ F Hp) as (o & Ho & s' & Hs' & C).
  rewrite Hs in Hs'. injection Hs' as <-. destruct C as (_ & _ & _ & Ca & _). rewrite Ca.
  rewrite (wanted_kind _ _ _ _ _ Wa (elem_of_list_lookup_2 _ _ _ Ho)). split; [apply granted_concrete|apply granted_allowed].
Qed.
(** The stream of a request that is allowed has the aggregation requested; a request that is not allowed gets the natural aggregation. *)
Theorem C25_granted : forall L v lib ds d st' ids cs os p i o, no_hint L d -> compile L v lib (compile_run L v lib ds) d = (st', ids, cs) ->
  wanted v lib d os -> ids !! p = Some i -> os !! p = Some o ->
  exists s, collectors st' !! i = Some s /\
    (allowed (i_kind d) (o_agg o) = true -> o_agg o <> AnySumAgg -> s_agg s = o_agg o) /\
    (allowed (i_kind d) (o_agg o) = true -> o_agg o = AnySumAgg -> s_agg s = sum_for (i_kind d)) /\
    (allowed (i_kind d) (o_agg o) = false -> s_agg s = natural (i_kind d)).
Proof.
  intros L v lib ds d st' ids cs os p i o H E Wa Hp Ho. destruct (C22_streams _ _ _ _ _ _ _ _ H E) as (os' & Wa' & F).
  rewrite (wanted_unique _ _ _ _ _ Wa' Wa) in F. destruct (Forall2_lookup_l _ _ _ _ _ F Hp) as (o' & Ho' & s & Hs & C). rewrite Ho in Ho'. injection Ho' as <-.
  exists s. split; [done|]. destruct C as (_ & _ & _ & Ca & _). rewrite Ca, (wanted_kind _ _ _ _ _ Wa (elem_of_list_lookup_2 _ _ _ Ho)).
  unfold granted. split_and!; intros ->; try intros Hx; try done; [by rewrite bool_decide_eq_false_2|by rewrite bool_decide_eq_true_2].
Qed.
Theorem C25_reported : forall L v lib ds d st' ids cs, no_hint L d -> compile L v lib (compile_run L v lib ds) d = (st', ids, cs) ->
  exists os, wanted v lib d os /\
  ((exists c, c ∈ cs /\ cf_semantic c <> None) <-> exists o, o ∈ os /\ allowed (i_kind d) (o_agg o) = false).
Proof.
  intros L v lib ds d st' ids cs H E. destruct (compile_plain L _ _ _ _ _ _ _ (compile_run_wf L v lib ds) H E) as (os & Wa & P).
  exists os. split; [done|]. rewrite (ap_sem _ _ _ _ _ _ P).
  set (tb := to_behavior (i_name d) (f_tempo (v_defaults v (i_kind d)))). change (map tb os) with (tb <$> os). split.
  - intros (b & (o & -> & Ho)%elem_of_list_fmap & Hb). exists o. split; [done|].
    by apply (plain_faithful (i_name d) (f_tempo (v_defaults v (i_kind d)))) in Hb; [|exact (wanted_kind _ _ _ _ _ Wa Ho)].
  - intros (o & Ho & Ha). exists (tb o). split; [apply elem_of_list_fmap; eauto|]. apply plain_faithful; [exact (wanted_kind _ _ _ _ _ Wa Ho)|done].
Qed.
(** Full statement (does not hold): also with a hint, and a hint to drop drops.  A hint bypasses the check: an observable counter with the hint
    "histogram" becomes a gauge without a report; and a hint "drop" on an instrument that a clause selects gives a sum. *)
Theorem C25_hint_refuted : exists h1 h2 v v' lib d,
  let L h := Libs (fun z => (z, false)) (fun _ => Some (Hint "" h "" 0 0)) in
  (compile (L h1) v lib cempty d).2 = [] /\ map s_agg (collectors (compile (L h1) v lib cempty d).1.1) = [GaugeAgg] /\ i_kind d = AsyncCounter /\
  allowed (i_kind d) GaugeAgg = false /\
  parse_agg h2 = Some DropAgg /\ length (collectors (compile (L h2) v lib cempty d).1.1) = 0%nat /\ length (collectors (compile (L h2) v' lib cempty d).1.1) = 1%nat.
Proof.
  exists "histogram", "drop", (new_views "r" (Perf false 0 0 0 0) []), (new_views "r" (Perf false 0 0 0 0) [WithClause [WithKeys (Some [])]]),
    (Scope "" "" ""), (Descriptor "x" AsyncCounter IntKind "{}" "").
  repeat split; vm_compute; reflexivity.
Qed.
(** Full statement (does not hold): a hint applies to every output.  It is erased from the description after the first matching clause. *)
Theorem C25_second_clause_refuted : exists L v lib d, ~ no_hint L d /\
  map s_agg (collectors (compile L v lib cempty d).1.1) = [GaugeAgg; MonotonicAgg].
Proof.
  exists (Libs (fun z => (z, false)) (fun s => Some (Hint "" "gauge" "" 0 0))),
    (new_views "r" (Perf false 0 0 0 0) [WithClause [WithName "a"]; WithClause [WithName "b"]]), (Scope "" "" ""), (Descriptor "x" SyncCounter IntKind "{}" "").
  split; [|vm_compute; reflexivity]. intros [H|H]; [apply H; vm_compute; tauto|discriminate].
Qed.
Example C25_case : let v := (validate Ex22.L (new_views "r" (Perf false 0 0 0 0) [WithClause [WithAggregation GaugeAgg]])).1 in
  map s_agg (collectors (compile Ex22.L v Ex22.lib cempty Ex22.d).1.1) = [MonotonicAgg] /\
  map cf_semantic (compile Ex22.L v Ex22.lib cempty Ex22.d).2 = [Some GaugeAgg].
Proof. split; vm_compute; reflexivity. Qed.

(** * C26.  The description of a stream is one of those registered for it, and none of them is longer. *)
Theorem C26_longest : forall L v lib ds j s, (forall d, d ∈ ds -> no_hint L d) -> collectors (compile_run L v lib ds) !! j = Some s ->
  (forall d ids os p o, (d, ids) ∈ registered L v lib cempty ds -> wanted v lib d os -> ids !! p = Some j -> os !! p = Some o ->
     (String.length (o_desc o) <= String.length (i_desc (s_desc s)))%nat) /\
  (exists d ids os p o, (d, ids) ∈ registered L v lib cempty ds /\ wanted v lib d os /\ ids !! p = Some j /\ os !! p = Some o /\ i_desc (s_desc s) = o_desc o).
Proof.
  intros L v lib ds j s H Hs. destruct (explained_run L v lib ds cempty [] wf_empty (explained_empty v lib) H) as [E1 E2]. simpl in E1, E2. split.
  - intros d ids os p o Hin Wa Hp Ho. destruct (E1 _ _ _ _ _ _ Hin Wa Hp Ho) as (t & Ht & Hl). unfold compile_run in Hs. unfold run_from in Ht. rewrite Hs in Ht. by injection Ht as <-.
  - by apply E2.
Qed.
Example C26_case : map (fun s => i_desc (s_desc s)) (collectors (compile_run Ex22.L Ex24.v Ex22.lib
    [Ex24.c SyncCounter IntKind "" "aa"; Ex24.c SyncCounter IntKind "" "bbbb"; Ex24.c SyncCounter IntKind "" "ccc"])) = ["bbbb"].
Proof. vm_compute. reflexivity. Qed.

(** * C27.  Validation yields legal settings, keeps legal ones, and is idempotent. *)
Theorem C27_legal : forall L v, library_ok L -> views_legal L (validate L v).1.
Proof. intros L v. apply validate_legal. Qed.
Theorem C27_fixed : forall L v, views_legal L v -> views_same (validate L v).1 v /\ forall e, In e (validate L v).2 -> e = EmptyKey.
Proof. intros L v. apply validate_fixed. Qed.
Theorem C27_idempotent : forall L v, library_ok L -> views_same (validate L (validate L v).1).1 (validate L v).1.
Proof. intros L v H. apply validate_fixed, validate_legal, H. Qed.
(** What is repaired: an aggregation or temporality outside the constants, a histogram size the library refuses, a clause with both name and pattern. *)
Theorem C27_clause : forall L v i c, v_clauses v !! i = Some c -> exists c', v_clauses (validate L v).1 !! i = Some c' /\
  k_name c' = k_name c /\ k_kind c' = k_kind c /\ k_num c' = k_num c /\ k_lib c' = k_lib c /\ k_keys c' = k_keys c /\ k_desc c' = k_desc c /\ k_rename c' = k_rename c /\
  (k_agg c <> BadAgg -> k_agg c' = k_agg c) /\ (k_agg c = BadAgg -> k_agg c' = UndefinedAgg) /\
  (k_name c = "" -> k_pattern c' = k_pattern c) /\ (k_name c <> "" -> k_pattern c' = None) /\
  (c_limit (k_cfg c) <> 0 -> c_limit (k_cfg c') = c_limit (k_cfg c)) /\
  (c_limit (k_cfg c) = 0 -> v_limit v <> 0 -> c_limit (k_cfg c') = v_limit v) /\
  c_size (k_cfg c') = (hist_validate L (c_size (k_cfg c))).1.
Proof.
  intros L v i c Hc. rewrite validate_clauses, Hc. cbn [fmap option_fmap option_map]. eexists. split; [done|]. set (lim := v_limit v). clearbody lim. clear Hc.
  destruct c as [n p k nk l ks r d a cfg]. unfold check_clause, check_agg, check_cfg, cfg_validate. cbn [k_cfg].
  destruct (Z.eqb_spec (c_limit cfg) 0) as [E|E]; cbn [c_size c_limit]; destruct (hist_validate L (c_size cfg)) as [h er];
    destruct (String.eqb_spec n "") as [En|En], p, a; cbn; rewrite ?E;
    repeat (split; [try done|]); try done; intros; try done; try (by destruct (Z.eqb_spec lim 0)); try (by destruct (Z.eqb_spec (c_limit cfg) 0)).
Qed.
(** The limit of every clause and of every default after validation: its own, else that of the configuration, else 2000; never 0. *)
Definition limit_or (own conf : Z) : Z := if own =? 0 then if conf =? 0 then 2000 else conf else own.
Theorem C27_limit : forall L v, let v' := (validate L v).1 in
  (forall i c, v_clauses v !! i = Some c -> exists c', v_clauses v' !! i = Some c' /\ c_limit (k_cfg c') = limit_or (c_limit (k_cfg c)) (v_limit v)) /\
  (forall k, c_limit (f_int (v_defaults v' k)) = limit_or (c_limit (f_int (v_defaults v k))) (v_limit v) /\
             c_limit (f_float (v_defaults v' k)) = limit_or (c_limit (f_float (v_defaults v k))) (v_limit v)).
Proof.
  intros L v v'.
  assert (C : forall lim c, c_limit (check_cfg L lim c).1 = limit_or (c_limit c) lim).
  { intros lim c. unfold check_cfg, cfg_validate, limit_or. destruct (Z.eqb_spec (c_limit c) 0) as [E|E]; cbn [c_size c_limit]; destruct (hist_validate L (c_size c)) as [h e]; cbn; [done|].
    by destruct (Z.eqb_spec (c_limit c) 0). }
  split.
  - intros i c Hc. unfold v'. rewrite validate_clauses, Hc. cbn [fmap option_fmap option_map]. eexists. split; [done|].
    destruct c as [n p k nk l ks r d a cfg]. unfold check_clause. cbn [k_cfg]. rewrite <- C. destruct (check_agg a UndefinedAgg), (check_cfg L (v_limit v) cfg). done.
  - intros k. unfold v', validate. cbn [fst v_defaults]. unfold check_default. rewrite <- !C.
    destruct (check_agg _ _), (check_tempo _ _), (check_cfg L (v_limit v) (f_int _)), (check_cfg L (v_limit v) (f_float _)). done.
Qed.
(** The clauses stay in number and order, and the name stays. *)
Theorem C27_same_shape : forall L v, length (v_clauses (validate L v).1) = length (v_clauses v) /\ v_name (validate L v).1 = v_name v.
Proof. intros L v. split; [apply map_length|done]. Qed.
(** Full statement (does not hold): the result has the performance settings of the configuration.  They are not copied, so that a
    second validation cannot fill in a limit. *)
Theorem C27_settings_kept_refuted : exists L v, v_limit v = 2000 /\ v_limit (validate L v).1 = 0.
Proof. exists (Libs (fun z => (z, false)) (fun _ => None)), (new_views "r" (Perf false 0 0 0 0) []). done. Qed.
(** An illegal default becomes the natural aggregation of the kind and cumulative temporality; a legal one stays. *)
Theorem C27_defaults : forall L v k, let f := v_defaults v k in let f' := v_defaults (validate L v).1 k in
  (f_agg f <> BadAgg -> f_agg f' = f_agg f) /\ (f_agg f = BadAgg -> f_agg f' = natural k) /\
  (f_tempo f <> BadTempo -> f_tempo f' = f_tempo f) /\ (f_tempo f = BadTempo -> f_tempo f' = CumulativeTempo) /\
  c_size (f_int f') = (hist_validate L (c_size (f_int f))).1 /\ c_size (f_float f') = (hist_validate L (c_size (f_float f))).1 /\
  (c_limit (f_int f) <> 0 -> c_limit (f_int f') = c_limit (f_int f)) /\ (c_limit (f_float f) <> 0 -> c_limit (f_float f') = c_limit (f_float f)) /\
  (c_limit (f_int f) = 0 -> v_limit v <> 0 -> c_limit (f_int f') = v_limit v) /\ (c_limit (f_float f) = 0 -> v_limit v <> 0 -> c_limit (f_float f') = v_limit v).
Proof. exact defaults_repaired. Qed.
(** Every illegal setting is reported, and nothing else is. *)
Theorem C27_reported : forall L v e, In e (validate L v).2 <->
  (exists k, default_fault L (v_defaults v k) e) \/ (exists c, In c (v_clauses v) /\ clause_fault L c e).
Proof. exact validate_errors. Qed.
Theorem C27_performance : forall p, let q := perf_validate p in
  (p_periods p = 0 -> p_periods q = 10) /\ (p_instrument p = 0 -> p_instrument q = 3000) /\ (p_aggregator p = 0 -> p_aggregator q = 2000) /\
  (p_size p = 0 -> p_size q = 8192) /\ p_ignore q = p_ignore p /\
  (p_periods p <> 0 -> p_periods q = p_periods p) /\ (p_instrument p <> 0 -> p_instrument q = p_instrument p) /\
  (p_aggregator p <> 0 -> p_aggregator q = p_aggregator p) /\ (p_size p <> 0 -> p_size q = p_size p) /\ perf_validate q = q.
Proof.
  intros p. unfold perf_validate, or_default. cbn.
  destruct (Z.eqb_spec (p_periods p) 0), (Z.eqb_spec (p_instrument p) 0), (Z.eqb_spec (p_aggregator p) 0), (Z.eqb_spec (p_size p) 0); cbn;
    split_and!; try done; f_equal; repeat match goal with |- context [?a =? 0] => destruct (Z.eqb_spec a 0) end; congruence.
Qed.
Module Ex27.
  (* a library that refuses negative sizes *)
  Definition L := Libs (fun z => if z <? 0 then (160, true) else (if z =? 0 then 160 else z, false)) (fun _ => None).
  (* a configuration made without performance settings and without limits; a default with a limit of its own *)
  Example limits : let v := Views "r" [Clause "a" None None None (Scope "" "" "") None None "" UndefinedAgg (Acfg 5 0)] (fun _ => Default UndefinedAgg UndefinedTempo (Acfg 5 0) (Acfg 5 7)) 0 in
    map (fun c => c_limit (k_cfg c)) (v_clauses (validate L v).1) = [2000] /\ c_limit (f_int (v_defaults (validate L v).1 SyncCounter)) = 2000 /\
    c_limit (f_float (v_defaults (validate L v).1 SyncCounter)) = 7.
  Proof. vm_compute. done. Qed.
  Example ok : library_ok L.
  Proof. intros z. cbn. destruct (z <? 0) eqn:E; [done|]. destruct (z =? 0) eqn:E'; [done|]. cbn. by rewrite E, E'. Qed.
  Definition bad := new_views "r" (Perf false 0 0 0 0)
    [WithDefaultAgg (fun _ => BadAgg); WithDefaultTempo (fun _ => BadTempo);
     WithClause [MatchName "a"; MatchPattern (fun _ => true); WithAggregation BadAgg; WithConfig (Acfg (-1) 0); WithKeys (Some [""])]].
  Example repaired : map (fun c => (k_agg c, k_cfg c)) (v_clauses (validate L bad).1) = [(UndefinedAgg, Acfg 160 2000)] /\
    length (validate L bad).2 = 18%nat /\ f_agg (v_defaults (validate L bad).1 SyncGauge) = GaugeAgg.
  Proof. repeat split; vm_compute; reflexivity. Qed.
End Ex27.

(** * C54.  A hint in the description of an instrument sets its aggregation, temporality, configuration and description.
    The names that a hint can use are these, in any case; anything else is refused and leaves the default. *)
Theorem C54_names : forall s, (forall a, parse_agg s = Some a <-> exists n, (n, a) ∈ agg_names /\ same_but_case s n) /\
  (forall t, parse_tempo s = Some t <-> exists n, (n, t) ∈ tempo_names /\ same_but_case s n).
Proof. intros s. split; [apply parse_agg_spec|apply parse_tempo_spec]. Qed.
(** An instrument that no clause selects, the first of its name: it is dropped if the hint says so, and otherwise has one stream as the hint says. *)
Theorem C54_default : forall L v lib ds d h a t st' ids cs,
  In "{"%char (list_ascii_of_string (i_desc d)) -> parse_hint L (i_desc d) = Some h ->
  chosen lib d (v_clauses v) [] ->
  hint_choice agg_names (h_agg h) (f_agg (v_defaults v (i_kind d))) a -> hint_choice tempo_names (h_tempo h) (f_tempo (v_defaults v (i_kind d))) t ->
  let st := compile_run L v lib ds in
  (forall i s, collectors st !! i = Some s -> i_name (s_desc s) <> i_name d) ->
  compile L v lib st d = (st', ids, cs) ->
  (a = DropAgg -> ids = [] /\ st' = st /\ cs = []) /\
  (a <> DropAgg -> ids = [length (collectors st)] /\ cs = [] /\ exists s, collectors st' = (collectors st ++ [s])%list /\
     hinted_stream d h t s /\ i_name (s_desc s) = i_name d /\ i_desc (s_desc s) = h_desc h /\ s_keys s = None /\ s_cfg s = hint_cfg L v d h /\
     (hint_fits (i_kind d) a = true -> s_agg s = a)).
Proof. intros L v lib ds d h a t st' ids cs H1 H2 H3 H4 H5 st. exact (hint_default L v lib st d h a t st' ids cs (compile_run_wf L v lib ds) H1 H2 H3 H4 H5). Qed.
(** An instrument that one clause selects: what the clause says comes first, and the hint decides the rest, even the temporality. *)
Theorem C54_clause : forall L v lib ds d h a t c st' ids cs,
  In "{"%char (list_ascii_of_string (i_desc d)) -> parse_hint L (i_desc d) = Some h ->
  chosen lib d (v_clauses v) [c] -> k_agg c <> DropAgg ->
  hint_choice agg_names (h_agg h) (f_agg (v_defaults v (i_kind d))) a -> hint_choice tempo_names (h_tempo h) (f_tempo (v_defaults v (i_kind d))) t ->
  let st := compile_run L v lib ds in
  let n := match k_rename c with Some f => f (i_name d) | None => i_name d end in
  (forall i s, collectors st !! i = Some s -> i_name (s_desc s) <> n) ->
  compile L v lib st d = (st', ids, cs) ->
  ids = [length (collectors st)] /\ cs = [] /\ exists s, collectors st' = (collectors st ++ [s])%list /\
     hinted_stream d h t s /\ i_name (s_desc s) = n /\ i_desc (s_desc s) = (if decide (k_desc c = "") then h_desc h else k_desc c) /\ s_keys s = k_keys c /\
     (k_cfg c = default_config v d -> s_cfg s = hint_cfg L v d h) /\ (k_cfg c <> default_config v d -> s_cfg s = k_cfg c) /\
     (k_agg c = UndefinedAgg -> hint_fits (i_kind d) a = true -> s_agg s = a) /\
     (k_agg c <> UndefinedAgg -> hint_fits (i_kind d) (k_agg c) = true -> s_agg s = k_agg c).
Proof. intros L v lib ds d h a t c st' ids cs H1 H2 H3 H4 H5 H6 st. exact (hint_clause L v lib st d h a t c st' ids cs (compile_run_wf L v lib ds) H1 H2 H3 H4 H5 H6). Qed.
Module Ex54.
  Definition h := Hint "in bytes" "GAUGE" "Delta" 0 5.
  Definition L := Libs (fun z => (if (z =? 0) then 160 else z, false)) (fun t => if String.eqb t "{gauge}" then Some h else None).
  Definition lib := Scope "http" "1.2" "".
  Definition d := Descriptor "x" SyncCounter IntKind "{gauge}" "By".
  Definition v := (validate L (new_views "r" (Perf false 0 0 0 0) [WithClause [MatchName "y"]; WithClause [MatchName "z"; WithDescription "other"; WithAggregation MMSCAgg]])).1.
  Example brace : In "{"%char (list_ascii_of_string (i_desc d)). Proof. vm_compute. auto. Qed.
  Example parsed : parse_hint L (i_desc d) = Some h. Proof. reflexivity. Qed.
  Example unselected : chosen lib d (v_clauses v) []. Proof. exact (chosen_filter lib d (v_clauses v)). Qed.
  Example gauge : hint_choice agg_names (h_agg h) MonotonicAgg GaugeAgg.
  Proof. left. exists "gauge". split; [apply (bool_decide_unpack _); vm_compute; exact I|]. exact (same_lower "GAUGE"). Qed.
  Example delta : hint_choice tempo_names (h_tempo h) CumulativeTempo DeltaTempo.
  Proof. left. exists "delta". split; [apply (bool_decide_unpack _); vm_compute; exact I|]. exact (same_lower "Delta"). Qed.
  Example stream : map (fun s => (i_desc (s_desc s), s_agg s, s_delta s, s_cfg s)) (collectors (compile L v lib (compile_run L v lib []) d).1.1)
    = [("in bytes", GaugeAgg, true, Acfg 160 5)].
  Proof. vm_compute. reflexivity. Qed.
  (* the same hint on an instrument that the second clause selects *)
  Definition d' := Descriptor "z" SyncCounter IntKind "{gauge}" "By".
  Example selected : exists c, chosen lib d' (v_clauses v) [c] /\ k_agg c = MMSCAgg.
  Proof. eexists. split; [exact (chosen_filter lib d' (v_clauses v))|reflexivity]. Qed.
  Example stream' : map (fun s => (i_desc (s_desc s), s_agg s, s_delta s, s_cfg s)) (collectors (compile L v lib (compile_run L v lib [d]) d').1.1)
    = [("in bytes", GaugeAgg, true, Acfg 160 5); ("other", MMSCAgg, true, Acfg 160 5)].
  Proof. vm_compute. reflexivity. Qed.
End Ex54.
(** Full statement (does not hold): a hint is taken only where no clause selects the instrument (hint.go:21-23).  It also decides the
    temporality and the limit of an instrument that a clause selects. *)
Theorem C54_only_unselected_refuted : exists L v lib d d' c, ~ no_hint L d /\ chosen lib d (v_clauses v) [c] /\
  d' = Descriptor (i_name d) (i_kind d) (i_num d) "" (i_unit d) /\
  map (fun s => (s_delta s, c_limit (s_cfg s))) (collectors (compile L v lib cempty d).1.1) = [(true, 5)] /\
  map (fun s => (s_delta s, c_limit (s_cfg s))) (collectors (compile L v lib cempty d').1.1) = [(false, 2000)].
Proof.
  exists Ex54.L, Ex54.v, Ex54.lib, Ex54.d', (Descriptor "z" SyncCounter IntKind "" "By"). eexists. split.
  { intros [H|H]; [apply H; vm_compute; auto|discriminate]. }
  split; [exact (chosen_filter Ex54.lib Ex54.d' (v_clauses Ex54.v))|]. repeat split; vm_compute; reflexivity.
Qed.

Print Assumptions C21_matching.
Print Assumptions C21_unset.
Print Assumptions C22_streams.
Print Assumptions C22_new_streams.
Print Assumptions C22_own_stream.
Print Assumptions C22_options.
Print Assumptions C22_settings.
Print Assumptions C22_one_stream_each_refuted.
Print Assumptions C22_default_config_refuted.
Print Assumptions C22_temporality_refuted.
Print Assumptions C23_again.
Print Assumptions C23_hint_refuted.
Print Assumptions C24_reported.
Print Assumptions C24_contents.
Print Assumptions C24_distinct.
Print Assumptions C24_silent.
Print Assumptions C25_allowed.
Print Assumptions C25_granted.
Print Assumptions C25_reported.
Print Assumptions C25_hint_refuted.
Print Assumptions C25_second_clause_refuted.
Print Assumptions C26_longest.
Print Assumptions C27_legal.
Print Assumptions C27_fixed.
Print Assumptions C27_idempotent.
Print Assumptions C27_clause.
Print Assumptions C27_limit.
Print Assumptions C27_same_shape.
Print Assumptions C27_settings_kept_refuted.
Print Assumptions C27_defaults.
Print Assumptions C27_reported.
Print Assumptions C27_performance.
Print Assumptions C54_names.
Print Assumptions C54_default.
Print Assumptions C54_clause.
Print Assumptions C54_only_unselected_refuted.
