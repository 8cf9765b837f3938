(** * C59.  The temporality preference decides the temporality of every stream. *)
From Coq Require Import ZArith Bool String Ascii Lia.
From stdpp Require Import base list option strings gmap.
From Verif Require Import Num Attr AttrProofs View ViewSpec ViewProofs ViewRun ViewHist ViewMore ViewProps Data Prov ProvSpec ProvProofs ProvMore ProvProps CaseSpec Pipe Pref PrefSpec.
Local Open Scope string_scope.

(** A reader without clauses and with the standard aggregations. *)
Record plain (sel : kind -> tempo) (v : views) : Prop := Plain {
  pn_clauses : v_clauses v = [];
  pn_agg : forall k, f_agg (v_defaults v k) = natural k;
  pn_tempo : forall k, f_tempo (v_defaults v k) = sel k }.
Lemma plain_new L name perf sel : (forall k, sel k <> BadTempo) -> plain sel (validate L (new_views name perf [WithDefaultTempo sel])).1.
Proof.
  intros H. destruct (settings_spec name perf [WithDefaultTempo sel]) as (_ & _ & C & D). split.
  - cbn [validate fst v_clauses]. by rewrite C.
  - intros k. destruct (defaults_repaired L (new_views name perf [WithDefaultTempo sel]) k) as (A & _). rewrite A; rewrite D; [done|]. by destruct k.
  - intros k. destruct (defaults_repaired L (new_views name perf [WithDefaultTempo sel]) k) as (_ & _ & A & _). rewrite A; rewrite D; [done|]. apply H.
Qed.
Lemma natural_inj k k' : natural k = natural k' -> synchronous k = synchronous k' -> k = k'.
Proof. by destruct k, k'. Qed.
Lemma natural_granted k : granted k (natural k) = natural k.
Proof. by destruct k. Qed.
(** What every stream of such a reader is. *)
Definition standard (sel : kind -> tempo) (v : views) (s : stream) : Prop :=
  s_cfg s = default_cfg v (i_kind (s_desc s)) (i_num (s_desc s)) /\ s_agg s = natural (i_kind (s_desc s)) /\ s_from s = i_name (s_desc s) /\ s_keys s = None /\
  (s_delta s = true <-> sel (i_kind (s_desc s)) = DeltaTempo /\ i_kind (s_desc s) <> AsyncGauge).
Lemma standard_grown sel v s t : standard sel v s -> grown s t -> standard sel v t.
Proof. intros (A & B & C & D & E) (G1 & G2 & G3 & G4 & G5 & G6 & G7 & G8 & G9 & _). unfold standard. rewrite <- G1, <- G2, <- G3, <- G4, <- G6, <- G7, <- G8, <- G9. done. Qed.
Lemma plain_wanted sel v lib d os : plain sel v -> wanted v lib d os -> os = [default_out v d].
Proof.
  intros P (ms & Ch & ->). rewrite (pn_clauses _ _ P) in Ch. inversion Ch; subst. rewrite (pn_agg _ _ P). case_decide as E; [by destruct (i_kind d)|done].
Qed.
Lemma plain_run L sel v lib ds : plain sel v -> (forall d, d ∈ ds -> no_hint L d) ->
  (forall s, s ∈ collectors (compile_run L v lib ds) -> standard sel v s /\ exists d, d ∈ ds /\ measures d s) /\
  (forall d, d ∈ ds -> exists s, s ∈ collectors (compile_run L v lib ds) /\ measures d s).
Proof.
  intros P. induction ds as [|d ds IH] using rev_ind; intros H.
  - split; [intros s Hs; by apply elem_of_nil in Hs|intros d Hd; by apply elem_of_nil in Hd].
  - destruct IH as [I1 I2]; [intros d' Hd; apply H, elem_of_app; by left|]. rewrite compile_run_snoc. assert (Hd : no_hint L d) by (apply H, elem_of_app; right; left).
    destruct (compile L v lib (compile_run L v lib ds) d) as [[st' ids] cs] eqn:E. cbn [fst].
    destruct (compile_plain L _ _ _ _ _ _ _ (compile_run_wf L v lib ds) Hd E) as (os & Wa & Q). pose proof (plain_wanted _ _ _ _ _ P Wa) as ->.
    destruct (C22_streams _ _ _ _ _ _ _ _ Hd E) as (os & Wa' & F). rewrite (plain_wanted _ _ _ _ _ P Wa') in F. clear os Wa'.
    assert (M : forall s, s ∈ collectors (compile_run L v lib ds) -> exists t, t ∈ collectors st' /\ grown s t).
    { intros s Hs. apply elem_of_list_lookup in Hs as (j & Hj). destruct (proj1 (ap_ext _ _ _ _ _ _ Q) _ _ Hj) as (t & Ht & G). exists t. split; [by eapply elem_of_list_lookup_2|done]. }
    assert (N : forall s, s ∈ collectors st' -> standard sel v s /\ exists d', d' ∈ (ds ++ [d])%list /\ measures d' s).
    { intros s Hs. apply elem_of_list_lookup in Hs as (j & Hj). destruct (decide (j < length (collectors (compile_run L v lib ds)))) as [Lt|Ge].
      - destruct (lookup_lt_is_Some_2 _ _ Lt) as [s0 H0]. destruct (proj1 (ap_ext _ _ _ _ _ _ Q) _ _ H0) as (t & Ht & G). rewrite Hj in Ht. injection Ht as <-.
        destruct (I1 s0) as [S0 (d0 & D0 & M0)]; [by eapply elem_of_list_lookup_2|]. split; [by eapply standard_grown|]. exists d0. split; [apply elem_of_app; by left|].
        destruct M0 as (A & B & C & D). destruct G as (_ & G2 & G3 & G4 & G5 & _). unfold measures. rewrite <- G2, <- G3, <- G4, <- G5. done.
      - destruct (ap_build _ _ _ _ _ _ Q j s) as (b & Hb & G); [lia|done|]. apply elem_of_list_singleton in Hb as ->.
        set (b := to_behavior _ _ _) in G. destruct (check_semantic_plain (i_kind d) b) as [C B]; [done..|]. rewrite C in G. cbn [fst] in G.
        assert (Ba : b_agg b = natural (i_kind d)) by (cbn; apply (pn_agg _ _ P)). rewrite Ba, natural_granted in *. split.
        + eapply standard_grown; [|exact G]. unfold standard, build. rewrite B. cbn [s_agg s_from s_keys s_delta s_desc s_cfg with_agg b to_behavior b_desc b_from b_keys b_tempo default_out o_name o_kind i_kind i_name i_num o_keys b_cfg o_cfg o_num].
          split; [by destruct (i_num d)|]. split; [done|]. split; [done|]. split; [done|]. rewrite (pn_tempo _ _ P), andb_true_iff, bool_decide_eq_true. apply and_iff_compat_l. by destruct (i_kind d).
        + exists d. split; [apply elem_of_app; right; left|]. destruct G as (_ & G2 & G3 & G4 & G5 & _). unfold measures. rewrite <- G2, <- G3, <- G4, <- G5. done. }
    split; [exact N|]. intros d' Hd'. apply elem_of_app in Hd' as [Hd'|Hd'].
    + destruct (I2 _ Hd') as (s & Hs & (A & B & C & D)). destruct (M _ Hs) as (t & Ht & (_ & G2 & G3 & G4 & G5 & _)). exists t. split; [done|]. unfold measures. rewrite <- G2, <- G3, <- G4, <- G5. done.
    + apply elem_of_list_singleton in Hd' as ->. apply Forall2_cons_inv_r in F as (i & ids' & (s & Hs & Ca) & _ & _). apply elem_of_list_lookup_2 in Hs. exists s. split; [done|].
      destruct Ca as (A1 & A2 & A3 & A4 & _ & _ & A7 & _). cbn [default_out o_name o_unit o_num o_kind o_agg] in *. rewrite (pn_agg _ _ P), natural_granted in A4.
      destruct (N s Hs) as [(_ & S1 & _) _]. rewrite S1 in A4. unfold measures. split; [done|]. split; [by apply natural_inj|done].
Qed.

(** A provider with one reader that has a temporality selector and no clauses, without hints: on every meter each instrument has one stream, of
    its own name, kind, number and unit, with the natural aggregation and all attributes, and every stream is that of an instrument.  It is a delta exactly
    when the selector says so for its kind, except that asynchronous gauges never are. *)
Theorem C59_streams L resource reader sel t0 l p tr : history L (pipeline_options resource reader sel) t0 l p tr -> (forall k, sel k <> BadTempo) ->
  (forall i d, AInst i d ∈ l -> no_hint L d) -> forall i lib, (AMeter lib, RMeter i) ∈ tr ->
  exists ss, layout p 0 !! i = Some (lib, ss) /\
  (forall s, s ∈ ss -> exists d, AInst i d ∈ l /\ measures d s) /\
  (forall d, AInst i d ∈ l -> exists j s, ss !! j = Some s /\ measures d s /\ (forall j' s', ss !! j' = Some s' -> measures d s' -> j' = j)) /\
  (forall s, s ∈ ss -> s_agg s = natural (i_kind (s_desc s)) /\ s_from s = i_name (s_desc s) /\ s_keys s = None /\
     (s_delta s = true <-> sel (i_kind (s_desc s)) = DeltaTempo /\ i_kind (s_desc s) <> AsyncGauge)).
Proof.
  intros H B NH i lib Hi. destruct (C55_readers _ _ _ _ _ _ H) as [_ Vs]. cbn [pipeline_options omap list_omap reader_given map fst snd] in Vs. set (v := (validate L _).1) in Vs.
  assert (P : plain sel v) by (by apply plain_new).
  destruct (C28_views _ _ _ _ _ _ H 0 v) as [V _]; [by rewrite Vs|]. exists (collectors (compile_run L v lib (created i l))). split; [by apply V|].
  assert (Cr : forall d, d ∈ created i l <-> AInst i d ∈ l).
  { intros d. unfold created. rewrite elem_of_list_omap. split.
    - intros (a & Ha & E). destruct a; try done. case_decide; [|done]. subst. by injection E as ->.
    - intros Ha. exists (AInst i d). split; [done|]. by rewrite decide_True. }
  assert (Nh : forall d, d ∈ created i l -> no_hint L d) by (intros d Hd; apply (NH i), Cr, Hd).
  destruct (plain_run L sel v lib (created i l) P Nh) as [R1 R2]. split; [|split].
  - intros s Hs. destruct (R1 s Hs) as [_ (d & Hd & M)]. exists d. by rewrite <- Cr.
  - intros d Hd. destruct (R2 d) as (s & Hs & M); [by apply Cr|]. apply elem_of_list_lookup in Hs as (j & Hj). exists j, s. split; [done|]. split; [done|].
    intros j' s' Hj' M'. destruct (decide (j' = j)) as [|Ne]; [done|]. exfalso.
    destruct (R1 s) as [(A0 & A1 & _ & A3 & _) _]; [by eapply elem_of_list_lookup_2|]. destruct (R1 s') as [(B0 & B1 & _ & B3 & _) _]; [by eapply elem_of_list_lookup_2|].
    destruct M as (M1 & M2 & M3 & M4), M' as (N1 & N2 & N3 & N4).
    eapply (C24_distinct L v lib (created i l) j j' s s'); [done|congruence|done|done|congruence|]. unfold alike. rewrite A0, A1, A3, B0, B1, B3, M2, M3, M4, N2, N3, N4. done.
  - intros s Hs. apply (R1 s Hs).
Qed.

(** The presets. *)
Lemma same_lower_iff p q : lower q = q -> same_but_case p q <-> lower p = q.
Proof. intros Q. split; [intros X; by rewrite (lower_same _ _ X)|intros <-; apply same_lower]. Qed.
Lemma lower_nil p : lower p = "" <-> p = "".
Proof. by destruct p. Qed.
Lemma pref_lower pref : (pref_delta pref <-> lower pref = "delta") /\ (pref_low pref <-> lower pref = "stateless" \/ lower pref = "lowmemory") /\
  (pref_cumulative pref <-> lower pref = "" \/ lower pref = "cumulative").
Proof. unfold pref_delta, pref_low, pref_cumulative. rewrite !same_lower_iff, lower_nil by done. done. Qed.
Theorem C59_presets pref : match tempo_options pref with
  | Some sel => (pref_delta pref -> forall k, sel k = delta_preferred k) /\ (pref_low pref -> forall k, sel k = low_memory k) /\ (pref_cumulative pref -> forall k, sel k = standard_tempo k) /\
  (pref_delta pref \/ pref_low pref \/ pref_cumulative pref)
  | None => ~ pref_delta pref /\ ~ pref_low pref /\ ~ pref_cumulative pref
  end /\ (forall k, delta_preferred k = DeltaTempo <-> k <> SyncUpDownCounter /\ k <> AsyncUpDownCounter) /\
  (forall k, low_memory k = DeltaTempo <-> k = SyncCounter \/ k = SyncHistogram) /\ (forall k, standard_tempo k = CumulativeTempo).
Proof.
  split; [|split; [intros []; cbn; naive_solver|split; [intros []; cbn; naive_solver|done]]].
  destruct (pref_lower pref) as (E1 & E2 & E3).
  unfold tempo_options. cbv zeta.
  destruct (String.eqb_spec (lower pref) "delta") as [F|N1]; [|destruct (String.eqb_spec (lower pref) "stateless") as [F|N2]; cbn [orb];
    [|destruct (String.eqb_spec (lower pref) "lowmemory") as [F|N3]; [|destruct (String.eqb_spec (lower pref) "") as [F|N4]; cbn [orb]; [|destruct (String.eqb_spec (lower pref) "cumulative") as [F|N5]]]]];
    try (rewrite E1, E2, E3, F; split_and!; try tauto; intros X; first [destruct X; discriminate | discriminate X | intros []; reflexivity]). tauto.
Qed.
(** The launcher: with a preference that is accepted, every stream of the provider's reader is a delta exactly when the preference says so for the kind of
    the instruments that it measures. *)
Theorem C59_preference L resource reader pref os t0 l p tr : preferred_options resource reader pref = Some os -> history L os t0 l p tr ->
  (forall i d, AInst i d ∈ l -> no_hint L d) -> forall i d lib, (AMeter lib, RMeter i) ∈ tr -> AInst i d ∈ l ->
  exists ss j s, layout p 0 !! i = Some (lib, ss) /\ ss !! j = Some s /\ measures d s /\ (s_delta s = true <-> is_delta pref (i_kind d)) /\
  s_agg s = natural (i_kind d) /\ (forall j' s', ss !! j' = Some s' -> measures d s' -> j' = j).
Proof.
  intros E H NH i d lib Hi Hd. unfold preferred_options in E. destruct (C59_presets pref) as (T & P1 & P2 & P3).
  assert (Bd : forall sel, tempo_options pref = Some sel -> forall k, sel k <> BadTempo).
  { intros sel Es k. rewrite Es in T. destruct T as (T1 & T2 & T3 & [X|[X|X]]); [rewrite T1|rewrite T2|rewrite T3]; by destruct k. }
  destruct (tempo_options pref) as [sel|] eqn:Es; [|done]. injection E as <-.
  destruct (C59_streams _ _ _ _ _ _ _ _ H (Bd sel eq_refl) NH i lib Hi) as (ss & Ly & _ & S2 & S3).
  destruct (S2 d Hd) as (j & s & Hj & M & U). exists ss, j, s. split; [done|]. split; [done|]. split; [done|].
  destruct (S3 s) as (A & _ & _ & D); [by eapply elem_of_list_lookup_2|]. assert (K : i_kind (s_desc s) = i_kind d) by apply M. rewrite K in A, D. split; [|done]. rewrite D.
  destruct T as (T1 & T2 & T3 & T4). unfold is_delta.
  destruct (pref_lower pref) as (E1 & E2 & E3).
  assert (X1 : pref_delta pref -> ~ pref_low pref) by (rewrite E1, E2; intros ->; by intros [?|?]).
  assert (X2 : pref_cumulative pref -> ~ pref_low pref /\ ~ pref_delta pref) by (rewrite E1, E2, E3; intros [->| ->]; split; [by intros [?|?]|done|by intros [?|?]|done]).
  clear E1 E2 E3. destruct T4 as [Y|[Y|Y]].
  - rewrite T1 by done. rewrite P1. destruct (i_kind d); naive_solver.
  - rewrite T2 by done. rewrite P2. destruct (i_kind d); naive_solver.
  - rewrite T3 by done. rewrite P3. naive_solver.
Qed.
Module Ex59.
  Definition L := Libs (fun z => (160, false)%Z) (fun _ => None).
  Definition lib := Scope "lib" "" "".
  Definition d (n : string) (k : kind) := Descriptor n k FloatKind "" "".
  Definition acts := [AMeter lib; AInst 0 (d "a" SyncCounter); AInst 0 (d "b" SyncGauge); AInst 0 (d "a" AsyncCounter); AInst 0 (d "c" AsyncGauge); AInst 0 (d "a" SyncCounter); AInst 0 (d "h" SyncHistogram); AInst 0 (d "u" SyncUpDownCounter)].
  Definition got (pref : string) := os ← preferred_options "" "r" pref; '(p, _) ← Prov.run L (new_provider L os 0) acts;
    Some (map (fun s => (i_name (s_desc s), i_kind (s_desc s), s_delta s)) (default [] (snd <$> layout p 0 !! 0))).
  Example low : got "LowMemory" = Some [("a", SyncCounter, true); ("b", SyncGauge, false); ("a", AsyncCounter, false); ("c", AsyncGauge, false); ("h", SyncHistogram, true); ("u", SyncUpDownCounter, false)].
  Proof. vm_compute. reflexivity. Qed.
  Example delta : got "delta" = Some [("a", SyncCounter, true); ("b", SyncGauge, true); ("a", AsyncCounter, true); ("c", AsyncGauge, false); ("h", SyncHistogram, true); ("u", SyncUpDownCounter, false)].
  Proof. vm_compute. reflexivity. Qed.
  Example refused : got "lowMem" = None.
  Proof. vm_compute. reflexivity. Qed.
  Example hints : forall i d, AInst i d ∈ acts -> no_hint L d.
  Proof. intros i d H. by right. Qed.
End Ex59.

Print Assumptions C59_streams.
Print Assumptions C59_presets.
Print Assumptions C59_preference.
