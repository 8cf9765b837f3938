(** More about views: what the options leave in a configuration, what validation repairs and reports, the contents of conflicts, and hints. *)
From Coq Require Import ZArith Bool String Ascii Lia.
From stdpp Require Import base list option strings gmap.
From Verif Require Import Num Attr AttrProofs View ViewSpec CaseSpec ViewProofs ViewRun ViewHist.
Local Open Scope Z_scope.

(** * Options *)
Lemma new_clause_results os :
  k_keys (new_clause os) = default None (last_set keys_of os) /\
  k_rename (new_clause os) = last_set rename_of os /\
  k_desc (new_clause os) = default ""%string (last_set description_of os) /\
  k_agg (new_clause os) = default UndefinedAgg (last_set aggregation_of os) /\
  k_cfg (new_clause os) = default (Acfg 0 0) (last_set config_of os).
Proof.
  induction os as [|o os IH] using rev_ind; [done|].
  rewrite new_clause_snoc, !last_set_snoc. destruct (new_clause os), o; simpl in *; naive_solver.
Qed.
Lemma last_option_snoc {A} (f : view_option -> option A) os o :
  last_option f (os ++ [o]) = match f o with Some a => Some a | None => last_option f os end.
Proof. unfold last_option. by rewrite fold_left_app. Qed.
Lemma settings_spec name p os : let v := new_views name p os in let lim := if decide (p_aggregator p = 0) then 2000 else p_aggregator p in
  v_name v = name /\ v_limit v = lim /\ v_clauses v = map new_clause (clauses_of os) /\
  forall k, v_defaults v k = Default (match last_option default_agg_of os with Some f => f k | None => natural k end)
                                     (match last_option default_tempo_of os with Some f => f k | None => CumulativeTempo end)
                                     (match last_option default_cfg_of os with Some f => (f k).1 | None => Acfg 0 lim end)
                                     (match last_option default_cfg_of os with Some f => (f k).2 | None => Acfg 0 lim end).
Proof.
  cbn zeta. assert (E : p_aggregator (perf_validate p) = if decide (p_aggregator p = 0) then 2000 else p_aggregator p).
  { cbn. unfold or_default. destruct (Z.eqb_spec (p_aggregator p) 0); by case_decide. }
  unfold new_views. rewrite E. set (lim := if decide _ then _ else _). rewrite fold_left_app.
  set (v0 := fold_left _ [_; _; _] _).
  assert (H0 : v_name v0 = name /\ v_limit v0 = lim /\ v_clauses v0 = [] /\ forall k, v_defaults v0 k = Default (natural k) CumulativeTempo (Acfg 0 lim) (Acfg 0 lim)).
  { unfold v0. cbn. split; [done|]. split; [done|]. split; [done|]. by intros []. }
  clearbody v0. induction os as [|o os IH] using rev_ind.
  - cbn. destruct H0 as (H1 & H2 & H3 & H4). split; [done|]. split; [done|]. split; [by rewrite H3|]. intros k. rewrite H4. done.
  - rewrite fold_left_app, !last_option_snoc. cbn [fold_left]. set (v := fold_left _ os v0) in *. destruct IH as (H1 & H2 & H3 & H4).
    unfold clauses_of. rewrite omap_app. fold (clauses_of os). rewrite map_app. destruct v as [n cs ds l]. cbn [v_name v_limit v_clauses v_defaults] in *. subst.
    destruct o; cbn [apply_view_option v_name v_limit v_clauses v_defaults default_agg_of default_tempo_of default_cfg_of omap list_omap map app];
      rewrite ?app_nil_r; (split; [done|]); (split; [done|]); (split; [done|]); intros k; rewrite H4; done.
Qed.

(** * Validation *)
Section V.
Context (L : libs).
Lemma defaults_repaired v k : let f := v_defaults v k in let f' := v_defaults (validate L v).1 k in
  (f_agg f <> BadAgg -> f_agg f' = f_agg f) /\ (f_agg f = BadAgg -> f_agg f' = natural k) /\
  (f_tempo f <> BadTempo -> f_tempo f' = f_tempo f) /\ (f_tempo f = BadTempo -> f_tempo f' = CumulativeTempo) /\
  c_size (f_int f') = (hist_validate L (c_size (f_int f))).1 /\ c_size (f_float f') = (hist_validate L (c_size (f_float f))).1 /\
  (c_limit (f_int f) <> 0 -> c_limit (f_int f') = c_limit (f_int f)) /\ (c_limit (f_float f) <> 0 -> c_limit (f_float f') = c_limit (f_float f)) /\
  (c_limit (f_int f) = 0 -> v_limit v <> 0 -> c_limit (f_int f') = v_limit v) /\ (c_limit (f_float f) = 0 -> v_limit v <> 0 -> c_limit (f_float f') = v_limit v).
Proof.
  assert (C : forall lim c, c_size (check_cfg L lim c).1 = (hist_validate L (c_size c)).1 /\ (c_limit c <> 0 -> c_limit (check_cfg L lim c).1 = c_limit c) /\
                            (c_limit c = 0 -> lim <> 0 -> c_limit (check_cfg L lim c).1 = lim)).
  { intros lim c. unfold check_cfg, cfg_validate. destruct (Z.eqb_spec (c_limit c) 0) as [E|E]; cbn [c_size c_limit]; destruct (hist_validate L (c_size c)) as [h e]; cbn.
    - split; [done|]. split; [done|]. intros _ N. destruct (Z.eqb_spec lim 0); done.
    - split; [done|]. split; [|done]. intros _. destruct (Z.eqb_spec (c_limit c) 0); done. }
  cbn zeta. unfold validate. cbn [fst v_defaults]. unfold check_default.
  destruct (v_defaults v k) as [a t ci cf]. cbn [f_agg f_tempo f_int f_float].
  pose proof (C (v_limit v) ci) as (C1 & C2 & C3). pose proof (C (v_limit v) cf) as (D1 & D2 & D3).
  destruct (check_cfg L (v_limit v) ci) as [ci' e3], (check_cfg L (v_limit v) cf) as [cf' e4]. cbn [fst] in *.
  unfold check_agg, check_tempo. destruct a, t; cbn; split_and!; try done; by destruct k.
Qed.
Lemma validate_clauses v i : v_clauses (validate L v).1 !! i = (fun c => (check_clause L (v_limit v) c).1) <$> v_clauses v !! i.
Proof. unfold validate. cbn [fst v_clauses]. change (map ?f ?l) with (f <$> l). apply list_lookup_fmap. Qed.

(** What is wrong with a configuration. *)
Lemma check_agg_errors a def e : In e (check_agg a def).2 <-> e = InvalidAggregation /\ a = BadAgg.
Proof. unfold check_agg. destruct a; cbn; intuition (try congruence; try discriminate). Qed.
Lemma check_tempo_errors t def e : In e (check_tempo t def).2 <-> e = InvalidTemporality /\ t = BadTempo.
Proof. unfold check_tempo. destruct t; cbn; intuition (try congruence; try discriminate). Qed.
Lemma check_cfg_errors' lim c e : In e (check_cfg L lim c).2 <-> e = InvalidConfig /\ (hist_validate L (c_size c)).2 = true.
Proof.
  unfold check_cfg, cfg_validate. assert (E : c_size (if c_limit c =? 0 then Acfg (c_size c) lim else c) = c_size c) by (by destruct (c_limit c =? 0)).
  rewrite E. destruct (hist_validate L (c_size c)) as [h []]; cbn; intuition (try congruence; try discriminate).
Qed.
Lemma check_default_errors lim k f e : In e (check_default L lim k f).2 <-> default_fault L f e.
Proof.
  unfold check_default, default_fault.
  pose proof (check_agg_errors (f_agg f) (standard_agg k) e) as H1. destruct (check_agg (f_agg f) (standard_agg k)) as [a e1].
  pose proof (check_tempo_errors (f_tempo f) (standard_tempo k) e) as H2. destruct (check_tempo (f_tempo f) (standard_tempo k)) as [t e2].
  pose proof (check_cfg_errors' lim (f_int f) e) as H3. destruct (check_cfg L lim (f_int f)) as [i e3].
  pose proof (check_cfg_errors' lim (f_float f) e) as H4. destruct (check_cfg L lim (f_float f)) as [fl e4].
  cbn [snd] in *. rewrite !in_app_iff, H1, H2, H3, H4. destruct e; intuition (try congruence; try discriminate).
Qed.
Lemma check_clause_errors lim c e : In e (check_clause L lim c).2 <-> clause_fault L c e.
Proof.
  destruct c as [n p k nk l ks r d a cfg]. unfold check_clause, clause_fault. cbn [k_agg k_cfg k_name k_pattern k_keys].
  pose proof (check_agg_errors a UndefinedAgg e) as H1. destruct (check_agg a UndefinedAgg) as [a' e1].
  pose proof (check_cfg_errors' lim cfg e) as H2. destruct (check_cfg L lim cfg) as [cfg' e2]. cbn [snd] in *.
  assert (H3 : In e (if negb (String.eqb n "") && match p with Some _ => true | None => false end then [NameAndPattern] else []) <->
               e = NameAndPattern /\ n <> ""%string /\ p <> None).
  { destruct (String.eqb_spec n ""), p; cbn; intuition (try congruence; try discriminate). }
  assert (H4 : In e (map (fun _ => EmptyKey) (filter (fun s => s = ""%string) (default [] ks))) <-> e = EmptyKey /\ exists l, ks = Some l /\ In ""%string l).
  { rewrite in_map_iff. split.
    - intros (x & <- & Hx). split; [done|]. apply elem_of_list_In, elem_of_list_filter in Hx as [-> Hx]. destruct ks as [l0|]; [|by apply elem_of_nil in Hx].
      exists l0. split; [done|]. by apply elem_of_list_In.
    - intros (-> & l0 & -> & Hx). exists ""%string. split; [done|]. apply elem_of_list_In, elem_of_list_filter. split; [done|]. by apply elem_of_list_In. }
  rewrite !in_app_iff, H1, H2, H3, H4. destruct e; intuition (try congruence; try discriminate).
Qed.
Lemma validate_errors v e : In e (validate L v).2 <-> (exists k, default_fault L (v_defaults v k) e) \/ (exists c, In c (v_clauses v) /\ clause_fault L c e).
Proof.
  unfold validate. cbn [snd]. rewrite in_app_iff, !in_concat. split.
  - intros [(l & Hl & He)|(l & Hl & He)]; apply in_map_iff in Hl as (x & <- & Hx).
    + left. exists x. by apply check_default_errors in He.
    + right. exists x. split; [done|]. by apply check_clause_errors in He.
  - intros [(k & H)|(c & Hc & H)].
    + left. eexists. split; [apply in_map_iff; exists k; split; [done|destruct k; cbn; tauto]|]. by apply check_default_errors.
    + right. eexists. split; [apply in_map_iff; exists c; split; [done|exact Hc]|]. by apply check_clause_errors.
Qed.

(** * Conflicts *)
Lemma place_all_dups k bs : forall st st' ids cs, wf st -> place_all k st bs = (st', ids, cs) -> forall c, c ∈ cs ->
  exists b, b ∈ bs /\ (forall j, j ∈ cf_duplicates c -> exists s, collectors st' !! j = Some s /\ i_name (s_desc s) = i_name (b_desc b)) /\
  (forall j s, collectors st !! j = Some s -> i_name (s_desc s) = i_name (b_desc b) -> j ∈ cf_duplicates c) /\
  exists p i, bs !! p = Some b /\ ids !! p = Some i /\ i ∈ cf_duplicates c.
Proof.
  induction bs as [|b bs IH]; intros st st' ids cs W E c Hc; cbn in E.
  - injection E as <- <- <-. by apply elem_of_nil in Hc.
  - destruct (place k st b) as [[st1 i] cs1] eqn:E1. destruct (place_all k st1 bs) as [[st2 is] cs2] eqn:E2. injection E as <- <- <-.
    pose proof (place_spec _ _ _ _ _ _ W E1) as P. pose proof (place_all_spec _ _ _ _ _ _ (pl_wf _ _ _ _ _ _ P) E2) as Q.
    apply elem_of_app in Hc as [Hc|Hc].
    + exists b. rewrite (pl_dups _ _ _ _ _ _ P _ Hc). split; [left|]. split; [|split].
      * intros j Hj. apply (pl_wf _ _ _ _ _ _ P) in Hj as (s & Hs & Hn). destruct (proj1 (ap_ext _ _ _ _ _ _ Q) _ _ Hs) as (t & Ht & G).
        exists t. split; [done|]. by rewrite <- (grown_name _ _ G).
      * intros j s Hs Hn. apply (pl_wf _ _ _ _ _ _ P). destruct (proj1 (pl_ext _ _ _ _ _ _ P) _ _ Hs) as (t & Ht & G).
        exists t. split; [done|]. by rewrite <- (grown_name _ _ G).
      * exists 0%nat, i. split; [done|]. split; [done|]. apply (pl_wf _ _ _ _ _ _ P).
        destruct (pl_leaf _ _ _ _ _ _ P) as (s & Hs & Hn & _). exists s. done.
    + destruct (IH _ _ _ _ (pl_wf _ _ _ _ _ _ P) E2 c Hc) as (b' & Hb & H1 & H2 & q & x & H3 & H4 & H5). exists b'. split; [by right|]. split; [done|]. split.
      * intros j s Hs Hn. destruct (proj1 (pl_ext _ _ _ _ _ _ P) _ _ Hs) as (t & Ht & G). apply (H2 j t Ht). by rewrite <- (grown_name _ _ G).
      * exists (S q), x. done.
Qed.

(** * Hints *)
Lemma agg_names_low n a : (n, a) ∈ agg_names -> lower n = n.
Proof. unfold agg_names. rewrite !elem_of_cons, elem_of_nil. intros X. repeat match type of X with _ \/ _ => destruct X as [X|X] end; try done; by injection X as -> ->. Qed.
Lemma tempo_names_low n a : (n, a) ∈ tempo_names -> lower n = n.
Proof. unfold tempo_names. rewrite !elem_of_cons, elem_of_nil. intros X. repeat match type of X with _ \/ _ => destruct X as [X|X] end; try done; by injection X as -> ->. Qed.
Lemma parse_agg_spec s a : parse_agg s = Some a <-> exists n, (n, a) ∈ agg_names /\ same_but_case s n.
Proof.
  assert (X : parse_agg s = Some a <-> (lower s, a) ∈ agg_names).
  { unfold parse_agg. cbv zeta. generalize (lower s). intros l. unfold agg_names. rewrite !elem_of_cons, elem_of_nil.
    repeat match goal with |- context [String.eqb l ?n] => destruct (String.eqb_spec l n) as [->|?] end; cbn; split; intros H; try done;
      try (injection H as <-); try (by tauto);
      repeat match type of H with _ \/ _ => destruct H as [H|H] end; try done; inversion H; subst; done. }
  rewrite X. split.
  - intros H. exists (lower s). split; [done|apply same_lower].
  - intros (n & Hn & S). by rewrite (lower_same _ _ S), (agg_names_low _ _ Hn).
Qed.
Lemma parse_tempo_spec s a : parse_tempo s = Some a <-> exists n, (n, a) ∈ tempo_names /\ same_but_case s n.
Proof.
  assert (X : parse_tempo s = Some a <-> (lower s, a) ∈ tempo_names).
  { unfold parse_tempo. cbv zeta. generalize (lower s). intros l. unfold tempo_names. rewrite !elem_of_cons, elem_of_nil.
    repeat match goal with |- context [String.eqb l ?n] => destruct (String.eqb_spec l n) as [->|?] end; cbn; split; intros H; try done;
      try (injection H as <-); try (by tauto);
      repeat match type of H with _ \/ _ => destruct H as [H|H] end; try done; inversion H; subst; done. }
  rewrite X. split.
  - intros H. exists (lower s). split; [done|apply same_lower].
  - intros (n & Hn & S). by rewrite (lower_same _ _ S), (tempo_names_low _ _ Hn).
Qed.
Lemma agg_choice s dflt r : hint_choice agg_names s dflt r ->
  (if String.eqb s "" then dflt else match parse_agg s with None => dflt | Some a => a end) = r.
Proof.
  intros H. assert (parse_agg "" = None) by done.
  assert (E : default dflt (parse_agg s) = r).
  { destruct H as [H|[H ->]].
    - apply parse_agg_spec in H. by rewrite H.
    - destruct (parse_agg s) as [a|] eqn:P; [|done]. apply parse_agg_spec in P as (n & Hn & S). by destruct (H n a). }
  destruct (String.eqb_spec s "") as [->|]; [done|]. by destruct (parse_agg s).
Qed.
Lemma tempo_choice s dflt r : hint_choice tempo_names s dflt r ->
  (if String.eqb s "" then dflt else match parse_tempo s with None => dflt | Some a => a end) = r.
Proof.
  intros H. assert (E : default dflt (parse_tempo s) = r).
  { destruct H as [H|[H ->]].
    - apply parse_tempo_spec in H. by rewrite H.
    - destruct (parse_tempo s) as [a|] eqn:P; [|done]. apply parse_tempo_spec in P as (n & Hn & S). by destruct (H n a). }
  destruct (String.eqb_spec s "") as [->|]; [done|]. by destruct (parse_tempo s).
Qed.
Lemma place_fresh k st b : wf st -> b_hinted b = true -> (forall i s, collectors st !! i = Some s -> i_name (s_desc s) <> i_name (b_desc b)) ->
  exists nm, place k st b = (CState (collectors st ++ [build b]) nm, length (collectors st), []).
Proof.
  intros W Hh F. unfold place, check_semantic. rewrite Hh.
  assert (E : default [] (names st !! i_name (b_desc b)) = []).
  { fold (listed st (i_name (b_desc b))). destruct (listed st (i_name (b_desc b))) as [|i l] eqn:E; [done|].
    destruct (W (i_name (b_desc b))) as [_ W2]. destruct (proj1 (W2 i)) as (s & Hs & Hn); [rewrite E; left|]. by destruct (F i s). }
  rewrite E. cbn. by eexists.
Qed.
Lemma hint_applied v d h a t : In "{"%char (list_ascii_of_string (i_desc d)) -> parse_hint L (i_desc d) = Some h ->
  hint_choice agg_names (h_agg h) (f_agg (v_defaults v (i_kind d))) a ->
  hint_choice tempo_names (h_tempo h) (f_tempo (v_defaults v (i_kind d))) t ->
  apply_hint L v d = (Descriptor (i_name d) (i_kind d) (i_num d) (h_desc h) (i_unit d), a, t, hint_cfg L v d h, default_config v d, true).
Proof.
  intros B P A T. unfold apply_hint. apply has_brace_spec in B. rewrite B, P. rewrite (agg_choice _ _ _ A), (tempo_choice _ _ _ T).
  unfold hint_cfg, default_config, default_cfg. do 3 f_equal.
  destruct (Z.eqb_spec (h_size h) 0), (Z.eqb_spec (h_limit h) 0); repeat case_decide; done.
Qed.
Lemma hint_default v lib st d h a t st' ids cs : wf st -> In "{"%char (list_ascii_of_string (i_desc d)) -> parse_hint L (i_desc d) = Some h ->
  chosen lib d (v_clauses v) [] ->
  hint_choice agg_names (h_agg h) (f_agg (v_defaults v (i_kind d))) a -> hint_choice tempo_names (h_tempo h) (f_tempo (v_defaults v (i_kind d))) t ->
  (forall i s, collectors st !! i = Some s -> i_name (s_desc s) <> i_name d) ->
  compile L v lib st d = (st', ids, cs) ->
  (a = DropAgg -> ids = [] /\ st' = st /\ cs = []) /\
  (a <> DropAgg -> ids = [length (collectors st)] /\ cs = [] /\ exists s, collectors st' = collectors st ++ [s] /\
     hinted_stream d h t s /\ i_name (s_desc s) = i_name d /\ i_desc (s_desc s) = h_desc h /\ s_keys s = None /\ s_cfg s = hint_cfg L v d h /\
     (hint_fits (i_kind d) a = true -> s_agg s = a)).
Proof.
  intros W B P C A T F E. unfold compile, behaviors in E. rewrite <- (chosen_unique _ _ _ _ _ C (chosen_filter lib d (v_clauses v))) in E.
  rewrite (hint_applied v d h a t B P A T) in E. split.
  - intros ->. cbn in E. by injection E as <- <- <-.
  - intros N. rewrite bool_decide_eq_false_2 in E by done. cbn [place_all i_kind] in E.
    set (b := Behavior _ _ _ _ _ _ _) in E. destruct (place_fresh (i_kind d) st b W eq_refl F) as (nm & Ep). rewrite Ep in E. injection E as <- <- <-.
    split; [done|]. split; [done|]. exists (build b). split; [done|]. unfold b, build, hinted_stream. cbn.
    split_and!; try done.
    + rewrite andb_true_iff, orb_true_iff, negb_true_iff, bool_decide_eq_true, bool_decide_eq_false. done.
    + unfold built_agg. cbn. destruct (i_kind d), a; cbn; done.
Qed.
Lemma hint_clause v lib st d h a t c st' ids cs : wf st -> In "{"%char (list_ascii_of_string (i_desc d)) -> parse_hint L (i_desc d) = Some h ->
  chosen lib d (v_clauses v) [c] -> k_agg c <> DropAgg ->
  hint_choice agg_names (h_agg h) (f_agg (v_defaults v (i_kind d))) a -> hint_choice tempo_names (h_tempo h) (f_tempo (v_defaults v (i_kind d))) t ->
  let n := match k_rename c with Some f => f (i_name d) | None => i_name d end in
  (forall i s, collectors st !! i = Some s -> i_name (s_desc s) <> n) ->
  compile L v lib st d = (st', ids, cs) ->
  ids = [length (collectors st)] /\ cs = [] /\ exists s, collectors st' = collectors st ++ [s] /\
     hinted_stream d h t s /\ i_name (s_desc s) = n /\ i_desc (s_desc s) = (if decide (k_desc c = "")%string then h_desc h else k_desc c) /\ s_keys s = k_keys c /\
     (k_cfg c = default_config v d -> s_cfg s = hint_cfg L v d h) /\ (k_cfg c <> default_config v d -> s_cfg s = k_cfg c) /\
     (k_agg c = UndefinedAgg -> hint_fits (i_kind d) a = true -> s_agg s = a) /\
     (k_agg c <> UndefinedAgg -> hint_fits (i_kind d) (k_agg c) = true -> s_agg s = k_agg c).
Proof.
  intros W B P C D A T n F E. unfold compile, behaviors in E. rewrite <- (chosen_unique _ _ _ _ _ C (chosen_filter lib d (v_clauses v))) in E.
  cbn [clause_behaviors] in E. rewrite bool_decide_eq_false_2 in E by done. rewrite (hint_applied v d h a t B P A T) in E. cbn [i_name i_kind place_all] in E.
  set (b := Behavior _ _ _ _ _ _ _) in E.
  assert (F' : forall i s, collectors st !! i = Some s -> i_name (s_desc s) <> i_name (b_desc b)) by exact F.
  destruct (place_fresh (i_kind d) st b W eq_refl F') as (nm & Ep). rewrite Ep in E. injection E as <- <- <-.
  split; [done|]. split; [done|]. exists (build b). split; [done|]. unfold b, build, hinted_stream. cbn.
  assert (Q : forall x, hint_fits (i_kind d) x = true -> forall bb, i_kind (b_desc bb) = i_kind d -> b_agg bb = x -> built_agg bb = x).
  { intros x Hx bb Hk Ha. unfold built_agg. rewrite Hk, Ha. destruct (i_kind d), x; done. }
  split_and!; try done.
  - rewrite andb_true_iff, orb_true_iff, negb_true_iff, bool_decide_eq_true, bool_decide_eq_false. done.
  - destruct (String.eqb_spec (k_desc c) ""); by case_decide.
  - intros ->. unfold pick_cfg. by rewrite bool_decide_eq_true_2.
  - intros H. unfold pick_cfg. by rewrite bool_decide_eq_false_2.
  - intros H1 H2. apply Q; [done..|]. cbn. by rewrite bool_decide_eq_true_2.
  - intros H1 H2. apply Q; [done..|]. cbn. by rewrite bool_decide_eq_false_2.
Qed.
End V.
