(** Proofs for C68. *)
From Coq Require Import ZArith Bool String Lia.
From stdpp Require Import base list option strings.
From Verif Require Import Per PerSpec Base SyncModel SyncSpec SyncFacts SyncMore SyncKeys Num Agg AggSpec AggProofs Attr AttrSpec AttrProofs AggSync AggProps View Data Flow FlowSpec
  FlowProofs FlowProps Exp ExpSpec ExpProofs ExpProps Sent SentSpec.
Local Open Scope Z_scope.

(** ** Different attributes are different OTLP attributes *)
Lemma forall2_inj {A B} (P : A -> B -> Prop) : (forall a a' b, P a b -> P a' b -> a = a') -> forall l l' d, Forall2 P l d -> Forall2 P l' d -> l = l'.
Proof.
  intros E l l' d F. revert l'. induction F as [|a b l d Ha F IH]; intros l' F'; inversion F'; subst; [done|]. f_equal; [by eapply E|by apply IH].
Qed.
Lemma says_inj v v' p : not_empty v -> says v p -> says v' p -> v = v'.
Proof.
  intros N S S'. destruct S as [b|z|b|s|l d F|l d F|l d F|l d F]; inversion S' as [b'|z'|b'|s'|l' d' F' E1 E2|l' d' F' E1 E2|l' d' F' E1 E2|l' d' F' E1 E2]; subst; try done;
    try (f_equal; eapply forall2_inj; [|exact F|exact F']; cbn; congruence);
    (destruct F as [|? ? ? ? Hx F]; [done|]; inversion F'; congruence).
Qed.
Lemma attrs_say_inj k k' d : no_empty_slices k -> attrs_say k d -> attrs_say k' d -> k = k'.
Proof.
  intros N S. revert k'. induction S as [|[a v] [b p] k d [E1 E2] S IH]; intros k' S'; inversion S' as [|[a' v'] ? k2 ? [E1' E2'] S2]; subst; [done|].
  cbn in *. apply list.Forall_cons in N as [N1 N2]. f_equal; [|by apply IH]. f_equal; [congruence|]. by eapply says_inj.
Qed.
Lemma attrs_say_key k k' d : no_empty_slices k -> attrs_say k' d -> attrs_say_b k d = bool_decide (k' = k).
Proof.
  intros N S. destruct (attrs_say_b k d) eqn:E.
  - apply attrs_say_b_spec in E. symmetry. apply bool_decide_eq_true. symmetry. by eapply attrs_say_inj.
  - symmetry. apply bool_decide_eq_false. intros ->. apply attrs_say_b_spec in S. congruence.
Qed.

(** ** The attributes of points *)
Lemma put_types a l : a.2 <> VInvalid -> with_types l -> with_types (put a l).
Proof.
  unfold with_types. intros A. induction l as [|b l IH]; cbn; intros F; [by constructor|]. apply list.Forall_cons in F as [F1 F2].
  destruct (String.eqb _ _); [by constructor|]. destruct (str_lt _ _); constructor; auto.
Qed.
Lemma new_set_types l : with_types l -> with_types (new_set l).
Proof.
  unfold new_set. assert (G : forall s, with_types l -> with_types s -> with_types (fold_left (fun s a => put a s) l s)); [|intros; by apply G; [|constructor]].
  induction l as [|a l IH]; intros s F S; cbn; [done|]. apply list.Forall_cons in F as [F1 F2]. apply IH; [done|]. by apply put_types.
Qed.
Lemma filter_types keys s : with_types s -> with_types (apply_filter keys s).
Proof. intros F. apply list.Forall_forall. intros a Ha. apply apply_filter_elem in Ha as [Ha _]. exact (proj1 (list.Forall_forall _ _) F a Ha). Qed.
Lemma canon_types s : with_types s -> with_types (canon s).
Proof.
  intros F. apply list.Forall_forall. intros a Ha. unfold canon in Ha. apply elem_of_list_fmap in Ha as (b & -> & Hb).
  pose proof (proj1 (list.Forall_forall _ _) F b Hb) as N. cbn in *. destruct b as [kb []]; cbn in *; done.
Qed.
Lemma canon_keys s : map fst (canon s) = map fst s.
Proof. unfold canon. rewrite map_map. by apply map_ext. Qed.
Lemma sorted_set l : sorted l -> a_set l.
Proof.
  unfold a_set. induction l as [|a l IH]; cbn [sorted map]; [constructor|]. intros [S1 S2]. constructor; [|by apply IH].
  change (map fst l) with (fst <$> l). intros X. apply elem_of_list_fmap in X as (b & E & Hb). specialize (S1 b Hb). rewrite E in S1. by rewrite str_lt_irrefl in S1.
Qed.
Definition key_ok (k : list kv) : Prop := a_set k /\ with_types k.
Lemma key_ok_of keys l : with_types l -> key_ok (canon (apply_filter keys (new_set l))).
Proof.
  intros W. split.
  - unfold a_set. rewrite canon_keys. apply sorted_set, apply_filter_sorted, new_set_sorted.
  - by apply canon_types, filter_types, new_set_types.
Qed.

Section sent.
Context (farm : string -> Z) (kinds : nat -> agg_kind) (keys : nat -> option (list string)) (views : list SyncModel.view).
Context (insts : list (list nat)) (periods ilimit : Z) (ignore : bool).
Notation c := (int_config farm kinds keys views insts periods ilimit ignore).
Context (desc : nat -> descriptor) (mono : nat -> bool) (lib : scope) (res : string).
Notation data_of := (data_of farm kinds keys views insts periods ilimit ignore desc mono lib res).
Notation data_instr := (data_instr farm kinds keys views insts periods ilimit ignore desc mono).
Notation data_point := (data_point farm kinds keys views insts periods ilimit ignore mono).

Notation typed_calls := (typed_calls farm kinds keys views insts periods ilimit ignore).
Notation distinct_names := (distinct_names farm kinds keys views insts periods ilimit ignore desc).
Lemma point_keys (ls : list (label c)) s : run (init c) ls = Some s -> typed_calls ls -> forall p, p ∈ s_out s -> key_ok (p_key p).
Proof.
  intros R T p Hp. apply elem_of_list_lookup in Hp as (i & Hp).
  assert (O : with_types overflow_attrs) by (repeat constructor; done).
  refine (keys_run (c:=c) with_types key_ok O _ _ ls s R T i p Hp).
  - change (key_ok (new_set overflow_attrs)). split; [apply sorted_set, new_set_sorted|by apply new_set_types].
  - intros v k W. by apply (key_ok_of (keys v)).
Qed.
Lemma storage_fits H kd m a : storage_ok H (storage_of kd m a).
Proof.
  assert (I : forall x : i64, int64 (ival x)).
  { intros [z Hz]. cbn. unfold in64 in Hz. apply andb_true_iff in Hz as [H1 H2]. apply Z.leb_le in H1. apply Z.ltb_lt in H2. unfold int64. lia. }
  destruct kd; cbn; [apply I| |split_and!; try done; try apply wrap_int64; apply I].
  destruct (a_last a) as [[x n]|]; cbn; [apply wrap_int64|]. unfold int64. lia.
Qed.
Definition fam_of (v : nat) : fam := match kinds v with KSum => FSum (mono v) IntKind | KGauge => FGauge IntKind | KMMSC => FMMSC IntKind end.
Lemma dyn_of v a : dyn (storage_of (kinds v) (mono v) a) = fam_of v.
Proof. unfold fam_of. destruct (kinds v); cbn; try done. by destruct (a_last a) as [[x n]|]. Qed.
Lemma data_fits H useexp (ls : list (label c)) s rd k sq : run (init c) ls = Some s -> typed_calls ls -> times_ok sq -> data_ok H useexp (data_of rd s k sq).
Proof.
  intros R T (T1 & T2 & T3) sc i Hs Hi. cbn in Hs. apply elem_of_list_singleton in Hs as ->. cbn in Hi.
  change (map ?f ?l) with (f <$> l) in Hi. apply elem_of_list_fmap in Hi as (v & -> & Hv). cbn [Sent.data_instr in_points vis].
  set (l := List.filter _ (s_out s)). assert (L : forall p, p ∈ l -> p ∈ s_out s) by (intros p Hp; by apply elem_of_list_In, filter_In in Hp as [Hp%elem_of_list_In _]).
  clearbody l. split.
  - exists (fam_of v), (if vdelta c v then DeltaTempo else CumulativeTempo). split; [destruct (vdelta c v); auto|].
    intros p Hp. change (map ?f ?l) with (f <$> l) in Hp. apply elem_of_list_fmap in Hp as (q & -> & Hq). cbn. split; [f_equal; apply dyn_of|done].
  - intros p Hp. change (map ?f ?l) with (f <$> l) in Hp. apply elem_of_list_fmap in Hp as (q & -> & Hq). split.
    + destruct (point_keys ls s R T q (L q Hq)) as [K1 K2]. split_and!; cbn; try done; [by destruct (vdelta c v)|].
      eexists. split; [done|apply storage_fits].
    + intros _ n mx ll E. cbn in E. exfalso. destruct (kinds v); cbn in E; try done. by destruct (a_last (p_agg q)) as [[? ?]|].
Qed.

(** ** The numbers of a request *)
Definition shown (v : nat) (a : Aggmon) : list Z :=
  match kinds v with KSum => [a_sum a] | KGauge => [match a_last a with Some (_, n) => wrap n | None => 0 end] | KMMSC => [] end.
Definition is_point (k v : nat) (ky : list kv) (p : SyncModel.point c) : bool :=
  Nat.eqb (p_tid p) k && Nat.eqb (p_view p) v && bool_decide ((p_key p : list kv) = ky).
Definition counted (v : nat) (a : Aggmon) : list Z := match kinds v with KMMSC => [a_count a] | _ => [] end.
Definition in_metric (g : pdata -> list (list (string * pvalue) * Z)) (name : string) (ky : list kv) (m : pmetric) : list Z :=
  if String.eqb (pm_name m) name then under ky (g (pm_data m)) else [].
(** What [sh] says of points is what [g] shows of their data. *)
Definition reads (H : hlib) (g : pdata -> list (list (string * pvalue) * Z)) (sh : nat -> Aggmon -> list Z) : Prop :=
  forall sq v ky (l : list (SyncModel.point c)) d, no_empty_slices ky -> data_says H true (fam_of v) (map (data_point v sq) l) d ->
  under ky (g d) = flat_map (fun p : SyncModel.point c => if bool_decide ((p_key p : list kv) = ky) then sh v (p_agg p) else []) l.
Lemma under_app ky l l' : under ky (l ++ l') = under ky l ++ under ky l'.
Proof. apply flat_map_app. Qed.
Lemma nothing {X Y} (f : X -> bool) (l : list X) : flat_map (fun p => if f p then [] else []) l = ([] : list Y).
Proof. induction l as [|p l IH]; [done|]. cbn. rewrite IH. by destruct (f p). Qed.

Lemma values_read H : reads H values_of shown.
Proof.
  intros sq v ky l d N. unfold fam_of, data_says, shown. destruct (kinds v) eqn:K.
  - intros (t & q & -> & F). cbn [values_of]. revert q F. induction l as [|p l IH]; intros q F; inversion F as [|? y ? q' S F' E]; subst; [done|].
    cbn [flat_map]. rewrite under_app, (IH _ F'). f_equal. destruct S as (A & _ & _ & _ & z & Z1 & Z2). cbn in A.
    cbn in Z1. rewrite K in Z1. injection Z1 as <-. cbn in Z2. destruct (pn_value y); [|done]. subst. cbn. rewrite (attrs_say_key ky _ _ N A), app_nil_r. by case_bool_decide.
  - intros (q & -> & F). cbn [values_of]. revert q F. induction l as [|p l IH]; intros q F; inversion F as [|? y ? q' S F' E]; subst; [done|].
    cbn [flat_map]. rewrite under_app, (IH _ F'). f_equal. destruct S as (A & _ & _ & z & sq' & Z1 & Z2). cbn in A.
    cbn in Z1. rewrite K in Z1. cbn in Z1. destruct (a_last (p_agg p)) as [[x n]|]; injection Z1 as <- <-.
    + rewrite decide_False in Z2 by lia. cbn in Z2. destruct (pn_value y); [|done]. subst. cbn. rewrite (attrs_say_key ky _ _ N A), app_nil_r. by case_bool_decide.
    + rewrite decide_True in Z2 by done. cbn in Z2. destruct (pn_value y); [|done]. subst. cbn. rewrite (attrs_say_key ky _ _ N A), app_nil_r. by case_bool_decide.
  - intros (t & q & -> & F). cbn. symmetry. apply nothing.
Qed.
Lemma counts_read H : reads H counts_of counted.
Proof.
  intros sq v ky l d N. unfold fam_of, data_says, counted. destruct (kinds v) eqn:K.
  - intros (t & q & -> & F). cbn. symmetry. apply nothing.
  - intros (q & -> & F). cbn. symmetry. apply nothing.
  - intros (t & q & -> & F). cbn [counts_of]. revert q F. induction l as [|p l IH]; intros q F; inversion F as [|? y ? q' S F' E]; subst; [done|].
    cbn [map flat_map]. change (under ky ((ph_attrs y, ph_count y) :: ?r)) with ((if attrs_say_b ky (ph_attrs y) then [ph_count y] else []) ++ under ky r).
    rewrite (IH _ F'). f_equal. destruct S as ((A & _) & mn & mx & sm & n & Z1 & _ & Z2 & _). cbn in A.
    rewrite (attrs_say_key ky _ _ N A). case_bool_decide; [|done]. cbn in Z1. rewrite K in Z1. cbn in Z1. injection Z1 as _ _ _ <-. by rewrite Z2.
Qed.
Lemma filter_and {X} (f g : X -> bool) l : List.filter (fun x => f x && g x) l = List.filter g (List.filter f l).
Proof. induction l as [|x l IH]; [done|]. cbn. destruct (f x); cbn; [|done]. by rewrite IH. Qed.
Lemma flat_filter {X Y} (f : X -> bool) (g : X -> list Y) l : flat_map (fun x => if f x then g x else []) l = flat_map g (List.filter f l).
Proof. induction l as [|x l IH]; [done|]. cbn. destruct (f x); cbn; by rewrite IH. Qed.

Lemma metrics_values H g sh s k sq ky name vs ms : reads H g sh -> no_empty_slices ky ->
  Forall2 (metric_says H true) (List.filter has_points (map (data_instr s k sq) vs)) ms ->
  flat_map (in_metric g name ky) ms =
  flat_map (fun v => if String.eqb (i_name (desc v)) name then flat_map (fun p : SyncModel.point c => sh v (p_agg p)) (List.filter (is_point k v ky) (s_out s)) else []) vs.
Proof.
  intros RD N. revert ms. induction vs as [|v vs IH]; intros ms F; [inversion F; done|].
  assert (E : forall l, l = List.filter (fun p : SyncModel.point c => Nat.eqb (p_tid p) k && Nat.eqb (p_view p) v) (s_out s) ->
    flat_map (fun p : SyncModel.point c => sh v (p_agg p)) (List.filter (is_point k v ky) (s_out s)) = flat_map (fun p : SyncModel.point c => if bool_decide ((p_key p : list kv) = ky) then sh v (p_agg p) else []) l).
  { intros l ->. rewrite (flat_filter (fun p : SyncModel.point c => bool_decide ((p_key p : list kv) = ky))). f_equal. unfold is_point. by rewrite filter_and. }
  cbn [map List.filter] in F. unfold has_points at 1 in F. cbn [Sent.data_instr in_points vis] in F.
  destruct (List.filter (fun p : SyncModel.point c => Nat.eqb (p_tid p) k && Nat.eqb (p_view p) v) (s_out s)) as [|p0 l0] eqn:L.
  - cbn [map] in F. cbn [flat_map]. rewrite (IH _ F), (E [] ltac:(done)). cbn. by destruct (String.eqb _ _).
  - cbn [map] in F. inversion F as [|? m ? ms' (M1 & _ & _ & f & M2 & M3) F' E1]; subst. cbn [flat_map]. rewrite (IH _ F'). f_equal. unfold in_metric.
    rewrite M1. cbn [Sent.data_instr in_desc]. destruct (String.eqb _ _); [|done].
    assert (f = fam_of v) as ->.
    { specialize (M2 (data_point v sq p0)). cbn [Sent.data_instr in_points vis] in M2. rewrite L in M2. specialize (M2 ltac:(left)). cbn in M2. injection M2 as <-. apply dyn_of. }
    rewrite (E _ eq_refl). cbn [Sent.data_instr in_points vis] in M3. rewrite L in M3. by apply (RD sq).
Qed.

Lemma views_read rd v : v ∈ views_of c rd <-> read_by c rd v.
Proof.
  unfold views_of, read_by. rewrite elem_of_list_In, filter_In, in_seq. split.
  - intros [_ H]. destruct (c_views c !! v) as [w|]; [|done]. exists w. by apply Nat.eqb_eq in H.
  - intros (w & Hw & <-). rewrite Hw, Nat.eqb_refl. apply lookup_lt_Some in Hw. split; [lia|done].
Qed.
Lemma request_values H g sh rs s k sq ans rd ky v o : reads H g sh -> no_empty_slices ky -> distinct_names rd -> read_by c rd v ->
  export_says H rs true (data_of rd s k sq, ans) o ->
  in_request g (i_name (desc v)) ky o.1.1 = flat_map (fun p : SyncModel.point c => sh v (p_agg p)) (List.filter (is_point k v ky) (s_out s)).
Proof.
  intros RD N D V. destruct o as [[x ts] e]. intros (_ & F & _). cbn [fst]. cbn [Sent.data_of mt_scopes vis] in F.
  inversion F as [|? ps ? pss (_ & _ & _ & M) F' E E2]; subst. inversion F'; subst. unfold in_request. rewrite <- E2. cbn [flat_map]. rewrite app_nil_r.
  change (flat_map (in_metric g (i_name (desc v)) ky) (ps_metrics ps) = flat_map (fun p : SyncModel.point c => sh v (p_agg p)) (List.filter (is_point k v ky) (s_out s))).
  cbn [os_insts vis] in M. rewrite (metrics_values H g sh s k sq ky _ _ _ RD N M).
  assert (ND : NoDup (views_of c rd)) by (apply NoDup_ListNoDup, List.NoDup_filter, seq_NoDup).
  pose proof (proj2 (views_read rd v) V) as IN. assert (A : forall v', v' ∈ views_of c rd -> read_by c rd v') by (intros; by apply views_read).
  clear -D V ND IN A. induction (views_of c rd) as [|v' vs IH]; [by apply elem_of_nil in IN|]. apply list.NoDup_cons in ND as [N1 N2]. cbn [flat_map].
  assert (Z : forall vs', v ∉ vs' -> (forall w, w ∈ vs' -> read_by c rd w) -> flat_map (fun v0 => if String.eqb (i_name (desc v0)) (i_name (desc v))
     then flat_map (fun p : SyncModel.point c => sh v0 (p_agg p)) (List.filter (is_point k v0 ky) (s_out s)) else []) vs' = []).
  { clear -D V. induction vs' as [|w vs' IH]; intros NI A; [done|]. cbn [flat_map]. destruct (String.eqb_spec (i_name (desc w)) (i_name (desc v))) as [E|_].
    - exfalso. apply NI. rewrite (D v w); [left|done|apply A; left|done].
    - apply IH; [intros X; apply NI; by right|intros u Hu; apply A; by right]. }
  apply elem_of_cons in IN as [->|IN].
  - rewrite String.eqb_refl, Z; [by rewrite app_nil_r|done|intros w Hw; apply A; by right].
  - destruct (String.eqb_spec (i_name (desc v')) (i_name (desc v))) as [E'|_].
    + exfalso. apply N1. rewrite <- (D v v'); [done|done|apply A; left|done].
    + apply IH; [done|done|intros w Hw; apply A; by right].
Qed.

(** ** The requests of a reader *)
Notation sent := (sent farm kinds keys views insts periods ilimit ignore desc mono lib res).
Notation number := (AggProps.number farm kinds keys views insts periods ilimit ignore).
Context (H : hlib) (rs : string -> list kv) (clock : nat -> sequence) (answer : nat -> pmetrics -> option error) (rd : nat).
Definition collection (f : flow c) (n : nat) : nat := default 0%nat (f_made f !! n).
Lemma sent_says l (f : flow c) : frun rd (flow_init c) l = Some f -> typed_calls (calls_made rd l) -> (forall n, times_ok (clock n)) ->
  a_set (rs res) -> with_types (rs res) ->
  exists os, sent H rs true clock answer rd f = Some os /\
    Forall2 (fun n o => export_says H rs true (data_of rd (f_sync f) (collection f n) (clock n), answer n) o) (exporter_calls f) os.
Proof.
  intros R T C R1 R2. destruct (frun_parts _ _ _ _ R) as [P _]. cbn [f_sync flow_init] in P. unfold Sent.sent.
  destruct (C35_history H rs true (map (fun n => (data_of rd (f_sync f) (default 0%nat (f_made f !! n)) (clock n), answer n)) (exporter_calls f))) as (os & E & F).
  - apply list.Forall_forall. intros i Hi. change (map ?g ?l) with (g <$> l) in Hi. apply elem_of_list_fmap in Hi as (n & -> & Hn). cbn [fst]. split; [|done].
    by eapply data_fits.
  - exists os. split; [done|]. change (map ?g ?l) with (g <$> l) in F. by rewrite Forall2_fmap_l in F.
Qed.
Lemma exported_called (f : flow c) n s : exported f n s -> n ∈ exporter_calls f.
Proof.
  intros (ss & rest & (X & _ & _) & IN & <-). unfold exporter_calls. apply elem_of_list_omap. exists (ECall (s_t s) (s_method s) (s_n s)). split; [|done].
  assert (Y : ECall (s_t s) (s_method s) (s_n s) ∈ PerSpec.exports (rd_log (f_reader f))).
  { rewrite X. apply elem_of_app. left. apply elem_of_list_In, in_concat. exists (events s). split; [by apply in_map, elem_of_list_In|]. cbn. auto. }
  unfold PerSpec.exports in Y. by apply elem_of_list_In, filter_In in Y as [Y%elem_of_list_In _].
Qed.
Lemma calls_numbered l (f : flow c) : frun rd (flow_init c) l = Some f -> exporter_calls f = seq 0 (length (exporter_calls f)).
Proof.
  intros R. destruct (frun_parts _ _ _ _ R) as [_ P]. cbn in P. destruct (PerProps.C32_one_at_a_time _ _ P) as (ss & rest & O). exact (calls_of_session _ _ _ O).
Qed.
Lemma called_made l (f : flow c) n : frun rd (flow_init c) l = Some f -> n ∈ exporter_calls f -> f_made f !! n = Some (collection f n).
Proof.
  intros R Hn. pose proof (ginv_run _ _ _ R) as G. destruct (frun_parts _ _ _ _ R) as [_ P]. cbn in P.
  destruct (PerProofs.prun_inv _ _ _ _ PerProofs.new_inv P) as [ss J]. cbn [app] in J. pose proof (called_below _ _ _ J Hn) as L. rewrite <- (g_count _ _ _ G) in L.
  destruct (lookup_lt_is_Some_2 _ _ L) as [k K]. unfold collection. by rewrite K.
Qed.

Lemma log_kept l1 (f1 : flow c) l2 f2 x u : frun rd (flow_init c) l1 = Some f1 -> frun rd f1 l2 = Some f2 ->
  s_log (f_sync f1) !! x = Some u -> s_log (f_sync f2) !! x = Some u.
Proof.
  intros R1 R2 U. destruct (frun_parts _ _ _ _ R1) as [P1 _], (frun_parts _ _ _ _ R2) as [P2 _]. cbn [f_sync flow_init] in P1.
  assert (P : run (c:=c) (f_sync f1) (calls_made rd l2) = Some (f_sync f2)) by exact P2.
  destruct (SyncVisRun.run_keeps _ _ _ _ P1 P) as (_ & _ & Z & _). exact (Z x u U).
Qed.

(** ** Lists *)
Lemma flat_flat {X Y Z} (f : Y -> list Z) (g : X -> list Y) l : flat_map (fun x => flat_map f (g x)) l = flat_map f (flat_map g l).
Proof. induction l as [|x l IH]; [done|]. cbn. by rewrite flat_map_app, IH. Qed.
Lemma flat_indexes {X Y} (f : X -> bool) (g : X -> list Y) (l : list X) :
  flat_map g (List.filter f l) =
  flat_map (fun i => match l !! i with Some p => g p | None => [] end) (List.filter (fun i => match l !! i with Some p => f p | None => false end) (seq 0 (length l))).
Proof.
  induction l as [|x l IH] using rev_ind; [done|]. rewrite app_length. cbn [length]. rewrite seq_app, !List.filter_app, !flat_map_app. cbn [seq]. f_equal.
  - rewrite IH. clear IH. assert (L : forall i, i ∈ seq 0 (length l) -> (l ++ [x]) !! i = l !! i).
    { intros i Hi. apply lookup_app_l. apply elem_of_list_In, in_seq in Hi. lia. }
    induction (seq 0 (length l)) as [|i s IHs]; [done|]. cbn [List.filter]. rewrite (L i) by left.
    assert (IHs' := IHs ltac:(intros j Hj; apply L; by right)). destruct (l !! i) as [p|] eqn:E; [|done]. destruct (f p); [|done]. cbn [flat_map].
    rewrite (L i) by left. by rewrite E, IHs'.
  - cbn [List.filter Nat.add]. rewrite !lookup_app_r, Nat.sub_diag by done. cbn [lookup list_lookup]. destruct (f x); [|done]. cbn [flat_map].
    by rewrite !lookup_app_r, Nat.sub_diag by done.
Qed.
Lemma flat_map_ext_in {X Y} (f g : X -> list Y) l : (forall x, x ∈ l -> f x = g x) -> flat_map f l = flat_map g l.
Proof. induction l as [|x l IH]; intros E; [done|]. cbn. rewrite (E x) by left. f_equal. apply IH. intros y Hy. apply E. by right. Qed.
Lemma elem_of_flat {X Y} (f : X -> list Y) l y : y ∈ flat_map f l <-> exists x, x ∈ l /\ y ∈ f x.
Proof. rewrite elem_of_list_In, in_flat_map. setoid_rewrite elem_of_list_In. done. Qed.
Lemma NoDup_flat {X Y} (f : X -> list Y) l : NoDup l -> (forall x, x ∈ l -> NoDup (f x)) ->
  (forall x x' y, x ∈ l -> x' ∈ l -> y ∈ f x -> y ∈ f x' -> x = x') -> NoDup (flat_map f l).
Proof.
  induction l as [|x l IH]; intros N F D; [constructor|]. apply list.NoDup_cons in N as [N1 N2]. cbn. apply list.NoDup_app. split_and!.
  - apply F. left.
  - intros y Hy Hy'. apply elem_of_flat in Hy' as (x' & Hx' & Hy'). apply N1. rewrite (D x x' y); [done|left|by right|done|done].
  - apply IH; [done|intros z Hz; apply F; by right|]. intros a b y Ha Hb. apply D; by right.
Qed.
Lemma count_pos (ids : nat -> list nat) N x i : (i < N)%nat -> x ∈ ids i -> (1 <= count_in ids N x)%nat.
Proof.
  intros L X. unfold count_in. assert (I : In i (List.filter (fun i => bool_decide (x ∈ ids i)) (seq 0 N))).
  { apply filter_In. split; [apply in_seq; lia|]. by apply bool_decide_eq_true. }
  destruct (List.filter _ _); [done|]. cbn. lia.
Qed.

(** ** Delta sums *)
Definition pick (l : list (SyncModel.point c)) (f : SyncModel.point c -> bool) : list nat :=
  List.filter (fun i => match l !! i with Some p => f p | None => false end) (seq 0 (length l)).
Lemma pick_elem l f i : i ∈ pick l f <-> exists p, l !! i = Some p /\ f p = true.
Proof.
  unfold pick. rewrite elem_of_list_In, filter_In, in_seq. split.
  - intros [_ E]. destruct (l !! i) as [p|]; [|done]. by exists p.
  - intros (p & E & F). rewrite E. apply lookup_lt_Some in E. split; [lia|done].
Qed.
Lemma pick_nodup l f : NoDup (pick l f).
Proof. apply NoDup_ListNoDup, List.NoDup_filter, seq_NoDup. Qed.
Lemma is_point_spec k v ky p : is_point k v ky p = true <-> p_tid p = k /\ p_view p = v /\ p_key p = ky.
Proof. unfold is_point. rewrite !andb_true_iff, !Nat.eqb_eq, bool_decide_eq_true. tauto. Qed.
Lemma sum_parts s (ids : nat -> list nat) (l : list (SyncModel.point c)) I : (forall i, i ∈ I -> exists p, l !! i = Some p /\ a_sum (p_agg p) = wrap (zsum (map (number s) (ids i)))) ->
  wrap (zsum (flat_map (fun i => match l !! i with Some p => [a_sum (p_agg p)] | None => [] end) I)) = wrap (zsum (map (number s) (flat_map ids I))).
Proof.
  induction I as [|i I IH]; intros F; [done|]. cbn [flat_map]. rewrite map_app, !zsum_app. destruct (F i ltac:(left)) as (p & E & S). rewrite E.
  rewrite <- wrap_add, IH, wrap_add; [|intros j Hj; apply F; by right]. unfold zsum at 1. cbn [foldr]. rewrite Z.add_0_r, S.
  rewrite <- wrap_add. rewrite (wrap_id (wrap _)) by apply wrap_int64. by rewrite wrap_add.
Qed.

Theorem delta_points g sh l1 f1 t l2 f2 m e v ky : frun rd (flow_init c) l1 = Some f1 -> frun rd f1 (FReader t :: l2) = Some f2 -> t = AFlush \/ t = AShut ->
  rd_threads (f_reader f2) !! length (rd_threads (f_reader f1)) = Some (CReturned m e) -> calm (calls_made rd (l1 ++ FReader t :: l2)) ->
  typed_calls (calls_made rd (l1 ++ FReader t :: l2)) -> (forall n, times_ok (clock n)) -> a_set (rs res) -> with_types (rs res) ->
  distinct_names rd -> reads H g sh -> read_by c rd v -> vdelta c v = true -> no_empty_slices ky ->
  exists os out sup I J, sent H rs true clock answer rd f2 = Some os /\ NoDup (flat_map out I ++ flat_map sup J) /\
    (forall x, x ∈ flat_map out I ++ flat_map sup J -> in_series (c:=c) (f_sync f2) v ky x) /\
    (forall x u, measured_by_now rd f1 x u -> u_view u = v -> u_key u = ky -> x ∈ flat_map out I ++ flat_map sup J) /\
    (forall i, i ∈ I -> exists p, s_out (f_sync f2) !! i = Some p /\ shows farm kinds keys views insts periods ilimit ignore (f_sync f2) p (out i) /\ out i <> []) /\
    (forall j, j ∈ J -> exists p, s_drop (f_sync f2) !! j = Some p /\ shows farm kinds keys views insts periods ilimit ignore (f_sync f2) p (sup j) /\
      agg_change (kinds v) (p_agg p) = false) /\
    flat_map (fun o => in_request g (i_name (desc v)) ky o.1.1) os = flat_map (fun i => match s_out (f_sync f2) !! i with Some p => sh v (p_agg p) | None => [] end) I.
Proof.
  intros R1 R2 A T CALM TY CL RS1 RS2 DN RD RB VD NE.
  assert (R : frun rd (flow_init c) (l1 ++ FReader t :: l2) = Some f2) by (by rewrite frun_app, R1).
  destruct (sent_says _ _ R TY CL RS1 RS2) as (os & SE & SF).
  destruct (FlowProps.C57_delivered c rd l1 f1 t l2 f2 m e R1 R2 A T CALM) as (_ & out & sup & pend & n & s & AC & EX & _ & _ & _ & DEL).
  set (st := f_sync f2) in *.
  set (J := pick (s_drop st) (fun p => Nat.eqb (p_view p) v && bool_decide ((p_key p : list kv) = ky))).
  set (idx := fun n => pick (s_out st) (is_point (collection f2 n) v ky)). set (I := flat_map idx (exporter_calls f2)).
  assert (NC : NoDup (exporter_calls f2)) by (rewrite (calls_numbered _ _ R); apply NoDup_ListNoDup, seq_NoDup).
  assert (HI : forall i, i ∈ I -> exists n p, n ∈ exporter_calls f2 /\ s_out st !! i = Some p /\ p_tid p = collection f2 n /\ p_view p = v /\ p_key p = ky).
  { intros i Hi. apply elem_of_flat in Hi as (n' & Hn & Hi). apply pick_elem in Hi as (p & Hp & E). apply is_point_spec in E. exists n', p. done. }
  assert (HJ : forall j, j ∈ J -> exists p, s_drop st !! j = Some p /\ p_view p = v /\ p_key p = ky).
  { intros j Hj. apply pick_elem in Hj as (p & Hp & E). apply andb_true_iff in E as [E1 E2]. apply Nat.eqb_eq in E1. apply bool_decide_eq_true in E2. by exists p. }
  assert (SO : forall i x, i ∈ I -> x ∈ out i -> in_series (c:=c) st v ky x).
  { intros i x Hi Hx. destruct (HI i Hi) as (n' & p & _ & Hp & _ & <- & <-). destruct (acc_out _ _ _ _ AC i p Hp) as (_ & IS & _). by apply IS. }
  assert (SS : forall j x, j ∈ J -> x ∈ sup j -> in_series (c:=c) st v ky x).
  { intros j x Hj Hx. destruct (HJ j Hj) as (p & Hp & <- & <-). destruct (acc_sup _ _ _ _ AC j p Hp) as [(_ & IS & _) _]. by apply IS. }
  assert (CNT : forall x, in_series (c:=c) st v ky x -> (count_in out (length (s_out st)) x + count_in sup (length (s_drop st)) x <= 1)%nat).
  { intros x (u & U & V & _). rewrite <- V in VD. pose proof (acc_delta _ _ _ _ AC x u U VD). lia. }
  assert (BI : forall i, i ∈ I -> (i < length (s_out st))%nat) by (intros i Hi; destruct (HI i Hi) as (? & p & _ & Hp & _); by eapply lookup_lt_Some).
  assert (BJ : forall j, j ∈ J -> (j < length (s_drop st))%nat) by (intros j Hj; destruct (HJ j Hj) as (p & Hp & _); by eapply lookup_lt_Some).
  assert (NI : NoDup I).
  { apply NoDup_flat; [done|intros; apply pick_nodup|]. intros a b i Ha Hb Hi Hj. apply pick_elem in Hi as (p & Hp & E). apply pick_elem in Hj as (p' & Hp' & E').
    rewrite Hp in Hp'. injection Hp' as <-. apply is_point_spec in E as (E & _), E' as (E' & _). rewrite E in E'.
    eapply NoDup_lookup; [exact (g_once _ _ _ (ginv_run _ _ _ R))|by eapply called_made|]. rewrite E'. by eapply called_made. }
  exists os, out, sup, I, J. split; [done|]. split_and!.
  - apply list.NoDup_app. split_and!.
    + apply NoDup_flat; [done| |].
      * intros i Hi. destruct (HI i Hi) as (_ & p & _ & Hp & _). by destruct (acc_out _ _ _ _ AC i p Hp).
      * intros i j x Hi Hj Xi Xj. eapply counted_once; [|by apply BI|by apply BI|exact Xi|exact Xj]. specialize (CNT x (SO _ _ Hi Xi)). lia.
    + intros x Hx Hy. apply elem_of_flat in Hx as (i & Hi & Hx). apply elem_of_flat in Hy as (j & Hj & Hy). specialize (CNT x (SO _ _ Hi Hx)).
      pose proof (count_pos _ _ _ _ (BI _ Hi) Hx). pose proof (count_pos _ _ _ _ (BJ _ Hj) Hy). lia.
    + apply NoDup_flat; [apply pick_nodup| |].
      * intros i Hi. destruct (HJ i Hi) as (p & Hp & _). by destruct (acc_sup _ _ _ _ AC i p Hp) as [(? & _) _].
      * intros i j x Hi Hj Xi Xj. eapply counted_once; [|by apply BJ|by apply BJ|exact Xi|exact Xj]. specialize (CNT x (SS _ _ Hi Xi)). lia.
  - intros x Hx. apply elem_of_app in Hx as [Hx|Hx]; apply elem_of_flat in Hx as (i & Hi & Hx); [by eapply SO|by eapply SS].
  - intros x u M V K. pose proof (DEL x u M) as D. rewrite V, VD in D. apply elem_of_app.
    assert (U : s_log st !! x = Some u).
    { destruct M as (U & _). exact (log_kept _ _ _ _ _ _ R1 R2 U). }
    destruct D as [(n' & s' & _ & EX' & (i & p & Hp & Xi & Mn))|(j & p & Hp & Xj)].
    + left. apply elem_of_flat. exists i. split; [|done]. apply elem_of_flat. exists n'. pose proof (exported_called _ _ _ EX') as Hn. split; [done|].
      apply pick_elem. exists p. split; [done|]. apply is_point_spec. destruct (acc_out _ _ _ _ AC i p Hp) as (_ & IS & _). destruct (IS x Xi) as (u' & U' & V' & K').
      fold st in U'. rewrite U in U'. injection U' as <-. split_and!; [|congruence|congruence]. rewrite (called_made _ _ _ R Hn) in Mn. congruence.
    + right. apply elem_of_flat. exists j. split; [|done]. apply pick_elem. exists p. split; [done|]. destruct (acc_sup _ _ _ _ AC j p Hp) as [(_ & IS & _) _].
      destruct (IS x Xj) as (u' & U' & V' & K'). fold st in U'. rewrite U in U'. injection U' as <-. rewrite <- V', <- K', V, K, Nat.eqb_refl. by apply bool_decide_eq_true.
  - intros i Hi. destruct (HI i Hi) as (n' & p & _ & Hp & _ & V & _). exists p. split; [done|]. split; [exact (made_shows _ _ _ _ _ _ _ _ _ _ _ (acc_out _ _ _ _ AC i p Hp))|].
    destruct (frun_parts _ _ _ _ R) as [PR _]. cbn [f_sync flow_init] in PR.
    pose proof (point_changed _ _ PR i p Hp ltac:(by rewrite V)) as CH. intros E0. destruct (acc_out _ _ _ _ AC i p Hp) as (_ & _ & M). rewrite E0 in M. cbn in M, CH.
    rewrite M in CH. by destruct (kinds (p_view p)).
  - intros j Hj. destruct (HJ j Hj) as (p & Hp & V & _). exists p. split; [done|]. destruct (acc_sup _ _ _ _ AC j p Hp) as [MO CH]. split; [exact (made_shows _ _ _ _ _ _ _ _ _ _ _ MO)|].
    cbn in CH. by rewrite V in CH.
  - unfold I. rewrite <- flat_flat. clear -SF NE DN RB RD. subst idx. induction SF as [|n' o ns os E F IH]; [done|]. cbn [flat_map]. rewrite IH. f_equal.
    rewrite (request_values _ _ _ _ _ _ _ _ _ _ _ _ RD NE DN RB E). rewrite (flat_indexes (is_point (collection f2 n') v ky)). apply flat_map_ext_in.
    intros i _. by destruct (s_out st !! i).
Qed.
Theorem delta_sums l1 f1 t l2 f2 m e v ky : frun rd (flow_init c) l1 = Some f1 -> frun rd f1 (FReader t :: l2) = Some f2 -> t = AFlush \/ t = AShut ->
  rd_threads (f_reader f2) !! length (rd_threads (f_reader f1)) = Some (CReturned m e) -> calm (calls_made rd (l1 ++ FReader t :: l2)) ->
  typed_calls (calls_made rd (l1 ++ FReader t :: l2)) -> (forall n, times_ok (clock n)) -> a_set (rs res) -> with_types (rs res) ->
  distinct_names rd -> read_by c rd v -> kinds v = KSum -> vdelta c v = true -> no_empty_slices ky ->
  exists os X, sent H rs true clock answer rd f2 = Some os /\ NoDup X /\ (forall x, x ∈ X -> in_series (c:=c) (f_sync f2) v ky x) /\
    (forall x u, measured_by_now rd f1 x u -> u_view u = v -> u_key u = ky -> x ∈ X) /\
    wrap (zsum (flat_map (fun o => values (i_name (desc v)) ky o.1.1) os)) = wrap (zsum (map (number (f_sync f2)) X)).
Proof.
  intros R1 R2 A T CALM TY CL RS1 RS2 DN RB KD VD NE.
  destruct (delta_points _ _ l1 f1 t l2 f2 m e v ky R1 R2 A T CALM TY CL RS1 RS2 DN (values_read H) RB VD NE) as (os & out & sup & I & J & SE & ND & IN & CO & HI & HJ & E).
  exists os, (flat_map out I ++ flat_map sup J). split_and!; try done. set (st := f_sync f2) in *.
  rewrite map_app, zsum_app, <- wrap_add.
  assert (EJ : wrap (zsum (map (number st) (flat_map sup J))) = 0).
  { rewrite <- (sum_parts st sup (s_drop st) J).
    - assert (Z0 : forall j, j ∈ J -> (fun i => match s_drop st !! i with Some p => [a_sum (p_agg p)] | None => [] end) j = [0]).
      { intros j Hj. destruct (HJ j Hj) as (p & Hp & _ & CH). cbn beta. rewrite Hp. rewrite KD in CH. cbn in CH.
        apply negb_false_iff, Z.eqb_eq in CH. by rewrite CH. }
      rewrite (flat_map_ext_in _ (fun _ => [0]) J Z0). clear. induction J as [|j J IH]; [done|]. cbn [flat_map]. rewrite zsum_app. cbn. exact IH.
    - intros j Hj. destruct (HJ j Hj) as (p & Hp & (S & _) & _). by exists p. }
  rewrite EJ, Z.add_0_r. rewrite (wrap_id (wrap _)) by apply wrap_int64. rewrite <- (sum_parts st out (s_out st) I).
  - f_equal. f_equal. unfold values. rewrite E. apply flat_map_ext_in. intros i _. destruct (s_out st !! i); [|done]. unfold shown. by rewrite KD.
  - intros i Hi. destruct (HI i Hi) as (p & Hp & (S & _) & _). by exists p.
Qed.
Theorem delta_counts l1 f1 t l2 f2 m e v ky : frun rd (flow_init c) l1 = Some f1 -> frun rd f1 (FReader t :: l2) = Some f2 -> t = AFlush \/ t = AShut ->
  rd_threads (f_reader f2) !! length (rd_threads (f_reader f1)) = Some (CReturned m e) -> calm (calls_made rd (l1 ++ FReader t :: l2)) ->
  typed_calls (calls_made rd (l1 ++ FReader t :: l2)) -> (forall n, times_ok (clock n)) -> a_set (rs res) -> with_types (rs res) ->
  distinct_names rd -> read_by c rd v -> kinds v = KMMSC -> vdelta c v = true -> no_empty_slices ky ->
  exists os X, sent H rs true clock answer rd f2 = Some os /\ NoDup X /\ (forall x, x ∈ X -> in_series (c:=c) (f_sync f2) v ky x) /\
    (forall x u, measured_by_now rd f1 x u -> u_view u = v -> u_key u = ky -> x ∈ X) /\
    zsum (flat_map (fun o => counts (i_name (desc v)) ky o.1.1) os) = Z.of_nat (length X).
Proof.
  intros R1 R2 A T CALM TY CL RS1 RS2 DN RB KD VD NE.
  destruct (delta_points _ _ l1 f1 t l2 f2 m e v ky R1 R2 A T CALM TY CL RS1 RS2 DN (counts_read H) RB VD NE) as (os & out & sup & I & J & SE & ND & IN & CO & HI & HJ & E).
  exists os, (flat_map out I ++ flat_map sup J). split_and!; try done. unfold counts. rewrite E.
  assert (EJ : flat_map sup J = []).
  { rewrite (flat_map_ext_in _ (fun _ => []) J); [clear; by induction J|]. intros j Hj. destruct (HJ j Hj) as (p & _ & (_ & S & _) & CH). rewrite KD in CH. cbn in CH.
    apply negb_false_iff, Z.eqb_eq in CH. rewrite CH in S. by destruct (sup j). }
  rewrite EJ, app_nil_r. clear -HI KD. induction I as [|i I IH]; [done|]. cbn [flat_map]. rewrite zsum_app, app_length, Nat2Z.inj_add, IH by (intros j Hj; apply HI; by right).
  f_equal. destruct (HI i ltac:(left)) as (p & Hp & (_ & S & _) & _). rewrite Hp. unfold counted. rewrite KD. cbn. change (num Int64) with Z in *. lia.
Qed.

Theorem delta_gauges l1 f1 t l2 f2 m e v ky : frun rd (flow_init c) l1 = Some f1 -> frun rd f1 (FReader t :: l2) = Some f2 -> t = AFlush \/ t = AShut ->
  rd_threads (f_reader f2) !! length (rd_threads (f_reader f1)) = Some (CReturned m e) -> calm (calls_made rd (l1 ++ FReader t :: l2)) ->
  typed_calls (calls_made rd (l1 ++ FReader t :: l2)) -> (forall n, times_ok (clock n)) -> a_set (rs res) -> with_types (rs res) ->
  distinct_names rd -> read_by c rd v -> kinds v = KGauge -> vdelta c v = true -> no_empty_slices ky ->
  exists os Y, sent H rs true clock answer rd f2 = Some os /\ NoDup Y /\ (forall y, y ∈ Y -> in_series (c:=c) (f_sync f2) v ky y) /\
    (forall x u, measured_by_now rd f1 x u -> u_view u = v -> u_key u = ky -> exists y, y ∈ Y /\ (x <= y)%nat) /\
    flat_map (fun o => values (i_name (desc v)) ky o.1.1) os = map (fun y => wrap (number (f_sync f2) y)) Y.
Proof.
  intros R1 R2 A T CALM TY CL RS1 RS2 DN RB KD VD NE.
  destruct (delta_points _ _ l1 f1 t l2 f2 m e v ky R1 R2 A T CALM TY CL RS1 RS2 DN (values_read H) RB VD NE) as (os & out & sup & I & J & SE & ND & IN & CO & HI & HJ & E).
  assert (EJ : flat_map sup J = []).
  { rewrite (flat_map_ext_in _ (fun _ => []) J); [clear; by induction J|]. intros j Hj. destruct (HJ j Hj) as (p & _ & (_ & _ & S) & CH). rewrite KD in CH. cbn in CH.
    destruct (sup j) as [|x l] eqn:SJ; [done|]. destruct (S ltac:(done)) as (_ & _ & y & _ & _ & L). by rewrite L in CH. }
  rewrite EJ, app_nil_r in *.
  assert (G : exists Y, NoDup Y /\ (forall y, y ∈ Y -> y ∈ flat_map out I) /\ (forall x, x ∈ flat_map out I -> exists y, y ∈ Y /\ (x <= y)%nat) /\
    flat_map (fun i => match s_out (f_sync f2) !! i with Some p => shown v (p_agg p) | None => [] end) I = map (fun y => wrap (number (f_sync f2) y)) Y).
  { clear -ND HI KD. induction I as [|i I IH]; [exists []; split_and!; [constructor|done|intros x Hx; by apply elem_of_nil in Hx|done]|]. cbn [flat_map] in *.
    apply list.NoDup_app in ND as (N1 & N2 & N3). destruct IH as (Y & Y1 & Y2 & Y3 & Y4); [done|intros j Hj; apply HI; by right|].
    destruct (HI i ltac:(left)) as (p & Hp & (_ & _ & S) & NEi). destruct (S NEi) as (_ & _ & y & Hy & LA & L). exists (y :: Y). split_and!.
    - constructor; [|done]. intros X. exact (N2 y Hy (Y2 y X)).
    - intros z Hz. apply elem_of_app. apply elem_of_cons in Hz as [->|Hz]; [by left|right; by apply Y2].
    - intros x Hx. apply elem_of_app in Hx as [Hx|Hx]; [exists y; split; [left|by apply LA]|]. destruct (Y3 x Hx) as (z & Hz & Lz). exists z. split; [by right|done].
    - rewrite Hp. cbn [map]. rewrite Y4. unfold shown. by rewrite KD, L. }
  destruct G as (Y & Y1 & Y2 & Y3 & Y4). exists os, Y. split_and!; [done|done|intros y Hy; by apply IN, Y2|intros x u M V K; by apply Y3, (CO x u)|].
  unfold values. by rewrite E.
Qed.

(** ** Cumulative sums and gauges *)
Lemma filter_one {X Y} (f : X -> Y) (g : X -> bool) (l : list X) p : NoDup (map f l) -> p ∈ l -> (forall q, g q = true <-> f q = f p) -> List.filter g l = [p].
Proof.
  intros N IN E. induction l as [|x l IH]; [by apply elem_of_nil in IN|]. cbn [map] in N. apply list.NoDup_cons in N as [N1 N2]. cbn [List.filter].
  apply elem_of_cons in IN as [->|IN].
  - rewrite (proj2 (E x) eq_refl). f_equal. assert (Z : forall q, q ∈ l -> g q = false).
    { intros q Hq. apply not_true_iff_false. rewrite E. intros Eq. apply N1. rewrite <- Eq. change (map f l) with (f <$> l). by apply elem_of_list_fmap_1. }
    clear -Z. induction l as [|q l IH]; [done|]. cbn. rewrite (Z q) by left. apply IH. intros r Hr. apply Z. by right.
  - destruct (g x) eqn:G; [|by apply IH]. exfalso. apply E in G. apply N1. rewrite G. change (map f l) with (f <$> l). by apply elem_of_list_fmap_1.
Qed.

Theorem cumulative_points g sh l1 f1 t l2 f2 m e : frun rd (flow_init c) l1 = Some f1 -> frun rd f1 (FReader t :: l2) = Some f2 -> t = AFlush \/ t = AShut ->
  rd_threads (f_reader f2) !! length (rd_threads (f_reader f1)) = Some (CReturned m e) -> calm (calls_made rd (l1 ++ FReader t :: l2)) ->
  typed_calls (calls_made rd (l1 ++ FReader t :: l2)) -> (forall n, times_ok (clock n)) -> a_set (rs res) -> with_types (rs res) -> distinct_names rd -> reads H g sh ->
  exists os n s o, sent H rs true clock answer rd f2 = Some os /\ exported f2 n s /\ s_t s = length (rd_threads (f_reader f1)) /\ s_err s = e /\ os !! n = Some o /\
    forall v ky, read_by c rd v -> vdelta c v = false -> no_empty_slices ky ->
    (exists x u, measured_by_now rd f1 x u /\ u_view u = v /\ u_key u = ky) ->
    exists X p, NoDup X /\ X <> [] /\ (forall x, x ∈ X -> in_series (c:=c) (f_sync f2) v ky x) /\
      (forall x u, measured_by_now rd f1 x u -> u_view u = v -> u_key u = ky -> x ∈ X) /\
      shows farm kinds keys views insts periods ilimit ignore (f_sync f2) p X /\ in_request g (i_name (desc v)) ky o.1.1 = sh v (p_agg p).
Proof.
  intros R1 R2 A T CALM TY CL RS1 RS2 DN RD.
  assert (R : frun rd (flow_init c) (l1 ++ FReader t :: l2) = Some f2) by (by rewrite frun_app, R1).
  destruct (sent_says _ _ R TY CL RS1 RS2) as (os & SE & SF).
  destruct (FlowProps.C57_delivered c rd l1 f1 t l2 f2 m e R1 R2 A T CALM) as (_ & out & sup & pend & n & s & AC & EX & ST & _ & SR & DEL).
  pose proof (exported_called _ _ _ EX) as CN. pose proof CN as CN'. rewrite (calls_numbered _ _ R) in CN'. apply elem_of_list_In, in_seq in CN' as [_ CN'].
  assert (LN : exporter_calls f2 !! n = Some n) by (rewrite (calls_numbered _ _ R); by apply list_numbers.lookup_seq_lt).
  destruct (Forall2_lookup_l _ _ _ _ _ SF LN) as (o & Ho & SO). exists os, n, s, o. split_and!; try done.
  intros v ky RB VD NE (x0 & u0 & M0 & V0 & K0).
  assert (D : forall x u, measured_by_now rd f1 x u -> u_view u = v -> u_key u = ky ->
    exists i p, s_out (f_sync f2) !! i = Some p /\ x ∈ out i /\ p_tid p = collection f2 n /\ p_view p = v /\ p_key p = ky).
  { intros x u M V K. pose proof (DEL x u M) as D. rewrite V, VD in D. destruct D as (i & p & Hp & Xi & Mn). exists i, p.
    assert (U : s_log (f_sync f2) !! x = Some u) by (destruct M as (U & _); exact (log_kept _ _ _ _ _ _ R1 R2 U)).
    destruct (acc_out _ _ _ _ AC i p Hp) as (_ & IS & _). destruct (IS x Xi) as (u' & U' & V' & K'). rewrite U in U'. injection U' as <-.
    rewrite (called_made _ _ _ R CN) in Mn. split_and!; congruence. }
  destruct (D x0 u0 M0 V0 K0) as (i & p & Hp & X0 & P1 & P2 & P3).
  destruct (frun_parts _ _ _ _ R) as [PR _]. cbn [f_sync flow_init] in PR. pose proof (out_unique _ _ PR) as OU.
  pose proof (acc_out _ _ _ _ AC i p Hp) as MO. destruct (MO) as (ND & IS & _). rewrite P2, P3 in IS.
  exists (out i), p. split_and!; [done|by intros E0; rewrite E0 in X0; apply elem_of_nil in X0|done| |by apply made_shows|].
  - intros x u M V K. destruct (D x u M V K) as (j & q & Hq & Xj & Q1 & Q2 & Q3). assert (i = j) as <-; [|done].
    eapply NoDup_lookup; [exact OU| |]; rewrite list_lookup_fmap; [rewrite Hp|rewrite Hq]; cbn; [done|]. by rewrite Q1, Q2, Q3, P1, P2, P3.
  - rewrite (request_values _ _ _ _ _ _ _ _ _ _ _ _ RD NE DN RB SO).
    rewrite (filter_one (fun p : SyncModel.point c => (p_tid p, p_view p, p_key p)) _ _ p OU); [cbn; by rewrite app_nil_r|by eapply elem_of_list_lookup_2|].
    intros q. rewrite is_point_spec, P1, P2, P3. split; [intros (-> & -> & ->); done|intros E; by injection E].
Qed.
End sent.
