(** Proofs for C70. *)
From Coq Require Import ZArith Bool String Lia.
From stdpp Require Import base list list_numbers option strings.
From Verif Require Import Per PerSpec PerProofs PerProps Base Flow FlowProofs SyncModel Num Agg AggSpec AggProofs Attr AttrSpec AttrProofs AggSync View Data Exp ExpSpec ExpProofs ExpProps SentSpec SentProofs ShapeSpec
  Async AsyncSpec AsyncHist Conc ConcSpec ConcInv ConcKeys ConcProps Deliv DelivSpec DelivProofs DelivProps Seen SeenSpec.
Local Open Scope Z_scope.
Notation values := SentSpec.values.
Notation label := Conc.label.
Notation reached := ConcSpec.reached.
Notation data_of := DelivSpec.data_of.

(** ** Keys *)
Lemma canon_sorted_set s : sorted s -> sorted (canon s).
Proof.
  induction s as [|a s IH]; [done|]. intros [S1 S2]. change (canon (a :: s)) with ((a.1, canon_value a.2) :: canon s). split; [|by apply IH].
  intros b Hb. unfold canon in Hb. apply elem_of_list_fmap in Hb as (d & -> & Hd). cbn. by apply S1.
Qed.
Lemma truncate_types n l : with_types l -> with_types (truncate n l).
Proof.
  destruct n; [done|]. intros F. apply list.Forall_forall. intros a Ha. cbn [truncate] in Ha. change (map ?f ?l) with (f <$> l) in Ha.
  apply elem_of_list_fmap in Ha as (b & -> & Hb). pose proof (proj1 (list.Forall_forall _ _) F b Hb) as N. cbn in *. by destruct b as [kb []].
Qed.
Definition typed_set (k : list kv) : Prop := sorted k /\ with_types k.
Lemma obs_typed c l : with_types l -> typed_set (obs_set c l).
Proof.
  intros W. split; [apply canon_sorted_set, new_set_sorted|]. by apply canon_types, new_set_types, truncate_types, new_set_types.
Qed.
Lemma view_typed w k : typed_set k -> key_ok (view_key w k).
Proof.
  intros [S W]. split; [apply sorted_set, canon_sorted_set; by apply apply_filter_sorted|by apply canon_types, filter_types].
Qed.
Lemma overflow_typed : key_ok overflow_set.
Proof. split; [apply sorted_set, new_set_sorted|]. apply new_set_types. repeat constructor; done. Qed.

Section seen.
Context (c : acfg) (vr : nat -> nat) (decl : list (list nat)) (desc : nat -> descriptor) (mono : nat -> bool) (lib : scope) (res : string).
Notation seen_data := (seen_data c desc mono lib res).
Notation seen_instr := (seen_instr c desc mono).
Notation seen_point := (seen_point mono).
Notation seen := (seen c desc mono lib res).

Definition fam_at (v : nat) (w : aview) : fam := if av_gauge w then FGauge IntKind else FSum (mono v) IntKind.
Lemma storage_fam v w x : dyn (seen_storage w (mono v) x) = fam_at v w.
Proof. unfold seen_storage, fam_at. by destruct (av_gauge w). Qed.
Definition out_ok (k : coll Int64) : Prop := forall o, o ∈ k_out k -> is_Some (a_views c !! o.1) /\ vr o.1 = k_reader k /\ forall e, e ∈ o.2 -> key_ok e.1.
Lemma out_fits rd l (f : sys Int64) q k : drun c vr decl rd (sys_init c) l = Some f -> typed_observations (conc_steps rd l) ->
  s_colls (d_conc f) !! q = Some k -> out_ok k.
Proof.
  intros R T K o Ho. pose proof (reached_conc _ _ _ _ _ _ R) as RC.
  pose proof (kinv_reached c vr decl typed_set key_ok _ _ overflow_typed view_typed (fun j x n l H => obs_typed c l (T j x n l H)) RC) as I.
  destruct (ki_out _ _ _ _ _ I q k o K Ho) as [A B]. unfold collectors in A. apply elem_of_list_In, filter_In in A as [A1 A2].
  apply in_seq in A1. apply Nat.eqb_eq in A2. split; [|done]. apply lookup_lt_is_Some_2. lia.
Qed.
Lemma seen_fits H useexp k sq : out_ok k -> times_ok sq -> data_ok H useexp (seen_data k sq).
Proof.
  intros O (T1 & T2 & T3) sc i Hs Hi. cbn in Hs. apply elem_of_list_singleton in Hs as ->. cbn in Hi.
  change (map ?f ?l) with (f <$> l) in Hi. apply elem_of_list_fmap in Hi as ([v ps] & -> & Ho). destruct (O _ Ho) as ([w W] & _ & KO). cbn [fst snd] in W, KO. unfold Seen.seen_instr. cbn [fst snd in_points vis]. rewrite W.
  cbn [in_points vis]. split.
  - exists (fam_at v w), (if stateful w then DeltaTempo else CumulativeTempo). split; [destruct (stateful w); auto|].
    intros p Hp. change (map ?f ?l) with (f <$> l) in Hp. apply elem_of_list_fmap in Hp as (e & -> & He). cbn. split; [f_equal; apply storage_fam|done].
  - intros p Hp. change (map ?f ?l) with (f <$> l) in Hp. apply elem_of_list_fmap in Hp as (e & -> & He). split.
    + destruct (KO e He) as [K1 K2]. split_and!; cbn; try done; [by destruct (stateful w)|]. eexists. split; [done|]. unfold seen_storage. destruct (av_gauge w); apply wrap_int64.
    + intros _ n mx ll E. cbn in E. exfalso. unfold seen_storage in E. by destruct (av_gauge w).
Qed.

(** ** The numbers of a request *)
Lemma values_seen H sq v w ky (l : list (list kv * Z)) d : no_empty_slices ky -> data_says H true (fam_at v w) (map (seen_point v w sq) l) d ->
  under ky (values_of d) = map wrap (at_key (N:=Int64) ky l).
Proof.
  intros N. unfold fam_at, data_says. destruct (av_gauge w) eqn:K.
  - intros (q & -> & F). cbn [values_of]. revert q F. induction l as [|p l IH]; intros q F; inversion F as [|? y ? q' S F' E]; subst; [done|].
    cbn [flat_map]. rewrite under_app, (IH _ F'). destruct S as (A & _ & _ & z & sq' & Z1 & Z2). cbn in A, Z1. unfold seen_storage in Z1. rewrite K in Z1. injection Z1 as <- <-.
    rewrite decide_False in Z2 by lia. cbn in Z2. destruct (pn_value y); [|done]. subst. unfold under, at_key. cbn. rewrite (attrs_say_key ky _ _ N A). by case_bool_decide.
  - intros (t & q & -> & F). cbn [values_of]. revert q F. induction l as [|p l IH]; intros q F; inversion F as [|? y ? q' S F' E]; subst; [done|].
    cbn [flat_map]. rewrite under_app, (IH _ F'). destruct S as (A & _ & _ & _ & z & Z1 & Z2). cbn in A, Z1. unfold seen_storage in Z1. rewrite K in Z1. injection Z1 as <-.
    cbn in Z2. destruct (pn_value y); [|done]. subst. unfold under, at_key. cbn. rewrite (attrs_say_key ky _ _ N A). by case_bool_decide.
Qed.
Lemma numbers_seen H sq v w (l : list (list kv * Z)) d : data_says H true (fam_at v w) (map (seen_point v w sq) l) d ->
  map snd (values_of d) = map (fun e => wrap e.2) l.
Proof.
  unfold fam_at, data_says. destruct (av_gauge w) eqn:K.
  - intros (q & -> & F). cbn [values_of]. revert q F. induction l as [|p l IH]; intros q F; inversion F as [|? y ? q' S F' E]; subst; [done|].
    cbn [flat_map map]. rewrite map_app, (IH _ F'). destruct S as (A & _ & _ & z & sq' & Z1 & Z2). cbn in A, Z1. unfold seen_storage in Z1. rewrite K in Z1. injection Z1 as <- <-.
    rewrite decide_False in Z2 by lia. cbn in Z2. destruct (pn_value y); [|done]. by subst.
  - intros (t & q & -> & F). cbn [values_of]. revert q F. induction l as [|p l IH]; intros q F; inversion F as [|? y ? q' S F' E]; subst; [done|].
    cbn [flat_map map]. rewrite map_app, (IH _ F'). destruct S as (A & _ & _ & _ & z & Z1 & Z2). cbn in A, Z1. unfold seen_storage in Z1. rewrite K in Z1. injection Z1 as <-.
    cbn in Z2. destruct (pn_value y); [|done]. by subst.
Qed.
(** [g] reads, of the data of a metric, what [h] says of the points. *)
Definition reads_points (H : hlib) (g : pdata -> list Z) (h : list (list kv * Z) -> list Z) : Prop :=
  h [] = [] /\ forall sq v w l d, data_says H true (fam_at v w) (map (seen_point v w sq) l) d -> g d = h l.
Lemma metrics_seen H g h name sq (os : list (nat * list (list kv * Z))) ms : reads_points H g h -> (forall o, o ∈ os -> is_Some (a_views c !! o.1)) ->
  Forall2 (metric_says H true) (List.filter has_points (map (seen_instr sq) os)) ms ->
  flat_map (fun m => if String.eqb (pm_name m) name then g (pm_data m) else []) ms =
  flat_map (fun o => if String.eqb (i_name (desc o.1)) name then h o.2 else []) os.
Proof.
  intros [H0 RD] IS. revert ms. induction os as [|o os IH]; intros ms F; [inversion F; done|].
  destruct (IS o ltac:(left)) as [w W]. specialize (IH (fun o' Ho => IS o' ltac:(by right))).
  cbn [map List.filter] in F. unfold has_points at 1 in F. unfold Seen.seen_instr at 1 2 in F. rewrite W in F. cbn [in_points vis] in F.
  destruct o as [v [|e l]]; cbn [fst snd map] in *.
  - cbn [flat_map]. rewrite (IH _ F). cbn. rewrite H0. by destruct (String.eqb _ _).
  - inversion F as [|? m ? ms' (M1 & _ & _ & fm & M2 & M3) F' E1]; subst. cbn [flat_map]. rewrite (IH _ F'). f_equal. cbn [in_desc in_points vis fst snd] in *.
    rewrite M1. destruct (String.eqb _ _); [|done].
    assert (fm = fam_at v w) as ->.
    { specialize (M2 (seen_point v w sq e) ltac:(left)). cbn in M2. injection M2 as <-. apply storage_fam. }
    by apply (RD sq v w (e :: l)).
Qed.
Lemma request_seen H rs g h k sq ans v pts o : reads_points H g h -> distinct_streams c vr desc (k_reader k) -> out_ok k -> (v < length (a_views c))%nat -> vr v = k_reader k ->
  reports k v = [pts] -> export_says H rs true (seen_data k sq, ans) o ->
  flat_map (fun s => flat_map (fun m => if String.eqb (pm_name m) (i_name (desc v)) then g (pm_data m) else []) (ps_metrics s)) (px_scopes o.1.1) = h pts.
Proof.
  intros RD D O V VR RP. destruct o as [[x ts] e]. intros (_ & F & _). cbn [fst]. cbn [Seen.seen_data mt_scopes vis] in F.
  inversion F as [|? ps ? pss (_ & _ & _ & M) F' E E2]; subst. inversion F'; subst. cbn [flat_map]. rewrite app_nil_r.
  cbn [os_insts vis] in M. rewrite (metrics_seen H g h _ sq _ _ RD (fun o Ho => proj1 (O o Ho)) M).
  assert (A : flat_map (fun o => if String.eqb (i_name (desc o.1)) (i_name (desc v)) then h o.2 else []) (k_out k) = flat_map h (reports k v)).
  { unfold reports. assert (O' : forall o, o ∈ k_out k -> (o.1 < length (a_views c))%nat /\ vr o.1 = k_reader k).
    { intros o Ho. destruct (O o Ho) as ([w W] & X & _). apply lookup_lt_Some in W. done. }
    clear -O' D V VR. induction (k_out k) as [|[v' ps] os IH]; [done|]. cbn [flat_map List.filter fst snd]. rewrite IH by (intros o' Ho'; apply O'; by right).
    destruct (O' (v', ps) ltac:(left)) as [L1 L2]. cbn [fst] in L1, L2. destruct (Nat.eqb_spec v' v) as [<-|NE].
    - by rewrite String.eqb_refl.
    - destruct (String.eqb_spec (i_name (desc v')) (i_name (desc v))) as [E|_]; [|done]. exfalso. apply NE. by apply D. }
  rewrite A, RP. cbn. by rewrite app_nil_r.
Qed.
Lemma values_reads H ky : no_empty_slices ky -> reads_points H (fun d => under ky (values_of d)) (fun l => map wrap (at_key (N:=Int64) ky l)).
Proof. intros N. split; [done|]. intros sq v w l d. by apply values_seen. Qed.
Lemma numbers_reads H : reads_points H (fun d => map snd (values_of d)) (map (fun e => wrap e.2)).
Proof. split; [done|]. intros sq v w l d. by apply numbers_seen. Qed.

(** ** Types and times *)
Notation kind_at w := (if av_gauge w then KGauge else KSum).
Lemma points_seen H v w sq (l : list (list kv * Z)) d : l <> [] -> data_says H true (fam_at v w) (map (seen_point v w sq) l) d ->
  right_type (kind_at w) (mono v) (stateful w) d /\ length (points_of d) = length l /\ Forall (right_times (kind_at w) (stateful w) sq) (points_of d).
Proof.
  intros NE. unfold fam_at, data_says. change (map ?f ?l) with (f <$> l). destruct (av_gauge w) eqn:K.
  - intros (q & -> & F). rewrite Forall2_fmap_l in F. split; [done|]. cbn [points_of]. rewrite map_length. split; [symmetry; by eapply Forall2_length|].
    apply list.Forall_forall. intros p Hp. change (map ?f ?l) with (f <$> l) in Hp. apply elem_of_list_fmap in Hp as (y & -> & Hy). apply elem_of_list_lookup in Hy as (i & Hi).
    destruct (Forall2_lookup_r _ _ _ _ _ F Hi) as (e & _ & (_ & B & C & _)). cbn in *. by split.
  - intros (t & q & -> & F). rewrite Forall2_fmap_l in F. split.
    + split; [done|]. destruct F as [|e y ? ? S F]; [done|]. destruct S as (_ & _ & _ & T & _). cbn in T. by destruct (stateful w), t.
    + cbn [points_of]. rewrite map_length. split; [symmetry; by eapply Forall2_length|].
      apply list.Forall_forall. intros p Hp. change (map ?f ?l) with (f <$> l) in Hp. apply elem_of_list_fmap in Hp as (y & -> & Hy). apply elem_of_list_lookup in Hy as (i & Hi).
      destruct (Forall2_lookup_r _ _ _ _ _ F Hi) as (e & _ & (_ & B & C & _)). cbn in *. by split.
Qed.
Definition metric_for (sq : sequence) (v : nat) (w : aview) (m : pmetric) : Prop :=
  pm_name m = i_name (desc v) /\ pm_unit m = i_unit (desc v) /\ pm_desc m = i_desc (desc v) /\
  right_type (kind_at w) (mono v) (stateful w) (pm_data m) /\ points_of (pm_data m) <> [] /\ Forall (right_times (kind_at w) (stateful w) sq) (points_of (pm_data m)).
Lemma metrics_shape H sq (os : list (nat * list (list kv * Z))) ms : (forall o, o ∈ os -> is_Some (a_views c !! o.1)) ->
  Forall2 (metric_says H true) (List.filter has_points (map (seen_instr sq) os)) ms ->
  (forall m, m ∈ ms -> exists o w, o ∈ os /\ a_views c !! o.1 = Some w /\ metric_for sq o.1 w m) /\
  foldr Nat.add 0%nat (map (fun i => length (vis (in_points i))) (map (seen_instr sq) os)) = length (flat_map (fun m => points_of (pm_data m)) ms).
Proof.
  intros IS. revert ms. induction os as [|o os IH]; intros ms F; [inversion F; split; [intros m Hm; by apply elem_of_nil in Hm|done]|].
  destruct (IS o ltac:(left)) as [w W]. specialize (IH (fun o' Ho => IS o' ltac:(by right))). cbn [map foldr].
  cbn [map List.filter] in F. unfold has_points at 1 in F. unfold Seen.seen_instr at 1 2 in F. unfold Seen.seen_instr at 1. rewrite W in F |- *. cbn [in_points vis] in F |- *.
  destruct o as [v [|e l]]; cbn [fst snd map] in *.
  - destruct (IH _ F) as [A B]. split; [|exact B]. intros m Hm. destruct (A m Hm) as (o & w' & Ho & X). exists o, w'. split; [by right|done].
  - inversion F as [|? m ? ms' (M1 & M1' & M1'' & fm & M2 & M3) F' E1]; subst. destruct (IH _ F') as [A B]. cbn [in_desc in_points vis fst snd] in *.
    assert (fm = fam_at v w) as ->.
    { specialize (M2 (seen_point v w sq e) ltac:(left)). cbn in M2. injection M2 as <-. apply storage_fam. }
    destruct (points_seen H v w sq (e :: l) _ ltac:(done) M3) as (P1 & P2 & P3). split.
    + intros m' Hm. apply elem_of_cons in Hm as [->|Hm].
      * exists (v, e :: l), w. split; [left|]. split; [done|]. unfold metric_for. cbn [fst]. split_and!; try done. intros X. by rewrite X in P2.
      * destruct (A m' Hm) as (o & w' & Ho & X). exists o, w'. split; [by right|done].
    + cbn [flat_map]. rewrite app_length, <- B, P2. cbn. by rewrite map_length.
Qed.

(** ** The requests of a reader *)
Context (H : hlib) (rs : string -> list kv) (clock : nat -> sequence) (answer : nat -> pmetrics -> option error) (rd : nat).
Lemma seen_says l (f : sys Int64) : drun c vr decl rd (sys_init c) l = Some f -> typed_observations (conc_steps rd l) -> (forall n, times_ok (clock n)) ->
  a_set (rs res) -> with_types (rs res) ->
  exists os, seen H rs clock answer f = Some os /\
    Forall2 (fun n o => exists q k, data_of f n q k /\ k_reader k = rd /\ out_ok k /\ export_says H rs true (seen_data k (clock n), answer n) o) (given_in_order f) os.
Proof.
  intros R T C R1 R2. destruct (C67_once _ _ _ _ _ _ _ R) as (_ & _ & G). unfold Seen.seen.
  destruct (C35_history H rs true (map (fun n => (seen_data (coll_of f n) (clock n), answer n)) (given_in_order f))) as (os & E & F).
  - apply list.Forall_forall. intros i Hi. change (map ?g ?l) with (g <$> l) in Hi. apply elem_of_list_fmap in Hi as (n & -> & Hn). cbn [fst]. split; [|done].
    destruct (G n Hn) as (q & k & [M K] & _). apply seen_fits; [|done]. unfold coll_of. rewrite M. cbn. rewrite K. cbn. by eapply out_fits.
  - exists os. split; [done|]. change (map ?g ?l) with (g <$> l) in F. rewrite Forall2_fmap_l in F. apply Forall2_lookup. intros i. pose proof (proj1 (Forall2_lookup _ _ _) F i) as Fi.
    destruct (given_in_order f !! i) as [n|] eqn:N; inversion Fi as [? o X EQ|]; subst; constructor. apply elem_of_list_lookup_2 in N. destruct (G n N) as (q & k & [M K] & Rk & _).
    exists q, k. split; [done|]. split; [done|]. split; [by eapply out_fits|]. unfold coll_of in X. cbn in X. rewrite M in X. cbn in X. by rewrite K in X.
Qed.
Lemma given_call (f : sys Int64) n s : given f n s -> n ∈ given_in_order f.
Proof.
  intros (ss & rest & (X & _ & _) & IN & <-). unfold given_in_order. apply elem_of_list_omap. exists (ECall (s_t s) (s_method s) (s_n s)). split; [|done].
  assert (Y : ECall (s_t s) (s_method s) (s_n s) ∈ PerSpec.exports (rd_log (d_reader f))).
  { rewrite X. apply elem_of_app. left. apply elem_of_list_In, in_concat. exists (events s). split; [by apply in_map, elem_of_list_In|]. cbn. auto. }
  unfold PerSpec.exports in Y. by apply elem_of_list_In, filter_In in Y as [Y%elem_of_list_In _].
Qed.
(** Request number n is that of production n. *)
Lemma request_of l (f : sys Int64) os n o : drun c vr decl rd (sys_init c) l = Some f ->
  Forall2 (fun n o => exists q k, data_of f n q k /\ k_reader k = rd /\ out_ok k /\ export_says H rs true (seen_data k (clock n), answer n) o) (given_in_order f) os ->
  os !! n = Some o -> exists q k, data_of f n q k /\ k_reader k = rd /\ out_ok k /\ export_says H rs true (seen_data k (clock n), answer n) o.
Proof.
  intros R F O. destruct (Forall2_lookup_r _ _ _ _ _ F O) as (n' & N & X). destruct (C67_once _ _ _ _ _ _ _ R) as (E & _). rewrite E in N.
  apply lookup_seq in N as [-> _]. done.
Qed.
End seen.

(** ** Sums *)
Lemma at_key_in (l : list (list kv * Z)) ky x : x ∈ at_key (N:=Int64) ky l <-> (ky, x) ∈ l.
Proof.
  unfold at_key. change (map ?f ?l) with (f <$> l). rewrite elem_of_list_fmap. split.
  - intros ([k y] & E & X). apply elem_of_list_In, filter_In in X as [X B]. apply bool_decide_eq_true in B. cbn in *. subst. by apply elem_of_list_In.
  - intros X. exists (ky, x). split; [done|]. apply elem_of_list_In, filter_In. split; [by apply elem_of_list_In|]. by apply bool_decide_eq_true.
Qed.
Lemma at_key_empty (l : list (list kv * Z)) ky : ky ∉ map fst l <-> at_key (N:=Int64) ky l = [].
Proof.
  split.
  - intros X. destruct (at_key (N:=Int64) ky l) as [|x r] eqn:E; [done|]. exfalso. apply X. change (map ?f ?l) with (f <$> l). apply elem_of_list_fmap.
    exists (ky, x). split; [done|]. apply at_key_in. rewrite E. left.
  - intros E X. change (map ?f ?l) with (f <$> l) in X. apply elem_of_list_fmap in X as ([k x] & EK & X). cbn in EK. subst ky. apply at_key_in in X. rewrite E in X. by apply elem_of_nil in X.
Qed.
Lemma at_key_one (l : list (list kv * Z)) ky x : NoDup (map fst l) -> (ky, x) ∈ l -> at_key (N:=Int64) ky l = [x].
Proof.
  induction l as [|[k y] l IH]; intros ND X; [by apply elem_of_nil in X|]. cbn [map fst] in ND. apply list.NoDup_cons in ND as [N1 N2].
  unfold at_key. cbn [List.filter fst]. apply elem_of_cons in X as [E|X].
  - injection E as <- <-. rewrite bool_decide_true by done. cbn [map snd]. f_equal. by apply at_key_empty.
  - rewrite bool_decide_false; [by apply IH|]. intros ->. apply N1. change (map ?f ?l) with (f <$> l). apply elem_of_list_fmap. by exists (ky, x).
Qed.
(** One number for each series. *)
Lemma one_number_of w (ins pts : list (list kv * Z)) ky : shows (N:=Int64) w ins pts -> (distinct (N:=Int64) ins < av_limit w)%nat ->
  one_number (av_gauge w) (at_key (N:=Int64) ky ins) (map wrap (at_key (N:=Int64) ky pts)).
Proof.
  intros [S _] L. destruct (S L) as (ND & EQ & V). unfold one_number. destruct (at_key (N:=Int64) ky ins) as [|y r] eqn:E.
  - apply at_key_empty in E. assert (X : ky ∉ map fst pts) by (by rewrite EQ). apply at_key_empty in X. by rewrite X.
  - assert (X : ky ∈ map fst pts).
    { apply EQ. destruct (decide (ky ∈ map fst ins)) as [?|X]; [done|]. apply at_key_empty in X. congruence. }
    change (map ?f ?l) with (f <$> l) in X. apply elem_of_list_fmap in X as ([k x] & EK & X). cbn [fst] in EK. subst ky. rewrite (at_key_one _ _ _ ND X). specialize (V k x X). rewrite E in V.
    destruct (av_gauge w); [by exists x|]. cbn [map]. f_equal. by apply adds_cong.
Qed.
(** Also when there is no room, the numbers of a sum have the total of the inputs. *)
Lemma zsum_map_add {A} (f g : A -> Z) l : zsum (map (fun a => f a + g a) l) = zsum (map f l) + zsum (map g l).
Proof. induction l as [|a l IH]; [done|]. cbn. change (foldr Z.add 0 ?l) with (zsum l). rewrite IH. lia. Qed.
Lemma zsum_at ky x (ks : list (list kv)) : NoDup ks -> ky ∈ ks -> zsum (map (fun k => if bool_decide (ky = k) then x else 0) ks) = x.
Proof.
  assert (Z : forall ks, ky ∉ ks -> zsum (map (fun k => if bool_decide (ky = k) then x else 0) ks) = 0).
  { clear. induction ks as [|k ks IH]; intros NI; [done|]. cbn. change (foldr Z.add 0 ?l) with (zsum l). rewrite IH by (intros X; apply NI; by right).
    rewrite bool_decide_false; [done|]. intros ->. apply NI. left. }
  induction ks as [|k ks IH]; intros ND IN; [by apply elem_of_nil in IN|]. apply list.NoDup_cons in ND as [N1 N2]. cbn. change (foldr Z.add 0 ?l) with (zsum l).
  apply elem_of_cons in IN as [->|IN].
  - rewrite bool_decide_true, Z by done. lia.
  - rewrite bool_decide_false by congruence. rewrite IH by done. lia.
Qed.
Lemma zsum_parts (l : list (list kv * Z)) ks : NoDup ks -> (forall e, e ∈ l -> e.1 ∈ ks) -> zsum (map (fun k => zsum (at_key (N:=Int64) k l)) ks) = zsum (map snd l).
Proof.
  intros ND. induction l as [|[k x] l IH]; intros A.
  - cbn. clear. induction ks as [|k ks IH]; [done|]. cbn. exact IH.
  - cbn [map snd]. change (zsum (x :: map snd l)) with (x + zsum (map snd l)). rewrite <- IH by (intros e He; apply A; by right).
    trans (zsum (map (fun k' => if bool_decide (k = k') then x else 0) ks) + zsum (map (fun k' => zsum (at_key (N:=Int64) k' l)) ks)).
    + rewrite <- zsum_map_add. f_equal. apply map_ext. intros k'. unfold at_key. cbn [List.filter fst]. by case_bool_decide.
    + by rewrite (zsum_at k x ks ND (A (k, x) ltac:(left))).
Qed.
Lemma wrap_zsum_map {A} (f g : A -> Z) l : (forall a, a ∈ l -> wrap (f a) = wrap (g a)) -> wrap (zsum (map f l)) = wrap (zsum (map g l)).
Proof.
  induction l as [|a l IH]; intros E; [done|]. cbn. change (foldr Z.add 0 ?l) with (zsum l). rewrite <- wrap_add, (E a ltac:(left)), IH by (intros b Hb; apply E; by right).
  by rewrite wrap_add.
Qed.
Lemma total_of w (ins pts : list (list kv * Z)) : shows (N:=Int64) w ins pts -> av_gauge w = false ->
  wrap (zsum (map (fun e => wrap e.2) pts)) = wrap (zsum (map snd ins)).
Proof.
  intros [_ (place & _ & _ & ND & EQ & V)] G. rewrite G in V. cbn zeta in V.
  set (ins' := map (fun p => (place p.1, p.2)) ins) in *. assert (E : map snd ins = map snd ins') by (unfold ins'; rewrite map_map; by apply map_ext).
  rewrite E, <- (zsum_parts ins' (map fst pts) ND).
  - rewrite map_map. apply wrap_zsum_map. intros [k x] He. rewrite wrap_wrap. cbn [fst snd]. apply adds_cong. by apply V.
  - intros e He. apply EQ. unfold ins' in He. change (map ?f ?l) with (f <$> l) in He. apply elem_of_list_fmap in He as (p & -> & Hp). cbn [fst].
    rewrite map_map. change (map ?f ?l) with (f <$> l). apply elem_of_list_fmap. by exists p.
Qed.
(** Delta views. *)
Lemma one_change_of (ins prev pts : list (list kv * Z)) ky :
  (ky ∉ map fst ins -> at_key (N:=Int64) ky pts = []) ->
  (ky ∈ map fst ins -> ky ∉ map fst prev -> exists x : Int64, adds (at_key (N:=Int64) ky ins) x /\ at_key (N:=Int64) ky pts = [x]) ->
  (ky ∈ map fst ins -> ky ∈ map fst prev -> exists x y : Int64, adds (at_key (N:=Int64) ky ins) x /\ adds (at_key (N:=Int64) ky prev) y /\
     at_key (N:=Int64) ky pts = if eqb (sub x y) zero then [] else [sub x y]) ->
  one_change (at_key (N:=Int64) ky ins) (at_key (N:=Int64) ky prev) (map wrap (at_key (N:=Int64) ky pts)).
Proof.
  intros A B C. unfold one_change. destruct (decide (ky ∈ map fst ins)) as [I|I].
  - assert (X : at_key (N:=Int64) ky ins <> []) by (intros E; by apply at_key_empty in E). destruct (decide (ky ∈ map fst prev)) as [P|P].
    + assert (Y : at_key (N:=Int64) ky prev <> []) by (intros E; by apply at_key_empty in E). destruct (C I P) as (x & y & X1 & Y1 & ->).
      apply adds_cong in X1, Y1. destruct (at_key (N:=Int64) ky ins) as [|a r]; [done|]. destruct (at_key (N:=Int64) ky prev) as [|a' r']; [done|]. cbn zeta.
      assert (E : sub x y = wrap (zsum (a :: r) - zsum (a' :: r')) :> Z).
      { change (wrap (x - y) = wrap (zsum (a :: r) - zsum (a' :: r'))). by rewrite <- wrap_sub, X1, Y1, wrap_sub. }
      rewrite <- E. change (eqb (sub x y) zero) with (Z.eqb (sub x y) 0). destruct (Z.eqb (sub x y) 0); [done|]. cbn [map]. f_equal. rewrite E. apply wrap_wrap.
    + destruct (B I P) as (x & X1 & ->). apply at_key_empty in P. rewrite P. apply adds_cong in X1. destruct (at_key (N:=Int64) ky ins) as [|a r]; [done|]. cbn [map]. by rewrite X1.
  - rewrite (A I). apply at_key_empty in I. by rewrite I.
Qed.
Lemma two_runs (c : acfg) vr decl rd (f f1 f2 : sys Int64) l1 l2 :
  drun c vr decl rd f l1 = Some f1 -> drun c vr decl rd f1 l2 = Some f2 -> drun c vr decl rd f (l1 ++ l2) = Some f2.
Proof. intros R1 R2. by rewrite drun_app, R1. Qed.
Lemma at_most_one (l : list (list kv * Z)) ky : NoDup (map fst l) -> (length (at_key (N:=Int64) ky l) <= 1)%nat.
Proof.
  intros ND. destruct (decide (ky ∈ map fst l)) as [X|X]; [|apply at_key_empty in X; rewrite X; cbn; lia].
  change (map ?f ?l) with (f <$> l) in X. apply elem_of_list_fmap in X as ([k x] & EK & X). cbn in EK. subst k. by rewrite (at_key_one _ _ _ ND X).
Qed.
