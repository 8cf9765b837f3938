(** When the counter of updates of a series has wrapped around (more than 2^32 measurements between two collections, C03_wrap_refuted)
    a collection may pass by what was measured.  It is reported at the latest when the series has been found idle for the configured
    number of collections: C03 without the hypothesis [calm]. *)
From Coq Require Import ZArith Lia Bool.
From stdpp Require Import base list option gmultiset.
From Verif Require Import Base Lib SyncModel SyncInv SyncStep SyncStepB SyncCases SyncCons SyncTag SyncRun SyncSpec SyncOnce SyncCall SyncVis SyncVisRun
  SyncQuiet SyncIdle SyncMore.
Local Open Scope Z_scope.

Ltac acc_split := try match goal with S1 : _ = _ \/ exists _, _ = set_holds _ _ /\ _ |- _ =>
  destruct S1 as [->|(?k0 & -> & -> & ?F)] end.

(** ** Vocabulary *)
Section spec.
Context {c : config}.
(** Every call and every collection has ended. *)
Definition at_rest (s : state c) : Prop := forall t p, s_thr s !! t = Some p -> ended p = true.
(** Whole collections, one after the other, by the readers [rds], and nothing else. *)
Fixpoint rounds (s : state c) (rds : list nat) (ls : list (label c)) (s' : state c) : Prop :=
  match rds with
  | [] => ls = [] /\ s' = s
  | rd :: rds => exists l1 l2 s1, ls = LCollect rd :: l1 ++ l2 /\ run s (LCollect rd :: l1) = Some s1 /\
      (forall l, l ∈ l1 -> exists t ch, l = LStep t ch) /\ at_rest s1 /\ rounds s1 rds l2 s'
  end.
End spec.

(** ** One collection of a system at rest *)
Section drain.
Context {c : config}.
Notation A := (car (c_mon c)).
Notation st := (state c).
Implicit Types (ls : list (label c)) (s : st).
Context (has : A -> Prop) (x : nat).
Context (has_mu : ~ has mu) (has_op : forall a b, has (mop a b) <-> has a \/ has b)
        (has_inj : forall y n, has (c_inj c y n) <-> y = x).
Context (t1 : nat).

(** The instruments still to be visited, the present one included. *)
Definition agenda (p : pc c) : list nat :=
  match p with
  | QLock _ os => os
  | QRecs q | QTry q _ | QCas q _ | QScav q _ _ | QLoad q _ | QMove q _ _ _ _ | QMerge q _ _ _ _ _ | QRel q _ _ _ _ => j_inst q :: j_rest q
  | _ => []
  end.
(** [N] collections have passed by every record that holds [x] and that the present one has not visited, and one more by the others. *)
Record passed_by (N : Z) s : Prop := {
  pb_rest : forall t p, t <> t1 -> s_thr s !! t = Some p -> ended p = true;
  pb_self : exists p1, s_thr s !! t1 = Some p1 /\ flying p1 = false /\ p1 <> PBad /\ (forall q i, p1 <> QScav q i false) /\ NoDup (agenda p1) /\
    forall i r j a, s_recs s !! i = Some r -> r_accs r !! j = Some a -> has (a_cur a) ->
      (ahead1 p1 (r_inst r) i j /\ N <= r_inact r) \/ (visiting i p1 = None /\ N + 1 <= r_inact r)
}.

Lemma pb_step N s s' : Inv s -> stepR s t1 s' -> passed_by N s -> passed_by N s'.
Proof.
  intros I H [Hrest (p1 & Hp1 & Hf & Hb & Hsc & Hag & HD)].
  assert (Hv0 : forall i q r, s_recs s !! i = Some r -> visiting i p1 = Some q -> unmapping i p1 = false -> r_val r = 0).
  { intros i q r Hr V U. destruct (visiting_live _ _ _ _ _ I Hp1 V) as (_ & r' & Hr' & L & _). assert (r' = r) as -> by congruence.
    eapply (unref_val s t1 q i r p1); try done. intros t' p' Ht'. destruct (decide (t' = t1)) as [->|Nt].
    - assert (p' = p1) as -> by congruence. by destruct p1.
    - specialize (Hrest _ _ Nt Ht'). by destruct p'. }
  assert (G : exists p', s_thr s' = <[t1 := p']> (s_thr s) /\ flying p' = false /\ p' <> PBad /\ (forall q i, p' <> QScav q i false) /\ NoDup (agenda p') /\
    forall i r j a, s_recs s' !! i = Some r -> r_accs r !! j = Some a -> has (a_cur a) ->
      (ahead1 p' (r_inst r) i j /\ N <= r_inact r) \/ (visiting i p' = None /\ N + 1 <= r_inact r)).
  2: { destruct G as (p' & E & G). constructor.
    - intros t p Nt Ht. rewrite E, list_lookup_insert_ne in Ht by done. by eapply Hrest.
    - exists p'. rewrite E, list_lookup_insert by (by eapply lookup_lt_Some). done. }
  assert (Hlr : forall i q r, s_recs s !! i = Some r -> visiting i p1 = Some q -> r_inst r = j_inst q).
  { intros i q r Hr V. destruct (visiting_live _ _ _ _ _ I Hp1 V) as (_ & r' & Hr' & _ & E). congruence. }
  assert (Fin : forall q i mods ph j r j0 a0, p1 = QMove q i mods ph j -> s_recs s !! i = Some r -> r_accs r !! j = None ->
    r_accs r !! j0 = Some a0 -> has (a_cur a0) -> False).
  { intros q i mods ph j r j0 a0 -> Hr Ha Ha0 Hh.
    assert (V : visiting (c:=c) i (QMove q i mods ph j) = Some q) by (cbn; by rewrite Nat.eqb_refl).
    pose proof (Hlr i q r Hr V) as Eo. destruct (HD i r j0 a0 Hr Ha0 Hh) as [[Q _]|[Q _]]; [|congruence]. cbn in Q.
    pose proof (I_T _ _ _ _ _ I _ _ Hp1) as T. destruct T as ((_ & _ & T & _) & _). cbn in T. cbn [agenda] in Hag.
    apply list.NoDup_cons in Hag as [Hag _]. apply list.NoDup_cons in T as [T _].
    apply lookup_lt_Some in Ha0. apply lookup_ge_None in Ha.
    destruct Q as [Q|[_ [[_ Q]|Q]]]; [congruence|lia|done]. }
  stepR_cases H; acc_split; snorm; rewrite Ht in Hp1; inversion Hp1; subst p1; clear Hp1; try done;
    eexists; (split; [reflexivity|]).
  all: try (split; [done|]; split; [done|]; split; [done|]); try (split; [first [exact Hag|by apply NoDup_nil_2|by apply list.NoDup_cons in Hag as [_ ?]]|]).
  all: try (intros i0 r0 j0 a0 Hr0 Ha0 Hh0; destruct (HD i0 r0 j0 a0 Hr0 Ha0 Hh0) as [[Q _]|[_ Q]]; [by destruct Q|by right]).
  - intros i r j a Hr Ha Hh. destruct (HD i r j a Hr Ha Hh) as [[Q _]|[_ Q]]; [by apply elem_of_nil in Q|by right].
  - intros i r j a Hr Ha Hh. destruct (HD i r j a Hr Ha Hh) as [[Q L]|[_ Q]]; [|by right].
    left. split; [|done]. cbn in Q |- *. apply elem_of_cons in Q as [Q|Q]; [right|by left]. split; [done|].
    unfold live_recs. apply elem_of_list_In, filter_In. split; [apply in_seq; apply lookup_lt_Some in Hr; lia|].
    rewrite Hr, <- Q, Nat.eqb_refl, andb_true_r. destruct (r_live r) eqn:Lv; [done|].
    destruct (I_R _ _ _ _ _ I _ _ Hr) as (_ & _ & _ & _ & _ & _ & R7). rewrite (R7 Lv _ _ Ha) in Hh. by destruct has_mu.
  - intros i r j a Hr Ha Hh. destruct (HD i r j a Hr Ha Hh) as [[Q L]|[_ Q]]; [|by right].
    left. split; [|done]. cbn in Q |- *. destruct Q as [Q|[_ Q]]; [done|]. rewrite Hj in Q. by apply elem_of_nil in Q.
  - intros i0 r j a Hr Ha Hh. destruct (HD i0 r j a Hr Ha Hh) as [[Q L]|[_ Q]].
    + left. split; [|done]. cbn in Q |- *. destruct Q as [Q|[? Q]]; [by left|right]. split; [done|]. by eapply delete_or.
    + destruct (decide (i0 = i)) as [->|Ne]; [|right; split; [cbn; by destruct (Nat.eqb_spec i i0)|done]].
      left. split; [|lia]. right. split; [|by left]. cbn.
      pose proof (I_T _ _ _ _ _ I _ _ Ht) as T. cbn in T.
      destruct T as (_ & _ & _ & T). destruct (T i) as (r' & Hr' & _ & E); [by eapply elem_of_list_lookup_2|]. congruence.
  - intros i0 r0 j a Hr0 Ha Hh. apply lookup_insert_inv in Hr0 as [(<- & <- & _)|(Ne & Hr0)].
    + cbn in Ha |- *. right. split; [done|]. destruct (HD i r j a Hr Ha Hh) as [[_ L]|[_ L]]; lia.
    + destruct (HD i0 r0 j a Hr0 Ha Hh) as [[Q L]|[Q L]]; [left|by right]. split; [|done]. cbn in Q |- *.
      destruct Q as [Q|[Eo [->|Q]]]; [by left|done|by right].
  - intros i0 r0 j a Hr0 Ha Hh. apply lookup_insert_inv in Hr0 as [(<- & <- & _)|(Ne & Hr0)].
    + cbn in Ha |- *. left. split; [|destruct (HD i r j a Hr Ha Hh) as [[_ L]|[_ L]]; lia]. right. split; [|by left].
      eapply (Hlr i); [done|cbn; by rewrite Nat.eqb_refl].
    + destruct (HD i0 r0 j a Hr0 Ha Hh) as [[Q L]|[Q L]]; [by left|by right].
  - intros i0 r0 j a Hr0 Ha Hh. destruct (HD i0 r0 j a Hr0 Ha Hh) as [[Q L]|[Q L]]; [left|by right]. split; [|done]. cbn in Q |- *.
    destruct Q as [Q|[Eo [->|Q]]]; [by left|right|by right; auto]. split; [done|]. left. split; [done|lia].
  - exact HD.
  - destruct Hv. eapply Hv0; [done|cbn; by rewrite Nat.eqb_refl|done].
  - intros i0 r0 j a Hr0 Ha Hh. apply lookup_insert_inv in Hr0 as [(<- & <- & _)|(Ne & Hr0)]; [|by eapply HD].
    exact (HD i r j a Hr Ha Hh).
  - destruct Hv. eapply Hv0; [done|cbn; by rewrite Nat.eqb_refl|done].
  - by destruct (Hsc q i).
  - intros i0 r0 j a Hr0 Ha Hh. destruct (HD i0 r0 j a Hr0 Ha Hh) as [[Q L]|[Q L]]; [left|by right]. split; [|done]. cbn in Q |- *.
    destruct Q as [Q|[Eo [->|Q]]]; [by left|right|by right; auto]. split; [done|]. left. split; [done|lia].
  - intros i0 r0 j0 a0 Hr0 Ha0 Hh. apply lookup_insert_inv in Hr0 as [(<- & <- & _)|(Ne & Hr0)].
    + cbn in Ha0. apply lookup_insert_inv in Ha0 as [(<- & <- & _)|(Nj & Ha0)]; [by destruct has_mu|].
      destruct (HD i r j0 a0 Hr Ha0 Hh) as [[Q L]|[Q L]]; [left|by right]. split; [|done]. cbn in Q |- *.
      destruct Q as [Q|[Eo [[_ Q]|Q]]]; [by left|right|by right; auto]. split; [done|]. left. split; [done|lia].
    + destruct (HD i0 r0 j0 a0 Hr0 Ha0 Hh) as [[Q L]|[Q L]]; [left|by right]. split; [|done]. cbn in Q |- *.
      destruct Q as [Q|[Eo [[-> Q]|Q]]]; [by left|done|by right; auto].
  - intros i0 r0 j0 a0 Hr0 Ha0 Hh. apply lookup_insert_inv in Hr0 as [(<- & <- & _)|(Ne & Hr0)].
    + exfalso. by eapply Fin.
    + destruct (HD i0 r0 j0 a0 Hr0 Ha0 Hh) as [[Q L]|[Q L]]; [left|by right]. split; [|done]. cbn in Q |- *.
      destruct Q as [Q|[Eo [[-> Q]|Q]]]; [by left|done|by right; auto].
  - intros i0 r0 j0 a0 Hr0 Ha0 Hh. apply lookup_insert_inv in Hr0 as [(<- & <- & _)|(Ne & Hr0)].
    + exfalso. by eapply Fin.
    + destruct (HD i0 r0 j0 a0 Hr0 Ha0 Hh) as [[Q L]|[Q L]]; [left|by right]. split; [|done]. cbn in Q |- *.
      destruct Q as [Q|[Eo [[-> Q]|Q]]]; [by left|done|by right; auto].
  - destruct ph as [[]|]; (do 4 (split; [done|])); exact HD.
  - exact HD.
Qed.

Lemma pb_steps N l : forall s s', reachable s -> passed_by N s -> (forall a, a ∈ l -> exists t ch, a = LStep t ch) ->
  run s l = Some s' -> passed_by N s'.
Proof.
  induction l as [|a l IH]; intros s s' R P L E; cbn [run] in E; [by injection E as <-|].
  destruct (L a ltac:(left)) as (t & ch & ->). destruct (step s (LStep t ch)) as [s1|] eqn:S; [|done].
  pose proof (reachable_inv _ R) as I. assert (S' : stepR s t s1). { cbn [step] in S. destruct (s_thr s !! t) as [p|] eqn:Ht; [|done]. by eapply step_cases. }
  assert (t = t1) as ->.
  { destruct (decide (t = t1)) as [|Nt]; [done|]. destruct (thr_ended _ _ _ S') as (p & p' & Ht & _ & N1 & N2).
    pose proof (pb_rest _ _ P _ _ Nt Ht). by destruct p. }
  refine (IH s1 s' _ _ _ E).
  - destruct R as [l0 R]. exists (l0 ++ [LStep t1 ch]). rewrite run_app, R. cbn [run]. by rewrite S.
  - exact (pb_step _ _ _ I S' P).
  - intros a Ha. apply L. by right.
Qed.

Lemma pb_start N s rd : t1 = length (s_thr s) -> at_rest s ->
  (forall i r j a, s_recs s !! i = Some r -> r_accs r !! j = Some a -> has (a_cur a) -> N <= r_inact r) -> Inv s ->
  passed_by N (set_thr (fun l => l ++ [QLock rd (seq 0 (length (c_insts c)))]) s).
Proof.
  intros E A H I. constructor; cbn [set_thr s_thr s_recs].
  - intros t p Nt Ht. apply lookup_snoc in Ht as [Ht|[Ht _]]; [by eapply A|by rewrite <- E in Ht].
  - exists (QLock rd (seq 0 (length (c_insts c)))). split; [rewrite E; apply list_lookup_app_last|]. do 3 (split; [done|]).
    split; [apply NoDup_seq|]. intros i r j a Hr Ha Hh. left. split; [|by eapply H]. cbn. apply elem_of_seq.
    destruct (I_R _ _ _ _ _ I _ _ Hr) as (_ & _ & _ & R4 & _). lia.
Qed.

Lemma pb_unhidden N s : c_periods c <= N + 1 -> passed_by N s -> unhidden has t1 s.
Proof.
  intros P [_ (p1 & Hp1 & _ & _ & Hsc & _ & HD)] q i r j a Hr Ha _ [[Ht L]|Ht] Hh.
  - assert (p1 = QLoad q i) as -> by congruence. destruct (HD i r j a Hr Ha Hh) as [[_ Q]|[Q _]]; [lia|]. cbn in Q. by rewrite Nat.eqb_refl in Q.
  - assert (p1 = QScav q i false) as -> by congruence. by destruct (Hsc q i).
Qed.
End drain.

(** ** Several collections of a system at rest *)
Section several.
Context {c : config}.
Notation A := (car (c_mon c)).
Implicit Types (ls : list (label c)) (s : state c).

Lemma inact_nonneg ls s : run (init c) ls = Some s -> forall i r, s_recs s !! i = Some r -> 0 <= r_inact r.
Proof.
  revert ls s. apply (run_ind (fun _ s => forall i r, s_recs s !! i = Some r -> 0 <= r_inact r)).
  - intros i r H. done.
  - intros ls s o k n R I P Ho. exact P.
  - intros ls s rd R I P. exact P.
  - intros ls s t ch0 s' R I I' P H i1 r1 Hr1.
    stepR_cases H; acc_split; snorm; try (by eapply P);
      try (apply lookup_insert_inv in Hr1 as [(<- & <- & _)|(_ & Hr1)]; [|by eapply P]; cbn; specialize (P _ _ Hr); first [lia|done]).
    apply lookup_snoc in Hr1 as [Hr1|[_ ->]]; [by eapply P|done].
Qed.

Lemma rounds_passed (has : A -> Prop) : ~ has mu -> forall rds N s ls s', reachable s -> at_rest s -> rounds s rds ls s' ->
  (forall i r j a, s_recs s !! i = Some r -> r_accs r !! j = Some a -> has (a_cur a) -> N <= r_inact r) ->
  at_rest s' /\ reachable s' /\ run s ls = Some s' /\
  forall i r j a, s_recs s' !! i = Some r -> r_accs r !! j = Some a -> has (a_cur a) -> N + Z.of_nat (length rds) <= r_inact r.
Proof.
  intros Hmu rds. induction rds as [|rd rds IH]; intros N s ls s' R A0 H HN.
  { destruct H as [-> ->]. split; [done|]. split; [done|]. split; [done|]. intros i r j a Hr Ha Hh. cbn. specialize (HN i r j a Hr Ha Hh). lia. }
  destruct H as (l1 & l2 & s1 & -> & R1 & L1 & A1 & H).
  assert (Rs1 : reachable s1). { destruct R as [l0 R]. exists (l0 ++ LCollect rd :: l1). by rewrite run_app, R. }
  destruct (IH (N + 1) s1 l2 s' Rs1 A1 H) as (B1 & B2 & B3 & B4).
  - cbn [run step] in R1.
    assert (P : passed_by has (length (s_thr s)) N s1).
    { eapply (pb_steps has Hmu (length (s_thr s)) N l1); [|apply pb_start; [done|done|done|by apply reachable_inv]|done|exact R1].
      destruct R as [l0 R]. exists (l0 ++ [LCollect rd]). by rewrite run_app, R. }
    destruct P as [_ (p1 & Hp1 & Hf & _ & _ & _ & HD)]. specialize (A1 _ _ Hp1).
    intros i r j a Hr Ha Hh. destruct (HD i r j a Hr Ha Hh) as [[Q _]|[_ Q]]; [|done]. by destruct p1.
  - split; [done|]. split; [done|]. split.
    + change (LCollect rd :: l1 ++ l2) with ((LCollect rd :: l1) ++ l2). by rewrite run_app, R1.
    + intros i r j a Hr Ha Hh. specialize (B4 i r j a Hr Ha Hh). cbn [length]. lia.
Qed.
End several.

Section tagged.
Context {c : config}.
Implicit Types (ls : list (label c)) (s : state c).
(** The tagged run goes through the same rounds. *)
Lemma at_rest_tag (ts : state (tag c)) : at_rest (erase c ts) -> at_rest ts.
Proof.
  intros H t p Ht. assert (E : s_thr (erase c ts) !! t = Some (e_pc c p)) by (cbn [erase s_thr]; by rewrite list_lookup_fmap, Ht).
  specialize (H _ _ E). by destruct p.
Qed.
Lemma rounds_tag rds : forall (ts : state (tag c)) s ls s', erase c ts = s -> rounds s rds ls s' ->
  exists ts', rounds ts rds (t_label c <$> ls) ts' /\ erase c ts' = s'.
Proof.
  induction rds as [|rd rds IH]; intros ts s ls s' E H.
  { destruct H as [-> ->]. exists ts. done. }
  destruct H as (l1 & l2 & s1 & -> & R1 & L1 & A1 & H).
  pose proof (erase_run c ts (LCollect rd :: l1)) as ER. rewrite E, R1 in ER.
  destruct (run ts (t_label c <$> LCollect rd :: l1)) as [ts1|] eqn:TR; [|done]. cbn in ER. injection ER as E1.
  destruct (IH ts1 s1 l2 s' E1 H) as (ts' & H' & E'). exists ts'. split; [|done].
  exists (t_label c <$> l1), (t_label c <$> l2), ts1. split; [by rewrite fmap_cons, fmap_app|]. split; [exact TR|]. split.
  - intros l Hl. apply elem_of_list_fmap in Hl as (l' & -> & Hl). destruct (L1 _ Hl) as (t & ch & ->). by exists t, ch.
  - split; [|done]. apply at_rest_tag. by rewrite E1.
Qed.

Lemma rounds_open ls0 s0 rds ls1 s1 rd l s :
  run (init c) ls0 = Some s0 -> at_rest s0 -> rounds s0 rds ls1 s1 -> run s1 (LCollect rd :: l) = Some s ->
  (forall a, a ∈ l -> exists t ch, a = LStep t ch) -> c_periods c <= Z.of_nat (length rds) + 1 ->
  open_to (ls0 ++ ls1) rd l.
Proof.
  intros R0 A0 H R1 L P x u ts1 l' ts TR1 Hx Hl TR HW.
  destruct (tagged_run c _ _ R0) as (ts0 & TR0 & TE0).
  set (has := fun a : car (c_mon (tag c)) => (0 < mlt (c:=c) x a)%nat) in *.
  assert (Hmu : ~ has mu) by (unfold has; rewrite mlt_mu; lia).
  destruct (rounds_tag rds ts0 s0 ls1 s1 TE0 H) as (ts1' & H' & TE1).
  destruct (rounds_passed (c:=tag c) has Hmu rds 0 ts0 (t_label c <$> ls1) ts1') as (A1 & RE & RR & HN); [by eexists| |done| |].
  { apply at_rest_tag. by rewrite TE0. }
  { intros i r j a Hr _ _. exact (inact_nonneg (c:=tag c) _ _ TR0 i r Hr). }
  assert (ts1' = ts1) as ->.
  { rewrite fmap_app, run_app, TR0 in TR1. cbn in TR1. congruence. }
  apply (pb_unhidden (c:=tag c) has (length (s_thr ts1)) (Z.of_nat (length rds))); [exact P|].
  cbn [run step] in TR.
  eapply (pb_steps (c:=tag c) has Hmu (length (s_thr ts1)) _ (t_label c <$> l')); [| | |exact TR].
  - exists ((t_label c <$> ls0 ++ ls1) ++ [LCollect (c:=tag c) rd]). by rewrite run_app, TR1.
  - apply pb_start; [done|done| |by apply reachable_inv]. intros i r j a Hr Ha Hh. specialize (HN i r j a Hr Ha Hh). lia.
  - intros a Ha. apply elem_of_list_fmap in Ha as (a' & -> & Ha). destruct Hl as [k ->].
    destruct (L a') as (t & ch & ->); [apply elem_of_app; by left|]. by exists t, ch.
Qed.
End tagged.

(** ** The theorem *)
(** A system at rest is collected [n] times, [n] at least the number of collections for which an idle series is kept, and the last time
    by [rd]: then everything measured before is in the points of [rd]'s streams, however many measurements there were. *)
Theorem C03_late : forall (c : config) (ls0 : list (label c)) s0 rds rd ls s,
  run (init c) ls0 = Some s0 -> at_rest s0 -> rounds s0 (rds ++ [rd]) ls s ->
  c_periods c <= Z.of_nat (length (rds ++ [rd])) ->
  s_log s = s_log s0 /\
  forall v k, read_by c rd v ->
    if vdelta c v then mop (total (s_out s) v k) (total (s_drop s) v k) = measured s0 v k
    else
      (forall i p, s_out s !! i = Some p -> S (p_tid p) = length (s_thr s) -> p_view p = v -> p_key p = k -> p_agg p = measured s0 v k) /\
      forall x, in_series s0 v k x -> exists i p, (s_out s !! i = Some p /\ S (p_tid p) = length (s_thr s) /\ p_view p = v /\ p_key p = k) /\
        forall i' p', s_out s !! i' = Some p' -> S (p_tid p') = length (s_thr s) -> p_view p' = v -> p_key p' = k -> i' = i.
Proof.
  intros c ls0 s0 rds rd ls s R0 A0 H P.
  assert (exists ls1 s1 l, ls = ls1 ++ LCollect rd :: l /\ rounds s0 rds ls1 s1 /\ run s1 (LCollect rd :: l) = Some s /\
    (forall a, a ∈ l -> exists t ch, a = LStep t ch) /\ at_rest s) as (ls1 & s1 & l & -> & H1 & R1 & L & AR).
  { clear P. revert s0 ls R0 A0 H. revert ls0. induction rds as [|r rds IH]; intros ls0 s0 ls R0 A0 H.
    - destruct H as (l1 & l2 & s1 & -> & R1 & L1 & A1 & [-> ->]). exists [], s0, l1. rewrite app_nil_r. done.
    - destruct H as (l1 & l2 & s1 & -> & R1 & L1 & A1 & H).
      destruct (IH (ls0 ++ LCollect r :: l1) s1 l2) as (ls1 & s2 & l & -> & H2 & R2 & L2 & A2); [by rewrite run_app, R0|done|done|].
      exists (LCollect r :: l1 ++ ls1), s2, l. split; [cbn; by rewrite <- app_assoc|]. split; [|done]. by exists l1, ls1, s1. }
  rewrite app_length in P. cbn [length] in P.
  destruct (rounds_passed (c:=c) (fun _ => False) ltac:(by intros ?) rds 0 s0 ls1 s1) as (A1 & _ & RR & _); [by eexists|done|done|done|].
  assert (RA : run (init c) (ls0 ++ ls1) = Some s1) by (by rewrite run_app, R0).
  assert (C1 : calmed s1) by (intros t p Ht; specialize (A1 _ _ Ht); by destruct p).
  assert (C0 : calmed s0) by (intros t p Ht; specialize (A0 _ _ Ht); by destruct p).
  assert (NC : forall o (k : c_K c) n, LObserve o k n ∉ l). { intros o k n Hl. destruct (L _ Hl) as (t & ch & Q). done. }
  destruct (calmed_run _ _ (LCollect rd :: l) s RA R1 C1) as [_ EL]. { intros o k n Hl. apply elem_of_cons in Hl as [Hl|Hl]; [done|]. by eapply NC. }
  assert (EL1 : s_log s1 = s_log s0).
  { refine (proj2 (calmed_run ls0 s0 ls1 s1 R0 RR C0 _)). clear -H1. revert s0 ls1 H1. induction rds as [|r rds IH]; intros s0 ls1 H o k n Hl.
    - destruct H as [-> _]. by apply elem_of_nil in Hl.
    - destruct H as (l1 & l2 & s2 & -> & _ & L1 & _ & H). apply elem_of_cons in Hl as [Hl|Hl]; [done|]. apply elem_of_app in Hl as [Hl|Hl].
      + by destruct (L1 _ Hl) as (t & ch & Q).
      + by apply (IH _ _ H o k n). }
  assert (EM : forall v k, measured s v k = measured s0 v k).
  { intros v k. unfold measured, ids_of, value. by rewrite EL, EL1. }
  assert (Len : length (s_thr s) = S (length (s_thr s1))).
  { cbn [run step] in R1. revert R1. set (z := set_thr _ s1). intros R1. transitivity (length (s_thr z)); [|unfold z; cbn; rewrite app_length; cbn; lia].
    assert (Rz : reachable z) by (exists ((ls0 ++ ls1) ++ [LCollect rd]); by rewrite run_app, RA).
    clearbody z. clear -R1 L Rz. revert z R1 Rz. induction l as [|a l IH]; intros z R1 Rz; cbn [run] in R1; [by injection R1 as ->|].
    destruct (L a ltac:(left)) as (t & ch & ->). destruct (step z (LStep t ch)) as [z1|] eqn:S; [|done].
    assert (Rz1 : reachable z1). { destruct Rz as [lz Rz]. exists (lz ++ [LStep t ch]). rewrite run_app, Rz. cbn [run]. by rewrite S. }
    rewrite (IH ltac:(intros b Hb; apply L; by right) z1 R1 Rz1).
    assert (S' : stepR z t z1). { cbn [step] in S. destruct (s_thr z !! t) as [p|] eqn:Ht; [|done]. eapply step_cases; [by apply reachable_inv|done|done]. }
    destruct (thr_step _ _ _ S') as (p & p' & _ & E & _). by rewrite E, insert_length. }
  assert (HD : s_thr s !! length (s_thr s1) = Some QDone).
  { assert (RS : run (init c) ((ls0 ++ ls1) ++ LCollect rd :: l) = Some s) by (by rewrite run_app, RA).
    destruct (lookup_lt_is_Some_2 (s_thr s) (length (s_thr s1))) as [p Hp]; [lia|]. rewrite Hp. f_equal. specialize (AR _ _ Hp).
    destruct (CI_run _ _ RA) as ((C1' & _) & _). destruct (CI_run _ _ RS) as ((_ & CT) & _). specialize (CT _ _ Hp).
    unfold calls in CT. rewrite filter_app in CT. cbn [List.filter] in CT. fold (calls (ls0 ++ ls1)) in CT. rewrite <- C1', list_lookup_middle in CT by done.
    destruct CT as [CT _]. by destruct p. }
  assert (VIS : exists out sup pend, account s out sup pend /\
    forall x u, s_log s !! x = Some u -> u_view u ∈ views_of c rd ->
      if vdelta c (u_view u) then
        (exists i, (i < length (s_out s))%nat /\ x ∈ out i) \/ (exists i, (i < length (s_drop s))%nat /\ x ∈ sup i)
      else exists i (p : point c), s_out s !! i = Some p /\ p_tid p = length (s_thr s1) /\ x ∈ out i).
  { destruct (visible_later (ls0 ++ ls1) s1 rd l s [] s RA R1) as (out & sup & pend & AC & V); [|done|done|].
    { eapply (rounds_open ls0 s0 rds ls1 s1 rd l s); try done. lia. }
    exists out, sup, pend. split; [done|]. intros x u Hx Hv. rewrite EL in Hx. apply V; try done. by eapply (log_done (ls0 ++ ls1)). }
  split; [by rewrite EL|]. intros v k Hv%views_of_iff. rewrite <- EM.
  destruct (vdelta c v) eqn:Hd; [by apply (seen_delta (ls0 ++ ls1) s1 rd l s)|]. rewrite Len. split.
  - intros i p Hi Ht Ev Ek. rewrite <- Ev, <- Ek. apply (seen_point (ls0 ++ ls1) s1 rd l s RA R1 VIS i p); [done|lia|by rewrite Ev].
  - intros x Hx. destruct (seen_unique (ls0 ++ ls1) s1 rd l s RA R1 VIS v k x) as (i & p & (Hi & Ht & Ev & Ek) & U); [|done|done|].
    { unfold in_series in *. by rewrite EL, EL1. }
    exists i, p. split; [by rewrite Ht|]. intros i' p' Hi' Ht' Ev' Ek'. apply (U i' p'); try done. lia.
Qed.

(** *** The case of C03_wrap_refuted: 2^32 calls, after which the first collection reports nothing.  The second reports all. *)
From Verif Require Import SyncFacts SyncWrap.
Section case.
Definition st (R : list (pc one_series)) live v u col ina acc aux sto wl il log out drop : state one_series :=
  State [Rec (c:=one_series) 0 tt live v u col ina ODone [Acc (c:=one_series) acc 0]] [Holder (c:=one_series) 0 tt true aux sto] R [wl] [il] log out drop.
Lemma coll2_run (R : list (pc one_series)) u z log drop : same32 u 0 = true -> z <> 0 ->
  run (in_ R u z 1 None None log drop) (LCollect 0 :: repeat (LStep (c:=one_series) (length R) 0) 18) =
    Some (st (R ++ [QDone]) false 1 u u 0 0 0 0 None None log [Point (c:=one_series) (length R) 0 tt z] drop).
Proof.
  intros U Z.
  assert (ZZ : 0 + z = z) by lia. assert (ZN : negb (z =? 0) = true) by (apply negb_true_iff, Z.eqb_neq; lia).
  transitivity (run (st (R ++ [QLock (c:=one_series) 0 [0%nat]]) true 0 u 0 1 z 1 0 None None log [] drop) (repeat (LStep (c:=one_series) (length R) 0) 18)); [done|].
  cbn [repeat].
  rewrite (more _ (st (R ++ [QLock (c:=one_series) 0 [0%nat]]) true 0 u 0 1 z 1 0 (Some (length R)) None log [] drop) R (QLock (c:=one_series) 0 [0%nat]) (QRecs (c:=one_series) (Job 0 [] 0 [0%nat]))); [|done|reflexivity|done].
  rewrite (more _ (st (R ++ [QRecs (c:=one_series) (Job 0 [] 0 [0%nat])]) true 0 u 0 1 z 1 0 (Some (length R)) None log [] drop) R (QRecs (c:=one_series) (Job 0 [] 0 [0%nat])) (QLoad (c:=one_series) (Job 0 [] 0 []) 0)); [|done|reflexivity|done].
  rewrite (more _ (st (R ++ [QLoad (c:=one_series) (Job 0 [] 0 []) 0]) true 0 u 0 2 z 1 0 (Some (length R)) None log [] drop) R (QLoad (c:=one_series) (Job 0 [] 0 []) 0) (QTry (c:=one_series) (Job 0 [] 0 []) 0)); [|done|cbn -[same32 app length]; rewrite U; reflexivity|done].
  rewrite (more _ (st (R ++ [QTry (c:=one_series) (Job 0 [] 0 []) 0]) true 0 u 0 2 z 1 0 (Some (length R)) None log [] drop) R (QTry (c:=one_series) (Job 0 [] 0 []) 0) (QCas (c:=one_series) (Job 0 [] 0 []) 0)); [|done|reflexivity|done].
  rewrite (more _ (st (R ++ [QCas (c:=one_series) (Job 0 [] 0 []) 0]) true 1 u 0 2 z 1 0 (Some (length R)) None log [] drop) R (QCas (c:=one_series) (Job 0 [] 0 []) 0) (QScav (c:=one_series) (Job 0 [] 0 []) 0 true)); [|done|reflexivity|done].
  rewrite (more _ (st (R ++ [QScav (c:=one_series) (Job 0 [] 0 []) 0 true]) true 1 u 0 2 z 1 0 (Some (length R)) None log [] drop) R (QScav (c:=one_series) (Job 0 [] 0 []) 0 true) (QMove (c:=one_series) (Job 0 [] 0 []) 0 u (Some true) 0)); [|done|reflexivity|done].
  rewrite (more _ (st (R ++ [QMove (c:=one_series) (Job 0 [] 0 []) 0 u (Some true) 0]) true 1 u 0 2 0 1 0 (Some (length R)) None log [] drop) R (QMove (c:=one_series) (Job 0 [] 0 []) 0 u (Some true) 0) (QMerge (c:=one_series) (Job 0 [] 0 []) 0 u (Some true) 0 z)); [|done|reflexivity|done].
  rewrite (more _ (st (R ++ [QMerge (c:=one_series) (Job 0 [] 0 []) 0 u (Some true) 0 z]) true 1 u 0 2 0 1 z (Some (length R)) None log [] drop) R (QMerge (c:=one_series) (Job 0 [] 0 []) 0 u (Some true) 0 z) (QRel (c:=one_series) (Job 0 [] 0 []) 0 u (Some true) 0)); [|done|cbn -[app length Z.add]; rewrite ZZ; reflexivity|done].
  rewrite (more _ (st (R ++ [QRel (c:=one_series) (Job 0 [] 0 []) 0 u (Some true) 0]) true 1 u 0 2 0 0 z (Some (length R)) None log [] drop) R (QRel (c:=one_series) (Job 0 [] 0 []) 0 u (Some true) 0) (QMove (c:=one_series) (Job 0 [] 0 []) 0 u (Some true) 1)); [|done|reflexivity|done].
  rewrite (more _ (st (R ++ [QMove (c:=one_series) (Job 0 [] 0 []) 0 u (Some true) 1]) false 1 u u 0 0 0 z (Some (length R)) None log [] drop) R (QMove (c:=one_series) (Job 0 [] 0 []) 0 u (Some true) 1) (QRecs (c:=one_series) (Job 0 [] 0 []))); [|done|reflexivity|done].
  rewrite (more _ (st (R ++ [QRecs (c:=one_series) (Job 0 [] 0 [])]) false 1 u u 0 0 0 z None None log [] drop) R (QRecs (c:=one_series) (Job 0 [] 0 [])) (QLock (c:=one_series) 0 [])); [|done|reflexivity|done].
  rewrite (more _ (st (R ++ [QLock (c:=one_series) 0 []]) false 1 u u 0 0 0 z None None log [] drop) R (QLock (c:=one_series) 0 []) (QViews (c:=one_series) 0 [0%nat])); [|done|reflexivity|done].
  rewrite (more _ (st (R ++ [QViews (c:=one_series) 0 [0%nat]]) false 1 u u 0 0 0 z None (Some (length R)) log [] drop) R (QViews (c:=one_series) 0 [0%nat]) (QColl (c:=one_series) 0 [] 0 [0%nat])); [|done|reflexivity|done].
  rewrite (more _ (st (R ++ [QColl (c:=one_series) 0 [] 0 [0%nat]]) false 1 u u 0 0 0 z None (Some (length R)) log [] drop) R (QColl (c:=one_series) 0 [] 0 [0%nat]) (QPoint (c:=one_series) 0 [] 0 [] 0 0)); [|done|reflexivity|done].
  rewrite (more _ (st (R ++ [QPoint (c:=one_series) 0 [] 0 [] 0 0]) false 1 u u 0 0 0 0 None (Some (length R)) log [] drop) R (QPoint (c:=one_series) 0 [] 0 [] 0 0) (QDecide (c:=one_series) 0 [] 0 [] 0 0 z)); [|done|reflexivity|done].
  rewrite (more _ (st (R ++ [QDecide (c:=one_series) 0 [] 0 [] 0 0 z]) false 1 u u 0 0 0 0 None (Some (length R)) log [Point (c:=one_series) (length R) 0 tt z] drop) R (QDecide (c:=one_series) 0 [] 0 [] 0 0 z) (QColl (c:=one_series) 0 [] 0 [])); [|done|cbn -[app length Z.eqb negb]; rewrite ZN; reflexivity|done].
  rewrite (more _ (st (R ++ [QColl (c:=one_series) 0 [] 0 []]) false 1 u u 0 0 0 0 None None log [Point (c:=one_series) (length R) 0 tt z] drop) R (QColl (c:=one_series) 0 [] 0 []) (QViews (c:=one_series) 0 [])); [|done|reflexivity|done].
  rewrite (more _ (st (R ++ [QViews (c:=one_series) 0 []]) false 1 u u 0 0 0 0 None None log [Point (c:=one_series) (length R) 0 tt z] drop) R (QViews (c:=one_series) 0 []) (QDone)); [|done|reflexivity|done].
  done.
Qed.

Lemma rest_snoc (s : state one_series) n q : ended q = true -> s_thr s = repeat PDone n ++ [q] -> at_rest s.
Proof.
  intros Q E t p Ht. rewrite E in Ht. apply lookup_snoc in Ht as [Ht|[_ ->]]; [|done].
  by apply elem_of_list_lookup_2, elem_of_list_In, repeat_spec in Ht as ->.
Qed.
Lemma rest_snoc2 (s : state one_series) n q q' : ended q = true -> ended q' = true -> s_thr s = (repeat PDone n ++ [q]) ++ [q'] -> at_rest s.
Proof.
  intros Q Q' E t p Ht. rewrite E in Ht. apply lookup_snoc in Ht as [Ht|[_ ->]]; [|done].
  apply lookup_snoc in Ht as [Ht|[_ ->]]; [|done]. by apply elem_of_list_lookup_2, elem_of_list_In, repeat_spec in Ht as ->.
Qed.
Lemma late_wrap n : Z.of_nat (S n) = 4294967296 ->
  exists (ls0 : list (label one_series)) s0 ls1 s1 ls2 s2,
    run (init one_series) ls0 = Some s0 /\ at_rest s0 /\ calls ls0 = repeat (LObserve (c:=one_series) 0 tt 1) (S n) /\
    rounds s0 [0%nat] ls1 s1 /\ s_out s1 = [] /\
    rounds s0 [0%nat; 0%nat] ls2 s2 /\ total (s_out s2) 0 tt = 4294967296.
Proof.
  intros N. pose proof (many_run n) as H0. revert H0. generalize (calls_many n). generalize (many n). rewrite N.
  assert (Sm : same32 4294967296 0 = true) by reflexivity. assert (Z0 : 4294967296 <> 0) by done.
  generalize (logs (S n)). generalize (S n). clear n N. generalize 4294967296 Sm Z0. clear Sm Z0. intros z Sm Z0 n log ls0 C H0.
  pose proof (coll_run (repeat PDone n) z z log Sm) as H1.
  pose proof (coll2_run (repeat PDone n ++ [QDone]) z z log [Point (c:=one_series) (length (repeat (PDone (c:=one_series)) n)) 0 tt 0] Sm Z0) as H2.
  set (s1 := in_ _ _ _ _ _ _ _ _) in H1, H2. set (s2 := st _ _ _ _ _ _ _ _ _ _ _ _ _ _) in H2.
  assert (A1 : at_rest s1) by (by apply (rest_snoc s1 n QDone)).
  assert (A2 : at_rest s2) by (by apply (rest_snoc2 s2 n QDone QDone)).
  assert (ST : forall t k (l : label one_series), l ∈ repeat (LStep (c:=one_series) t 0) k -> exists t ch, l = LStep t ch).
  { intros t k l Hl. apply elem_of_list_In, repeat_spec in Hl. subst l. eauto. }
  exists ls0, (at_ (repeat PDone n) 0 z z log). do 4 eexists.
  split; [exact H0|]. split.
  { intros t p Hp. cbn in Hp. by apply elem_of_list_lookup_2, elem_of_list_In, repeat_spec in Hp as ->. }
  split; [exact C|].
  split. { cbn [rounds]. do 3 eexists. split; [reflexivity|]. split; [exact H1|]. split; [apply ST|]. split; [exact A1|done]. }
  split; [reflexivity|].
  split.
  { cbn [rounds]. do 3 eexists. split; [reflexivity|]. split; [exact H1|]. split; [apply ST|]. split; [exact A1|].
    do 3 eexists. split; [reflexivity|]. split; [exact H2|]. split; [apply ST|]. split; [exact A2|done]. }
  cbn. destruct z; reflexivity.
Qed.
End case.

(** The hypotheses of C03_late with [c_periods] = 2, and its conclusion, after the calls of C03_wrap_refuted. *)
Example C03_late_wrap :
  exists (ls0 : list (label one_series)) s0 ls1 s1 ls2 s2,
    run (init one_series) ls0 = Some s0 /\ at_rest s0 /\ calls ls0 = repeat (LObserve (c:=one_series) 0 tt 1) (Z.to_nat 4294967296) /\
    rounds s0 [0%nat] ls1 s1 /\ s_out s1 = [] /\
    rounds s0 [0%nat; 0%nat] ls2 s2 /\ total (s_out s2) 0 tt = 4294967296.
Proof.
  assert (E : exists n, Z.of_nat (S n) = 4294967296 /\ Z.to_nat 4294967296 = S n).
  { exists (Z.to_nat 4294967295). lia. }
  destruct E as (n & E1 & E2). rewrite E2. exact (late_wrap n E1).
Qed.

Print Assumptions C03_late.
Print Assumptions C03_late_wrap.
