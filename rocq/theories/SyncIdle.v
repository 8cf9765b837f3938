(** Idle retention (C06): what the inactivity counter of a record counts. *)
From Coq Require Import ZArith Lia Bool.
From stdpp Require Import base list option.
From Verif Require Import Base Lib SyncModel SyncInv SyncStep SyncStepB SyncCases SyncRun SyncSpec SyncVis.
Local Open Scope Z_scope.

Section idle.
Context {c : config}.
Notation st := (state c).
Notation pcT := (pc c).
Notation recT := (rec c).
Implicit Types (ls : list (label c)) (s : st) (p : pcT) (r : recT) (i t : nat) (g : nat * bool).

Lemma track_snoc i s ls l g : run s ls <> None ->
  forall s', run s ls = Some s' -> (step s' l <> None) -> track i s (ls ++ [l]) g = note i s' l (track i s ls g).
Proof.
  revert s g. induction ls as [|l0 ls IH]; intros s g Hn s' R S; cbn in *.
  - inversion R; subst. by destruct (step s' l).
  - destruct (step s l0) as [s1|]; [|done]. by apply IH.
Qed.

Definition mods_of i p : option Z :=
  match p with
  | QMove _ i' m ph _ | QMerge _ i' m ph _ _ | QRel _ i' m ph _ =>
      match ph with Some true => None | _ => if Nat.eqb i' i then Some m else None end
  | _ => None
  end.
Definition attempt i p : bool :=
  match p with
  | QTry _ i' | QCas _ i' | QScav _ i' _ => Nat.eqb i' i
  | QMove _ i' _ (Some true) _ | QMerge _ i' _ (Some true) _ _ | QRel _ i' _ (Some true) _ => Nat.eqb i' i
  | _ => false
  end.
(** A collection at record [i]. *)
Lemma visiting_live s t p i q : Inv s -> s_thr s !! t = Some p -> visiting i p = Some q ->
  in_wl p = Some (j_inst q) /\ liver (s_recs s) (j_inst q) i.
Proof.
  intros I Ht V. pose proof (I_T _ _ _ _ _ I _ _ Ht) as T.
  destruct p; cbn in V; try done; destruct (Nat.eqb_spec r i); inversion V; subst; (split; [done|]);
    try (destruct T as (_ & _ & _ & T); apply T; left); destruct T as ((_ & _ & _ & T) & _); apply T; left.
Qed.
Lemma visit_uniq s t p t' p' i q q' : Inv s -> s_thr s !! t = Some p -> s_thr s !! t' = Some p' ->
  visiting i p = Some q -> visiting i p' = Some q' -> t = t'.
Proof.
  intros I Ht Ht' V V'. destruct (visiting_live _ _ _ _ _ I Ht V) as [W (r & Hr & _ & E)].
  destruct (visiting_live _ _ _ _ _ I Ht' V') as [W' (r' & Hr' & _ & E')].
  assert (r' = r) by congruence. subst r'. eapply (LI_uniq in_wl); [exact (I_wl _ _ _ _ _ I)|exact Ht|exact Ht'|exact W|congruence].
Qed.
Lemma mods_visiting i p m : mods_of i p = Some m -> exists q, visiting i p = Some q.
Proof. destruct p; cbn; try done; destruct ph as [[]|]; try done; destruct (Nat.eqb r i); try done; by eexists. Qed.
Lemma attempt_visiting i p : attempt i p = true -> exists q, visiting i p = Some q.
Proof. destruct p; cbn; try done; try destruct ph as [[]|]; try done; destruct (Nat.eqb r i); try done; by eexists. Qed.

Definition GR s i r g : Prop :=
  (forall t p m, s_thr s !! t = Some p -> mods_of i p = Some m -> g.1 = 0%nat /\ (g.2 = true <-> r_upd r <> m)) /\
  ((forall t p, s_thr s !! t = Some p -> mods_of i p = None) -> r_inact r = Z.of_nat g.1 /\ (g.2 = true <-> r_upd r <> r_col r)) /\
  (forall t p, s_thr s !! t = Some p -> attempt i p = true -> c_periods c <= r_inact r).
Definition GI s (g : nat -> nat * bool) : Prop :=
  (forall i, s_recs s !! i = None -> g i = (0%nat, false)) /\
  (forall i r, s_recs s !! i = Some r -> r_live r = true -> GR s i r (g i)).

Lemma GR_frame s s' t p p' i r r' g :
  s_thr s !! t = Some p -> s_thr s' = <[t:=p']> (s_thr s) ->
  r_inact r' = r_inact r -> r_upd r' = r_upd r -> r_col r' = r_col r ->
  mods_of i p' = mods_of i p -> (attempt i p' = true -> attempt i p = true) ->
  GR s i r g -> GR s' i r' g.
Proof.
  intros Ht Et E1 E2 E3 Em Ea (G1 & G2 & G3). unfold GR. rewrite E1, E2, E3, Et. split; [|split].
  - intros t0 p0 m H0 Hm. apply lookup_insert_inv in H0 as [(<- & <- & _)|(_ & H0)]; [|by eapply G1].
    rewrite Em in Hm. by eapply G1.
  - intros N. apply G2. intros t0 p0 H0. destruct (decide (t0 = t)) as [->|Hne].
    + assert (p0 = p) by congruence. subst. rewrite <- Em. apply (N t). rewrite list_lookup_insert; [done|by eapply lookup_lt_Some].
    + apply (N t0). by rewrite list_lookup_insert_ne.
  - intros t0 p0 H0 Ha. apply lookup_insert_inv in H0 as [(<- & <- & _)|(_ & H0)]; [|by eapply G3].
    eapply G3; [exact Ht|]. by apply Ea.
Qed.
(** A step of the visiting thread: nobody else is at the record. *)
Lemma GR_visit s s' t p p' i q r' g :
  Inv s -> s_thr s !! t = Some p -> s_thr s' = <[t:=p']> (s_thr s) -> visiting i p = Some q ->
  (forall m, mods_of i p' = Some m -> g.1 = 0%nat /\ (g.2 = true <-> r_upd r' <> m)) ->
  (mods_of i p' = None -> r_inact r' = Z.of_nat g.1 /\ (g.2 = true <-> r_upd r' <> r_col r')) ->
  (attempt i p' = true -> c_periods c <= r_inact r') ->
  GR s' i r' g.
Proof.
  intros I Ht Et V H1 H2 H3.
  assert (O : forall t0 p0, t0 <> t -> s_thr s !! t0 = Some p0 -> visiting i p0 = None).
  { intros t0 p0 Hne H0. destruct (visiting i p0) as [q0|] eqn:E; [|done]. destruct Hne.
    symmetry. by eapply (visit_uniq s t p t0 p0). }
  assert (Hlt : (t < length (s_thr s))%nat) by (by eapply lookup_lt_Some).
  unfold GR. rewrite Et. split; [|split].
  - intros t0 p0 m H0 Hm. apply lookup_insert_inv in H0 as [(<- & <- & _)|(Hne & H0)]; [by apply H1|].
    destruct (mods_visiting _ _ _ Hm) as (q0 & Hq). by rewrite (O t0 p0) in Hq.
  - intros N. apply H2. apply (N t). by rewrite list_lookup_insert.
  - intros t0 p0 H0 Ha. apply lookup_insert_inv in H0 as [(<- & <- & _)|(Hne & H0)]; [by apply H3|].
    destruct (attempt_visiting _ _ Ha) as (q0 & Hq). by rewrite (O t0 p0) in Hq.
Qed.
Lemma visit_nomods s t p i q : Inv s -> s_thr s !! t = Some p -> visiting i p = Some q -> mods_of i p = None ->
  forall t0 p0, s_thr s !! t0 = Some p0 -> mods_of i p0 = None.
Proof.
  intros I Ht V E t0 p0 H0. destruct (mods_of i p0) as [m|] eqn:M; [|done]. destruct (mods_visiting _ _ _ M) as (q0 & Hq).
  assert (t0 = t) by (by eapply (visit_uniq s t0 p0 t p)). subst. congruence.
Qed.

Ltac acc_split := try match goal with S1 : _ = _ \/ exists _, _ = set_holds _ _ /\ _ |- _ =>
  destruct S1 as [->|(?k0 & -> & -> & ?F)] end.

(** What a step notes, by program counter. *)
Definition note_pc i p g : nat * bool :=
  match p with
  | PCount i' => if Nat.eqb i' i then (g.1, true) else g
  | QLoad _ i' => if Nat.eqb i' i then (if g.2 then (0%nat, false) else (S g.1, false)) else g
  | QScav _ i' false => if Nat.eqb i' i then (0%nat, false) else g
  | _ => g
  end.

Lemma same32_false (a b : Z) : same32 a b = false -> a <> b.
Proof. unfold same32. intros H ->. by rewrite Z.sub_diag in H. Qed.

Lemma GI_step s t s' p0 (g : nat -> nat * bool) : Inv s -> VA s -> nowrap s -> s_thr s !! t = Some p0 -> stepR s t s' -> GI s g ->
  GI s' (fun i => note_pc i p0 (g i)).
Proof.
  intros I HA NW H0 H (G0 & GG).
  assert (OTH : forall i i0 r0 r' s2 p p', i <> i0 -> s_thr s !! t = Some p -> s_thr s2 = <[t:=p']> (s_thr s) ->
    s_recs s !! i0 = Some r0 -> r_live r0 = true -> r' = r0 ->
    mods_of i0 p' = mods_of i0 p -> (attempt i0 p' = true -> attempt i0 p = true) -> GR s2 i0 r' (g i0)) by
    (intros i1 i0 r0 r' s2 p1 p1' _ Hp Hp' Hr0 Hl0 -> Hm Ha; eapply (GR_frame s _ t _ _ _ r0); try done; by apply GG).
  stepR_cases H; acc_split; rewrite H0 in Ht; inversion Ht; subst p0; clear Ht; cbn [note_pc].
  all: (split; [try (intros i0 Hi0; snorm; apply G0; exact Hi0)|]).
  all: try (intros i0 Hi0; snorm;
    assert (s_recs s !! i0 = None) as Hi0' by (apply lookup_ge_None; apply lookup_ge_None in Hi0; rewrite ?insert_length in Hi0; exact Hi0);
    try (destruct (Nat.eqb_spec i i0); [subst; congruence|]); apply G0; exact Hi0').
  all: try (intros i0 r0 Hr0 Hl0; snorm; eapply (GR_frame s _ t); [exact H0|snorm; reflexivity|reflexivity..|done|done|by apply GG]; fail).
  all: try (intros i0 r0 Hr0 Hl0; snorm; apply lookup_insert_inv in Hr0 as [(<- & <- & _)|(_ & Hr0)];
     [eapply (GR_frame s _ t _ _ _ r); [exact H0|snorm; reflexivity|reflexivity..|done|done|by apply GG]
     |eapply (GR_frame s _ t _ _ _ r0); [exact H0|snorm; reflexivity|reflexivity..|done|done|by apply GG]]; fail).

  - intros i0 Hi0. apply G0. apply lookup_ge_None. apply lookup_ge_None in Hi0. snorm. rewrite app_length in Hi0. lia.
  - intros i0 r0 Hr0 Hl0. snorm. apply lookup_snoc in Hr0 as [Hr0|[-> ->]].
    + eapply (GR_frame s _ t _ _ _ r0); [exact H0|snorm; reflexivity|reflexivity..|done|done|by apply GG].
    + rewrite G0 by (by apply lookup_ge_None).
      assert (NV : forall t0 p0, <[t:=PInit (length (s_recs s)) n]> (s_thr s) !! t0 = Some p0 -> visiting (length (s_recs s)) p0 = None).
      { intros t0 p0 Hp0. apply lookup_insert_inv in Hp0 as [(<- & <- & _)|(_ & Hp0)]; [done|].
        destruct (visiting _ p0) as [q|] eqn:V; [|done]. destruct (visiting_live _ _ _ _ _ I Hp0 V) as [_ (r & Hr & _)].
        apply lookup_lt_Some in Hr. lia. }
      split; [|split]; cbn.
      * intros t0 p0 m Hp0 Hm. destruct (mods_visiting _ _ _ Hm) as (q & Hq). by rewrite (NV _ _ Hp0) in Hq.
      * intros _. split; [done|]. split; done.
      * intros t0 p0 Hp0 Hm. destruct (attempt_visiting _ _ Hm) as (q & Hq). by rewrite (NV _ _ Hp0) in Hq.
  - intros i0 r0 Hr0 Hl0. snorm. destruct (Nat.eqb_spec i i0) as [<-|Hne].
    + rewrite list_lookup_insert in Hr0 by (by eapply lookup_lt_Some). inversion Hr0; subst r0. cbn in Hl0.
      destruct (GG _ _ Hr Hl0) as (G1 & G2 & G3). destruct (HA _ _ Hr) as [A1 A2]. split; [|split]; cbn.
      * intros t0 p0 m Hp0 Hm. apply lookup_insert_inv in Hp0 as [(<- & <- & _)|(_ & Hp0)]; [done|].
        destruct (G1 _ _ _ Hp0 Hm) as [G1a _]. split; [done|]. split; [|done]. intros _.
        assert (mods_on i p0 = Some m) as Hm' by (clear -Hm; destruct p0; cbn in *; try done; by destruct ph as [[]|]).
        specialize (A2 _ _ _ Hp0 Hm'). lia.
      * intros NM. destruct G2 as [G2 _].
        { intros t0 p0 Hp0. destruct (decide (t0 = t)) as [->|Hne].
          - rewrite H0 in Hp0. by inversion Hp0.
          - apply (NM t0). by rewrite list_lookup_insert_ne. }
        split; [done|]. split; [|done]. intros _. lia.
      * intros t0 p0 Hp0 Ha. apply lookup_insert_inv in Hp0 as [(<- & <- & _)|(_ & Hp0)]; [done|]. by eapply G3.
    + rewrite list_lookup_insert_ne in Hr0 by done. by eapply (OTH i).
  - intros i0 r0 Hr0 Hl0. snorm. destruct (Nat.eqb_spec i i0) as [<-|Hne].
    + rewrite list_lookup_insert in Hr0 by (by eapply lookup_lt_Some). inversion Hr0; subst r0. cbn in Hl0.
      destruct (GG _ _ Hr Hl0) as (G1 & G2 & G3). pose proof (same32_eq _ _ _ HA NW Hr Hs) as E.
      destruct G2 as [G2 G2']; [by eapply (visit_nomods s t); [done|exact H0|cbn; by rewrite Nat.eqb_refl|]|].
      assert ((g i).2 = false) as E2 by (destruct (g i).2; [|done]; by destruct G2' as [G2' _]; specialize (G2' eq_refl)).
      rewrite E2. eapply (GR_visit s _ t); [done|exact H0|snorm; reflexivity|cbn; by rewrite Nat.eqb_refl|done| |done].
      intros _. cbn. split; [lia|]. split; [done|]. done.
    + rewrite list_lookup_insert_ne in Hr0 by done. by eapply (OTH i).
  - intros i0 r0 Hr0 Hl0. snorm. destruct (Nat.eqb_spec i i0) as [<-|Hne].
    + rewrite list_lookup_insert in Hr0 by (by eapply lookup_lt_Some). inversion Hr0; subst r0. cbn in Hl0.
      destruct (GG _ _ Hr Hl0) as (G1 & G2 & G3). pose proof (same32_eq _ _ _ HA NW Hr Hs) as E.
      destruct G2 as [G2 G2']; [by eapply (visit_nomods s t); [done|exact H0|cbn; by rewrite Nat.eqb_refl|]|].
      assert ((g i).2 = false) as E2 by (destruct (g i).2; [|done]; by destruct G2' as [G2' _]; specialize (G2' eq_refl)).
      rewrite E2. eapply (GR_visit s _ t); [done|exact H0|snorm; reflexivity|cbn; by rewrite Nat.eqb_refl|done| |].
      * intros _. cbn. split; [lia|]. split; [done|]. done.
      * intros _. cbn. lia.
    + rewrite list_lookup_insert_ne in Hr0 by done. eapply (OTH i); try done. cbn. by destruct (Nat.eqb_spec i i0).
  - intros i0 r0 Hr0 Hl0. snorm. destruct (Nat.eqb_spec i i0) as [<-|Hne].
    + assert (r0 = r) by congruence. subst r0.
      destruct (GG _ _ Hr Hl0) as (G1 & G2 & G3). pose proof (same32_false _ _ Hs) as E.
      destruct G2 as [G2 G2']; [by eapply (visit_nomods s t); [done|exact H0|cbn; by rewrite Nat.eqb_refl|]|].
      rewrite (proj2 G2' E). eapply (GR_visit s _ t); [done|exact H0|snorm; reflexivity|cbn; by rewrite Nat.eqb_refl| | |done].
      * intros m. cbn. rewrite Nat.eqb_refl. intros [= <-]. done.
      * cbn. by rewrite Nat.eqb_refl.
    + eapply (OTH i); try done. cbn. by destruct (Nat.eqb_spec i i0).
  - intros i0 r0 Hr0 Hl0. snorm. destruct (Nat.eqb_spec i i0) as [<-|Hne].
    + rewrite list_lookup_insert in Hr0 by (by eapply lookup_lt_Some). inversion Hr0; subst r0. cbn in Hl0.
      pose proof (same32_eq _ _ _ HA NW Hr Hs) as E.
      eapply (GR_visit s _ t); [done|exact H0|snorm; reflexivity|cbn; by rewrite Nat.eqb_refl|done| |done].
      intros _. cbn. split; [done|]. split; [done|]. done.
    + rewrite list_lookup_insert_ne in Hr0 by done. by eapply (OTH i).
  - intros i0 Hi0. snorm. rewrite (G0 _ Hi0). destruct unm; [done|]. by destruct (Nat.eqb i i0).
  - intros i0 r0 Hr0 Hl0. snorm. destruct unm.
    + eapply (GR_frame s _ t _ _ _ r0); [exact H0|snorm; reflexivity|reflexivity..|done|done|by apply GG].
    + destruct (Nat.eqb_spec i i0) as [<-|Hne].
      * eapply (GR_visit s _ t); [done|exact H0|snorm; reflexivity|cbn; by rewrite Nat.eqb_refl| | |done].
        -- intros m. cbn. rewrite Nat.eqb_refl. intros [= <-]. split; [done|]. split; [done|]. intros Q. by destruct Q; congruence.
        -- cbn. by rewrite Nat.eqb_refl.
      * eapply (OTH i); try done. cbn. by destruct (Nat.eqb_spec i i0).
  - intros i0 r0 Hr0 Hl0. snorm. destruct (decide (i = i0)) as [<-|Hne].
    + rewrite list_lookup_insert in Hr0 by (by eapply lookup_lt_Some). inversion Hr0; subst r0. cbn in Hl0.
      destruct (GG _ _ Hr Hl0) as (G1 & _). destruct (G1 _ _ mods H0) as [G1a G1b].
      { cbn. rewrite Nat.eqb_refl. by destruct ph as [[]|]. }
      eapply (GR_visit s _ t); [done|exact H0|snorm; reflexivity|cbn; by rewrite Nat.eqb_refl|done| |done].
      intros _. cbn. rewrite G1a. split; done.
    + rewrite list_lookup_insert_ne in Hr0 by done. eapply (OTH i); try done. cbn. destruct (Nat.eqb_spec i i0); [done|]. by destruct ph as [[]|].
  - intros i0 r0 Hr0 Hl0. snorm. apply lookup_insert_inv in Hr0 as [(<- & <- & _)|(Hne & Hr0)]; [done|].
    by eapply (OTH i).
  - intros i0 r0 Hr0 Hl0. snorm. eapply (GR_frame s _ t _ _ _ r0); [exact H0|snorm; reflexivity|reflexivity..| | |by apply GG].
    + by destruct ph as [[]|].
    + by destruct ph as [[]|].
Qed.

Lemma note_pc_eq i s t ch p g : s_thr s !! t = Some p -> note i s (LStep t ch) g = note_pc i p g.
Proof. intros H. cbn. rewrite H. by destruct p. Qed.

Lemma VA_run ls s : run (init c) ls = Some s -> VA s.
Proof.
  assert (SP : forall s p, (forall i, mods_on i p = None) -> VA s -> VA (set_thr (fun l => l ++ [p]) s)).
  { intros s0 p M HA i r Hr. destruct (HA i r Hr) as [H1 H2]. split; [done|]. intros t p0 m Ht Hm. cbn in Ht.
    apply lookup_snoc in Ht as [Ht|[-> ->]]; [by eapply H2|]. by rewrite M in Hm. }
  revert ls s. apply (run_ind (fun _ s => VA s)).
  - intros i r Hr. by inversion Hr.
  - intros ls s o k n R I P _. by apply SP.
  - intros ls s rd R I P. by apply SP.
  - intros ls s t ch s' R I I' P S. exact (VA_step s t s' I S P).
Qed.

Definition noted ls i : nat * bool := track i (init c) ls (0%nat, false).
Lemma calm_prefix ls l : calm (c:=c) (ls ++ l) -> calm ls.
Proof. intros C l0 s i r Hl. apply C. by apply prefix_app_r. Qed.
Lemma calm_nowrap ls s : calm ls -> run (init c) ls = Some s -> nowrap s.
Proof. intros C R i r Hr. by eapply C. Qed.

Lemma GI_run ls s : run (init c) ls = Some s -> calm ls -> GI s (noted ls).
Proof.
  assert (SP : forall s p (g : nat -> nat * bool), (forall i, mods_of i p = None) -> (forall i, attempt i p = false) -> GI s g -> GI (set_thr (fun l => l ++ [p]) s) g).
  { intros s0 p g M1 M2 (G0 & GG). split; [done|]. intros i r Hr Hl. destruct (GG _ _ Hr Hl) as (G1 & G2 & G3). split; [|split].
    - intros t p0 m Ht Hm. cbn in Ht. apply lookup_snoc in Ht as [Ht|[-> ->]]; [by eapply G1|]. by rewrite M1 in Hm.
    - intros N. apply G2. intros t p0 Ht. apply (N t). by apply lookup_app_l_Some.
    - intros t p0 Ht Hm. cbn in Ht. apply lookup_snoc in Ht as [Ht|[-> ->]]; [by eapply G3|]. by rewrite M2 in Hm. }
  intros R C. generalize R. revert C. revert ls s R.  refine (run_ind (fun ls s => calm ls -> run (init c) ls = Some s -> GI s (noted ls)) _ _ _ _).
  - intros _ _. split; [done|]. intros i r Hr. by inversion Hr.
  - intros ls s o k n R I P Ho C _. specialize (fun C => P C R). apply calm_prefix in C.
    assert (forall i, noted (ls ++ [LObserve o k n]) i = noted ls i) as E.
    { intros i. unfold noted. rewrite (track_snoc i _ _ _ _ ltac:(by rewrite R) _ R); [done|]. cbn [step].
      by rewrite (proj2 (Nat.ltb_lt _ _) Ho). }
    assert (GI (set_thr (fun l => l ++ [PRead o k n]) s) (noted ls)) as [Q1 Q2] by (apply SP; auto).
    split; intros i; rewrite E; auto.
  - intros ls s rd R I P C _. specialize (fun C => P C R). apply calm_prefix in C.
    assert (forall i, noted (ls ++ [LCollect rd]) i = noted ls i) as E.
    { intros i. unfold noted. by rewrite (track_snoc i _ _ _ _ ltac:(by rewrite R) _ R). }
    assert (GI (set_thr (fun l => l ++ [QLock rd (seq 0 (length (c_insts c)))]) s) (noted ls)) as [Q1 Q2] by (apply SP; auto).
    split; intros i; rewrite E; auto.
  - intros ls s t ch s' R I I' P S C R'. specialize (fun C => P C R). apply calm_prefix in C.
    destruct (thr_step _ _ _ S) as (p & p' & Ht & Et & _).
    assert (GI s' (fun i => note_pc i p (noted ls i))) as [Q1 Q2].
    { refine (GI_step s t s' p _ I _ _ Ht S (P C)); [by eapply VA_run|by eapply calm_nowrap]. }
    assert (ST : step s (LStep t ch) = Some s').
    { rewrite run_app, R in R'. cbn [run] in R'. by destruct (step s (LStep t ch)). }
    assert (forall i, noted (ls ++ [LStep t ch]) i = note_pc i p (noted ls i)) as E.
    { intros i. unfold noted. rewrite (track_snoc i _ _ _ _ ltac:(by rewrite R) _ R); [|by rewrite ST]. by apply note_pc_eq. }
    split; intros i; rewrite E; [apply Q1|apply Q2].
Qed.

(** ** Eviction happens only after enough idle visits *)
Theorem evicted_after_idle ls s t ch0 s' i0 r0 r' :
  run (init c) ls = Some s -> calm ls -> step s (LStep t ch0) = Some s' ->
  s_recs s !! i0 = Some r0 -> r_live r0 = true -> s_recs s' !! i0 = Some r' -> r_live r' = false ->
  c_periods c <= Z.of_nat (idle_visits ls i0).
Proof.
  intros R C S Hr0 Hl0 Hr' Hl'. assert (I : Inv s) by (apply reachable_inv; by exists ls).
  pose proof (GI_run _ _ R C) as [_ G0]. destruct (G0 _ _ Hr0 Hl0) as (_ & G2 & G3).
  cbn [step] in S. destruct (s_thr s !! t) as [p|] eqn:Ht0; [|done]. apply (step_cases _ _ _ _ _ I Ht0) in S as H. clear S.
  stepR_cases H; acc_split; snorm; try congruence;
    try (apply lookup_insert_inv in Hr' as [(<- & <- & _)|(_ & Hr')]; cbn in Hl'; congruence);
    try (apply lookup_snoc in Hr' as [Hr'|[-> ->]]; cbn in Hl'; congruence).
  apply lookup_insert_inv in Hr' as [(<- & <- & _)|(_ & Hr')]; [|congruence].
  rewrite Ht in Ht0. inversion Ht0; subst p.
  destruct G2 as [E _].
  { eapply (visit_nomods s t); [done|exact Ht|cbn; by rewrite Nat.eqb_refl|done]. }
  unfold idle_visits. fold (noted ls i). rewrite <- E. eapply G3; [exact Ht|]. cbn. apply Nat.eqb_refl.
Qed.

(** ** An idle record without a call in flight is evicted *)
Lemma rec_step s t s' i0 r0 : stepR s t s' -> s_recs s !! i0 = Some r0 ->
  exists r', s_recs s' !! i0 = Some r' /\ (r_live r0 = false -> r_live r' = false) /\ r_inst r' = r_inst r0.
Proof.
  intros H Hr0. stepR_cases H; acc_split; snorm;
    try (exists r0; done);
    try (exists r0; split; [by apply lookup_app_l_Some|]; done);
    (destruct (decide (i = i0)) as [<-|Hne];
     [eexists; split; [rewrite list_lookup_insert by (by eapply lookup_lt_Some); reflexivity|];
      assert (r0 = r) by congruence; subst; done
     |exists r0; rewrite list_lookup_insert_ne by done; done]).
Qed.
Lemma ref_step s t s' p p' i0 : Inv s -> stepR s t s' -> s_thr s !! t = Some p -> s_thr s' !! t = Some p' ->
  (i0 < length (s_recs s))%nat -> holds_ref i0 p = false -> holds_ref i0 p' = true ->
  exists r, s_recs s !! i0 = Some r /\ s_wl s !! r_inst r = Some None.
Proof.
  intros I H Hq1 Hq1' Hi Hf Hf'. assert (t < length (s_thr s))%nat as L by (by eapply lookup_lt_Some).
  stepR_cases H; acc_split; snorm; rewrite Ht in Hq1; inversion Hq1; subst p; clear Hq1;
    rewrite list_lookup_insert in Hq1' by done; inversion Hq1'; subst p'; clear Hq1'; cbn in Hf, Hf'; try congruence.
  - apply Nat.eqb_eq in Hf'. subst. exists r. done.
  - apply Nat.eqb_eq in Hf'. subst. exists r. done.
  - apply Nat.eqb_eq in Hf'. lia.
  - destruct ph as [[]|]; done.
Qed.

Definition doomed t i p s : Prop :=
  (p = (match p with QTry q _ => QTry q i | QCas q _ => QCas q i | _ => PBad end) /\
   forall t' p', s_thr s !! t' = Some p' -> holds_ref i p' = false) \/ unmapping i p = true.
Definition JD t i s : Prop := gone s i \/ exists p, s_thr s !! t = Some p /\ doomed t i p s.

Lemma doomed_visiting t i p s : p <> PBad -> doomed t i p s -> exists q, visiting i p = Some q.
Proof.
  intros NB [[E _]|E].
  - destruct p; try done; inversion E; subst; cbn; rewrite Nat.eqb_refl; by eexists.
  - destruct p; try done; cbn in *; [destruct unm|destruct ph as [[]|]..]; try done; rewrite E; by eexists.
Qed.
Lemma unref_val s t q i r p : Inv s -> s_thr s !! t = Some p -> visiting i p = Some q -> unmapping i p = false ->
  s_recs s !! i = Some r -> r_live r = true -> (forall t' p', s_thr s !! t' = Some p' -> holds_ref i p' = false) -> r_val r = 0.
Proof.
  intros I Ht V U Hr Hl N. destruct (I_R _ _ _ _ _ I _ _ Hr) as (R1 & _). rewrite Hl in R1.
  assert (nref (s_thr s) i = 0) as E1.
  { pose proof (zsum_nonneg (fun p => b2z (holds_ref i p)) (s_thr s) (fun p _ => proj1 (b2z_range _))) as P.
    destruct (Z.eq_dec (nref (s_thr s) i) 0) as [|Ne]; [done|]. unfold nref in *.
    assert (0 < zsum (fun p => b2z (holds_ref i p)) (s_thr s)) as P' by lia.
    apply zsum_pos in P' as (t' & p' & H1 & H2). rewrite (N _ _ H1) in H2. done. }
  assert (nunm (s_thr s) i = 0) as E2; [|lia].
  pose proof (zsum_nonneg (fun p => b2z (unmapping i p)) (s_thr s) (fun p _ => proj1 (b2z_range _))) as P.
  destruct (Z.eq_dec (nunm (s_thr s) i) 0) as [|Ne]; [done|]. unfold nunm in *.
  assert (0 < zsum (fun p => b2z (unmapping i p)) (s_thr s)) as P' by lia.
  apply zsum_pos in P' as (t' & p' & H1 & H2).
  assert (unmapping i p' = true) as U' by (by destruct (unmapping i p')).
  destruct (doomed_visiting t' i p' s) as (q' & V'); [by intros ->|by right|].
  assert (t' = t) by (by eapply (visit_uniq s t' p' t p)). subst. congruence.
Qed.

Lemma JD_step s t s' t0 i0 : Inv s -> stepR s t s' -> JD t0 i0 s -> JD t0 i0 s'.
Proof.
  intros I H [(r & Hr & Hd)|(p & Hp0 & D0)].
  { destruct (rec_step _ _ _ _ _ H Hr) as (r' & Hr' & L & _). left. exists r'. auto. }
  destruct (thr_step _ _ _ H) as (p1 & p1' & Ht1 & Et & _).
  assert (exists q, visiting i0 p = Some q) as (q0 & V).
  { eapply doomed_visiting; [|exact D0]. intros ->. by pose proof (I_T _ _ _ _ _ I _ _ Hp0). }
  destruct (visiting_live _ _ _ _ _ I Hp0 V) as [W0 (r0 & Hr0 & Hl0 & Ho0)].
  destruct (decide (t = t0)) as [->|Hne].
  - destruct D0 as [[E N]|U].
    + assert (Hv0 : r_val r0 = 0).
      { refine (unref_val s t0 q0 i0 r0 p I Hp0 V _ Hr0 Hl0 N). clear -E. destruct p; done. }
      assert (NR : forall p2 t' p', holds_ref i0 p2 = false -> s_thr s' = <[t0:=p2]> (s_thr s) -> s_thr s' !! t' = Some p' -> holds_ref i0 p' = false).
      { intros p2 t' p' Hp2 E2 H'. rewrite E2 in H'. apply lookup_insert_inv in H' as [(<- & <- & _)|(_ & H')]; [done|by eapply N]. }
      assert (t0 < length (s_thr s))%nat as Lt by (by eapply lookup_lt_Some).
      stepR_cases H; acc_split; rewrite Hp0 in Ht; inversion Ht; subst p; try done; inversion E; subst i; try congruence.
      * right. exists (QCas q i0). snorm. rewrite list_lookup_insert by done. split; [done|]. left. split; [done|].
        intros t' p'. by eapply (NR (QCas q i0)).
      * right. exists (QScav q i0 true). snorm. rewrite list_lookup_insert by done. split; [done|]. right. cbn. apply Nat.eqb_refl.
    + assert (t0 < length (s_thr s))%nat as Lt by (by eapply lookup_lt_Some).
      stepR_cases H; acc_split; rewrite Hp0 in Ht; inversion Ht; subst p; try done; cbn in U; snorm;
        unfold JD; snorm.
      * destruct unm; [|done]. right. eexists. rewrite list_lookup_insert by done. split; [reflexivity|right; cbn; done].
      * right. eexists. rewrite list_lookup_insert by done. split; [reflexivity|right; cbn; done].
      * by destruct ph as [[]|].
      * apply Nat.eqb_eq in U. subst. left. eexists. snorm. rewrite list_lookup_insert by (by eapply lookup_lt_Some). done.
      * destruct ph as [[]|]; try done. right. eexists. rewrite list_lookup_insert by done. split; [reflexivity|right; cbn; done].
      * right. eexists. rewrite list_lookup_insert by done. split; [reflexivity|right; cbn; done].
  - right. exists p. rewrite Et, list_lookup_insert_ne by done. split; [done|].
    destruct D0 as [[E N]|U]; [|by right]. left. split; [done|]. intros t' p'. rewrite Et. intros H'.
    apply lookup_insert_inv in H' as [(<- & <- & _)|(_ & H')]; [|by eapply N].
    destruct (holds_ref i0 p1') eqn:HR; [|done]. exfalso.
    assert (t < length (s_thr s))%nat as Lt by (by eapply lookup_lt_Some).
    destruct (ref_step _ _ _ p1 p1' i0 I H Ht1) as (r1 & Hr1 & W1); [|by eapply lookup_lt_Some|by eapply N|done|].
    { rewrite Et. by rewrite list_lookup_insert. }
    assert (r1 = r0) by congruence. subst. rewrite Ho0 in W1.
    destruct (I_wl _ _ _ _ _ I) as (_ & L & _). specialize (L _ _ _ Hp0 W0). congruence.
Qed.

Theorem idle_evicted ls s t ch0 s1 q0 i0 :
  run (init c) ls = Some s -> calm (ls ++ [LStep t ch0]) -> 1 <= c_periods c ->
  s_thr s !! t = Some (QLoad q0 i0) -> step s (LStep t ch0) = Some s1 ->
  c_periods c <= Z.of_nat (idle_visits (ls ++ [LStep t ch0]) i0) ->
  (forall t' p, s_thr s !! t' = Some p -> uses i0 p = false) ->
  forall ls' s', run s1 ls' = Some s' ->
    gone s' i0 \/ exists p q, s_thr s' !! t = Some p /\ visiting i0 p = Some q.
Proof.
  intros R C HP Ht0 S HI N ls' s' R'. assert (I : Inv s) by (apply reachable_inv; by exists ls).
  assert (R1 : run (init c) (ls ++ [LStep t ch0]) = Some s1) by (rewrite run_app, R; cbn [run]; by rewrite S).
  assert (C0 : calm ls) by (by eapply calm_prefix).
  assert (Lt : (t < length (s_thr s))%nat) by (by eapply lookup_lt_Some).
  assert (J : JD t i0 s1).
  { destruct (visiting_live s t (QLoad q0 i0) i0 q0 I Ht0) as [W0 (r0 & Hr0 & Hl0 & Ho0)]; [cbn; by rewrite Nat.eqb_refl|].
    pose proof (GI_run _ _ R C0) as [_ G]. destruct (G _ _ Hr0 Hl0) as (_ & G2 & _).
    destruct G2 as [E1 E2].
    { eapply (visit_nomods s t); [done|exact Ht0|cbn; by rewrite Nat.eqb_refl|done]. }
    unfold idle_visits in HI. rewrite (track_snoc i0 _ _ _ _ ltac:(by rewrite R) _ R) in HI by (by rewrite S).
    rewrite (note_pc_eq _ _ _ _ _ _ Ht0) in HI. cbn [note_pc] in HI. rewrite Nat.eqb_refl in HI. fold (noted ls i0) in HI.
    assert (r_upd r0 = r_col r0 /\ c_periods c <= r_inact r0 + 1) as [EU EI].
    { destruct (noted ls i0) as [n []]; cbn in *; [lia|]. split; [|lia].
      destruct (Z.eq_dec (r_upd r0) (r_col r0)) as [|Ne]; [done|]. by destruct E2 as [_ E2]; specialize (E2 Ne). }
    right. exists (QTry q0 i0). cbn [step] in S. rewrite Ht0 in S. cbn [step_pc] in S. rewrite Hr0 in S.
    rewrite EU in S. assert (same32 (r_col r0) (r_col r0) = true) as E3 by (unfold same32; by rewrite Z.sub_diag).
    rewrite E3, (proj2 (Z.ltb_ge _ _) EI) in S. inversion S; subst s1. snorm.
    rewrite list_lookup_insert by done. split; [done|]. left. split; [done|]. intros t' p'. snorm. intros H'.
    apply lookup_insert_inv in H' as [(<- & <- & _)|(_ & H')]; [done|]. specialize (N _ _ H'). by destruct p'. }
  assert (JD t i0 s') as [G|(p & Hp & D)].
  { clear HI. assert (R2 : run (init c) ((ls ++ [LStep t ch0]) ++ ls') = Some s') by (by rewrite run_app, R1).
    refine (run_ind_from (fun _ s => JD t i0 s) _ _ R1 J _ _ _ ls' s' _).
    - intros l s0 o k n _ _ [G|(p & Hp & D)] _; [by left|]. right. exists p. snorm. split; [by apply lookup_app_l_Some|].
      destruct D as [[E D]|D]; [|by right]. left. split; [done|]. intros t' p' H'. snorm. apply lookup_snoc in H' as [H'|[-> ->]]; [by eapply D|done].
    - intros l s0 rd _ _ [G|(p & Hp & D)]; [by left|]. right. exists p. snorm. split; [by apply lookup_app_l_Some|].
      destruct D as [[E D]|D]; [|by right]. left. split; [done|]. intros t' p' H'. snorm. apply lookup_snoc in H' as [H'|[-> ->]]; [by eapply D|done].
    - intros l s0 t1 ch1 s2 _ I0 _ P S0. exact (JD_step _ _ _ _ _ I0 S0 P).
    - done. }
  - by left.
  - right. assert (I' : Inv s') by (apply reachable_inv; exists ((ls ++ [LStep t ch0]) ++ ls'); by rewrite run_app, R1).
    destruct (doomed_visiting t i0 p s') as (q & V); [|done|by exists p, q].
    intros ->. by pose proof (I_T _ _ _ _ _ I' _ _ Hp).
Qed.
End idle.
