(** Proofs for C65. *)
From Coq Require Import ZArith Bool String Lia.
From stdpp Require Import base list option strings.
From Verif Require Import Base SyncModel Attr AttrSpec AttrProofs Mem MemSpec.
Local Open Scope nat_scope.

Section mem.
Context (farm : string -> Z) (n : nat) (ignore : bool).
Implicit Types (s : mem) (x : mcall).

(** ** Cutting in place *)
Definition t1 (a : kv) : kv := (cut n a.1, truncate_value n a.2).
Lemma tv_idem v : truncate_value n (truncate_value n v) = truncate_value n v.
Proof.
  destruct v; cbn; try done; [by rewrite cut_idem|]. f_equal. rewrite map_map. apply map_ext. apply cut_idem.
Qed.
Lemma t1_idem a : t1 (t1 a) = t1 a.
Proof. unfold t1. cbn. by rewrite cut_idem, tv_idem. Qed.
Lemma truncate_t1 l : n <> 0 -> truncate n l = map t1 l.
Proof. unfold t1, truncate. intros N. by destruct n. Qed.
Lemma truncate_idem l : truncate n (truncate n l) = truncate n l.
Proof. destruct (decide (n = 0)) as [E|N]; [unfold truncate; by rewrite E|]. rewrite !truncate_t1 by done. rewrite map_map. apply map_ext. apply t1_idem. Qed.
(** [b] is [a], or [a] with some keys and values cut. *)
Definition le (a b : kv) : Prop := (b.1 = a.1 \/ b.1 = cut n a.1) /\ (b.2 = a.2 \/ b.2 = truncate_value n a.2).
Definition lea (a b : list kv) : Prop := b = a \/ n <> 0 /\ Forall2 le a b.
Lemma le_refl a : le a a.
Proof. split; by left. Qed.
Lemma lea_refl a : lea a a.
Proof. by left. Qed.
Lemma le_trans a b d : le a b -> le b d -> le a d.
Proof.
  destruct a as [k v], b as [k' v'], d as [k'' v'']. intros [A B] [C D]; cbn in *. split; cbn.
  - destruct A as [->| ->], C as [->| ->]; rewrite ?cut_idem; auto.
  - destruct B as [->| ->], D as [->| ->]; rewrite ?tv_idem; auto.
Qed.
Lemma le_t1 a b : le a b -> t1 b = t1 a.
Proof. destruct a as [k v], b as [k' v']. intros [[E|E] [F|F]]; cbn in *; subst; unfold t1; cbn; by rewrite ?cut_idem, ?tv_idem. Qed.
Lemma le_key a b : le a b -> cut n a.1 = a.1 -> b.1 = a.1.
Proof. intros [[E|E] _] F; congruence. Qed.
Lemma le_fixed a b : le a b -> t1 a = a -> b = a.
Proof. destruct a as [k v], b as [k' v']. intros [[E|E] [F|F]] G; cbn in *; subst; unfold t1 in G; cbn in G; congruence. Qed.
Lemma lea_trunc a b : lea a b -> truncate n b = truncate n a.
Proof.
  intros [->|[N F]]; [done|]. rewrite !truncate_t1 by done. induction F as [|x y a b L F IH]; [done|]. cbn. by rewrite (le_t1 _ _ L), IH.
Qed.
Lemma lea_settled a b : lea a b -> truncate n a = a -> b = a.
Proof.
  intros [->|[N F]] E; [done|]. rewrite truncate_t1 in E by done. induction F as [|x y a b L F IH]; [done|]. cbn in E. injection E as E1 E2.
  f_equal; [by apply le_fixed|by apply IH].
Qed.
Lemma lea_lookup a b i y : lea a b -> b !! i = Some y -> exists z, a !! i = Some z /\ le z y.
Proof. intros [->|[_ F]] E; [exists y; split; [done|apply le_refl]|]. by apply (Forall2_lookup_r _ _ _ _ _ F) in E as (z & Hz & L); exists z. Qed.
Lemma lea_alter a i f : n <> 0 -> (forall y, a !! i = Some y -> le y (f y)) -> lea a (alter f i a).
Proof.
  intros N L. right. split; [done|]. apply Forall2_same_length_lookup. rewrite alter_length. split; [done|]. intros j x y Hx Hy.
  destruct (decide (j = i)) as [->|D].
  - rewrite list_lookup_alter, Hx in Hy. cbn in Hy. injection Hy as <-. by apply L.
  - rewrite list_lookup_alter_ne in Hy by done. assert (x = y) as -> by congruence. apply le_refl.
Qed.

(** ** The invariant *)
Definition want x : list kv := if c_over x then overflow_attrs else truncate n (c_given x).
Definition settled s x : Prop := array s (c_arr x) = truncate n (c_given x).
Definition cutting s x (i : nat) : Prop :=
  n <> 0 /\ c_over x = false /\ truncate n (array s (c_arr x)) = truncate n (c_given x) /\ forall j a, j < i -> array s (c_arr x) !! j = Some a -> t1 a = a.
Definition val s (y : mrec) : list kv := match r_set y with Some l => l | None => contents s (r_held y) end.
Definition good_rec x (y : mrec) (l : list kv) : Prop :=
  r_inst y = c_inst x /\ if ignore then r_fp y = fingerprint farm (want x) else canon l = canon (want x).
Definition callok s x : Prop :=
  c_arr x < length (m_heap s) /\
  match c_place x with
  | Trunc i => cutting s x i
  | TruncKey i a => cutting s x i /\ forall b, array s (c_arr x) !! i = Some b -> le a b
  | TruncValue i a => cutting s x i /\ forall b, array s (c_arr x) !! i = Some b -> le a b /\ cut n b.1 = b.1
  | Print i fp => settled s x /\ c_over x = false /\ fp = fingerprint farm (take i (truncate n (c_given x)))
  | Look fp => settled s x /\ c_over x = false /\ fp = fingerprint farm (want x)
  | Make fp => settled s x /\ fp = fingerprint farm (want x)
  | Put fp l => settled s x /\ fp = fingerprint farm (want x) /\ (l = Kept (want x) /\ (ignore = false \/ c_over x = true) \/ ignore = true /\ c_over x = false /\ l = Lent (c_arr x))
  | Init r => settled s x /\ exists y, m_recs s !! r = Some y /\ good_rec x y (val s y)
  | Returned r => exists y l, m_recs s !! r = Some y /\ r_set y = Some l /\ good_rec x y l
  end.
Definition recok s (r : nat) (y : mrec) : Prop :=
  r_fp y = fingerprint farm (val s y) /\
  match r_set y, r_held y with
  | None, Kept _ => True
  | None, Lent a => ignore = true /\ exists c x, m_calls s !! c = Some x /\ c_place x = Init r /\ c_arr x = a /\ c_over x = false
  | Some l, Kept l' => ignore = false /\ l = l'
  | Some _, Dropped => ignore = true
  | _, _ => False
  end.
Definition inv s : Prop :=
  length (m_user s) = length (m_heap s) /\ (forall r, r ∈ m_map s -> r < length (m_recs s)) /\
  (forall r y, m_recs s !! r = Some y -> recok s r y) /\ (forall c x, m_calls s !! c = Some x -> callok s x).

(** ** What other steps leave as it is *)
Definition busy s (a : nat) : Prop := exists c x, m_calls s !! c = Some x /\ in_flight x = true /\ c_arr x = a.
Record grows s s' : Prop := Grows {
  g_len : length (m_heap s) <= length (m_heap s');
  g_heap a : a < length (m_heap s) -> busy s a -> lea (array s a) (array s' a);
  g_recs r y : m_recs s !! r = Some y -> exists y', m_recs s' !! r = Some y' /\ r_inst y' = r_inst y /\ r_fp y' = r_fp y /\ val s' y' = val s y /\ (r_set y <> None -> y' = y) }.
Lemma callok_grows s s' c x : grows s s' -> m_calls s !! c = Some x -> callok s x -> callok s' x.
Proof.
  intros G Hc [L C]. assert (L' : c_arr x < length (m_heap s')) by (pose proof (g_len _ _ G); lia). split; [done|].
  destruct (in_flight x) eqn:F.
  - assert (A : lea (array s (c_arr x)) (array s' (c_arr x))) by (apply (g_heap _ _ G); [done|by exists c, x]).
    assert (S : settled s x -> settled s' x).
    { unfold settled. intros E. rewrite <- E. apply lea_settled; [done|]. by rewrite E, truncate_idem. }
    assert (Q : forall i, cutting s x i -> cutting s' x i).
    { intros i (N & O & T & B). split; [done|]. split; [done|]. split; [by rewrite (lea_trunc _ _ A)|]. intros j b Hj Hb.
      destruct (lea_lookup _ _ _ _ A Hb) as (b0 & H0 & Le). specialize (B j b0 Hj H0). by rewrite (le_fixed _ _ Le B). }
    destruct (c_place x) as [i|i a|i a|i fp|fp|fp|fp l|r|r] eqn:P; [auto|..].
    + destruct C as [C1 C2]. split; [auto|]. intros b Hb. destruct (lea_lookup _ _ _ _ A Hb) as (b0 & H0 & Le). by apply (le_trans _ b0); auto.
    + destruct C as (C1 & C2). split; [auto|]. intros b Hb. destruct (lea_lookup _ _ _ _ A Hb) as (b0 & H0 & Le).
      destruct (C2 _ H0) as [C3 C4]. split; [by apply (le_trans _ b0)|]. by rewrite (le_key _ _ Le C4).
    + destruct C as (C1 & C2 & C3). auto.
    + destruct C as (C1 & C2 & C3). auto.
    + destruct C as (C1 & C2). auto.
    + destruct C as (C1 & C2 & C3). auto.
    + destruct C as (C1 & y & Hy & I & V). split; [auto|]. destruct (g_recs _ _ G r y Hy) as (y' & Hy' & I' & F' & V' & _). exists y'. split; [done|].
      split; [congruence|]. by rewrite F', V'.
    + unfold in_flight in F. by rewrite P in F.
  - unfold in_flight in F. destruct (c_place x) as [i|i a|i a|i fp|fp|fp|fp l|r|r]; try done. destruct C as (y & l & Hy & Hl & I & V).
    destruct (g_recs _ _ G r y Hy) as (y' & Hy' & _ & _ & _ & K). rewrite (K (ltac:(congruence))) in Hy'. exists y, l. done.
Qed.
Lemma grows_same_recs s s' : inv s -> m_recs s' = m_recs s -> length (m_heap s) <= length (m_heap s') ->
  (forall a, a < length (m_heap s) -> busy s a -> lea (array s a) (array s' a)) -> grows s s'.
Proof.
  intros (_ & _ & R & C) E L A. split; [done|done|]. intros r y Hy. exists y. rewrite E. split; [done|]. split; [done|]. split; [done|]. split; [|done].
  unfold val. destruct (r_set y) eqn:S; [done|]. destruct (R r y Hy) as [_ K]. rewrite S in K. destruct (r_held y) as [l|a|]; [done| |done]. cbn.
  destruct K as (_ & c & x & Hc & P & <- & _). destruct (C _ _ Hc) as [L1 C1]. rewrite P in C1. destruct C1 as [T _]. unfold settled in T.
  assert (X : lea (array s (c_arr x)) (array s' (c_arr x))). { apply A; [done|]. exists c, x. split; [done|]. split; [|done]. unfold in_flight. by rewrite P. }
  apply (lea_settled _ _ X). by rewrite T, truncate_idem.
Qed.
(** A step that leaves the records as they are and changes only the place of call [c]. *)
Lemma step_call s s' c x x' : inv s -> m_calls s !! c = Some x -> in_flight x = true -> m_calls s' = <[c := x']> (m_calls s) -> c_arr x' = c_arr x ->
  (forall r, c_place x <> Init r) -> m_user s' = m_user s -> m_map s' = m_map s -> m_recs s' = m_recs s -> length (m_heap s') = length (m_heap s) ->
  (forall a, a < length (m_heap s) -> lea (array s a) (array s' a)) -> callok s' x' -> inv s'.
Proof.
  intros I Hc F Ec Ea NI Eu Em Er El A K. pose proof (grows_same_recs s s' I Er ltac:(lia) ltac:(auto)) as G. pose proof I as (I1 & I2 & I3 & I4).
  split; [by rewrite Eu, El|]. split; [intros r Hr; rewrite Er; apply I2; by rewrite <- Em|]. split.
  - intros r y Hy. rewrite Er in Hy. destruct (I3 r y Hy) as [V P]. destruct (g_recs _ _ G r y Hy) as (y' & Hy' & _ & _ & V' & _).
    assert (y' = y) as -> by congruence. split; [by rewrite V'|]. destruct (r_set y), (r_held y); try done. destruct P as (Ig & d & z & Hd & Pd & Ad & Od).
    split; [done|]. exists d, z. rewrite Ec, list_lookup_insert_ne; [done|]. intros ->. rewrite Hc in Hd. injection Hd as <-. by apply (NI r).
  - intros d z Hd. rewrite Ec in Hd. apply list_lookup_insert_Some in Hd as [(<- & <- & _)|[N Hd]]; [done|]. exact (callok_grows s s' d z G Hd (I4 d z Hd)).
Qed.

(** ** Lookups *)
Lemma find_rec_Some s inst fp eq r : inv s -> find_rec ignore s inst fp eq = Some r ->
  exists y, m_recs s !! r = Some y /\ r_inst y = inst /\ r_fp y = fp /\ (ignore = true \/ eq (val s y) = true).
Proof.
  intros (_ & _ & R & _) E. apply List.find_some in E as [_ E]. destruct (m_recs s !! r) as [y|] eqn:Hy; [|done]. exists y. split; [done|].
  apply andb_prop in E as [E Eq]. apply andb_prop in E as [E1 E2]. split; [by apply Nat.eqb_eq|]. split; [by apply Z.eqb_eq|].
  apply orb_prop in Eq as [Eq|Eq]; [by left|]. destruct (Bool.bool_dec ignore true) as [Ig|Ig]; [by left|right]. destruct (R r y Hy) as [_ K]. unfold val.
  destruct (r_set y), (r_held y); try done; [by destruct K as [_ ->]].
Qed.
Lemma array_alter s a f b : array (set_heap s (alter f a (m_heap s))) b = if bool_decide (b = a) then match m_heap s !! a with Some l => f l | None => [] end else array s b.
Proof.
  unfold array, set_heap. cbn [m_heap]. case_bool_decide as D.
  - subst b. rewrite list_lookup_alter. by destruct (m_heap s !! a).
  - by rewrite list_lookup_alter_ne.
Qed.
Lemma fp_snoc l a : fingerprint farm (l ++ [a]) = u64 (fingerprint farm l + mix (farm a.1) (fp_value farm a.2)).
Proof. unfold fingerprint. by rewrite fold_left_app. Qed.
Lemma fp_nil : fingerprint farm [] = 0%Z.
Proof. done. Qed.

Ltac placed Hc F := eapply (step_call _ _ _ _ _ _ Hc F); [reflexivity|reflexivity|let r := fresh in intros r; congruence|reflexivity|reflexivity|reflexivity|..].

Lemma inv_go s c over s' : inv s -> go farm n ignore s c over = Some s' -> inv s'.
Proof.
  intros I. pose proof I as (I1 & I2 & I3 & I4). unfold go. destruct (m_calls s !! c) as [x|] eqn:Hc; [|done]. cbn [mbind option_bind].
  pose proof (I4 c x Hc) as [L C]. destruct (c_place x) as [i|i a|i a|i fp|fp|fp|fp l|r|r] eqn:P.
  - (* Trunc *) assert (F : in_flight x = true) by (unfold in_flight; by rewrite P). destruct C as (N & O & T & B).
    destruct (array s (c_arr x) !! i) as [a|] eqn:Ha; intros E; apply (inj Some) in E; subst s'.
    + eapply (step_call s _ c x); [done|done|done|reflexivity|reflexivity|congruence|reflexivity|reflexivity|reflexivity|reflexivity|intros b _; apply lea_refl|].
      split; [done|]. split; [done|]. intros b Hb. change (array s (c_arr x) !! i = Some b) in Hb. assert (a = b) as -> by congruence. apply le_refl.
    + eapply (step_call s _ c x); [done|done|done|reflexivity|reflexivity|congruence|reflexivity|reflexivity|reflexivity|reflexivity|intros b _; apply lea_refl|].
      split; [done|]. split; [|done]. unfold settled. cbn [c_given c_arr]. rewrite <- T. change (array (set_place s c x (Print 0 0)) (c_arr x)) with (array s (c_arr x)).
      rewrite truncate_t1 by done. symmetry. apply list_eq. intros j. change (map t1) with (fmap (M := list) t1). rewrite list_lookup_fmap.
      destruct (array s (c_arr x) !! j) as [a|] eqn:Hj; [|done]. cbn. f_equal. apply (B j); [|done]. apply lookup_ge_None in Ha. apply lookup_lt_Some in Hj. lia.
  - (* TruncKey *) assert (F : in_flight x = true) by (unfold in_flight; by rewrite P). destruct C as ((N & O & T & B) & D).
    intros E; apply (inj Some) in E; subst s'. set (h := if _ <? _ then _ else _).
    assert (Hl : length h = length (m_heap s)) by (unfold h; destruct (_ <? _); [apply alter_length|done]).
    destruct (lookup_lt_is_Some_2 _ _ L) as [la Hla].
    assert (Ela : array s (c_arr x) = la) by (unfold array; by rewrite Hla). rewrite Ela in D.
    assert (A : forall b, lea (array s b) (array (set_heap s h) b)).
    { intros b. unfold h. destruct (Nat.ltb_spec n (String.length a.1)) as [Hlt|Hge]; [|apply lea_refl]. rewrite array_alter. case_bool_decide as Db; [|apply lea_refl]. subst b.
      rewrite Hla, Ela. apply lea_alter; [done|]. intros y Hy. split; [right|by left]. cbn. pose proof (le_t1 _ _ (D _ Hy)) as Et. unfold t1 in Et. by injection Et. }
    eapply (step_call s _ c x); [done|done|done|reflexivity|reflexivity|congruence|reflexivity|reflexivity|reflexivity|exact Hl|intros b _; exact (A b)|].
    pose proof (A (c_arr x)) as Ax. split; [cbn; by rewrite Hl|]. cbn [c_place c_given]. split.
    + split; [done|]. split; [done|]. split; [exact (eq_trans (lea_trunc _ _ Ax) T)|]. intros j b Hj Hb.
      destruct (lea_lookup _ _ _ _ Ax Hb) as (b0 & H0 & Le). specialize (B j b0 Hj H0). by rewrite (le_fixed _ _ Le B).
    + cbn [c_arr]. intros b Hb. change (array (set_heap s h) (c_arr x) !! i = Some b) in Hb.
      assert (Lb : le a b). { destruct (lea_lookup _ _ _ _ Ax Hb) as (b0 & H0 & Le). rewrite Ela in H0. by apply (le_trans _ b0); auto. }
      split; [done|]. unfold h in Hb. destruct (Nat.ltb_spec n (String.length a.1)) as [Hlt|Hge].
      * rewrite array_alter, bool_decide_true, Hla, list_lookup_alter in Hb by done. destruct (la !! i) as [b0|] eqn:H0; [|done]. cbn in Hb. injection Hb as <-. cbn. apply cut_idem.
      * pose proof (cut_id n a.1 Hge) as Ec. by rewrite (le_key _ _ Lb Ec).
  - (* TruncValue *) assert (F : in_flight x = true) by (unfold in_flight; by rewrite P). destruct C as ((N & O & T & B) & D).
    intros E; apply (inj Some) in E; subst s'. set (h := if bool_decide _ then _ else _).
    assert (Hl : length h = length (m_heap s)) by (unfold h; case_bool_decide; [done|apply alter_length]).
    destruct (lookup_lt_is_Some_2 _ _ L) as [la Hla].
    assert (Ela : array s (c_arr x) = la) by (unfold array; by rewrite Hla). rewrite Ela in D.
    assert (A : forall b, lea (array s b) (array (set_heap s h) b)).
    { intros b. unfold h. case_bool_decide as Dv; [apply lea_refl|]. rewrite array_alter. case_bool_decide as Db; [|apply lea_refl]. subst b.
      rewrite Hla, Ela. apply lea_alter; [done|]. intros y Hy. split; [by left|right]. cbn. pose proof (le_t1 _ _ (proj1 (D _ Hy))) as Et. unfold t1 in Et. by injection Et. }
    eapply (step_call s _ c x); [done|done|done|reflexivity|reflexivity|congruence|reflexivity|reflexivity|reflexivity|exact Hl|intros b _; exact (A b)|].
    pose proof (A (c_arr x)) as Ax. split; [cbn; by rewrite Hl|]. cbn [c_place c_given].
    split; [done|]. split; [done|]. split; [exact (eq_trans (lea_trunc _ _ Ax) T)|]. intros j b Hj Hb. cbn [c_arr] in Hb. change (array (set_heap s h) (c_arr x) !! j = Some b) in Hb.
    destruct (lea_lookup _ _ _ _ Ax Hb) as (b0 & H0 & Le). destruct (decide (j = i)) as [->|Dj].
    + rewrite Ela in H0. destruct (D _ H0) as [D1 D2]. pose proof (le_trans _ _ _ D1 Le) as Lb. unfold t1.
      rewrite (surjective_pairing b). cbn. f_equal; [by rewrite (le_key _ _ Le D2)|]. unfold h in Hb. case_bool_decide as Dv.
      * destruct Lb as [_ [Eb|Eb]]; rewrite Eb; [done|apply tv_idem].
      * rewrite array_alter, bool_decide_true, Hla, list_lookup_alter, H0 in Hb by done. cbn in Hb. injection Hb as <-. cbn. apply tv_idem.
    + specialize (B j b0 ltac:(lia) H0). by rewrite (le_fixed _ _ Le B).
  - (* Print *) assert (F : in_flight x = true) by (unfold in_flight; by rewrite P). destruct C as (T & O & Ef). unfold settled in T.
    destruct (array s (c_arr x) !! i) as [a|] eqn:Ha; intros E; apply (inj Some) in E; subst s'.
    + eapply (step_call s _ c x); [done|done|done|reflexivity|reflexivity|congruence|reflexivity|reflexivity|reflexivity|reflexivity|intros b _; apply lea_refl|].
      split; [done|]. split; [done|]. split; [done|]. cbn [c_given]. rewrite T in Ha. rewrite (take_S_r _ _ _ Ha), fp_snoc. by rewrite Ef.
    + eapply (step_call s _ c x); [done|done|done|reflexivity|reflexivity|congruence|reflexivity|reflexivity|reflexivity|reflexivity|intros b _; apply lea_refl|].
      split; [done|]. split; [done|]. split; [done|]. unfold want. cbn [c_given c_over]. rewrite O, Ef. f_equal. apply take_ge. rewrite T in Ha. by apply lookup_ge_None.
  - (* Look *) assert (F : in_flight x = true) by (unfold in_flight; by rewrite P). destruct C as (T & O & Ef). unfold settled in T.
    destruct (find_rec ignore s (c_inst x) fp _) as [r|] eqn:Hf.
    + intros E; apply (inj Some) in E; subst s'. destruct (find_rec_Some _ _ _ _ _ I Hf) as (y & Hy & Yi & Yf & Yq).
      eapply (step_call s _ c x); [done|done|done|reflexivity|reflexivity|congruence|reflexivity|reflexivity|reflexivity|reflexivity|intros b _; apply lea_refl|].
      split; [done|]. split; [done|]. exists y. split; [done|]. split; [done|]. unfold want in *. cbn [c_over c_given]. rewrite O in *.
      destruct ignore; [congruence|]. destruct Yq as [?|Yq]; [done|]. apply equal_canon in Yq. rewrite T in Yq. by symmetry.
    + destruct over.
      * destruct (find_rec ignore s (c_inst x) (fingerprint farm overflow_attrs) _) as [r|] eqn:Hg; intros E; apply (inj Some) in E; subst s'.
        -- destruct (find_rec_Some _ _ _ _ _ I Hg) as (y & Hy & Yi & Yf & Yq).
           eapply (step_call s _ c x); [done|done|done|reflexivity|reflexivity|congruence|reflexivity|reflexivity|reflexivity|reflexivity|intros b _; apply lea_refl|].
           split; [done|]. split; [done|]. exists y. split; [done|]. split; [done|]. unfold want. cbn [c_over c_given].
           destruct ignore; [done|]. destruct Yq as [?|Yq]; [done|]. apply equal_canon in Yq. symmetry. exact Yq.
        -- eapply (step_call s _ c x); [done|done|done|reflexivity|reflexivity|congruence|reflexivity|reflexivity|reflexivity|reflexivity|intros b _; apply lea_refl|].
           split; [done|]. split; [done|]. done.
      * intros E; apply (inj Some) in E; subst s'.
        eapply (step_call s _ c x); [done|done|done|reflexivity|reflexivity|congruence|reflexivity|reflexivity|reflexivity|reflexivity|intros b _; apply lea_refl|].
        split; [done|]. split; [done|]. exact Ef.
  - (* Make *) assert (F : in_flight x = true) by (unfold in_flight; by rewrite P). destruct C as (T & Ef). intros E; apply (inj Some) in E; subst s'.
    eapply (step_call s _ c x); [done|done|done|reflexivity|reflexivity|congruence|reflexivity|reflexivity|reflexivity|reflexivity|intros b _; apply lea_refl|].
    split; [done|]. split; [done|]. split; [exact Ef|]. unfold want. cbn [c_over c_given c_arr]. unfold settled in T. destruct (c_over x); [left; auto|].
    destruct ignore; [by right|left]. rewrite T. auto.
  - (* Put *) assert (F : in_flight x = true) by (unfold in_flight; by rewrite P). destruct C as (T & Ef & Hk).
    assert (Q : contents s l = want x). { destruct Hk as [[-> _]|(_ & O & ->)]; [done|]. cbn. unfold want. rewrite O. exact T. }
    destruct (find_rec ignore s (c_inst x) fp _) as [r|] eqn:Hf; intros E; apply (inj Some) in E; subst s'.
    + destruct (find_rec_Some _ _ _ _ _ I Hf) as (y & Hy & Yi & Yf & Yq).
      eapply (step_call s _ c x); [done|done|done|reflexivity|reflexivity|congruence|reflexivity|reflexivity|reflexivity|reflexivity|intros b _; apply lea_refl|].
      split; [done|]. split; [done|]. exists y. split; [done|]. split; [done|]. change (want (MCall (c_inst x) (c_arr x) (c_given x) (c_over x) (Init r))) with (want x).
      destruct ignore; [congruence|]. destruct Yq as [?|Yq]; [done|]. apply equal_canon in Yq. rewrite Q in Yq. exact Yq.
    + set (r := length (m_recs s)). set (x' := MCall (c_inst x) (c_arr x) (c_given x) (c_over x) (Init r)).
      set (s' := set_place _ c x (Init r)). assert (Hc' : m_calls s' = <[c := x']> (m_calls s)) by done.
      assert (G : grows s s').
      { split; [done|intros; apply lea_refl|]. intros q y Hy. exists y. split; [cbn; by apply lookup_app_l_Some|]. done. }
      pose proof (lookup_lt_Some _ _ _ Hc) as Lc.
      split; [done|]. split; [|split].
      * intros q Hq. cbn in Hq. cbn. rewrite app_length. cbn. apply elem_of_cons in Hq as [->|Hq]; [unfold r; lia|]. specialize (I2 _ Hq). lia.
      * intros q y Hy. cbn in Hy. apply lookup_app_Some in Hy as [Hy|[Hq Hy]].
        -- destruct (I3 q y Hy) as [V K]. split; [exact V|]. destruct (r_set y), (r_held y); try done. destruct K as (Ig & d & z & Hd & Pd & Ad & Od).
           split; [done|]. exists d, z. rewrite Hc', list_lookup_insert_ne; [done|]. intros ->. congruence.
        -- apply list_lookup_singleton_Some in Hy as [Eq <-]. split; [unfold val; cbn; change (contents s' l) with (contents s l); by rewrite Q|]. cbn [r_set r_held].
           destruct Hk as [[-> _]|(Ig & O & ->)]; [done|]. split; [done|]. exists c, x'. rewrite Hc', list_lookup_insert by done. split; [done|].
           assert (q = r) as -> by (unfold r in *; lia). done.
      * intros d z Hd. rewrite Hc' in Hd. apply list_lookup_insert_Some in Hd as [(<- & <- & _)|[N Hd]]; [|exact (callok_grows s s' d z G Hd (I4 d z Hd))].
        split; [done|]. split; [exact T|]. exists (MRec (c_inst x) fp l None). split; [cbn; unfold r; by rewrite list_lookup_middle|]. split; [done|].
        change (want x') with (want x). cbn [r_fp]. change (val s' (MRec (c_inst x) fp l None)) with (contents s l). rewrite Q. by destruct ignore.
  - (* Init *) destruct C as (T & y & Hy & Gi & Gv). rewrite Hy. cbn [mbind option_bind]. pose proof (lookup_lt_Some _ _ _ Hc) as Lc. pose proof (lookup_lt_Some _ _ _ Hy) as Lr.
    destruct (I3 r y Hy) as [Fy Ky]. destruct (r_set y) as [l|] eqn:Sy; intros E; apply (inj Some) in E; subst s'.
    + set (x' := MCall (c_inst x) (c_arr x) (c_given x) (c_over x) (Returned r)). set (s' := set_place s c x (Returned r)).
      assert (Hc' : m_calls s' = <[c := x']> (m_calls s)) by done.
      assert (G : grows s s') by (apply grows_same_recs; [done|done|done|intros; apply lea_refl]).
      split; [done|]. split; [done|]. split.
      * intros q z Hz. change (m_recs s !! q = Some z) in Hz. destruct (I3 q z Hz) as [V K]. split; [exact V|]. destruct (r_set z) eqn:Sz, (r_held z); try done.
        destruct K as (Ig & d & w & Hd & Pd & Ad & Od). split; [done|]. exists d, w. rewrite Hc', list_lookup_insert_ne; [done|]. intros ->.
        rewrite Hc in Hd. injection Hd as <-. rewrite P in Pd. injection Pd as ->. congruence.
      * intros d z Hd. rewrite Hc' in Hd. apply list_lookup_insert_Some in Hd as [(<- & <- & _)|[N Hd]]; [|exact (callok_grows s s' d z G Hd (I4 d z Hd))].
        split; [done|]. exists y, l. split; [done|]. split; [done|]. split; [done|]. unfold val in Gv. by rewrite Sy in Gv.
    + set (y' := MRec _ _ _ _). set (x' := MCall (c_inst x) (c_arr x) (c_given x) (c_over x) (Returned r)). set (s' := set_place _ c x (Returned r)).
      assert (Hc' : m_calls s' = <[c := x']> (m_calls s)) by done. assert (Hr' : m_recs s' = <[r := y']> (m_recs s)) by done.
      assert (Vy : val s y = contents s (r_held y)) by (unfold val; by rewrite Sy).
      assert (G : grows s s').
      { split; [done|intros; apply lea_refl|]. intros q z Hz. rewrite Hr'. destruct (decide (q = r)) as [->|Dq].
        - exists y'. rewrite list_lookup_insert by done. assert (z = y) as -> by congruence. split; [done|]. split; [done|]. split; [done|]. split; [by rewrite Vy|congruence].
        - exists z. rewrite list_lookup_insert_ne by done. done. }
      split; [done|]. split; [intros q Hq; rewrite Hr', insert_length; by apply I2|]. split.
      * intros q z Hz. rewrite Hr' in Hz. apply list_lookup_insert_Some in Hz as [(<- & <- & _)|[Nq Hz]].
        -- split; [cbn; by rewrite Fy, Vy|]. cbn. destruct ignore eqn:Ig; [done|]. destruct (r_held y) as [k|a|]; [done| |done]. by destruct Ky as [? _].
        -- destruct (I3 q z Hz) as [V K]. split; [exact V|]. destruct (r_set z) eqn:Sz, (r_held z); try done.
           destruct K as (Ig & d & w & Hd & Pd & Ad & Od). split; [done|]. exists d, w. rewrite Hc', list_lookup_insert_ne; [done|]. intros ->. congruence.
      * intros d z Hd. rewrite Hc' in Hd. apply list_lookup_insert_Some in Hd as [(<- & <- & _)|[N Hd]]; [|exact (callok_grows s s' d z G Hd (I4 d z Hd))].
        split; [done|]. exists y', (contents s (r_held y)). rewrite Hr', list_lookup_insert by done. split; [done|]. split; [done|]. split; [done|].
        change (want x') with (want x). rewrite Vy in Gv. exact Gv.
  - done.
Qed.

Lemma inv_start s a l' u x : inv s -> (exists e, m_heap s ++ e = l' /\ length u = length (m_user s) + length e) -> c_arr x < length l' -> array (Mem l' u (m_recs s) (m_map s) (m_calls s)) (c_arr x) = c_given x ->
  c_over x = false -> c_place x = first_place n -> a = x -> inv (Mem l' u (m_recs s) (m_map s) (m_calls s ++ [x])).
Proof.
  intros I (e & <- & Lu) L A O P _. pose proof I as (I1 & I2 & I3 & I4). set (s' := Mem _ _ _ _ _).
  assert (G : grows s s').
  { apply grows_same_recs; [done|done|cbn; rewrite app_length; lia|]. intros b Hb _. left. unfold array. cbn. by rewrite lookup_app_l. }
  split; [cbn; rewrite app_length; lia|]. split; [done|]. split.
  - intros q z Hz. change (m_recs s !! q = Some z) in Hz. destruct (I3 q z Hz) as [V K]. destruct (g_recs _ _ G q z Hz) as (z' & Hz' & _ & _ & V' & _).
    change (m_recs s !! q = Some z') in Hz'. assert (z' = z) as -> by congruence. split; [by rewrite V'|]. destruct (r_set z) eqn:Sz, (r_held z); try done.
    destruct K as (Ig & d & w & Hd & K). split; [done|]. exists d, w. split; [cbn; by apply lookup_app_l_Some|done].
  - intros d z Hd. cbn in Hd. apply lookup_app_Some in Hd as [Hd|[_ Hd]]; [exact (callok_grows s s' d z G Hd (I4 d z Hd))|]. apply list_lookup_singleton_Some in Hd as [_ <-].
    split; [done|]. change (array (Mem (m_heap s ++ e) u (m_recs s) (m_map s) (m_calls s)) (c_arr x)) with (array s' (c_arr x)) in A. rewrite P. unfold first_place. destruct (decide (n = 0)) as [N|N].
    + assert (Q : (match n with 0 => Print 0 0 | S _ => Trunc 0 end) = Print 0 0) by (by rewrite N). rewrite Q. split; [unfold settled; rewrite A, N; done|]. done.
    + assert (Q : (match n with 0 => Print 0 0 | S _ => Trunc 0 end) = Trunc 0) by (by destruct n). rewrite Q. split; [done|]. split; [done|]. split; [by rewrite A|]. intros j b Hj. lia.
Qed.
Lemma inv_step s a s' : inv s -> mstep farm n ignore s a = Some s' -> inv s'.
Proof.
  intros I E. pose proof I as (I1 & I2 & I3 & I4). destruct a as [l|b i v|inst b|inst opts|c over|r]; cbn in E.
  - injection E as <-. set (s' := Mem _ _ _ _ _).
    assert (G : grows s s').
    { apply grows_same_recs; [done|done|cbn; rewrite app_length; lia|]. intros b Hb _. left. unfold array. cbn. by rewrite lookup_app_l. }
    split; [cbn; rewrite !app_length; cbn; lia|]. split; [done|]. split.
    + intros q z Hz. change (m_recs s !! q = Some z) in Hz. destruct (I3 q z Hz) as [V K]. destruct (g_recs _ _ G q z Hz) as (z' & Hz' & _ & _ & V' & _).
      change (m_recs s !! q = Some z') in Hz'. assert (z' = z) as -> by congruence. split; [by rewrite V'|done].
    + intros d z Hd. exact (callok_grows s s' d z G Hd (I4 d z Hd)).
  - destruct (m_user s !! b) as [[|]|] eqn:U; try done. destruct (existsb _ (m_calls s)) eqn:X; [done|]. injection E as <-. set (s' := set_heap s _).
    assert (G : grows s s').
    { apply grows_same_recs; [done|done|cbn; by rewrite alter_length|]. intros d Hd (c & x & Hc & Fx & <-). left. unfold s'. rewrite array_alter. case_bool_decide as D; [|done].
      exfalso. assert (Y : existsb (fun c => in_flight c && (c_arr c =? b)) (m_calls s) = true); [|congruence].
      apply existsb_exists. exists x. split; [apply elem_of_list_In; by apply elem_of_list_lookup_2 in Hc|]. rewrite Fx, D. cbn. apply Nat.eqb_refl. }
    split; [cbn; by rewrite alter_length|]. split; [done|]. split.
    + intros q z Hz. change (m_recs s !! q = Some z) in Hz. destruct (I3 q z Hz) as [V K]. destruct (g_recs _ _ G q z Hz) as (z' & Hz' & _ & _ & V' & _).
      change (m_recs s !! q = Some z') in Hz'. assert (z' = z) as -> by congruence. split; [by rewrite V'|done].
    + intros d z Hd. exact (callok_grows s s' d z G Hd (I4 d z Hd)).
  - destruct (m_user s !! b) as [[|]|] eqn:U; try done. injection E as <-. eapply (inv_start s _ (m_heap s) (m_user s)); [done|exists []; split; [by rewrite app_nil_r|cbn; lia]| |done|done|done|reflexivity].
    cbn. apply lookup_lt_Some in U. lia.
  - injection E as <-. eapply (inv_start s _ (m_heap s ++ [op_config opts]) (m_user s ++ [false])); [done|eexists; split; [reflexivity|by rewrite app_length]| | |done|done|reflexivity].
    + cbn. rewrite app_length. cbn. lia.
    + unfold array. cbn. by rewrite list_lookup_middle.
  - by apply (inv_go s c over).
  - destruct (existsb (holds r) (m_calls s)) eqn:X; [done|]. injection E as <-. split; [done|]. split; [|by split].
    intros q Hq. apply I2. cbn in Hq. apply elem_of_list_In, List.filter_In in Hq as [Hq _]. by apply elem_of_list_In.
Qed.
Lemma inv_init : inv m_init.
Proof. split; [done|]. split; [intros r Hr; by apply elem_of_nil in Hr|]. split; intros i y Hy; cbn in Hy; by rewrite lookup_nil in Hy. Qed.
Lemma mrun_inv l : forall s s', inv s -> mrun farm n ignore s l = Some s' -> inv s'.
Proof.
  induction l as [|a l IH]; intros s s' I E; [by injection E as <-|]. cbn in E. destruct (mstep farm n ignore s a) as [s1|] eqn:S; [|done]. cbn in E.
  apply (IH s1); [by apply (inv_step s a)|done].
Qed.

(** ** What a call keeps *)
Lemma step_calls s a s' c x : mstep farm n ignore s a = Some s' -> m_calls s !! c = Some x ->
  exists x', m_calls s' !! c = Some x' /\ c_inst x' = c_inst x /\ c_arr x' = c_arr x /\ c_given x' = c_given x /\ (c_over x' = true -> c_over x = true \/ a = MGo c true).
Proof.
  intros E Hc. assert (K : forall x', c_inst x' = c_inst x -> c_arr x' = c_arr x -> c_given x' = c_given x -> (c_over x' = true -> c_over x = true \/ a = MGo c true) ->
    m_calls s' !! c = Some x' -> exists x', m_calls s' !! c = Some x' /\ c_inst x' = c_inst x /\ c_arr x' = c_arr x /\ c_given x' = c_given x /\ (c_over x' = true -> c_over x = true \/ a = MGo c true)) by (intros x'; exists x'; auto).
  destruct a as [l|b i v|inst b|inst opts|d over|r]; cbn in E.
  - injection E as <-. by apply (K x); auto.
  - destruct (m_user s !! b) as [[|]|]; try done. destruct (existsb _ _); [done|]. injection E as <-. by apply (K x); auto.
  - destruct (m_user s !! b) as [[|]|]; try done. injection E as <-. apply (K x); auto. cbn. by apply lookup_app_l_Some.
  - injection E as <-. apply (K x); auto. cbn. by apply lookup_app_l_Some.
  - unfold go in E. destruct (m_calls s !! d) as [z|] eqn:Hd; [|done]. cbn [mbind option_bind] in E. pose proof (lookup_lt_Some _ _ _ Hd) as Ld.
    assert (Q : exists o p, m_calls s' = <[d := MCall (c_inst z) (c_arr z) (c_given z) o p]> (m_calls s) /\ (o = true -> c_over z = true \/ over = true)).
    { destruct (c_place z) as [i|i e|i e|i fp|fp|fp|fp l|r|r]; cbn beta iota zeta in E.
      - destruct (array s (c_arr z) !! i); injection E as <-; do 2 eexists; (split; [reflexivity|auto]).
      - injection E as <-; do 2 eexists; (split; [reflexivity|auto]).
      - injection E as <-; do 2 eexists; (split; [reflexivity|auto]).
      - destruct (array s (c_arr z) !! i); injection E as <-; do 2 eexists; (split; [reflexivity|auto]).
      - destruct (find_rec _ _ _ _ _); [injection E as <-; do 2 eexists; (split; [reflexivity|auto])|]. destruct over; [destruct (find_rec _ _ _ _ _)|]; injection E as <-; do 2 eexists; (split; [reflexivity|auto]).
      - injection E as <-; do 2 eexists; (split; [reflexivity|auto]).
      - destruct (find_rec _ _ _ _ _); injection E as <-; do 2 eexists; (split; [reflexivity|auto]).
      - destruct (m_recs s !! r) as [y|]; [|done]. cbn in E. destruct (r_set y); injection E as <-; do 2 eexists; (split; [reflexivity|auto]).
      - done. }
    destruct Q as (o & p & Ec & Eo). destruct (decide (c = d)) as [->|D].
    + assert (z = x) as -> by congruence. apply (K (MCall (c_inst x) (c_arr x) (c_given x) o p)); try done; [|by rewrite Ec, list_lookup_insert].
      cbn. intros Ho. destruct (Eo Ho) as [?|Y]; [by left|right; by rewrite Y].
    + apply (K x); auto. by rewrite Ec, list_lookup_insert_ne.
  - destruct (existsb _ _); [done|]. injection E as <-. by apply (K x); auto.
Qed.
Lemma run_calls l : forall s s' c x, mrun farm n ignore s l = Some s' -> m_calls s !! c = Some x ->
  exists x', m_calls s' !! c = Some x' /\ c_inst x' = c_inst x /\ c_arr x' = c_arr x /\ c_given x' = c_given x /\ (c_over x' = true -> c_over x = true \/ MGo c true ∈ l).
Proof.
  induction l as [|a l IH]; intros s s' c x E Hc; [injection E as <-; exists x; auto 10|]. cbn in E. destruct (mstep farm n ignore s a) as [s1|] eqn:S; [|done]. cbn in E.
  destruct (step_calls _ _ _ _ _ S Hc) as (x1 & H1 & A1 & A2 & A3 & A4). destruct (IH _ _ _ _ E H1) as (x2 & H2 & B1 & B2 & B3 & B4).
  exists x2. split; [done|]. split; [congruence|]. split; [congruence|]. split; [congruence|]. intros O. destruct (B4 O) as [O1|M]; [|right; by right].
  destruct (A4 O1) as [?| ->]; [by left|right; left].
Qed.
Lemma mrun_app l l' : forall s, mrun farm n ignore s (l ++ l') = mrun farm n ignore s l ≫= fun s1 => mrun farm n ignore s1 l'.
Proof. induction l as [|a l IH]; intros s; [done|]. cbn. destruct (mstep farm n ignore s a); [|done]. cbn. apply IH. Qed.

(** ** What a record keeps *)
Lemma step_recs s a s' r y v : mstep farm n ignore s a = Some s' -> m_recs s !! r = Some y -> r_set y = Some v -> m_recs s' !! r = Some y.
Proof.
  intros E Hr Hv. destruct a as [l|b i w|inst b|inst opts|d over|q]; cbn in E.
  - by injection E as <-.
  - destruct (m_user s !! b) as [[|]|]; try done. destruct (existsb _ _); [done|]. by injection E as <-.
  - destruct (m_user s !! b) as [[|]|]; try done. by injection E as <-.
  - by injection E as <-.
  - unfold go in E. destruct (m_calls s !! d) as [z|] eqn:Hd; [|done]. cbn [mbind option_bind] in E.
    destruct (c_place z) as [i|i e|i e|i fp|fp|fp|fp l|q|q]; cbn beta iota zeta in E.
    + destruct (array s (c_arr z) !! i); by injection E as <-.
    + by injection E as <-.
    + by injection E as <-.
    + destruct (array s (c_arr z) !! i); by injection E as <-.
    + destruct (find_rec _ _ _ _ _); [by injection E as <-|]. destruct over; [destruct (find_rec _ _ _ _ _)|]; by injection E as <-.
    + by injection E as <-.
    + destruct (find_rec _ _ _ _ _); injection E as <-; [done|]. cbn. by apply lookup_app_l_Some.
    + destruct (m_recs s !! q) as [u|] eqn:Hu; [|done]. cbn in E. destruct (r_set u) eqn:Su; injection E as <-; [done|]. cbn.
      rewrite list_lookup_insert_ne; [done|]. intros ->. congruence.
    + done.
  - destruct (existsb _ _); [done|]. by injection E as <-.
Qed.
Lemma run_recs l : forall s s' r y v, mrun farm n ignore s l = Some s' -> m_recs s !! r = Some y -> r_set y = Some v -> m_recs s' !! r = Some y.
Proof.
  induction l as [|a l IH]; intros s s' r y v E Hr Hv; [by injection E as <-|]. cbn in E. destruct (mstep farm n ignore s a) as [s1|] eqn:S; [|done]. cbn in E.
  apply (IH s1 s' r y v E); [|done]. by apply (step_recs s a s1 r y v).
Qed.

(** ** What happens to arrays *)
Lemma cut_shortened (t : string) : n <> 0 -> shortened n t (cut n t).
Proof.
  intros N. split; [|apply cut_prefix]. unfold cut. destruct (Nat.ltb_spec n (String.length t)) as [H|H]; [|lia].
  rewrite substring_length by lia. lia.
Qed.
Lemma le_shortened a b : n <> 0 -> le a b -> shortened_attr n a b.
Proof.
  intros N [A B]. split; [destruct A as [A|A]; [by left|right; rewrite A; by apply cut_shortened]|]. destruct B as [B|B]; [by left|right]. rewrite B.
  destruct (a.2) as [| | | |s| | | |t]; cbn; try done; [by apply cut_shortened|]. clear B. induction t as [|s t IH]; cbn; [constructor|]. constructor; [by apply cut_shortened|done].
Qed.
Lemma go_heap s c over s' : inv s -> go farm n ignore s c over = Some s' ->
  (forall a, lea (array s a) (array s' a)) /\ length (m_heap s') = length (m_heap s) /\ m_user s' = m_user s /\
  forall a, array s' a <> array s a -> exists x, m_calls s !! c = Some x /\ c_arr x = a.
Proof.
  intros I. pose proof I as (I1 & I2 & I3 & I4). unfold go. destruct (m_calls s !! c) as [x|] eqn:Hc; [|done]. cbn [mbind option_bind].
  pose proof (I4 c x Hc) as [L C]. assert (K : m_heap s' = m_heap s -> m_user s' = m_user s -> (forall a, lea (array s a) (array s' a)) /\ length (m_heap s') = length (m_heap s) /\ m_user s' = m_user s /\
    forall a, array s' a <> array s a -> exists x0, Some x = Some x0 /\ c_arr x0 = a).
  { intros E U. unfold array. rewrite E. split; [intros; apply lea_refl|]. split; [done|]. split; [done|]. intros a F. done. }
  destruct (c_place x) as [i|i a|i a|i fp|fp|fp|fp l|r|r] eqn:P; intros E.
  - destruct (array s (c_arr x) !! i); apply (inj Some) in E; subst s'; by apply K.
  - apply (inj Some) in E; subst s'. destruct C as ((N & _) & D). destruct (lookup_lt_is_Some_2 _ _ L) as [la Hla].
    assert (Ela : array s (c_arr x) = la) by (unfold array; by rewrite Hla). rewrite Ela in D. unfold set_place. unfold array at 2 4. cbn [m_heap m_user set_heap].
    destruct (Nat.ltb_spec n (String.length a.1)) as [Hlt|Hge]; [|by apply K]. split; [|split; [apply alter_length|split; [done|]]].
    + intros b. change (default [] (alter (alter (fun b : kv => (cut n a.1, b.2)) i) (c_arr x) (m_heap s) !! b)) with (array (set_heap s (alter (alter (fun b : kv => (cut n a.1, b.2)) i) (c_arr x) (m_heap s))) b).
      rewrite array_alter. case_bool_decide as Db; [|apply lea_refl]. subst b.
      rewrite Hla, Ela. apply lea_alter; [done|]. intros y Hy. split; [right|by left]. cbn. pose proof (le_t1 _ _ (D _ Hy)) as Et. unfold t1 in Et. by injection Et.
    + intros b F. exists x. split; [done|]. destruct (decide (c_arr x = b)) as [|Db]; [done|]. destruct F. unfold array. cbn [m_heap set_heap]. by rewrite list_lookup_alter_ne.
  - apply (inj Some) in E; subst s'. destruct C as ((N & _) & D). destruct (lookup_lt_is_Some_2 _ _ L) as [la Hla].
    assert (Ela : array s (c_arr x) = la) by (unfold array; by rewrite Hla). rewrite Ela in D. unfold set_place. unfold array at 2 4. cbn [m_heap m_user set_heap].
    case_bool_decide as Dv; [by apply K|]. split; [|split; [apply alter_length|split; [done|]]].
    + intros b. change (default [] (alter (alter (fun b : kv => (b.1, truncate_value n a.2)) i) (c_arr x) (m_heap s) !! b)) with (array (set_heap s (alter (alter (fun b : kv => (b.1, truncate_value n a.2)) i) (c_arr x) (m_heap s))) b).
      rewrite array_alter. case_bool_decide as Db; [|apply lea_refl]. subst b.
      rewrite Hla, Ela. apply lea_alter; [done|]. intros y Hy. split; [by left|right]. cbn. pose proof (le_t1 _ _ (proj1 (D _ Hy))) as Et. unfold t1 in Et. by injection Et.
    + intros b F. exists x. split; [done|]. destruct (decide (c_arr x = b)) as [|Db]; [done|]. destruct F. unfold array. cbn [m_heap set_heap]. by rewrite list_lookup_alter_ne.
  - destruct (array s (c_arr x) !! i); apply (inj Some) in E; subst s'; by apply K.
  - destruct (find_rec _ _ _ _ _); [apply (inj Some) in E; subst s'; by apply K|]. destruct over; [destruct (find_rec _ _ _ _ _)|]; apply (inj Some) in E; subst s'; by apply K.
  - apply (inj Some) in E; subst s'; by apply K.
  - destruct (find_rec _ _ _ _ _); apply (inj Some) in E; subst s'; by apply K.
  - destruct (m_recs s !! r) as [y|]; [|done]. cbn [mbind option_bind] in E. destruct (r_set y); apply (inj Some) in E; subst s'; by apply K.
  - done.
Qed.

(** ** Steps of a call *)
Definition left_of s x : nat :=
  let m := length (array s (c_arr x)) in
  match c_place x with
  | Trunc i => 3 * (m - i) + 1 + m + 5
  | TruncKey i _ => 3 * (m - S i) + 3 + m + 5
  | TruncValue i _ => 3 * (m - S i) + 2 + m + 5
  | Print i _ => (m - i) + 5
  | Look _ => 4
  | Make _ => 3
  | Put _ _ => 2
  | Init _ => 1
  | Returned _ => 0
  end.
Lemma lea_length a b : lea a b -> length b = length a.
Proof. intros [->|[_ F]]; [done|]. symmetry. by apply Forall2_length in F. Qed.
Lemma left_same s s' x : length (array s' (c_arr x)) = length (array s (c_arr x)) -> left_of s' x = left_of s x.
Proof. unfold left_of. by intros ->. Qed.
Lemma go_left s c over s' x : inv s -> m_calls s !! c = Some x -> go farm n ignore s c over = Some s' -> exists x', m_calls s' !! c = Some x' /\ left_of s' x' < left_of s x.
Proof.
  intros I Hc E. destruct (go_heap _ _ _ _ I E) as (H & _). pose proof (lookup_lt_Some _ _ _ Hc) as Lc.
  assert (Q : exists o p, m_calls s' = <[c := MCall (c_inst x) (c_arr x) (c_given x) o p]> (m_calls s) /\ left_of s (MCall (c_inst x) (c_arr x) (c_given x) o p) < left_of s x).
  { unfold go in E. rewrite Hc in E. cbn [mbind option_bind] in E. destruct (c_place x) as [i|i e|i e|i fp|fp|fp|fp l|r|r] eqn:P; cbn beta iota zeta in E.
    - destruct (array s (c_arr x) !! i) eqn:Hi; apply (inj Some) in E; subst s'; do 2 eexists; (split; [reflexivity|]); unfold left_of; cbn [c_arr c_place]; rewrite P.
      + apply lookup_lt_Some in Hi. lia.
      + lia.
    - apply (inj Some) in E; subst s'; do 2 eexists; (split; [reflexivity|]); unfold left_of; cbn [c_arr c_place]; rewrite P; lia.
    - apply (inj Some) in E; subst s'; do 2 eexists; (split; [reflexivity|]); unfold left_of; cbn [c_arr c_place]; rewrite P; lia.
    - destruct (array s (c_arr x) !! i) eqn:Hi; apply (inj Some) in E; subst s'; do 2 eexists; (split; [reflexivity|]); unfold left_of; cbn [c_arr c_place]; rewrite P.
      + apply lookup_lt_Some in Hi. lia.
      + lia.
    - destruct (find_rec _ _ _ _ _); [|destruct over; [destruct (find_rec _ _ _ _ _)|]]; apply (inj Some) in E; subst s'; do 2 eexists; (split; [reflexivity|]); unfold left_of; cbn [c_arr c_place]; rewrite P; lia.
    - apply (inj Some) in E; subst s'; do 2 eexists; (split; [reflexivity|]); unfold left_of; cbn [c_arr c_place]; rewrite P; lia.
    - destruct (find_rec _ _ _ _ _); apply (inj Some) in E; subst s'; do 2 eexists; (split; [reflexivity|]); unfold left_of; cbn [c_arr c_place]; rewrite P; lia.
    - destruct (m_recs s !! r) as [y|]; [|done]. cbn [mbind option_bind] in E. destruct (r_set y); apply (inj Some) in E; subst s'; do 2 eexists; (split; [reflexivity|]); unfold left_of; cbn [c_arr c_place]; rewrite P; lia.
    - done. }
  destruct Q as (o & p & Ec & Lt). eexists. split; [rewrite Ec; by apply list_lookup_insert|]. rewrite (left_same s); [done|]. apply lea_length, H.
Qed.
Lemma go_other s d over s' c x : d <> c -> m_calls s !! c = Some x -> go farm n ignore s d over = Some s' -> m_calls s' !! c = Some x.
Proof.
  intros D Hc E. unfold go in E. destruct (m_calls s !! d) as [z|] eqn:Hd; [|done]. cbn [mbind option_bind] in E.
  destruct (c_place z) as [i|i e|i e|i fp|fp|fp|fp l|r|r]; cbn beta iota zeta in E.
  - destruct (array s (c_arr z) !! i); apply (inj Some) in E; subst s'; cbn; by rewrite list_lookup_insert_ne.
  - apply (inj Some) in E; subst s'; cbn; by rewrite list_lookup_insert_ne.
  - apply (inj Some) in E; subst s'; cbn; by rewrite list_lookup_insert_ne.
  - destruct (array s (c_arr z) !! i); apply (inj Some) in E; subst s'; cbn; by rewrite list_lookup_insert_ne.
  - destruct (find_rec _ _ _ _ _); [|destruct over; [destruct (find_rec _ _ _ _ _)|]]; apply (inj Some) in E; subst s'; cbn; by rewrite list_lookup_insert_ne.
  - apply (inj Some) in E; subst s'; cbn; by rewrite list_lookup_insert_ne.
  - destruct (find_rec _ _ _ _ _); apply (inj Some) in E; subst s'; cbn; by rewrite list_lookup_insert_ne.
  - destruct (m_recs s !! r) as [y|]; [|done]. cbn [mbind option_bind] in E. destruct (r_set y); apply (inj Some) in E; subst s'; cbn; by rewrite list_lookup_insert_ne.
  - done.
Qed.
Lemma step_left s a s' c x : inv s -> m_calls s !! c = Some x -> mstep farm n ignore s a = Some s' ->
  exists x', m_calls s' !! c = Some x' /\ left_of s' x' + (match a with MGo d _ => if Nat.eqb c d then 1 else 0 | _ => 0 end) <= left_of s x.
Proof.
  intros I Hc E. pose proof I as (I1 & I2 & I3 & I4). pose proof (I4 c x Hc) as [L _].
  assert (K : m_calls s' !! c = Some x -> length (array s' (c_arr x)) = length (array s (c_arr x)) -> exists x', m_calls s' !! c = Some x' /\ left_of s' x' + 0 <= left_of s x).
  { intros H1 H2. exists x. split; [done|]. rewrite (left_same s s' x H2). lia. }
  destruct a as [l|b i v|inst b|inst opts|d over|r]; cbn in E.
  - injection E as <-. apply K; [done|]. unfold array. cbn. by rewrite lookup_app_l.
  - destruct (m_user s !! b) as [[|]|]; try done. destruct (existsb _ _); [done|]. injection E as <-. apply K; [done|]. rewrite array_alter. case_bool_decide as D; [|done]. subst b.
    unfold array. destruct (m_heap s !! c_arr x); [apply insert_length|done].
  - destruct (m_user s !! b) as [[|]|]; try done. injection E as <-. apply K; [cbn; by apply lookup_app_l_Some|done].
  - injection E as <-. apply K; [cbn; by apply lookup_app_l_Some|]. unfold array. cbn. by rewrite lookup_app_l.
  - destruct (Nat.eqb_spec c d) as [<-|D].
    + destruct (go_left _ _ _ _ _ I Hc E) as (x' & H & Lt). exists x'. split; [done|lia].
    + apply K; [by apply (go_other s d over)|]. apply lea_length. by apply (go_heap _ _ _ _ I E).
  - destruct (existsb _ _); [done|]. injection E as <-. by apply K.
Qed.
Lemma run_left l : forall s s' c x, inv s -> m_calls s !! c = Some x -> mrun farm n ignore s l = Some s' -> exists x', m_calls s' !! c = Some x' /\ left_of s' x' + steps_of c l <= left_of s x.
Proof.
  induction l as [|a l IH]; intros s s' c x I Hc E; [injection E as <-; exists x; split; [done|unfold steps_of; cbn; lia]|]. cbn in E. destruct (mstep farm n ignore s a) as [s1|] eqn:S; [|done]. cbn in E.
  destruct (step_left _ _ _ _ _ I Hc S) as (x1 & H1 & L1). destruct (IH _ _ _ _ (inv_step _ _ _ I S) H1 E) as (x2 & H2 & L2). exists x2. split; [done|].
  unfold steps_of in *. cbn [List.filter]. destruct a as [| | | |d o|]; try (cbn; lia). destruct (Nat.eqb c d); cbn [length]; lia.
Qed.
Lemma go_some s c x over : inv s -> m_calls s !! c = Some x -> in_flight x = true -> exists s', go farm n ignore s c over = Some s'.
Proof.
  intros I Hc F. pose proof I as (I1 & I2 & I3 & I4). destruct (I4 c x Hc) as [_ C]. unfold go. rewrite Hc. cbn [mbind option_bind]. unfold in_flight in F.
  destruct (c_place x) as [i|i e|i e|i fp|fp|fp|fp l|r|r]; [..|done].
  - destruct (array s (c_arr x) !! i); by eexists.
  - by eexists.
  - by eexists.
  - destruct (array s (c_arr x) !! i); by eexists.
  - destruct (find_rec _ _ _ _ _); [|destruct over; [destruct (find_rec _ _ _ _ _)|]]; by eexists.
  - by eexists.
  - destruct (find_rec _ _ _ _ _); by eexists.
  - destruct C as (_ & y & Hy & _). rewrite Hy. cbn [mbind option_bind]. destruct (r_set y); by eexists.
Qed.
Lemma left_zero s x : left_of s x = 0 -> in_flight x = false.
Proof. unfold left_of, in_flight. destruct (c_place x); try done; lia. Qed.
Lemma finish k : forall s c x, inv s -> m_calls s !! c = Some x -> left_of s x <= k -> exists l s' x' r, only_calls l /\ mrun farm n ignore s l = Some s' /\ m_calls s' !! c = Some x' /\ c_place x' = Returned r.
Proof.
  induction k as [|k IH]; intros s c x I Hc L.
  - assert (F : in_flight x = false) by (apply (left_zero s); lia). unfold in_flight in F. destruct (c_place x) as [| | | | | | | |r] eqn:P; try done.
    exists [], s, x, r. split; [intros a Ha; by apply elem_of_nil in Ha|done].
  - destruct (in_flight x) eqn:F.
    + destruct (go_some s c x false I Hc F) as [s1 E]. destruct (go_left _ _ _ _ _ I Hc E) as (x1 & H1 & L1).
      destruct (IH s1 c x1 (inv_go _ _ _ _ I E) H1 ltac:(lia)) as (l & s' & x' & r & O & R & H' & P). exists (MGo c false :: l), s', x', r.
      split; [intros a Ha; apply elem_of_cons in Ha as [->|Ha]; [by exists c, false|by apply O]|]. split; [|done]. cbn. by rewrite E.
    + unfold in_flight in F. destruct (c_place x) as [| | | | | | | |r] eqn:P; try done.
      exists [], s, x, r. split; [intros a Ha; by apply elem_of_nil in Ha|done].
Qed.
End mem.

(** ** Options *)
Lemma value_of_from l k r : fold_left (fun r (a : kv) => if String.eqb a.1 k then Some a.2 else r) l r = match value_of l k with Some v => Some v | None => r end.
Proof.
  unfold value_of. revert r. induction l as [|a l IH]; intros r; [done|]. cbn. rewrite IH, (IH (if String.eqb a.1 k then _ else None)).
  destruct (fold_left _ l None); [done|]. by destruct (String.eqb a.1 k).
Qed.
Lemma value_of_app l l' k : value_of (l ++ l') k = match value_of l' k with Some v => Some v | None => value_of l k end.
Proof. unfold value_of at 1. rewrite fold_left_app, value_of_from. done. Qed.
Lemma value_of_cons a l k : value_of (a :: l) k = match value_of l k with Some v => Some v | None => if String.eqb a.1 k then Some a.2 else None end.
Proof. unfold value_of at 1. cbn. by rewrite value_of_from. Qed.
Lemma value_of_sorted l k : sorted l -> value_of l k = assoc k l.
Proof.
  induction l as [|a l IH]; intros S; [done|]. destruct S as [S1 S2]. rewrite value_of_cons, (IH S2). cbn. destruct (String.eqb_spec a.1 k) as [<-|N]; [|by destruct (assoc k l)].
  destruct (assoc a.1 l) as [v|] eqn:A; [|done]. apply sorted_assoc in A; [|done]. apply S1 in A. cbn in A. by rewrite str_lt_irrefl in A.
Qed.
Lemma value_of_new_set l k : value_of (new_set l) k = value_of l k.
Proof. rewrite value_of_sorted by apply new_set_sorted. apply new_set_assoc. Qed.
Lemma new_set_ext l l' : (forall k, value_of l k = value_of l' k) -> new_set l = new_set l'.
Proof. intros E. apply sorted_ext; [apply new_set_sorted|apply new_set_sorted|]. intros k. by rewrite !new_set_assoc. Qed.
Lemma op_config_spec opts : op_config opts = new_set (all_attrs opts).
Proof.
  unfold op_config, all_attrs. induction opts as [|o opts IH] using rev_ind; [done|]. rewrite fold_left_app. cbn. rewrite IH. apply new_set_ext. intros k.
  rewrite map_app, concat_app. cbn. rewrite app_nil_r, !value_of_app, !value_of_new_set. done.
Qed.
Lemma value_of_truncate n l k : (forall a, a ∈ l -> String.length a.1 <= S n) -> value_of (truncate (S n) l) k = truncate_value (S n) <$> value_of l k.
Proof.
  intros H. unfold truncate. induction l as [|a l IH]; [done|]. cbn [map]. rewrite !value_of_cons, IH by (intros b Hb; apply H; by right). cbn [fst snd].
  rewrite cut_id by (apply H; left). destruct (value_of l k); [done|]. by destruct (String.eqb a.1 k).
Qed.
Lemma new_set_elem l a : a ∈ new_set l -> exists b, b ∈ l /\ b.1 = a.1.
Proof.
  intros H. destruct a as [k v]. apply sorted_assoc in H; [|apply new_set_sorted]. rewrite new_set_assoc in H. cbn. induction l as [|b l IH]; [done|]. rewrite value_of_cons in H.
  destruct (value_of l k) as [w|]; [destruct (IH H) as (d & Hd & E); exists d; split; [by right|done]|]. destruct (String.eqb_spec b.1 k) as [E|]; [|done]. exists b. split; [left|done].
Qed.
