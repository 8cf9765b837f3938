(** Conc: snapshots, and the totals a view has when it is collected. *)
From Coq Require Import ZArith Bool String Lia.
From stdpp Require Import base list option strings.
From Verif Require Import Num Agg AggSpec Attr Async AsyncSpec AsyncProofs Conc ConcSpec ConcProofs ConcStep ConcInv ConcCells.

Section conc.
Context {N : arith} (c : acfg) (vr : nat -> nat) (decl : list (list nat)).
Implicit Types (s : cst N) (k : coll N) (x : thr N) (y : vw N) (es : list (ent N)).
Notation threads := (nat -> option (thr N)).
Notation runs := (nat -> option bool).
Context (v : nat) (w : aview).

(** ** The accumulators of a store, as pairs of indices *)
Definition pick es (z : nat * nat) : option (nat * N) :=
  a ← the_acc es z; if Nat.eqb (ac_view a) v then Some (ac_cell a, ac_cur a) else None.
Definition pairs (e : nat) (en : ent N) : list (nat * nat) := map (pair e) (seq 0 (length (en_accs en))).
Definition flat (T : list (list kv * nat * N)) : list (nat * N) := map (fun t => (t.1.2, t.2)) T.

Lemma imap_snoc {A B} (f : nat -> A -> B) l z : imap f (l ++ [z]) = imap f l ++ [f (length l) z].
Proof. rewrite imap_app. cbn. by rewrite Nat.add_0_r. Qed.
Lemma accs_of_snoc i es en : accs_of i (es ++ [en]) = accs_of i es ++ (if Nat.eqb (en_inst en) i then pairs (length es) en else []).
Proof. unfold accs_of. rewrite imap_snoc, concat_app. cbn. by rewrite app_nil_r. Qed.
Lemma concat_map_app {A B} (f g : A -> list B) l : concat (map (fun z => f z ++ g z) l) ≡ₚ concat (map f l) ++ concat (map g l).
Proof.
  induction l as [|z l IH]; cbn; [done|]. rewrite IH, <- !app_assoc. apply Permutation_app_head. rewrite !app_assoc. apply Permutation_app_tail. apply Permutation_app_comm.
Qed.
Lemma concat_one {B} (i : nat) (P : list B) l : NoDup l -> i ∈ l -> concat (map (fun j => if Nat.eqb i j then P else []) l) = P.
Proof.
  induction 1 as [|j l Hj Hd IH]; [by intros ?%elem_of_nil|]. intros Hi. cbn. destruct (Nat.eqb_spec i j) as [->|Hne].
  - assert (E : concat (map (fun j0 => if Nat.eqb j j0 then P else []) l) = []); [|rewrite E; apply app_nil_r].
    clear IH Hi Hd. induction l as [|j' l IHl]; [done|]. cbn. apply not_elem_of_cons in Hj as [H1 H2].
    rewrite (proj2 (Nat.eqb_neq j j') H1). by apply IHl.
  - apply IH. apply elem_of_cons in Hi as [|]; done.
Qed.
Lemma accs_all n es : (forall en, en ∈ es -> (en_inst en < n)%nat) -> concat (map (fun i => accs_of i es) (seq 0 n)) ≡ₚ concat (imap pairs es).
Proof.
  induction es as [|en es IH] using rev_ind; intros H.
  - cbn. induction (seq 0 n) as [|i l IHl]; [done|]. done.
  - rewrite imap_snoc, concat_app. cbn. rewrite app_nil_r. rewrite <- IH; [|intros e He; apply H; apply elem_of_app; by left].
    rewrite (map_ext _ (fun i => accs_of i es ++ (if Nat.eqb (en_inst en) i then pairs (length es) en else []))) by apply (fun i => accs_of_snoc i es en).
    rewrite concat_map_app. apply Permutation_app_head. rewrite concat_one; [done|apply NoDup_ListNoDup, seq_NoDup|]. apply elem_of_list_In, in_seq. split; [lia|]. cbn. apply H. apply elem_of_app. right. left.
Qed.
Lemma omap_seq {A B} (f : A -> option B) (l : list A) : omap (fun j => a ← l !! j; f a) (seq 0 (length l)) = omap f l.
Proof.
  induction l as [|a l IH] using rev_ind; [done|]. rewrite app_length. cbn [length]. rewrite Nat.add_1_r, seq_S, !omap_app. f_equal.
  - rewrite <- IH. apply list_omap_ext. apply Forall2_same_length_lookup. split; [done|]. intros i j j' H1 H2. assert (j' = j) as -> by congruence.
    apply elem_of_list_lookup_2, elem_of_list_In, in_seq in H1. rewrite lookup_app_l by lia. done.
  - cbn. rewrite list_lookup_middle by done. done.
Qed.
Lemma omap_map {A B C} (f : B -> option C) (g : A -> B) (l : list A) : omap f (map g l) = omap (fun z => f (g z)) l.
Proof. induction l as [|z l IH]; [done|]. cbn. destruct (f (g z)); [f_equal|]; exact IH. Qed.
Lemma pairs_lt es z : z ∈ concat (imap pairs es) -> (z.1 < length es)%nat.
Proof.
  induction es as [|en es IH] using rev_ind; [by intros ?%elem_of_nil|]. rewrite imap_snoc, concat_app, elem_of_app, app_length. cbn. rewrite app_nil_r.
  intros [?%IH|Hz]; [lia|]. unfold pairs in Hz. apply elem_of_list_fmap in Hz as (j & -> & _). cbn. lia.
Qed.
Lemma pick_all es : omap (pick es) (concat (imap pairs es)) = flat (stri v w es).
Proof.
  induction es as [|en es IH] using rev_ind; [done|]. rewrite imap_snoc, concat_app, omap_app, stri_app. unfold flat in *. rewrite map_app. f_equal.
  - rewrite <- IH. apply list_omap_ext. apply Forall2_same_length_lookup. split; [done|]. intros i z z' H1 H2. assert (z' = z) as -> by congruence.
    apply elem_of_list_lookup_2, pairs_lt in H1. unfold pick, the_acc. by rewrite lookup_app_l by lia.
  - cbn. rewrite app_nil_r. unfold stri. cbn. rewrite app_nil_r. unfold vtri, pairs. rewrite map_map. cbn.
    set (f := fun a : acc N => if Nat.eqb (ac_view a) v then Some (ac_cell a, ac_cur a) else None).
    transitivity (omap f (en_accs en)).
    + rewrite <- (omap_seq f (en_accs en)). rewrite omap_map.
      apply list_omap_ext. apply Forall2_same_length_lookup. split; [done|]. intros i z z' H1 H2. assert (z' = z) as -> by congruence.
      cbn. unfold pick, the_acc. cbn. rewrite list_lookup_middle by done. cbn. done.
    + unfold f. induction (en_accs en) as [|a l IHl]; [done|]. cbn. destruct (Nat.eqb (ac_view a) v); cbn; [f_equal|]; exact IHl.
Qed.

(** ** Snapshots *)
Definition at_cell (h : nat) (D : list (nat * N)) : list N := map snd (List.filter (fun p => Nat.eqb p.1 h) D).
Definition restl es (f : phase) : list (nat * nat) :=
  match f with KSnap todo pend => concat (map (fun i => accs_of i es) todo) ++ default [] pend | _ => [] end.
Record snapinv k y (D : list (nat * N)) : Prop := {
  si_cok : cok y;
  si_placed : placed w (map fst (stri v w (k_store k))) y;
  si_val : forall h, h ∈ map snd (w_data y) -> value_of y h = fold_left (op w) (at_cell h D) zero;
  si_rest : D ++ omap (pick (k_store k)) (restl (k_store k) (k_phase k)) ≡ₚ flat (stri v w (k_store k))
}.
Definition idle (th : threads) : Prop := forall t x, th t = Some x -> t_pc x = TCheck \/ exists r, t_pc x = TEnd r.

Lemma snap_start k th ru y : cinv c vr k th ru -> idle th -> k_phase k = KRun [] None -> cok y -> placed w (map fst (trip v w k th)) y -> zerod y ->
  snapinv (set_phase k (KSnap (seq 0 (length (a_insts c))) None)) y [].
Proof.
  intros CI Hi Hph HC HP HZ.
  assert (Hp : part v w k th = []).
  { unfold part. destruct (k_lock k) as [|t|] eqn:El; try done. apply (i_lock _ _ _ _ _ CI) in El as (x & td & ac & Hx & Hpc). destruct (Hi _ _ Hx) as [?|[? ?]]; congruence. }
  unfold trip in HP. rewrite Hp, app_nil_r in HP. split; cbn [set_phase k_store k_phase]; auto.
  cbn [app restl default]. rewrite app_nil_r. rewrite accs_all; [by rewrite pick_all|].
  intros en Hen. destruct (i_ent _ _ _ _ _ CI en Hen) as [_ Hne]. unfold compiled in Hne. destruct (a_insts c !! en_inst en) as [inst|] eqn:E; [|done]. by eapply lookup_lt_Some.
Qed.
Lemma omap_delete es n z pend : pend !! n = Some z ->
  omap (pick es) pend ≡ₚ match pick es z with Some p => [p] | None => [] end ++ omap (pick es) (delete n pend).
Proof. intros H. etrans; [apply omap_Permutation; exact (delete_Permutation pend n z H)|]. cbn. by destruct (pick es z). Qed.
Lemma fst_stri_in es z a : the_acc es z = Some a -> ac_view a = v -> ac_cell a ∈ map snd (map fst (stri v w es)).
Proof.
  intros Ha Hv. unfold the_acc in Ha. destruct (es !! z.1) as [en|] eqn:He; cbn in Ha; [|done]. unfold stri. rewrite map_map.
  apply elem_of_list_fmap. exists (view_key w (en_set en), ac_cell a, ac_cur a). split; [done|]. apply elem_of_list_In. apply in_concat.
  exists (vtri v w (en_set en) (en_accs en)). split.
  - apply in_map_iff. exists en. split; [done|]. apply elem_of_list_In. by eapply elem_of_list_lookup_2.
  - unfold vtri. apply in_map_iff. exists a. split; [done|]. apply filter_In. split; [apply elem_of_list_In; by eapply elem_of_list_lookup_2|]. by apply Nat.eqb_eq.
Qed.
Lemma placed_cell K y h : placed w K y -> h ∈ map snd K -> h ∈ map snd (w_data y).
Proof.
  intros (rs & _ & F) Hh. apply elem_of_list_lookup in Hh as (i & Hi). destruct (Forall2_lookup_r _ _ _ _ _ F Hi) as (r & _ & Hr).
  apply elem_of_list_fmap. by exists (r, h).
Qed.
Lemma snap_step k th ru y k' th' ru' y' D : lstep c vr decl v w k th ru y k' th' ru' y' -> idle th ->
  (forall td cur, k_phase k <> KRun td cur) -> (forall td, k_phase k <> KColl (v :: td)) -> snapinv k y D ->
  exists D', snapinv k' y' D' /\ k_store k' = k_store k /\ w_prior y' = w_prior y /\ values y' (w_prior y) = values y (w_prior y).
Proof.
  intros L Hi Hnr Hnv [S1 S2 S3 S4].
  assert (Idle : forall t x, th t = Some x -> t_pc x = TCheck \/ exists r, t_pc x = TEnd r) by apply Hi.
  assert (Same : y' = y -> k_store k' = k_store k -> omap (pick (k_store k)) (restl (k_store k) (k_phase k')) ≡ₚ omap (pick (k_store k)) (restl (k_store k) (k_phase k)) ->
    exists D', snapinv k' y' D' /\ k_store k' = k_store k /\ w_prior y' = w_prior y /\ values y' (w_prior y) = values y (w_prior y)).
  { intros -> Hs Hr. exists D. split; [|by rewrite Hs]. split; auto; rewrite Hs; [done|]. by rewrite Hr. }
  destruct L as [cb todo j Hph Hru Hno|todo j Hph Hru|Hph|i todo Hph Hlk|todo pend n z a Hph Hz Ha|todo Hph|Hph|u todo pts Hph Hpts|Hph
    |t x b Hth Hru Hpc|t x cb b Hth Hpc Hru|t x e Hth Hpc Hlk Hfe|t x Hth Hpc Hlk Hfe|t x u todo accs h y1 Hth Hpc Hfs|t x accs Hth Hpc
    |t x e pos a Hth Hpc Ha|t x e pos Hth Hpc Ha];
    try (by edestruct Hnr); try (exfalso; destruct (Idle _ _ Hth) as [?|[? ?]]; congruence).
  - apply Same; [done|done|]. cbn [k_phase set_lock set_phase]. rewrite Hph. cbn [restl map concat default]. rewrite app_nil_r. apply omap_Permutation. apply Permutation_app_comm.
  - (* one *) cbn [set_phase k_store k_phase] in *. rewrite Hph in S4. unfold proc. destruct (Nat.eqb_spec (ac_view a) v) as [Hv|Hv].
    + assert (Hin : ac_cell a ∈ map snd (w_data y)). { eapply placed_cell; [exact S2|]. by eapply fst_stri_in. }
      destruct S1 as [C1 C2]. assert (Hlt : (ac_cell a < length (w_cells y))%nat). { apply C2. rewrite map_app, elem_of_app. by left. }
      assert (Hval : forall h, value_of (Vw (alter (fun z0 => if av_gauge w then ac_cur a else add z0 (ac_cur a)) (ac_cell a) (w_cells y)) (w_data y) (w_prior y)) h =
        if Nat.eqb h (ac_cell a) then op w (value_of y h) (ac_cur a) else value_of y h).
      { intros h. unfold value_of. cbn [w_cells]. destruct (Nat.eqb_spec h (ac_cell a)) as [->|Hne]; [|by rewrite list_lookup_alter_ne].
        rewrite list_lookup_alter. apply lookup_lt_is_Some in Hlt as [z0 ->]. cbn. unfold op. done. }
      exists (D ++ [(ac_cell a, ac_cur a)]). split; [split; cbn [set_phase k_store k_phase w_data w_prior]; auto|].
      * split; cbn; [done|]. by rewrite alter_length.
      * intros h Hh. rewrite Hval, (S3 h Hh). unfold at_cell. rewrite List.filter_app, map_app, fold_left_app. cbn. rewrite (Nat.eqb_sym h).
        destruct (Nat.eqb (ac_cell a) h); done.
      * rewrite <- S4, <- app_assoc. apply Permutation_app_head. cbn [restl default app]. rewrite !omap_app.
        rewrite (omap_delete _ _ _ _ Hz). unfold pick at 4. rewrite Ha. cbn. rewrite (proj2 (Nat.eqb_eq _ _) Hv). cbn. by rewrite Permutation_middle.
      * split; [done|]. split; [done|]. unfold values. apply map_ext_in. intros [kk h] Hq%elem_of_list_In. f_equal. cbn [snd]. rewrite Hval.
        destruct (Nat.eqb_spec h (ac_cell a)) as [->|Hne]; [|done]. exfalso. rewrite map_app in C1. apply NoDup_app in C1 as (_ & C1 & _). apply (C1 (ac_cell a) Hin).
        apply elem_of_list_fmap. by exists (kk, ac_cell a).
    + exists D. split; [|done]. split; cbn [set_phase k_store k_phase]; auto. rewrite <- S4. apply Permutation_app_head. cbn [restl default]. rewrite !omap_app.
      rewrite (omap_delete _ _ _ _ Hz). unfold pick at 4. rewrite Ha. cbn. by rewrite (proj2 (Nat.eqb_neq _ _) Hv).
  - apply Same; [done|done|]. cbn [k_phase set_lock set_phase]. rewrite Hph. done.
  - apply Same; [done|done|]. cbn [k_phase set_lock set_phase]. rewrite Hph. done.
  - destruct (Nat.eqb_spec u v) as [->|Hne]; [by destruct (Hnv todo)|]. apply Same; [done|done|]. cbn [k_phase]. rewrite Hph. done.
  - apply Same; [done|done|]. cbn [k_phase set_phase]. rewrite Hph. done.
  - by apply Same.
  - by apply Same.
Qed.

(** ** Totals *)
Lemma filter_map_perm {A} (f g : A -> bool) (l : list A) : (forall z, z ∈ l -> f z = g z) -> List.filter f l = List.filter g l.
Proof.
  induction l as [|z l IH]; intros H; [done|]. cbn. rewrite (H z) by left. rewrite IH; [done|]. intros z' Hz'. apply H. by right.
Qed.
Lemma at_cell_perm h (D D' : list (nat * N)) : D ≡ₚ D' -> at_cell h D ≡ₚ at_cell h D'.
Proof.
  unfold at_cell. intros H. apply Permutation_map. induction H as [|p l l' H IH|p q l|l1 l2 l3 H1 IH1 H2 IH2]; cbn.
  - done.
  - destruct (Nat.eqb p.1 h); [by constructor|done].
  - destruct (Nat.eqb p.1 h), (Nat.eqb q.1 h); try done. constructor.
  - by etrans.
Qed.
Lemma totals_cells y (T : list (list kv * nat * N)) D ins : (1 <= av_limit w)%nat -> cok y -> placed w (map fst T) y ->
  (forall h, h ∈ map snd (w_data y) -> value_of y h = fold_left (op w) (at_cell h D) zero) ->
  D ≡ₚ flat T -> ins ≡ₚ map (fun t => (t.1.1, t.2)) T -> totals_of w (values y (w_data y)) ins.
Proof.
  intros Hlim [C1 _] (rs & R & F) HV HD HI. rewrite map_app in C1. apply NoDup_app in C1 as (C1 & _ & _).
  assert (Hok0 : okmap (av_limit w) (@nil (list kv * N))). { split; [apply NoDup_nil_2|]. cbn. split; lia. }
  destruct (routes_spec _ _ _ _ _ Hok0 R) as (Hok & Hrs & _ & Hkeys).
  set (d0 := zeros (w_data y)) in *. set (f := route d0) in *. set (d := values y (w_data y)).
  assert (Hfst : map fst d = map fst d0). { unfold d, d0, values, zeros. by rewrite !map_map. }
  assert (Hfstd : map fst d0 = map fst (w_data y)) by apply zeros_fst.
  assert (Hf : forall g0, route d g0 = f g0). { intros g0. unfold f, route. by rewrite Hfst. }
  assert (Hrd : forall ks, map (route d) ks = map f ks). { intros ks. by apply map_ext. }
  assert (Hrr : reroute (route d) ins = reroute f ins). { unfold reroute. apply map_ext. intros q. by rewrite Hf. }
  assert (Hperm : map fst ins ≡ₚ map fst (map fst T)). { rewrite HI, !map_map. done. }
  assert (HT : forall t, t ∈ T -> (f t.1.1, t.1.2) ∈ w_data y).
  { intros t (i & Hi)%elem_of_list_lookup. subst rs. rewrite Forall2_lookup in F. specialize (F i). change (map ?g ?l) with (fmap (M:=list) g l) in F.
    rewrite !list_lookup_fmap, Hi in F. cbn in F. by inversion F. }
  assert (Hin : forall g0, g0 ∈ map fst d <-> g0 ∈ map f (map fst ins)).
  { intros g0. rewrite Hfst, Hkeys, Hrs. cbn. rewrite (Permutation_map f Hperm). rewrite elem_of_nil. tauto. }
  split; [|split; [|split; [|split]]].
  - rewrite Hfst. apply Hok.
  - unfold d, values. rewrite map_length. destruct Hok as (_ & Hl & _). unfold d0 in Hl. by rewrite zeros_length in Hl.
  - intros g0. rewrite Hrd. apply Hin.
  - intros g0 z Hz. pose proof Hz as ([g' h] & [= -> ->] & Hgh)%elem_of_list_fmap. rewrite HV; [|apply elem_of_list_fmap; by exists (g', h)]. cbn [snd fst] in *.
    rewrite Hrr.
    assert (Hat : at_cell h D ≡ₚ at_key g' (reroute f ins)).
    { rewrite (at_cell_perm h D _ HD). unfold reroute. rewrite (at_key_perm g' _ _ (Permutation_map _ HI)). unfold at_cell, at_key, flat. rewrite !map_map. cbn.
      assert (E : map snd (List.filter (fun p => Nat.eqb p.1 h) (map (fun t => (t.1.2, t.2)) T)) =
                   map snd (List.filter (fun p => bool_decide (p.1 = g')) (map (fun t => (f t.1.1, t.2)) T))); [|rewrite E; reflexivity].
      clear HD HI Hperm Hin Hrs R F Hkeys Hrd Hrr HV. induction T as [|t T IH]; [done|]. cbn.
      assert (Ht : (f t.1.1, t.1.2) ∈ w_data y) by (apply HT; left).
      assert (Hiff : Nat.eqb t.1.2 h = bool_decide (f t.1.1 = g')).
      { destruct (Nat.eqb_spec t.1.2 h) as [E|E]; symmetry.
        - apply bool_decide_eq_true_2. rewrite E in Ht. clear -Ht Hgh C1. apply elem_of_list_lookup in Ht as (i & Hi). apply elem_of_list_lookup in Hgh as (j & Hj).
          assert (i = j) as ->. { apply (NoDup_lookup _ _ _ h C1); change (map ?g ?l) with (fmap (M:=list) g l); by rewrite list_lookup_fmap, ?Hi, ?Hj. }
          congruence.
        - apply bool_decide_eq_false_2. intros Eg. apply E. rewrite Eg in Ht. destruct Hok as (Hnd & _). rewrite Hfstd in Hnd. clear -Ht Hgh Hnd.
          apply elem_of_list_lookup in Ht as (i & Hi). apply elem_of_list_lookup in Hgh as (j & Hj).
          assert (i = j) as ->. { apply (NoDup_lookup _ _ _ g' Hnd); change (map ?g ?l) with (fmap (M:=list) g l); by rewrite list_lookup_fmap, ?Hi, ?Hj. }
          congruence. }
      rewrite Hiff. destruct (bool_decide (f t.1.1 = g')); cbn; [f_equal|]; apply IH; intros t' Ht'; apply HT; by right. }
    apply (agg_perm w (at_cell h D)); [done|]. apply fold_agg_zero. intros E. rewrite E in Hat. apply Permutation_nil_l in Hat. symmetry in Hat. revert Hat.
    apply at_key_nil. unfold reroute. rewrite map_map. cbn. rewrite <- (map_map (fst (A:=list kv) (B:=N)) f). apply Hin. apply elem_of_list_fmap. by exists (g', value_of y h).
  - intros Hdist q Hq. rewrite Hfst. apply Hkeys. right. rewrite (routes_fit _ _ _ _ _ (remove_dups (map fst ins)) Hok0 R).
    + rewrite <- Hperm. by apply elem_of_list_fmap_1.
    + intros g0. cbn. rewrite elem_of_remove_dups, Hperm. intros [?%elem_of_nil|]; done.
    + done.
Qed.
End conc.
