(** Conc: the entries of one view during a collection. *)
From Coq Require Import ZArith Bool String Lia.
From stdpp Require Import base list option strings.
From Verif Require Import Num Agg AggSpec Attr Async AsyncSpec AsyncProofs Conc ConcSpec ConcProofs ConcStep ConcInv.

Section conc.
Context {N : arith} (c : acfg) (vr : nat -> nat) (decl : list (list nat)).
Implicit Types (s : cst N) (k : coll N) (x : thr N) (y : vw N).
Notation threads := (nat -> option (thr N)).
Notation runs := (nat -> option bool).
Context (v : nat) (w : aview).

(** The accumulators of view [v]: key, cell, current number. *)
Definition vtri (z : list kv) (accs : list (acc N)) : list (list kv * nat * N) :=
  map (fun a => (view_key w z, ac_cell a, ac_cur a)) (List.filter (fun a => Nat.eqb (ac_view a) v) accs).
Definition stri (es : list (ent N)) : list (list kv * nat * N) := concat (map (fun en => vtri (en_set en) (en_accs en)) es).
Definition part k (th : threads) : list (list kv * nat * N) :=
  match k_lock k with
  | Thread t => match th t with Some x => match t_pc x with TMake _ accs => vtri (t_set x) accs | _ => [] end | None => [] end
  | _ => []
  end.
Definition trip k th := stri (k_store k) ++ part k th.

(** ** Cells *)
Definition zeros (l : list (list kv * nat)) : list (list kv * N) := map (fun p => (p.1, zero)) l.
Definition cok y : Prop := NoDup (map snd (w_data y ++ w_prior y)) /\ forall h, h ∈ map snd (w_data y ++ w_prior y) -> (h < length (w_cells y))%nat.
Definition placed (K : list (list kv * nat)) y : Prop :=
  exists rs, routes (av_limit w) (map fst K) [] = (rs, zeros (w_data y)) /\ Forall2 (fun r h => (r, h) ∈ w_data y) rs (map snd K).
Definition zerod y : Prop := forall h, h ∈ map snd (w_data y) -> value_of y h = zero.

Lemma cell_elem g0 (l : list (list kv * nat)) h : cell g0 l = Some h -> (g0, h) ∈ l.
Proof.
  unfold cell. induction l as [|[k' n] l IH]; cbn; [done|]. case_bool_decide as E; cbn; [intros [= ->]; subst; left|]. intros H. right. by apply IH.
Qed.
Lemma get_zeros g0 l : get g0 (zeros l) = (fun _ => zero) <$> cell g0 l.
Proof. unfold get, cell, zeros. induction l as [|[k' n] l IH]; cbn; [done|]. case_bool_decide; cbn; [done|exact IH]. Qed.
Lemma zeros_app l l' : zeros (l ++ l') = zeros l ++ zeros l'.
Proof. apply map_app. Qed.
Lemma zeros_length l : length (zeros l) = length l.
Proof. apply map_length. Qed.
Lemma zeros_fst l : map fst (zeros l) = map fst l.
Proof. unfold zeros. rewrite map_map. done. Qed.

Lemma make_cell_eq g0 y : make_cell g0 y = (Vw (w_cells y ++ [zero]) (w_data y ++ [(g0, length (w_cells y))]) (w_prior y), length (w_cells y)).
Proof. done. Qed.
Lemma find_storage_get lim g0 y y' h : find_storage lim g0 y = (y', h) ->
  exists r, get_or_create lim g0 (zeros (w_data y)) = (zeros (w_data y'), r) /\ (r, h) ∈ w_data y' /\
    (y' = y \/ exists g1, y' = Vw (w_cells y ++ [zero]) (w_data y ++ [(g1, length (w_cells y))]) (w_prior y)).
Proof.
  unfold find_storage, get_or_create. rewrite !get_zeros, zeros_length. generalize overflow_set as o. intros o.
  generalize (Nat.eqb (length (w_data y)) lim) as b1. generalize (Nat.eqb (S (length (w_data y))) lim) as b2. intros b2 b1.
  assert (Hmk : forall g1, make_cell g1 y = (y', h) -> zeros (w_data y') = zeros (w_data y) ++ [(g1, zero)] /\ (g1, h) ∈ w_data y' /\
    y' = Vw (w_cells y ++ [zero]) (w_data y ++ [(g1, length (w_cells y))]) (w_prior y)).
  { intros g1 [= <- <-]. cbn. rewrite zeros_app. split; [done|]. split; [|done]. apply elem_of_app. right. left. }
  destruct (cell g0 (w_data y)) as [h0|] eqn:E0; cbn.
  { intros [= <- <-]. exists g0. split; [done|]. split; [by apply cell_elem|by left]. }
  destruct b1.
  { destruct (cell o (w_data y)) as [h0|] eqn:E1; cbn.
    - intros [= <- <-]. exists o. split; [done|]. split; [by apply cell_elem|by left].
    - intros H. destruct (Hmk _ H) as (H1 & H2 & H3). exists g0. rewrite H1. split; [done|]. split; [done|]. right. eauto. }
  destruct b2.
  - case_bool_decide.
    + intros H'. destruct (Hmk _ H') as (H1 & H2 & H3). exists g0. rewrite H1. split; [done|]. split; [done|]. right. eauto.
    + destruct (cell o (w_data y)) as [h0|] eqn:E1; cbn; intros H'; destruct (Hmk _ H') as (H1 & H2 & H3); eexists; rewrite H1;
        (split; [done|]; split; [done|]; right; eauto).
  - intros H'. destruct (Hmk _ H') as (H1 & H2 & H3). exists g0. rewrite H1. split; [done|]. split; [done|]. right. eauto.
Qed.
Lemma values_app_cells y l z d p : (forall h, h ∈ map snd l -> (h < length (w_cells y))%nat) -> values (Vw (w_cells y ++ z) d p) l = values y l.
Proof.
  intros H. unfold values. apply map_ext_in. intros q Hq%elem_of_list_In. f_equal. unfold value_of. cbn. rewrite lookup_app_l; [done|]. apply H. by apply elem_of_list_fmap_1.
Qed.
Lemma value_app_cells y h z d p : (h < length (w_cells y))%nat -> value_of (Vw (w_cells y ++ z) d p) h = value_of y h.
Proof. intros H. unfold value_of. cbn. by rewrite lookup_app_l. Qed.

Lemma find_storage_placed K g0 y y' h : cok y -> placed K y -> zerod y -> find_storage (av_limit w) g0 y = (y', h) ->
  cok y' /\ placed (K ++ [(g0, h)]) y' /\ zerod y' /\ w_prior y' = w_prior y /\ values y' (w_prior y) = values y (w_prior y).
Proof.
  intros (C1 & C2) (rs & R & F) Z E. destruct (find_storage_get _ _ _ _ _ E) as (r & G & Hr & Hy).
  assert (Hsub : forall p, p ∈ w_data y -> p ∈ w_data y').
  { intros p Hp. destruct Hy as [->|(g1 & ->)]; [done|]. cbn. apply elem_of_app. by left. }
  assert (Hpl : placed (K ++ [(g0, h)]) y').
  { exists (rs ++ [r]). split.
    - rewrite map_app. cbn [map fst]. rewrite routes_app, R. cbn. by rewrite G.
    - rewrite map_app. apply Forall2_app; [|by constructor]. eapply Forall2_impl; [exact F|]. cbn. auto. }
  destruct Hy as [->|(g1 & ->)]; [split; [by split|]; by split|]. split; [split|split; [done|split; [|split; [done|]]]].
  - cbn. rewrite <- app_assoc, map_app. cbn. apply NoDup_Permutation_proper with (length (w_cells y) :: map snd (w_data y ++ w_prior y)).
    + rewrite map_app. by rewrite Permutation_middle.
    + apply list.NoDup_cons. split; [|done]. intros H%C2. lia.
  - cbn. intros h' Hh'. rewrite app_length. cbn. assert (h' = length (w_cells y) \/ h' ∈ map snd (w_data y ++ w_prior y)) as [->|H%C2].
    { rewrite !map_app, !elem_of_app in Hh'. cbn in Hh'. rewrite elem_of_list_singleton in Hh'. rewrite map_app, elem_of_app. tauto. }
    + lia.
    + lia.
  - intros h' Hh'. cbn in Hh'. rewrite map_app, elem_of_app in Hh'. destruct Hh' as [Hh'|Hh'].
    + rewrite value_app_cells; [by apply Z|]. apply C2. rewrite map_app, elem_of_app. by left.
    + cbn in Hh'. apply elem_of_list_singleton in Hh' as ->. unfold value_of. cbn. by rewrite list_lookup_middle.
  - apply values_app_cells. intros h' Hh'. apply C2. rewrite map_app, elem_of_app. by right.
Qed.

(** ** The accumulators a collection has made *)
Lemma vtri_app z accs accs' : vtri z (accs ++ accs') = vtri z accs ++ vtri z accs'.
Proof. unfold vtri. by rewrite List.filter_app, map_app. Qed.
Lemma vtri_fst z accs accs' : map ac_view accs = map ac_view accs' -> map ac_cell accs = map ac_cell accs' -> map fst (vtri z accs) = map fst (vtri z accs').
Proof.
  unfold vtri. rewrite !map_map. cbn. revert accs'. induction accs as [|a accs IH]; intros [|a' accs'] H1 H2; cbn in *; try done.
  injection H1 as H1 H1'. injection H2 as H2 H2'. rewrite H1. destruct (Nat.eqb _ _); cbn; [rewrite H2; f_equal|]; by apply IH.
Qed.
Lemma stri_app es es' : stri (es ++ es') = stri es ++ stri es'.
Proof. unfold stri. by rewrite map_app, concat_app. Qed.
Lemma stri_put_cur es e pos n : map fst (stri (put_cur es e pos n)) = map fst (stri es).
Proof.
  unfold put_cur, stri. revert e. induction es as [|en es IH]; intros [|e]; cbn; try done.
  - rewrite !map_app. f_equal. apply vtri_fst; [by rewrite alter_view|].
    apply list_eq. intros m. change (map ac_cell) with (fmap (M:=list) (ac_cell (N:=N))). rewrite !list_lookup_fmap.
    destruct (decide (m = pos)) as [->|Hne]; [|by rewrite list_lookup_alter_ne by done]. rewrite list_lookup_alter. by destruct (en_accs en !! pos).
  - rewrite !map_app. f_equal. apply IH.
Qed.
Lemma part_other k th t x' : (forall x td ac, th t = Some x -> t_pc x <> TMake td ac) -> (forall td ac, t_pc x' <> TMake td ac) -> part k (fup th t x') = part k th.
Proof.
  intros H H'. unfold part. destruct (k_lock k) as [|t0|]; try done. unfold fup. destruct (Nat.eqb_spec t0 t) as [->|Hne]; [|done].
  assert (match t_pc x' with TMake _ accs => vtri (t_set x') accs | _ => [] end = []) as ->. { destruct (t_pc x') eqn:E; try done. by destruct (H' _ _ eq_refl). }
  destruct (th t) as [x|] eqn:Hx; [|done]. destruct (t_pc x) eqn:E; try done. by destruct (H x _ _ eq_refl E).
Qed.
(** While callbacks run. *)
Definition in_run k : Prop := exists todo cur, k_phase k = KRun todo cur.
Lemma run_step k th ru y k' th' ru' y' : cinv c vr k th ru -> lstep c vr decl v w k th ru y k' th' ru' y' -> in_run k ->
  cok y -> placed (map fst (trip k th)) y -> zerod y ->
  cok y' /\ placed (map fst (trip k' th')) y' /\ zerod y' /\ w_prior y' = w_prior y /\ values y' (w_prior y) = values y (w_prior y).
Proof.
  intros CI L (td0 & cur0 & Hrun) HC HP HZ.
  assert (Same : y' = y -> map fst (trip k' th') = map fst (trip k th) ->
    cok y' /\ placed (map fst (trip k' th')) y' /\ zerod y' /\ w_prior y' = w_prior y /\ values y' (w_prior y) = values y (w_prior y)).
  { by intros -> ->. }
  destruct L as [cb todo j Hph Hru Hno|todo j Hph Hru|Hph|i todo Hph Hlk|todo pend n z a Hph Hz Ha|todo Hph|Hph|u todo pts Hph Hpts|Hph
    |t x b Hth Hru Hpc|t x cb b Hth Hpc Hru|t x e Hth Hpc Hlk Hfe|t x Hth Hpc Hlk Hfe|t x u todo accs h y1 Hth Hpc Hfs|t x accs Hth Hpc
    |t x e pos a Hth Hpc Ha|t x e pos Hth Hpc Ha]; try congruence.
  - by apply Same.
  - by apply Same.
  - by apply Same.
  - apply Same; [done|]. unfold trip. rewrite part_other; [done|congruence|by rewrite Hpc].
  - apply Same; [done|]. unfold trip. rewrite part_other; [done|by intros ? ? ? [= <-]%(eq_trans (eq_sym Hth)); rewrite Hpc|].
    cbn. destruct (check_pc c vr decl (k_reader k) cb b x) as [[-> _]|(r & -> & Hr)]; done.
  - apply Same; [done|]. unfold trip. rewrite part_other; [done|by intros ? ? ? [= <-]%(eq_trans (eq_sym Hth)); rewrite Hpc|done].
  - apply Same; [done|]. unfold trip, part. cbn. rewrite fup_same, Hlk. cbn. done.
  - assert (Hown : k_lock k = Thread t). { apply (i_lock _ _ _ _ _ CI). eauto. }
    assert (Htrip : trip k (fup th t (with_pc x (TMake todo (accs ++ [Acc u h zero])))) = trip k th ++ vtri (t_set x) [Acc u h zero]).
    { unfold trip, part. rewrite Hown, fup_same, Hth, Hpc. cbn. rewrite vtri_app. by rewrite app_assoc. }
    rewrite Htrip, map_app. destruct (Nat.eqb_spec u v) as [->|Hne].
    + unfold vtri. cbn. rewrite Nat.eqb_refl. cbn. by eapply find_storage_placed.
    + subst y1. unfold vtri. cbn. rewrite (proj2 (Nat.eqb_neq u v) Hne). cbn. rewrite app_nil_r. done.
  - assert (Hown : k_lock k = Thread t). { apply (i_lock _ _ _ _ _ CI). eauto. }
    apply Same; [done|]. unfold trip, part. cbn [k_lock k_store set_lock set_store]. rewrite Hown, Hth, Hpc, stri_app, app_nil_r. unfold stri at 2. cbn. by rewrite app_nil_r.
  - apply Same; [done|]. unfold trip. rewrite !map_app. cbn [k_store set_store]. rewrite stri_put_cur. f_equal. f_equal.
    change (part (set_store k (put_cur (k_store k) e pos (t_val x)))) with (part k).
    rewrite part_other; [done|by intros ? ? ? [= <-]%(eq_trans (eq_sym Hth)); rewrite Hpc|done].
  - apply Same; [done|]. unfold trip. rewrite part_other; [done|by intros ? ? ? [= <-]%(eq_trans (eq_sym Hth)); rewrite Hpc|done].
Qed.
End conc.
