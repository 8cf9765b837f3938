(** Below the cardinality limits every measurement goes to the series of its own attributes (C10). *)
From Coq Require Import ZArith Lia Bool.
From stdpp Require Import base list option.
From Verif Require Import Base Lib SyncModel SyncInv SyncStep SyncStepB SyncCases SyncRun SyncSpec SyncCall SyncVis SyncLimit.
Local Open Scope Z_scope.

Section fit.
Context {c : config}.
Notation K := (c_K c).
Notation key := (c_key c).
Notation st := (state c).
Notation pcT := (pc c).
Notation recT := (rec c).
Implicit Types (ls : list (label c)) (s : st) (p : pcT) (r : recT).

Lemma keys_of_app ls l o : keys_of (ls ++ l) o = keys_of ls o ++ keys_of l o.
Proof. unfold keys_of. by rewrite flat_map_app. Qed.
Lemma fed_keys_app ls l v : fed_keys (ls ++ l) v = fed_keys ls v ++ fed_keys l v.
Proof. unfold fed_keys. by rewrite flat_map_app. Qed.
Lemma keys_of_prefix l ls o k : l `prefix_of` ls -> k ∈ keys_of l o -> k ∈ keys_of ls o.
Proof. intros [x ->] H. rewrite keys_of_app. apply elem_of_app. by left. Qed.
Lemma fed_keys_prefix l ls v k : l `prefix_of` ls -> k ∈ fed_keys l v -> k ∈ fed_keys ls v.
Proof. intros [x ->] H. rewrite fed_keys_app. apply elem_of_app. by left. Qed.
Lemma keys_fed ls o k v : k ∈ keys_of ls o -> v ∈ iviews c o -> c_vkey c v k ∈ fed_keys ls v.
Proof.
  intros H Hv. unfold keys_of, fed_keys in *. apply elem_of_list_In in H. apply elem_of_list_In. apply in_flat_map in H as (l & Hl & H).
  apply in_flat_map. exists l. split; [done|]. destruct l as [o' k' n| |]; try done.
  destruct (Nat.eqb_spec o' o) as [->|]; [|done]. destruct H as [<-|[]].
  assert (existsb (Nat.eqb v) (iviews c o) = true) as ->; [|by left].
  apply existsb_exists. exists v. split; [by apply elem_of_list_In|apply Nat.eqb_refl].
Qed.

Definition NO ls s : Prop :=
  (forall i r, s_recs s !! i = Some r -> r_attrs r ∈ keys_of ls (r_inst r)) /\
  (forall t o k n, s_thr s !! t = Some (PRead o k n) \/ s_thr s !! t = Some (PWrite o k n) -> k ∈ keys_of ls o) /\
  (forall h hd, s_holds s !! h = Some hd -> h_key hd ∈ fed_keys ls (h_view hd) /\ (h_view hd < length (c_views c))%nat).

Lemma NoDup_snoc_length {X} (l l' : list X) x :
  NoDup l -> NoDup l' -> (forall y, y ∈ l -> y ∈ l') -> x ∈ l' -> x ∉ l -> (length l < length l')%nat.
Proof.
  intros N N' H Hx Hn. assert (length (x :: l) <= length l')%nat; [|cbn in *; lia].
  apply NoDup_sub_length.
  - by apply list.NoDup_cons.
  - intros y Hy. apply elem_of_cons in Hy as [->|Hy]; auto.
Qed.

Lemma miss_fits LS ls s o k : fits LS -> ls `prefix_of` LS -> NO ls s -> k ∈ keys_of ls o -> find_read o k s = None ->
  miss_key o k s = k.
Proof.
  intros F P (N1 & _ & _) Hk Hf. unfold miss_key. destruct (Z.leb_spec (c_ilimit c - 1) (nfp o s)) as [L|]; [|done]. exfalso.
  assert (length (live_fps o s) < length (remove_dups (map (c_fp c) (keys_of LS o))))%nat as LL.
  { apply (NoDup_snoc_length _ _ (c_fp c k)).
    - apply NoDup_remove_dups.
    - apply NoDup_remove_dups.
    - intros y Hy. rewrite elem_of_remove_dups. unfold live_fps in Hy. rewrite elem_of_remove_dups in Hy.
      apply elem_of_list_In, in_map_iff in Hy as (r & <- & Hr). apply filter_In in Hr as [Hr E].
      apply andb_true_iff in E as [_ E]. apply Nat.eqb_eq in E. subst o.
      apply elem_of_list_In, elem_of_list_lookup in Hr as (i & Hr).
      apply elem_of_list_In, in_map, elem_of_list_In. eapply keys_of_prefix; [done|]. by eapply N1.
    - rewrite elem_of_remove_dups; apply elem_of_list_In, in_map, elem_of_list_In. by eapply keys_of_prefix.
    - unfold live_fps. intros Hy. rewrite elem_of_remove_dups in Hy.
      apply elem_of_list_In, in_map_iff in Hy as (r & E1 & Hr). apply filter_In in Hr as [Hr E].
      apply andb_true_iff in E as [El Eo]. apply Nat.eqb_eq in Eo. apply elem_of_list_In, elem_of_list_lookup in Hr as (i & Hr).
      pose proof (find_last_None _ _ Hf _ _ Hr) as X. cbn in X. rewrite El, E1, Z.eqb_refl in X.
      subst o. rewrite Nat.eqb_refl in X. cbn in X. apply orb_false_iff in X as [_ X].
      rewrite (fits_fp _ F (r_inst r)) in X; [done|by eapply keys_of_prefix| |done].
      eapply keys_of_prefix; [done|]. by eapply N1. }
  pose proof (fits_inst _ F o). unfold nfp in L. lia.
Qed.

Lemma goc_fits LS ls s v k s1 h hd : Inv s -> fits LS -> ls `prefix_of` LS -> NO ls s ->
  k ∈ fed_keys ls v -> (v < length (c_views c))%nat ->
  get_or_create v k s = (s1, h) -> s_holds s1 !! h = Some hd -> h_key hd = k.
Proof.
  intros I F P (_ & _ & N3) Hk Hv G Hh. destruct (find_holder v k s) as [h0|] eqn:E.
  { unfold get_or_create in G. rewrite E in G. inversion G; subst. apply find_first_Some in E as (hd' & Hh' & E).
    assert (hd' = hd) by congruence. subst. rewrite !andb_true_iff in E. destruct E as [_ E]. by apply bool_decide_eq_true in E. }
  pose proof (fits_view _ F v Hv) as Hlim.
  assert (vsize v s < length (remove_dups (fed_keys LS v)))%nat as L.
  { unfold vsize.
    set (f := fun h => match s_holds s !! h with Some hd => h_key hd | None => k end).
    rewrite <- (map_length f).
    assert (NK : forall h hd, h ∈ live_holders v s -> s_holds s !! h = Some hd -> h_live hd = true /\ h_view hd = v).
    { intros h1 hd1 H1 H2. apply elem_of_list_In, filter_In in H1 as [_ H1]. rewrite H2 in H1.
      apply andb_true_iff in H1 as [H1 H1']. apply Nat.eqb_eq in H1'. done. }
    assert (EX : forall h, h ∈ live_holders v s -> exists hd, s_holds s !! h = Some hd).
    { intros h1 H1. apply elem_of_list_In, filter_In in H1 as [_ H1]. destruct (s_holds s !! h1) as [x|]; [by exists x|done]. }
    apply (NoDup_snoc_length _ _ k).
    - apply NoDup_ListNoDup. assert (NoDup (live_holders v s)) as ND.
      { apply NoDup_ListNoDup. apply List.NoDup_filter, seq_NoDup. }
      apply NoDup_ListNoDup in ND. revert ND NK EX. generalize (live_holders v s). intros l ND NK EX.
      induction ND as [|h1 l Hn ND IHl]; [constructor|]. cbn. constructor.
      + intros Hi. apply in_map_iff in Hi as (h2 & E2 & H2). destruct (EX h1) as (hd1 & Hh1); [left|].
        destruct (EX h2) as (hd2 & Hh2); [right; by apply elem_of_list_In|].
        unfold f in E2. rewrite Hh1, Hh2 in E2. destruct (NK h1 hd1) as [L1 V1]; [left|done|].
        destruct (NK h2 hd2) as [L2 V2]; [right; by apply elem_of_list_In|done|].
        assert (h2 = h1) by (eapply (I_U _ _ _ _ _ I); try done; congruence). subst. done.
      + apply IHl; intros h2 *; intros; [eapply NK; [right|]; done|apply EX; by right].
    - apply NoDup_remove_dups.
    - intros y Hy. apply elem_of_list_In, in_map_iff in Hy as (h1 & <- & H1). apply elem_of_list_In in H1.
      destruct (EX _ H1) as (hd1 & Hh1). unfold f. rewrite Hh1. destruct (NK _ _ H1 Hh1) as [_ <-].
      rewrite elem_of_remove_dups. eapply fed_keys_prefix; [done|]. by apply N3 in Hh1 as [? _].
    - rewrite elem_of_remove_dups. by eapply fed_keys_prefix.
    - intros Hy. apply elem_of_list_In, in_map_iff in Hy as (h1 & E1 & H1). apply elem_of_list_In in H1.
      destruct (EX _ H1) as (hd1 & Hh1). unfold f in E1. rewrite Hh1 in E1. destruct (NK _ _ H1 Hh1) as [L1 V1].
      pose proof (find_first_None _ _ E _ _ Hh1) as X. cbn in X. rewrite L1, V1, Nat.eqb_refl, E1 in X.
      rewrite bool_decide_eq_true_2 in X by done. done. }
  unfold get_or_create in G. rewrite E in G.
  destruct (Nat.eqb_spec (vsize v s) (vlimit c v)) as [|_]; [lia|].
  destruct (Nat.eqb_spec (vsize v s + 1) (vlimit c v)) as [|_]; [lia|].
  unfold new_holder in G. inversion G; subst. snorm. rewrite list_lookup_app_last in Hh. inversion Hh. done.
Qed.

Ltac acc_split := try match goal with S1 : _ = _ \/ exists _, _ = set_holds _ _ /\ _ |- _ =>
  destruct S1 as [->|(?k0 & -> & -> & ?F)] end.

Lemma il_view s v w : Inv s -> s_il s !! v = Some w -> (v < length (c_views c))%nat.
Proof. intros I H. destruct (I_il _ _ _ _ _ I) as (<- & _). by eapply lookup_lt_Some. Qed.

Lemma NO_step LS ls s t s' : Inv s -> fits LS -> ls `prefix_of` LS -> stepR s t s' -> NO ls s -> NO ls s'.
Proof.
  intros I FT P H N. pose proof N as (N1 & N2 & N3).
  assert (T2 : forall p' o k n t0, (s_thr s' = <[t:=p']> (s_thr s)) -> match p' with PRead o k n | PWrite o k n => k ∈ keys_of ls o | _ => True end ->
     s_thr s' !! t0 = Some (PRead o k n) \/ s_thr s' !! t0 = Some (PWrite o k n) -> k ∈ keys_of ls o).
  { intros p' o1 k1 n1 t0 -> Hp [Hx|Hx]; apply lookup_insert_inv in Hx as [(<- & -> & _)|(_ & Hx)]; try done; eapply N2; [by left|by right]. }
  destruct (thr_step _ _ _ H) as (p1 & p1' & Ht1 & Et & _).
  split; [|split].
  - intros i0 r0 Hr0. stepR_cases H; acc_split; snorm; try (by eapply N1);
      try (apply lookup_insert_inv in Hr0 as [(<- & <- & _)|(_ & Hr0)]; [cbn|]; by eapply N1).
    apply lookup_snoc in Hr0 as [Hr0|[-> ->]]; [by eapply N1|]. cbn. eapply N2. by right.
  - intros t0 o0 k0 n0. eapply (T2 p1'); [done|].
    assert (t < length (s_thr s))%nat as Lt by (by eapply lookup_lt_Some).
    assert (s_thr s' !! t = Some p1') as Hp1 by (rewrite Et; by rewrite list_lookup_insert). clear Et T2.
    stepR_cases H; acc_split; snorm; rewrite list_lookup_insert in Hp1 by done; inversion Hp1; subst p1'; try done; try (by destruct ph as [[]|]).
    assert (k ∈ keys_of ls o) as Hk by (eapply N2; by left). by rewrite (miss_fits LS ls).
  - intros h0 hd0 Hh0. stepR_cases H; acc_split; snorm; try (by eapply N3);
      try (apply lookup_insert_inv in Hh0 as [(<- & <- & _)|(_ & Hh0)]; [cbn|]; by eapply N3).
    assert (HV : (v < length (c_views c))%nat) by (by eapply il_view).
    assert (HK : h_key hd = c_vkey c v (r_attrs r)).
    { eapply (goc_fits LS ls s); [done..| |done|exact G|snorm; exact Hh]. eapply keys_fed; [by eapply N1|]. by eapply elem_of_list_lookup_2. }
    assert (HF : c_vkey c v (r_attrs r) ∈ fed_keys ls v).
    { eapply keys_fed; [by eapply N1|]. by eapply elem_of_list_lookup_2. }
    apply lookup_insert_inv in Hh0 as [(<- & <- & _)|(_ & Hh0)].
    + cbn. rewrite HK, Hhv. done.
    + apply lookup_snoc in Hh0 as [Hh0|[-> ->]]; [by eapply N3|]. cbn.
      rewrite list_lookup_app_last in Hh. inversion Hh; subst hd. cbn in *. by rewrite HK.
Qed.

Lemma NO_no_overflow LS ls s t : Inv s -> fits LS -> ls `prefix_of` LS -> NO ls s -> no_overflow s t.
Proof.
  intros I FT P N. split.
  - intros o k n Ht F. eapply (miss_fits LS ls); try done. destruct N as (_ & N2 & _). eapply N2. by left.
  - intros i n j r v s1 h hd Ht Hr Hv W G Hh. eapply (goc_fits LS ls s); [done..| |by eapply il_view|exact G|exact Hh].
    destruct N as (N1 & _). eapply keys_fed; [by eapply N1|]. by eapply elem_of_list_lookup_2.
Qed.

Lemma NO_spawn ls s l p : NO ls s ->
  match p with PRead o k n => l = LObserve o k n | PWrite _ _ _ => False | _ => True end ->
  NO (ls ++ [l]) (set_thr (fun l => l ++ [p]) s).
Proof.
  intros (N1 & N2 & N3) Hp. split; [|split].
  - intros i r Hr. rewrite keys_of_app. apply elem_of_app. left. by eapply N1.
  - intros t o k n Hx. snorm. rewrite keys_of_app. apply elem_of_app.
    destruct Hx as [Hx|Hx]; apply lookup_snoc in Hx as [Hx|[-> E]].
    + left. eapply N2. by left.
    + subst p. subst l. right. cbn. rewrite Nat.eqb_refl. left.
    + left. eapply N2. by right.
    + by subst p.
  - intros h hd Hh. rewrite fed_keys_app. destruct (N3 _ _ Hh). split; [|done]. apply elem_of_app. by left.
Qed.
Lemma NO_snoc ls s t ch : NO ls s -> NO (ls ++ [LStep t ch]) s.
Proof.
  intros (N1 & N2 & N3). assert (keys_of [LStep (c:=c) t ch] = fun _ => []) as E1 by done. assert (fed_keys [LStep (c:=c) t ch] = fun _ => []) as E2 by done.
  split; [|split].
  - intros i r Hr. rewrite keys_of_app, E1, app_nil_r. by eapply N1.
  - intros t0 o k n Hx. rewrite keys_of_app, E1, app_nil_r. by eapply N2.
  - intros h hd Hh. rewrite fed_keys_app, E2, app_nil_r. by eapply N3.
Qed.

Theorem CI_fits LS s : run (init c) LS = Some s -> fits LS ->
  CT false LS s /\ CA false s /\ CL false LS s.
Proof.
  intros R0 FT.
  enough (forall ls s, run (init c) ls = Some s -> ls `prefix_of` LS -> NO ls s /\ (CT false ls s /\ CA false s /\ CL false ls s)) as X.
  { by apply X. }
  clear R0 s. apply (run_ind (fun ls s => ls `prefix_of` LS -> NO ls s /\ (CT false ls s /\ CA false s /\ CL false ls s))).
  - intros _. split; [|split; [|split]]; try done.
    split; [|split]; [done| |done]. intros t o k n [Hx|Hx]; by inversion Hx.
  - intros ls s o k n R I P Ho PX. destruct P as [N (C1 & C3 & C4)]; [by eapply prefix_app_l|].
    split; [by apply NO_spawn|]. split; [|split]; [|done|by apply CL_spawn]. by apply CI_spawn_thr.
  - intros ls s rd R I P PX. destruct P as [N (C1 & C3 & C4)]; [by eapply prefix_app_l|].
    split; [by apply NO_spawn|]. split; [|split]; [|done|by apply CL_spawn]. by apply CI_spawn_thr.
  - intros ls s t ch0 s' R I I' P H PX. assert (PX' : ls `prefix_of` LS) by (by eapply prefix_app_l).
    destruct (P PX') as [N PC]. split; [apply NO_snoc; exact (NO_step LS ls s t s' I FT PX' H N)|].
    destruct (CI_step false ls s t s' I (fun _ => NO_no_overflow LS ls s t I FT PX' N) H PC) as (C1 & C3 & C4).
    unfold CT, CL. rewrite calls_snoc, app_nil_r. done.
Qed.
End fit.
