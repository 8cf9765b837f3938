(** Proofs about the model of asynchronous instruments. *)
From Coq Require Import ZArith Bool String Lia.
From stdpp Require Import base list option strings.
From Verif Require Import Num Agg AggSpec Attr Async AsyncSpec.

(** ** Association lists *)
Section assoc.
Context {N : arith}.
Implicit Types (k : list kv) (l : list (list kv * N)).

Lemma get_None k l : get k l = None <-> k ∉ map fst l.
Proof.
  unfold get. induction l as [|[k' x] l IH]; cbn.
  - split; [intros _; apply not_elem_of_nil|done].
  - rewrite not_elem_of_cons. case_bool_decide; cbn; naive_solver.
Qed.
Lemma get_elem k l x : get k l = Some x -> (k, x) ∈ l.
Proof.
  unfold get. induction l as [|[k' y] l IH]; cbn; [done|].
  case_bool_decide; cbn; [intros [= ->]; subst; left|intros H'; right; auto].
Qed.
Lemma get_Some k l x : NoDup (map fst l) -> (get k l = Some x <-> (k, x) ∈ l).
Proof.
  intros Hd. split; [apply get_elem|]. intros Hin.
  destruct (get k l) as [y|] eqn:E.
  - f_equal. apply get_elem in E. revert E Hin. induction l as [|[k' z] l IH]; [by intros ?%elem_of_nil|].
    cbn in Hd. apply list.NoDup_cons in Hd as [Hn Hd]. rewrite !elem_of_cons. intros [[= -> ->]|E] [[= ?]|Hin]; subst; auto.
    + exfalso. apply Hn. apply elem_of_list_fmap. by exists (k', x).
    + exfalso. apply Hn. apply elem_of_list_fmap. by exists (k', y).
  - apply get_None in E. exfalso. apply E. apply elem_of_list_fmap. by exists (k, x).
Qed.
Lemma get_is_Some k l : is_Some (get k l) <-> k ∈ map fst l.
Proof.
  destruct (get k l) as [x|] eqn:E.
  - split; [|by eauto]. intros _. apply get_elem in E. apply elem_of_list_fmap. by exists (k, x).
  - apply get_None in E. split; [by intros [? ?]|done].
Qed.
End assoc.

(** ** Finding entries *)
Section routes.
Context {N : arith}.
Implicit Types (k : list kv) (l : list (list kv * N)).
Fixpoint routes (lim : nat) (ks : list (list kv)) l : list (list kv) * list (list kv * N) :=
  match ks with
  | [] => ([], l)
  | k :: ks => let '(l1, r) := get_or_create lim k l in let '(rs, l2) := routes lim ks l1 in (r :: rs, l2)
  end.
Lemma routes_app lim ks ks' l :
  routes lim (ks ++ ks') l =
  let '(rs, l1) := routes lim ks l in let '(rs', l2) := routes lim ks' l1 in (rs ++ rs', l2).
Proof.
  revert l. induction ks as [|k ks IH]; intros l; cbn.
  - by destruct (routes lim ks' l).
  - destruct (get_or_create lim k l) as [l1 r]. rewrite IH. destruct (routes lim ks l1) as [rs l2].
    by destruct (routes lim ks' l2).
Qed.

Definition okmap (lim : nat) l : Prop :=
  NoDup (map fst l) /\ (length l <= lim)%nat /\ (length l = lim -> overflow_set ∈ map fst l).
Lemma okmap_snoc lim l k : okmap lim l -> k ∉ map fst l -> length l <> lim -> (S (length l) = lim -> k = overflow_set \/ overflow_set ∈ map fst l) ->
  okmap lim (l ++ [(k, zero)]).
Proof.
  intros (Hd & Hl & Ho) Hk Hn Hs. split; [|split].
  - rewrite map_app. cbn. apply NoDup_app. split; [done|]. split; [|apply NoDup_singleton].
    intros x Hx ->%elem_of_list_singleton. done.
  - rewrite app_length. cbn. lia.
  - rewrite app_length, map_app, elem_of_app. cbn. intros Hx. destruct Hs as [->|Hs]; [lia| |]; [right; left|by left].
Qed.
Lemma get_or_create_spec lim k l l' r : okmap lim l -> get_or_create lim k l = (l', r) ->
  okmap lim l' /\ r ∈ map fst l' /\
  (exists new, l' = l ++ new /\ (forall p, p ∈ new -> p.2 = zero /\ p.1 = r)) /\
  (r = k \/ r = overflow_set /\ k ∉ map fst l /\ k ∉ map fst l' /\ length l' = lim /\ (lim <= S (length l))%nat).
Proof.
  intros Hok E. unfold get_or_create in E.
  destruct (get k l) as [x|] eqn:G.
  { simplify_eq. split; [done|]. split; [apply get_is_Some; eauto|]. split; [|by left].
    exists []. rewrite app_nil_r. split; [done|]. by intros ? ?%elem_of_nil. }
  apply get_None in G.
  assert (Hnew : forall k', k' ∉ map fst l -> length l <> lim -> (S (length l) = lim -> k' = overflow_set \/ overflow_set ∈ map fst l) ->
    (l ++ [(k', zero)], k') = (l', r) ->
    okmap lim l' /\ r ∈ map fst l' /\ (exists new, l' = l ++ new /\ (forall p, p ∈ new -> p.2 = zero /\ p.1 = r)) /\ r = k').
  { intros k' H1 H2 H3 [= <- <-]. split; [by apply okmap_snoc|]. split; [rewrite map_app, elem_of_app; right; left|].
    split; [|done]. eexists. split; [done|]. by intros p ->%elem_of_list_singleton. }
  destruct (Nat.eqb_spec (length l) lim) as [Hl|Hl].
  { destruct (get overflow_set l) as [y|] eqn:Go.
    - simplify_eq. split; [done|]. split; [apply get_is_Some; eauto|]. split.
      + exists []. rewrite app_nil_r. split; [done|]. by intros ? ?%elem_of_nil.
      + right. repeat split; try done; lia.
    - apply get_None in Go. destruct Hok as (_ & _ & Ho). by apply Ho in Hl. }
  destruct (Nat.eqb_spec (S (length l)) lim) as [Hs|Hs].
  - case_bool_decide as Hb.
    + destruct (Hnew k) as (? & ? & ? & ?); auto.
    + destruct (get overflow_set l) as [y|] eqn:Go.
      * assert (overflow_set ∈ map fst l) by (apply get_is_Some; eauto).
        destruct (Hnew k) as (? & ? & ? & ?); auto.
      * apply get_None in Go. destruct (Hnew overflow_set) as (Hk & ? & ? & ?); auto. split_and!; auto.
        right. simplify_eq. repeat split; auto.
        -- rewrite map_app, not_elem_of_app. cbn. rewrite elem_of_list_singleton. done.
        -- rewrite app_length. cbn. lia.
  - destruct (Hnew k) as (? & ? & ? & ?); auto. intros; lia.
Qed.
Lemma get_or_create_full lim k l l' r : okmap lim l -> length l = lim -> get_or_create lim k l = (l', r) -> l' = l.
Proof.
  intros Hok Hl E. unfold get_or_create in E. destruct (get k l) eqn:G; [by simplify_eq|].
  rewrite (proj2 (Nat.eqb_eq _ _) Hl) in E. destruct (get overflow_set l) eqn:Go; [by simplify_eq|].
  apply get_None in Go. destruct Hok as (_ & _ & Ho). by apply Ho in Hl.
Qed.
Lemma routes_full lim ks l rs l' : okmap lim l -> length l = lim -> routes lim ks l = (rs, l') -> l' = l.
Proof.
  revert rs. induction ks as [|k ks IH]; intros rs Hok Hl E; cbn in E; [by simplify_eq|].
  destruct (get_or_create lim k l) as [l1 r] eqn:G. rewrite (get_or_create_full _ _ _ _ _ Hok Hl G) in E.
  destruct (routes lim ks l) as [rs1 l2] eqn:R. injection E as <- <-. by apply (IH rs1).
Qed.
Definition route (l' : list (list kv * N)) k : list kv := if bool_decide (k ∈ map fst l') then k else overflow_set.
Lemma routes_spec lim ks l rs l' : okmap lim l -> routes lim ks l = (rs, l') ->
  okmap lim l' /\ rs = map (route l') ks /\
  (exists new, l' = l ++ new /\ (forall p, p ∈ new -> p.2 = zero)) /\
  (forall k, k ∈ map fst l' <-> k ∈ map fst l \/ k ∈ rs).
Proof.
  revert l rs. induction ks as [|k ks IH]; intros l rs Hok E; cbn in E.
  { simplify_eq. split_and!; auto. - exists []. rewrite app_nil_r. split; [done|]. by intros ? ?%elem_of_nil.
    - intros k. rewrite elem_of_nil. tauto. }
  destruct (get_or_create lim k l) as [l1 r] eqn:G. destruct (routes lim ks l1) as [rs1 l2] eqn:R. simplify_eq.
  destruct (get_or_create_spec _ _ _ _ _ Hok G) as (Hok1 & Hr & (new & -> & Hnew) & Hk).
  destruct (IH _ _ Hok1 R) as (Hok2 & -> & (new2 & -> & Hnew2) & Hks). split_and!; auto.
  - cbn. f_equal. unfold route. destruct Hk as [->|(-> & Hk & Hk1 & Hl & _)].
    + rewrite bool_decide_eq_true_2; [done|]. rewrite map_app, elem_of_app. by left.
    + pose proof (routes_full _ _ _ _ _ Hok1 Hl R) as Hf. rewrite Hf. by rewrite bool_decide_eq_false_2.
  - exists (new ++ new2). rewrite app_assoc. split; [done|]. intros p [Hp|Hp]%elem_of_app; [by apply Hnew|by apply Hnew2].
  - intros k'. rewrite Hks. rewrite elem_of_cons. rewrite map_app, elem_of_app.
    split; [|intros [?|[->|?]]; auto; [rewrite <- elem_of_app, <- map_app; auto]].
    intros [[?|Hin]|?]; auto. right; left. apply elem_of_list_fmap in Hin as (p & -> & Hp). by destruct (Hnew p Hp).
Qed.
Lemma routes_fit lim ks l rs l' ds : okmap lim l -> routes lim ks l = (rs, l') ->
  (forall k, k ∈ map fst l \/ k ∈ ks -> k ∈ ds) -> (length ds < lim)%nat -> rs = ks.
Proof.
  revert l rs. induction ks as [|k ks IH]; intros l rs Hok E Hds Hl; cbn in E; [by simplify_eq|].
  destruct (get_or_create lim k l) as [l1 r] eqn:G. destruct (routes lim ks l1) as [rs1 l2] eqn:R. simplify_eq.
  destruct (get_or_create_spec _ _ _ _ _ Hok G) as (Hok1 & Hr & (new & -> & Hnew) & Hk).
  assert (r = k) as ->.
  { destruct Hk as [->|(-> & Hk & Hk1 & Hl1 & Hl2)]; [done|]. exfalso.
    assert (S (length l) <= length ds)%nat; [|lia].
    assert (length (k :: map fst l) <= length ds)%nat as Hle; [|cbn in Hle; by rewrite map_length in Hle].
    apply submseteq_length. apply NoDup_submseteq.
    - apply list.NoDup_cons. split; [done|]. apply Hok.
    - intros x [->|Hx]%elem_of_cons; apply Hds; [right; left|by left]. }
  f_equal. eapply IH; eauto. intros k'. rewrite map_app, elem_of_app. intros [[?|Hin]|?].
  - apply Hds. by left.
  - apply elem_of_list_fmap in Hin as (p & -> & Hp). destruct (Hnew p Hp) as [_ ->]. apply Hds. right; left.
  - apply Hds. right; by right.
Qed.
End routes.

(** ** Observing *)
Section observing.
Context {N : arith} (c : acfg).
Implicit Types (l : list (obs (N:=N))) (es : list (entry (N:=N))) (st : list (vst (N:=N))).
Definition occ (v : nat) (vs : list nat) : nat := length (List.filter (Nat.eqb v) vs).
Definition at_view (v : nat) (hs : list (nat * list kv)) : list (list kv) := map snd (List.filter (fun h => Nat.eqb v h.1) hs).

Lemma new_acc_view vs s st hs st' v x w : new_acc c vs s st = (hs, st') -> st !! v = Some x -> a_views c !! v = Some w ->
  exists x', st' !! v = Some x' /\ d_prior x' = d_prior x /\
    routes (av_limit w) (replicate (occ v vs) (view_key w s)) (d_data x) = (at_view v hs, d_data x').
Proof.
  revert st hs st' x. induction vs as [|u vs IH]; intros st hs st' x E Hx Hw; cbn in E.
  { simplify_eq. exists x. done. }
  destruct (Nat.eqb_spec v u) as [->|Hne].
  - rewrite Hx, Hw in E. destruct (get_or_create (av_limit w) (view_key w s) (d_data x)) as [l k] eqn:G.
    destruct (new_acc c vs s (<[u:=VSt l (d_prior x)]> st)) as [hs1 st1] eqn:R. simplify_eq.
    assert (Hu : <[u:=VSt l (d_prior x)]> st !! u = Some (VSt l (d_prior x))).
    { apply list_lookup_insert. by eapply lookup_lt_Some. }
    destruct (IH _ _ _ _ R Hu Hw) as (x' & H1 & H2 & H3). exists x'. split; [done|]. split; [done|].
    unfold occ, at_view. cbn. rewrite Nat.eqb_refl. cbn. rewrite G.
    change (length (List.filter (Nat.eqb u) vs)) with (occ u vs). cbn in H3. rewrite H3. done.
  - destruct (st !! u) as [y|] eqn:Hu, (a_views c !! u) as [wu|] eqn:Hwu.
    + destruct (get_or_create (av_limit wu) (view_key wu s) (d_data y)) as [l k] eqn:G.
      destruct (new_acc c vs s (<[u:=VSt l (d_prior y)]> st)) as [hs1 st1] eqn:R. simplify_eq.
      assert (Hv : <[u:=VSt l (d_prior y)]> st !! v = Some x). { by rewrite list_lookup_insert_ne. }
      destruct (IH _ _ _ _ R Hv Hw) as (x' & H1 & H2 & H3). exists x'. split; [done|]. split; [done|].
      unfold occ, at_view. cbn. rewrite (proj2 (Nat.eqb_neq v u) Hne). done.
    + destruct (IH _ _ _ _ E Hx Hw) as (x' & H1 & H2 & H3). exists x'. split; [done|]. split; [done|].
      unfold occ, at_view. cbn. rewrite (proj2 (Nat.eqb_neq v u) Hne). done.
    + destruct (IH _ _ _ _ E Hx Hw) as (x' & H1 & H2 & H3). exists x'. split; [done|]. split; [done|].
      unfold occ, at_view. cbn. rewrite (proj2 (Nat.eqb_neq v u) Hne). done.
    + destruct (IH _ _ _ _ E Hx Hw) as (x' & H1 & H2 & H3). exists x'. split; [done|]. split; [done|].
      unfold occ, at_view. cbn. rewrite (proj2 (Nat.eqb_neq v u) Hne). done.
Qed.
Lemma new_acc_length vs s st hs st' : new_acc c vs s st = (hs, st') -> length st' = length st.
Proof.
  revert st hs st'. induction vs as [|u vs IH]; intros st hs st' E; cbn in E; [by simplify_eq|].
  destruct (st !! u) as [y|] eqn:Hu, (a_views c !! u) as [wu|] eqn:Hwu; eauto.
  destruct (get_or_create (av_limit wu) (view_key wu s) (d_data y)) as [l k] eqn:G.
  destruct (new_acc c vs s (<[u:=VSt l (d_prior y)]> st)) as [hs1 st1] eqn:R. simplify_eq.
  rewrite (IH _ _ _ R). apply insert_length.
Qed.

Definition name (e : entry (N:=N)) : nat * list kv := (e_inst e, e_set e).
Definition enabled (i : nat) : Prop := exists inst, a_insts c !! i = Some inst /\ ai_views inst <> [].
Definition keys_of (v : nat) (w : aview) (e : entry (N:=N)) : list (list kv) := replicate (feeds c v (e_inst e)) (view_key w (e_set e)).
Definition holds_of (v : nat) (e : entry (N:=N)) : list (list kv) := at_view v (e_hold e).

Record oinv (st0 : list (vst (N:=N))) l es st : Prop := {
  oi_len : length st = length st0;
  oi_dup : NoDup (map name es);
  oi_cur : forall e, e ∈ es -> enabled (e_inst e) /\ last_seen l (name e) = Some (e_cur e);
  oi_all : forall p n, enabled p.1 -> last_seen l p = Some n -> p ∈ map name es;
  oi_view : forall v w x0, st0 !! v = Some x0 -> a_views c !! v = Some w ->
    exists x, st !! v = Some x /\ d_prior x = d_prior x0 /\
      routes (av_limit w) (concat (map (keys_of v w) es)) (d_data x0) = (concat (map (holds_of v) es), d_data x) /\
      (forall e, e ∈ es -> length (holds_of v e) = feeds c v (e_inst e))
}.

Lemma last_seen_snoc l p q n : last_seen (l ++ [(p, n)]) q = if bool_decide (p = q) then Some n else last_seen l q.
Proof.
  unfold last_seen. rewrite omap_app. cbn. case_bool_decide; subst.
  - by rewrite last_snoc.
  - by rewrite app_nil_r.
Qed.
Lemma routes_length lim ks (d : list (list kv * N)) rs d' : routes lim ks d = (rs, d') -> length rs = length ks.
Proof.
  revert d rs. induction ks as [|k ks IH]; intros d rs E; cbn in E; [by simplify_eq|].
  destruct (get_or_create lim k d). destruct (routes lim ks l) eqn:R. simplify_eq. cbn. f_equal. by eapply IH.
Qed.

Lemma oinv_step st0 l es st i s n : oinv st0 l es st ->
  let '(es', st') := observe c i s n (es, st) in oinv st0 (l ++ [(i, s, n)]) es' st'.
Proof.
  intros I. unfold observe.
  assert (Hskip : ~ enabled i -> oinv st0 (l ++ [(i, s, n)]) es st).
  { intros He. destruct I as [A B C D E]. split; auto.
    - intros e Hin. destruct (C e Hin) as [H1 H2]. split; [done|]. rewrite last_seen_snoc.
      rewrite bool_decide_eq_false_2; [done|]. intros Hx. apply He. injection Hx as -> _. done.
    - intros p m Hp. rewrite last_seen_snoc. case_bool_decide as Hb; [subst; done|]. intros Hm. by eapply D. }
  destruct (a_insts c !! i) as [inst|] eqn:Hi.
  2: { apply Hskip. intros (x & ? & _). congruence. }
  destruct (ai_views inst) as [|u us] eqn:Hv.
  { apply Hskip. intros (x & ? & ?). congruence. }
  assert (He : enabled i). { exists inst. split; [done|]. by rewrite Hv. }
  clear Hskip. destruct (existsb (same_entry i s) es) eqn:Hex.
  - set (upd := fun e : entry (N:=N) => if same_entry i s e then set_cur n e else e).
    assert (Hname : forall e, name (upd e) = name e). { intros e. unfold upd, name. by destruct (same_entry i s e). }
    assert (Hk : forall v w, map (keys_of v w) (map upd es) = map (keys_of v w) es).
    { intros v w. rewrite map_map. apply map_ext. intros e. unfold upd, keys_of. by destruct (same_entry i s e). }
    assert (Hh : forall v, map (holds_of v) (map upd es) = map (holds_of v) es).
    { intros v. rewrite map_map. apply map_ext. intros e. unfold upd, holds_of. by destruct (same_entry i s e). }
    assert (Hn : map name (map upd es) = map name es). { rewrite map_map. apply map_ext. done. }
    destruct I as [A B C D E]. split; auto.
    + by rewrite Hn.
    + intros e' (e & -> & Hin)%elem_of_list_fmap. destruct (C e Hin) as [H1 H2]. rewrite Hname.
      rewrite last_seen_snoc. unfold upd, same_entry, name in *.
      destruct (Nat.eqb_spec (e_inst e) i) as [Hei|Hei]; cbn.
      * case_bool_decide as Hes; cbn.
        -- rewrite bool_decide_eq_true_2; [|congruence]. split; [congruence|done].
        -- rewrite bool_decide_eq_false_2; [done|]. congruence.
      * rewrite bool_decide_eq_false_2; [done|]. congruence.
    + intros p m Hp. rewrite Hn, last_seen_snoc. case_bool_decide as Hb; [|by apply D]. intros _. subst p.
      apply existsb_exists in Hex as (e & Hin & Hs). unfold same_entry in Hs. apply andb_true_iff in Hs as [H1%Nat.eqb_eq H2%bool_decide_eq_true].
      apply elem_of_list_fmap. exists e. split; [by unfold name; subst|by apply elem_of_list_In].
    + intros v w x0 H1 H2. destruct (E v w x0 H1 H2) as (x & K1 & K2 & K3 & K4). exists x. rewrite Hk, Hh. split_and!; auto.
      intros e' (e & -> & Hin)%elem_of_list_fmap. pose proof (K4 e Hin) as Hke.
      unfold upd. by destruct (same_entry i s e).
  - destruct (new_acc c (u :: us) s st) as [hs st'] eqn:Ena.
    assert (Hnot : (i, s) ∉ map name es).
    { intros (e & Hen & Hin)%elem_of_list_fmap. assert (existsb (same_entry i s) es = true); [|congruence].
      apply existsb_exists. exists e. split; [by apply elem_of_list_In|]. unfold same_entry, name in *. injection Hen as -> ->.
      rewrite Nat.eqb_refl. by rewrite bool_decide_eq_true_2. }
    destruct I as [A B C D E]. split; auto.
    + rewrite <- A. by eapply new_acc_length.
    + rewrite map_app. cbn. apply NoDup_app. split; [done|]. split; [|apply NoDup_singleton].
      intros p Hp ->%elem_of_list_singleton. done.
    + intros e [Hin| ->%elem_of_list_singleton]%elem_of_app.
      * destruct (C e Hin) as [H1 H2]. split; [done|]. rewrite last_seen_snoc. rewrite bool_decide_eq_false_2; [done|].
        intros Hx. apply Hnot. rewrite Hx. by apply elem_of_list_fmap_1.
      * cbn. split; [done|]. rewrite last_seen_snoc. unfold name. cbn. by rewrite bool_decide_eq_true_2.
    + intros p m Hp. rewrite last_seen_snoc, map_app, elem_of_app. case_bool_decide as Hb.
      * intros _. right. subst p. left.
      * intros Hm. left. by eapply D.
    + intros v w x0 H1 H2. destruct (E v w x0 H1 H2) as (x & K1 & K2 & K3 & K4).
      destruct (new_acc_view _ _ _ _ _ _ _ _ Ena K1 H2) as (x' & L1 & L2 & L3).
      exists x'. assert (Hf : feeds c v i = occ v (u :: us)). { unfold feeds, occ. by rewrite Hi, Hv. }
      assert (Hk1 : keys_of v w (Entry i s n hs) = replicate (occ v (u :: us)) (view_key w s)). { unfold keys_of. cbn [e_inst e_set]. by rewrite Hf. }
      split_and!; [done|congruence| |].
      * rewrite !map_app, !concat_app, routes_app, K3. cbn [map concat]. rewrite !app_nil_r, Hk1, L3. done.
      * intros e [Hin| ->%elem_of_list_singleton]%elem_of_app; [by apply K4|].
        unfold holds_of. cbn [e_hold e_inst]. rewrite Hf. apply routes_length in L3. rewrite replicate_length in L3. done.
Qed.
Lemma oinv_step' st0 l x i s n : (let '(es, st) := x in oinv st0 l es st) ->
  let '(es', st') := observe c i s n x in oinv st0 (l ++ [(i, s, n)]) es' st'.
Proof. destruct x as [es st]. apply oinv_step. Qed.
Lemma observe_all_inv st0 l : let '(es, st) := observe_all c l st0 in oinv st0 l es st.
Proof.
  unfold observe_all. induction l as [|[[i s] n] l IH] using rev_ind.
  - cbn. split; auto.
    + apply NoDup_nil_2.
    + by intros e ?%elem_of_nil.
    + intros p n _. cbn. done.
    + intros v w x0 H1 _. exists x0. split_and!; auto. by intros e ?%elem_of_nil.
  - rewrite fold_left_app. exact (oinv_step' st0 l _ i s n IH).
Qed.

(** ** What a view is given *)
Definition gives (v : nat) (w : aview) (e : entry (N:=N)) : list (list kv * N) := map (fun k => (k, e_cur e)) (keys_of v w e).
Lemma last_seen_in l p : is_Some (last_seen l p) <-> p ∈ map fst l.
Proof.
  induction l as [|[q n] l IH] using rev_ind.
  - split; [by intros [? ?]|]. by intros ?%elem_of_nil.
  - rewrite last_seen_snoc, map_app, elem_of_app. cbn. rewrite elem_of_list_singleton.
    case_bool_decide; subst; [split; eauto|]. rewrite IH. split; [by left|]. by intros [?| ->].
Qed.
Lemma concat_bind {A B} (f : A -> list B) (l : list A) : l ≫= f = concat (map f l).
Proof. induction l as [|x l IH]; [done|]. rewrite bind_cons. cbn. by rewrite IH. Qed.
Lemma concat_perm {A} (l l' : list (list A)) : l ≡ₚ l' -> concat l ≡ₚ concat l'.
Proof.
  induction 1; cbn.
  - done.
  - by apply Permutation_app_head.
  - rewrite !app_assoc. apply Permutation_app_tail. apply Permutation_app_comm.
  - by etrans.
Qed.
Lemma enabled_dec i : Decision (enabled i).
Proof.
  destruct (a_insts c !! i) as [inst|] eqn:E.
  - destruct (ai_views inst) eqn:V; [right|left].
    + intros (x & ? & ?). congruence.
    + exists inst. by rewrite V.
  - right. intros (x & ? & ?). congruence.
Qed.
Global Existing Instance enabled_dec.
Lemma disabled_feeds v i : ~ enabled i -> feeds c v i = 0%nat.
Proof.
  intros H. unfold feeds. destruct (a_insts c !! i) as [inst|] eqn:E; [|done].
  destruct (ai_views inst) eqn:V; [done|]. exfalso. apply H. exists inst. by rewrite V.
Qed.
Lemma map_replicate {A B} (f : A -> B) n x : map f (replicate n x) = replicate n (f x).
Proof. induction n; cbn; [done|by f_equal]. Qed.
Lemma filter_compl {A} (P : A -> Prop) `{!forall x, Decision (P x)} (l : list A) : filter P l ++ filter (fun x => ~ P x) l ≡ₚ l.
Proof.
  induction l as [|x l IH]; [done|]. rewrite !filter_cons. destruct (decide (P x)).
  - rewrite decide_False by tauto. cbn. by constructor.
  - rewrite decide_True by done. rewrite <- Permutation_middle. by constructor.
Qed.
Lemma gives_inputs st0 l es st v w : oinv st0 l es st -> concat (map (gives v w) es) ≡ₚ inputs c v w l.
Proof.
  intros I. unfold inputs. rewrite concat_bind.
  set (g := fun p : nat * list kv => match last_seen l p with Some n => replicate (feeds c v p.1) (view_key w p.2, n) | None => [] end).
  assert (Hg : map (gives v w) es = map g (map name es)).
  { rewrite map_map. apply map_ext_in. intros e Hin%elem_of_list_In. destruct (oi_cur _ _ _ _ I e Hin) as [_ H]. unfold g. rewrite H.
    unfold gives, keys_of. rewrite map_replicate. done. }
  rewrite Hg.
  assert (Hz : forall q, Forall (fun p => ~ enabled p.1) q -> concat (map g q) = []).
  { induction 1 as [|p q Hp _ IH]; [done|]. cbn. rewrite IH, app_nil_r. unfold g. destruct (last_seen l p); [|done]. by rewrite disabled_feeds. }
  pose proof (filter_compl (fun p => enabled p.1) (names l)) as Hf. rewrite <- Hf at 1.
  rewrite map_app, concat_app. rewrite (Hz (filter (fun p => ~ enabled p.1) (names l))); [|apply list.Forall_forall; intros p Hp; by apply elem_of_list_filter in Hp as [? _]].
  rewrite app_nil_r. apply concat_perm. apply Permutation_map. apply NoDup_Permutation.
  - apply I.
  - apply NoDup_filter. apply NoDup_remove_dups.
  - intros p. rewrite elem_of_list_filter. unfold names. rewrite elem_of_remove_dups. split.
    + intros (e & -> & Hin)%elem_of_list_fmap. destruct (oi_cur _ _ _ _ I e Hin) as [He Hl]. split; [done|].
      apply last_seen_in. eauto.
    + intros [He Hin]. apply last_seen_in in Hin as [n Hn]. by eapply oi_all.
Qed.

(** ** Snapshots *)
Definition op (w : aview) (a n : N) : N := if av_gauge w then n else add a n.
Definition upd (w : aview) (p : list kv * N) (q : list kv * N) : list kv * N := if bool_decide (q.1 = p.1) then (q.1, op w q.2 p.2) else q.
Definition upds (w : aview) (ups d : list (list kv * N)) : list (list kv * N) := fold_left (fun d p => map (upd w p) d) ups d.
Lemma upds_spec w ups d : upds w ups d = map (fun q => (q.1, fold_left (op w) (at_key q.1 ups) q.2)) d.
Proof.
  revert d. induction ups as [|p ups IH]; intros d; cbn.
  - rewrite <- (map_id d) at 1. apply map_ext. by intros [k x].
  - change (upds w ups (map (upd w p) d) = map (fun q => (q.1, fold_left (op w) (at_key q.1 (p :: ups)) q.2)) d).
    rewrite IH, map_map. apply map_ext. intros [k x]. unfold upd, at_key. cbn.
    destruct (bool_decide (k = p.1)) eqn:E.
    + apply bool_decide_eq_true in E. cbn. rewrite bool_decide_eq_true_2 by done. done.
    + apply bool_decide_eq_false in E. cbn. rewrite bool_decide_eq_false_2 by congruence. done.
Qed.
Lemma update_at_view v k n st u x w : st !! u = Some x -> a_views c !! u = Some w ->
  update_at c v k n st !! u = Some (if Nat.eqb v u then VSt (map (upd w (k, n)) (d_data x)) (d_prior x) else x).
Proof.
  intros Hx Hw. unfold update_at. destruct (Nat.eqb_spec v u) as [->|Hne].
  - rewrite Hx, Hw. rewrite list_lookup_insert; [done|]. by eapply lookup_lt_Some.
  - destruct (st !! v); [|done]. destruct (a_views c !! v); [|done]. by rewrite list_lookup_insert_ne.
Qed.
Lemma update_at_length v k n st : length (update_at c v k n st) = length st.
Proof. unfold update_at. destruct (st !! v); [|done]. destruct (a_views c !! v); [|done]. apply insert_length. Qed.
Definition ups_of (u : nat) (e : entry (N:=N)) : list (list kv * N) := map (fun k => (k, e_cur e)) (holds_of u e).
Lemma snapshot_one n hs st u x w : st !! u = Some x -> a_views c !! u = Some w ->
  fold_left (fun st h => update_at c h.1 h.2 n st) hs st !! u =
  Some (VSt (upds w (map (fun k => (k, n)) (at_view u hs)) (d_data x)) (d_prior x)).
Proof.
  revert st x. induction hs as [|[v k] hs IH]; intros st x Hx Hw; cbn.
  - rewrite Hx. by destruct x.
  - rewrite (IH _ _ (update_at_view v k n st u x w Hx Hw) Hw). unfold at_view. cbn.
    rewrite (Nat.eqb_sym u v). destruct (Nat.eqb v u); done.
Qed.
Lemma snapshot_view es st u x w : st !! u = Some x -> a_views c !! u = Some w ->
  snapshot c es st !! u = Some (VSt (upds w (concat (map (ups_of u) es)) (d_data x)) (d_prior x)).
Proof.
  unfold snapshot. revert st x. induction es as [|e es IH]; intros st x Hx Hw; cbn.
  - rewrite Hx. by destruct x.
  - rewrite (IH _ _ (snapshot_one (e_cur e) (e_hold e) st u x w Hx Hw) Hw). cbn. unfold upds. by rewrite fold_left_app.
Qed.
Lemma snapshot_length es st : length (snapshot c es st) = length st.
Proof.
  unfold snapshot. revert st. induction es as [|e es IH]; intros st; cbn; [done|]. rewrite IH.
  generalize (e_hold e) as hs. intros hs. revert st. induction hs as [|h hs IHh]; intros st; cbn; [done|]. by rewrite IHh, update_at_length.
Qed.

(** ** The totals of one collection *)
Definition agg (w : aview) (ns : list N) (x : N) : Prop := if av_gauge w then x ∈ ns else adds ns x.
Lemma fold_agg w ns x : ns <> [] -> agg w ns (fold_left (op w) ns x) \/ av_gauge w = false.
Proof.
  intros H. unfold agg, op. destruct (av_gauge w); [left|by right].
  destruct (exists_last H) as (ms & m & ->). rewrite fold_left_app. cbn. apply elem_of_app. right. left.
Qed.
Lemma fold_adds (ns : list N) : adds ns (fold_left add ns zero).
Proof.
  enough (H : forall (ns ms : list N) (x : N), adds ms x -> adds (ms ++ ns) (fold_left add ns x)) by apply (H ns [] zero), adds_zero.
  clear ns. induction ns as [|n ns IH]; intros ms x Hx; cbn; [by rewrite app_nil_r|].
  rewrite (cons_middle n ms ns), app_assoc. apply IH. apply adds_add; [done|]. apply adds_one.
Qed.
Lemma fold_agg_zero w ns : ns <> [] -> agg w ns (fold_left (op w) ns zero).
Proof.
  intros H. destruct (fold_agg w ns zero H) as [?|Hg]; [done|]. unfold agg, op. rewrite Hg. apply fold_adds.
Qed.
Lemma agg_perm w ns ms x : ns ≡ₚ ms -> agg w ns x -> agg w ms x.
Proof. intros H. unfold agg. destruct (av_gauge w); [by rewrite H|]. by apply adds_perm. Qed.
Lemma at_key_perm k (p q : list (list kv * N)) : p ≡ₚ q -> at_key k p ≡ₚ at_key k q.
Proof.
  unfold at_key. intros H. apply Permutation_map. induction H; cbn.
  - done.
  - destruct (bool_decide (x.1 = k)); [by constructor|done].
  - destruct (bool_decide (x.1 = k)), (bool_decide (y.1 = k)); try done. constructor.
  - by etrans.
Qed.
Lemma at_key_nil k (p : list (list kv * N)) : at_key k p <> [] <-> k ∈ map fst p.
Proof.
  unfold at_key. induction p as [|[k' x] p IH]; cbn.
  - split; [done|]. by intros ?%elem_of_nil.
  - rewrite elem_of_cons. case_bool_decide; cbn; [naive_solver|]. rewrite IH. naive_solver.
Qed.

Definition reroute (f : list kv -> list kv) (p : list (list kv * N)) : list (list kv * N) := map (fun q => (f q.1, q.2)) p.
(** [d] holds the totals of [p]: each key of [p] or, if it does not fit, the overflow set. *)
Definition totals_of (w : aview) (d p : list (list kv * N)) : Prop :=
  NoDup (map fst d) /\ (length d <= av_limit w)%nat /\
  (forall k, k ∈ map fst d <-> k ∈ map (route d) (map fst p)) /\
  (forall k x, (k, x) ∈ d -> agg w (at_key k (reroute (route d) p)) x) /\
  ((distinct p < av_limit w)%nat -> forall q, q ∈ p -> q.1 ∈ map fst d).

Lemma concat_eq_split {A B} (f g : A -> list B) (es : list A) :
  concat (map f es) = concat (map g es) -> (forall e, e ∈ es -> length (f e) = length (g e)) -> forall e, e ∈ es -> f e = g e.
Proof.
  induction es as [|a es IH]; cbn; intros Hc Hl e; [by intros ?%elem_of_nil|].
  apply app_inj_1 in Hc as [H1 H2]; [|apply Hl; left]. intros [->|Hin]%elem_of_cons; [done|].
  apply IH; auto. intros e' He'. apply Hl. by right.
Qed.
Lemma fst_gives v w es : map fst (concat (map (gives v w) es)) = concat (map (keys_of v w) es).
Proof.
  induction es as [|e es IH]; [done|]. cbn. rewrite map_app. f_equal; [|exact IH].
  unfold gives. rewrite map_map. by rewrite map_id.
Qed.

Lemma gathered st0 l order v w x0 : st0 !! v = Some x0 -> a_views c !! v = Some w -> d_data x0 = [] -> (1 <= av_limit w)%nat ->
  (forall es, order es ≡ₚ es) ->
  let '(es, st) := observe_all c l st0 in
  exists d, snapshot c (order es) st !! v = Some (VSt d (d_prior x0)) /\ totals_of w d (inputs c v w l).
Proof.
  intros Hx0 Hw Hd0 Hlim Hord. pose proof (observe_all_inv st0 l) as I. destruct (observe_all c l st0) as [es st].
  destruct (oi_view _ _ _ _ I v w x0 Hx0 Hw) as (x & Hx & Hp & Hr & Hlen). rewrite Hd0 in Hr.
  assert (Hok0 : okmap (av_limit w) (@nil (list kv * N))).
  { split; [apply NoDup_nil_2|]. cbn. split; lia. }
  destruct (routes_spec _ _ _ _ _ Hok0 Hr) as (Hok & Hrs & (new & Hnew & Hzero) & Hkeys). cbn in Hnew. subst new.
  rewrite (snapshot_view _ _ _ _ _ Hx Hw). rewrite Hp. eexists. split; [done|].
  set (f := route (d_data x)) in *.
  assert (Hh : forall e, e ∈ es -> holds_of v e = map f (keys_of v w e)).
  { apply concat_eq_split.
    - rewrite Hrs. rewrite concat_map. rewrite map_map. done.
    - intros e He. rewrite (Hlen e He), map_length. unfold keys_of. by rewrite replicate_length. }
  set (ups := concat (map (ups_of v) (order es))).
  assert (Hups : ups ≡ₚ reroute f (inputs c v w l)).
  { unfold ups. rewrite (Hord es). unfold reroute. rewrite <- (gives_inputs _ _ _ _ v w I). rewrite concat_map, map_map.
    assert (map (ups_of v) es = map (fun e => map (fun q => (f q.1, q.2)) (gives v w e)) es) as ->; [|done].
    apply map_ext_in. intros e He%elem_of_list_In. unfold ups_of, gives. rewrite (Hh e He), !map_map. done. }
  rewrite upds_spec.
  assert (Hfst : map fst (map (fun q => (q.1, fold_left (op w) (at_key q.1 ups) q.2)) (d_data x)) = map fst (d_data x)).
  { rewrite map_map. done. }
  set (d := map (fun q => (q.1, fold_left (op w) (at_key q.1 ups) q.2)) (d_data x)) in *.
  assert (Hf : forall k, route d k = f k). { intros k. unfold f, route. by rewrite Hfst. }
  assert (Hrd : forall ks, map (route d) ks = map f ks). { intros ks. by apply map_ext. }
  assert (Hrr : reroute (route d) (inputs c v w l) = reroute f (inputs c v w l)). { unfold reroute. apply map_ext. intros q. by rewrite Hf. }
  assert (Hperm : map fst (inputs c v w l) ≡ₚ concat (map (keys_of v w) es)).
  { rewrite <- (gives_inputs _ _ _ _ v w I). by rewrite fst_gives. }
  assert (Hin : forall k, k ∈ map fst d <-> k ∈ map f (map fst (inputs c v w l))).
  { intros k. rewrite Hfst, Hkeys, Hrs. cbn. rewrite (Permutation_map f Hperm). rewrite elem_of_nil. tauto. }
  split_and!.
  - rewrite Hfst. apply Hok.
  - unfold d. rewrite map_length. apply Hok.
  - intros k. rewrite Hrd. apply Hin.
  - intros k y ([k' z] & [= -> ->] & Hz)%elem_of_list_fmap. cbn in *. rewrite (Hzero _ Hz : z = zero).
    rewrite Hrr. apply (agg_perm w (at_key k' ups)); [by apply at_key_perm|]. apply fold_agg_zero.
    apply at_key_nil. rewrite Hups. unfold reroute. rewrite map_map.
    change (k' ∈ map (fun q : list kv * N => f q.1) (inputs c v w l)). rewrite <- (map_map (fst (A:=list kv) (B:=N)) f). apply Hin. rewrite Hfst.
    apply elem_of_list_fmap. by exists (k', z).
  - intros Hdist q Hq. rewrite Hfst. apply Hkeys. right.
    rewrite (routes_fit _ _ _ _ _ (remove_dups (map fst (inputs c v w l))) Hok0 Hr).
    + rewrite <- Hperm. by apply elem_of_list_fmap_1.
    + intros k. cbn. rewrite elem_of_remove_dups, Hperm. intros [?%elem_of_nil|]; done.
    + done.
Qed.
Lemma totals_fit w d p : totals_of w d p -> (distinct p < av_limit w)%nat ->
  NoDup (map fst d) /\ (forall k, k ∈ map fst d <-> k ∈ map fst p) /\ (forall k x, (k, x) ∈ d -> agg w (at_key k p) x).
Proof.
  intros (H1 & _ & H2 & H3 & H4) Hd. specialize (H4 Hd).
  assert (Hr : forall q, q ∈ p -> route d q.1 = q.1).
  { intros q Hq. unfold route. rewrite bool_decide_eq_true_2; [done|]. by apply H4. }
  assert (E1 : map (route d) (map fst p) = map fst p).
  { rewrite map_map. apply map_ext_in. intros q Hq%elem_of_list_In. by apply Hr. }
  assert (E2 : reroute (route d) p = p).
  { unfold reroute. rewrite <- (map_id p) at 2. apply map_ext_in. intros [k x] Hq%elem_of_list_In. pose proof (Hr _ Hq) as Hk. cbn in *. by rewrite Hk. }
  rewrite E1 in H2. rewrite E2 in H3. done.
Qed.

Lemma collect_views_length ws st out st' : length st = length ws -> collect_views ws st = (out, st') -> length out = length ws /\ length st' = length ws.
Proof.
  revert st out st'. induction ws as [|w ws IH]; intros [|x st] out st' Hl E; cbn in *; try lia; [by simplify_eq|].
  destruct (collect_view w x) as [pts x']. destruct (collect_views ws st) as [o s] eqn:R. simplify_eq.
  destruct (IH _ _ _ Hl R). cbn. lia.
Qed.
Lemma collect_views_at ws st out st' v w x : collect_views ws st = (out, st') -> ws !! v = Some w -> st !! v = Some x ->
  out !! v = Some (collect_view w x).1 /\ st' !! v = Some (collect_view w x).2.
Proof.
  revert ws st out st'. induction v as [|v IH]; intros [|w0 ws] [|x0 st] out st' E Hw Hx; cbn in *; try done; simplify_eq.
  - destruct (collect_view w x) as [pts x']. destruct (collect_views ws st) as [o s]. by simplify_eq.
  - destruct (collect_view w0 x0) as [pts x']. destruct (collect_views ws st) as [o s] eqn:R. simplify_eq. cbn. by eapply IH.
Qed.
End observing.
