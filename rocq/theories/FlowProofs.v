(** From a measurement to the exporter: invariants of Flow. *)
From Coq Require Import ZArith Bool String Lia.
From stdpp Require Import base list list_numbers option strings.
From Verif Require Import Per PerSpec PerProofs Base Lib SyncModel SyncSpec SyncInv SyncCases SyncRun SyncCall SyncVisRun SyncFacts SyncMore SyncIdle SyncEmit Flow FlowSpec.

(** A step of the reader that is the return of Produce, and one that is not. *)
Lemma production_step r a t r' : returns_production r a = Some t -> pstep r a = Some r' ->
  a = Go t /\ exists x m y, rd_threads r !! t = Some x /\ inner x = Some (m, Locked) /\ rd_producer r = Some y /\
  rd_count r' = S (rd_count r) /\ rd_producer r' = Some y /\
  exists x', rd_threads r' = <[t := x']> (rd_threads r) /\ inner x' = Some (m, Produced (rd_count r)) /\
    (forall m0 p0, x = CCollect m0 p0 -> x' = CCollect m0 (Produced (rd_count r))) /\
    rd_log r' = rd_log r ++ [EProduce t y (rd_count r)].
Proof.
  destruct a as [| | | |u|]; try done. destruct r as [pr ca wt lk ct th lg]. cbn. destruct pr as [y|]; [|done].
  destruct (th !! u) as [x|] eqn:T; [|done]. destruct (at_produce x) eqn:A; [|done]. intros [= <-] E.
  destruct x as [|[]| | | |m []| |]; try done; cbn in E; injection E as <-; (split; [done|]); cbn.
  - exists (Per.LCollect Locked), Export, y. repeat split; try done. eexists. repeat split; try done.
  - exists (CCollect m Locked), m, y. repeat split; try done. eexists. repeat split; try done. intros m0 p0 [= <- <-]. done.
Qed.
(** What any step of the reader does to goroutine u. *)
Definition produced (x : pthread) : bool :=
  match x with CCollect _ (Produced _ | Calling _ | Unlocking _) | CReturned _ _ => true | _ => false end.
Lemma reader_step r a r' : pstep r a = Some r' ->
  (length (rd_threads r) <= length (rd_threads r')) /\
  (rd_producer r <> None -> rd_producer r' = rd_producer r) /\
  (returns_production r a = None -> rd_count r' = rd_count r) /\
  (forall t x, rd_threads r !! t = Some x -> at_produce x = true -> rd_producer r <> None -> returns_production r a = None ->
     rd_threads r' !! t = Some x) /\
  (forall t x', rd_threads r' !! t = Some x' -> produced x' = true -> (exists x, rd_threads r !! t = Some x /\ produced x = true) \/ returns_production r a = Some t).
Proof.
  intros E. destruct r as [pr ca wt lk ct th lg]. cbn [rd_threads rd_producer rd_count].
  assert (NEW : forall y t x', (th ++ [y]) !! t = Some x' -> produced y = false -> produced x' = true -> exists x, th !! t = Some x /\ produced x = true).
  { intros y t x' H N P. apply lookup_app_Some in H as [H|[_ H]]; [by exists x'|]. destruct (t - length th); [injection H as <-; congruence|done]. }
  assert (OLD : forall u y z t x', th !! u = Some z -> <[u := y]> th !! t = Some x' -> (produced y = true -> produced z = true) -> produced x' = true ->
            exists x, th !! t = Some x /\ produced x = true).
  { intros u y z t x' Hu H N P. ins H; [|by exists x']. exists z. auto. }
  destruct a as [y| | |u|u|u e]; cbn [pstep] in E.
  - destruct pr as [z|]; injection E as <-; cbn.
    + repeat split; auto. intros t x' H P. left. by exists x'.
    + rewrite app_length. repeat split; auto; [lia|done|done|]. intros t x' H P. left. by eapply NEW.
  - injection E as <-; cbn. rewrite app_length. repeat split; auto; [lia| |].
    + intros t x H _ _ _. by apply lookup_app_l_Some.
    + intros t x' H P. left. by eapply NEW.
  - injection E as <-; cbn. rewrite app_length. repeat split; auto; [lia| |].
    + intros t x H _ _ _. by apply lookup_app_l_Some.
    + intros t x' H P. left. by eapply NEW.
  - destruct (th !! u) as [z|] eqn:T; [|done]. destruct z; try done. injection E as <-; cbn. rewrite insert_length. repeat split; auto.
    + intros t x H A _ _. rewrite list_lookup_insert_ne; [done|]. intros ->. rewrite T in H. by injection H as <-.
    + intros t x' H P. left. by eapply OLD.
  - destruct (th !! u) as [z|] eqn:T; [|done]. cbn [returns_production rd_producer rd_threads]. rewrite T.
    assert (SAME : forall y t x, at_produce z = false -> th !! t = Some x -> at_produce x = true -> <[u := y]> th !! t = Some x).
    { intros y t x N H A. rewrite list_lookup_insert_ne; [done|]. intros ->. congruence. }
    destruct z as [|p| | | |m p| |]; try done.
    + destruct ca; [|done]. injection E as <-. cbn. rewrite insert_length. repeat split; auto. intros t x' H P. left. by eapply OLD.
    + destruct p; cbn in E; try done.
      * destruct lk; [done|]. injection E as <-. cbn. rewrite insert_length. repeat split; auto. intros t x' H P. left. by eapply OLD.
      * destruct pr as [y|]; injection E as <-; cbn; rewrite insert_length; repeat split; auto; try done.
        -- intros t x' H P. left. by eapply OLD.
        -- intros t x' H P. left. by eapply OLD.
      * injection E as <-. cbn. rewrite insert_length. repeat split; auto. intros t x' H P. left. by eapply OLD.
      * destruct e as [e|]; injection E as <-; cbn; rewrite insert_length; repeat split; auto; intros t x' H P; left; by eapply OLD.
    + destruct pr as [y|]; injection E as <-; cbn; rewrite insert_length; repeat split; auto; intros t x' H P; left; by eapply OLD.
    + destruct wt; [|done]. injection E as <-. cbn. rewrite insert_length. repeat split; auto. intros t x' H P. left. by eapply OLD.
    + destruct p; cbn in E; try done.
      * destruct lk; [done|]. injection E as <-. cbn. rewrite insert_length. repeat split; auto. intros t x' H P. left. by eapply OLD.
      * destruct pr as [y|]; injection E as <-; cbn; rewrite insert_length; repeat split; auto; try done.
        -- intros t x' H P. ins H; [by right|]. left. by exists x'.
        -- intros t x' H P. left. by eapply OLD.
      * injection E as <-. cbn. rewrite insert_length. repeat split; auto. intros t x' H P. left. by eapply OLD.
      * injection E as <-; cbn; rewrite insert_length; repeat split; auto; intros t x' H P; left; by eapply OLD.
  - destruct (th !! u) as [z|] eqn:T; [|done].
    destruct z as [|p| | | |m p| |]; try done; destruct p; try done; injection E as <-; cbn; rewrite insert_length; repeat split; auto.
    + intros t x H A _ _. rewrite list_lookup_insert_ne; [done|]. intros ->. rewrite T in H. by injection H as <-.
    + intros t x' H P. left. by eapply OLD.
    + intros t x H A _ _. rewrite list_lookup_insert_ne; [done|]. intros ->. rewrite T in H. by injection H as <-.
    + intros t x' H P. left. by eapply OLD.
Qed.

Lemma log_grows r a r' e : pstep r a = Some r' -> e ∈ rd_log r -> e ∈ rd_log r'.
Proof.
  intros E H. destruct r as [pr ca wt lk ct th lg]. cbn in H.
  assert (A : forall l, e ∈ lg ++ l) by (intros l; apply elem_of_app; by left).
  destruct a as [y| | |u|u|u e0]; cbn [pstep] in E.
  - destruct pr; injection E as <-; cbn; auto.
  - injection E as <-; cbn; auto.
  - injection E as <-; cbn; auto.
  - destruct (th !! u) as [[]|]; try done. injection E as <-; cbn; auto.
  - destruct (th !! u) as [[|p| | | |m p| |]|]; try done.
    + destruct ca; [|done]. injection E as <-; cbn; auto.
    + destruct p as [| | | |[]]; cbn in E; try done; [destruct lk; [done|]|destruct pr| | |]; injection E as <-; cbn; auto.
    + destruct pr; injection E as <-; cbn; auto.
    + destruct wt; [|done]. injection E as <-; cbn; auto.
    + destruct p; cbn in E; try done; [destruct lk; [done|]|destruct pr| |]; injection E as <-; cbn; auto.
  - destruct (th !! u) as [[|p| | | |m p| |]|]; try done; destruct p; try done; injection E as <-; cbn; auto.
Qed.
Lemma called_below r ss n : inv r ss -> n ∈ omap (fun e => match e with ECall _ _ n => Some n | _ => None end) (rd_log r) -> n < rd_count r.
Proof.
  destruct r as [pr ca wt lk ct th lg]. intros (LK & (N1 & N2) & _) H. cbn [rd_log rd_count] in *.
  set (g := fun e => match e with ECall _ _ n => Some n | _ => None end) in *.
  assert (E1 : omap g lg = omap g (exports lg)).
  { clear. induction lg as [|a lg IH]; [done|]. cbn. rewrite IH. by destruct a. }
  assert (E2 : omap g (concat (map events ss)) = map s_n ss).
  { clear. induction ss as [|s ss IH]; [done|]. cbn. by rewrite IH. }
  assert (IN : n ∈ omap g (concat (map events ss)) -> n < length ss).
  { rewrite E2, N1, elem_of_list_In, in_seq. lia. }
  rewrite E1 in H. unfold lock_ok in LK. destruct lk.
  - destruct LK as (t0 & x0 & m0 & p0 & y0 & _ & _ & _ & _ & _ & X & NM & CT). rewrite X, omap_app in H. apply elem_of_app in H as [H|H]; [apply IN in H; lia|].
    destruct p0; cbn in H, NM, CT; try (by apply elem_of_nil in H). apply elem_of_list_singleton in H. lia.
  - destruct LK as (_ & X & CT). rewrite X in H. apply IN in H. lia.
Qed.
Section flow.
Context {c : config} (rd : nat).
Implicit Types (f : flow c) (l : list (fact c)).

Lemma frun_app l1 : forall f l2, frun rd f (l1 ++ l2) = f' ← frun rd f l1; frun rd f' l2.
Proof. induction l1 as [|a l1 IH]; intros f l2; cbn; [done|]. destruct (fstep rd f a); cbn; [apply IH|done]. Qed.
Lemma calls_made_app l1 l2 : calls_made rd (l1 ++ l2) = calls_made rd l1 ++ calls_made rd l2.
Proof. apply flat_map_app. Qed.
Lemma reader_steps_app l1 l2 : reader_steps (l1 ++ l2) = reader_steps l1 ++ reader_steps l2.
Proof. apply flat_map_app. Qed.

(** One step of the whole is one step of a part, or none. *)
Inductive fstepR f : fact c -> flow c -> Prop :=
  | R_call lb s' : step (f_sync f) lb = Some s' -> lb <> LCollect rd -> fstepR f (FCall lb) (Flow s' (f_reader f) (f_busy f) (f_made f))
  | R_produce t s' : returns_production (f_reader f) (Go t) = Some t -> f_busy f = None -> step (f_sync f) (LCollect rd) = Some s' ->
      fstepR f (FProduce t) (Flow s' (f_reader f) (Some (t, length (s_thr (f_sync f)))) (f_made f))
  | R_reader a r' : pstep (f_reader f) a = Some r' -> returns_production (f_reader f) a = None ->
      fstepR f (FReader a) (Flow (f_sync f) r' (f_busy f) (f_made f))
  | R_return t k r' : pstep (f_reader f) (Go t) = Some r' -> returns_production (f_reader f) (Go t) = Some t -> f_busy f = Some (t, k) ->
      s_thr (f_sync f) !! k = Some QDone -> fstepR f (FReader (Go t)) (Flow (f_sync f) r' None (f_made f ++ [k])).
Lemma returns_go r a t : returns_production r a = Some t -> a = Go t.
Proof.
  destruct a as [| | | |u|]; try done. cbn. destruct (rd_producer r); [|done]. destruct (rd_threads r !! u) as [x|]; [|done].
  destruct (at_produce x); [|done]. by intros [= <-].
Qed.
Lemma fstep_cases f a f' : fstep rd f a = Some f' -> fstepR f a f'.
Proof.
  destruct f as [s r b m]. destruct a as [lb|t|a]; cbn [fstep].
  - intros H. assert (lb <> LCollect rd /\ exists s', step s lb = Some s' /\ f' = Flow s' r b m) as (N & s' & S & ->).
    { destruct lb as [o k n|rd'|t ch].
      - destruct (step s _) as [s'|]; [|done]. injection H as <-. split; [done|]. by exists s'.
      - destruct (Nat.eqb_spec rd' rd); [done|]. destruct (step s _) as [s'|]; [|done]. injection H as <-. split; [congruence|]. by exists s'.
      - destruct (step s _) as [s'|]; [|done]. injection H as <-. split; [done|]. by exists s'. }
    by apply (R_call (Flow s r b m)).
  - destruct (returns_production r (Go t)) as [u|] eqn:P; [|done]. pose proof (returns_go _ _ _ P) as [= <-].
    destruct b; [done|]. destruct (step s (LCollect rd)) as [s'|] eqn:S; [|done]. intros [= <-]. by apply (R_produce (Flow s r None m)).
  - destruct (pstep r a) as [r'|] eqn:S; [|done]. cbn. destruct (returns_production r a) as [u|] eqn:P.
    + pose proof (returns_go _ _ _ P) as ->. destruct b as [[t k]|]; [|done]. destruct (Nat.eqb_spec t u) as [->|]; [|done].
      destruct (s_thr s !! k) as [q|] eqn:T; [|done]. destruct q; try done. intros [= <-]. by apply (R_return (Flow s r (Some (u, k)) m)).
    + intros [= <-]. by apply (R_reader (Flow s r b m)).
Qed.

Lemma fstep_parts f a f' : fstep rd f a = Some f' ->
  run (f_sync f) (calls_made rd [a]) = Some (f_sync f') /\ prun (f_reader f) (reader_steps [a]) = Some (f_reader f').
Proof.
  intros H. apply fstep_cases in H. destruct H; cbn.
  - by rewrite H.
  - cbn in H1. by rewrite H1.
  - by rewrite H.
  - rewrite H. done.
Qed.
Lemma frun_parts l : forall f f', frun rd f l = Some f' ->
  run (f_sync f) (calls_made rd l) = Some (f_sync f') /\ prun (f_reader f) (reader_steps l) = Some (f_reader f').
Proof.
  induction l as [|a l IH]; intros f f' H; [by injection H as <-|]. cbn [frun] in H.
  destruct (fstep rd f a) as [f1|] eqn:S; [|done]. cbn in H. apply fstep_parts in S as [S1 S2]. apply IH in H as [H1 H2].
  change (a :: l) with ([a] ++ l). rewrite calls_made_app, reader_steps_app, run_app, prun_app, S1, S2. done.
Qed.
Lemma frun_snoc (P : list (fact c) -> flow c -> Prop) f0 :
  P [] f0 -> (forall l f a f', frun rd f0 l = Some f -> P l f -> fstep rd f a = Some f' -> P (l ++ [a]) f') ->
  forall l f, frun rd f0 l = Some f -> P l f.
Proof.
  intros H0 HS l. induction l as [|a l IH] using rev_ind; intros f H; [by injection H as <-|].
  rewrite frun_app in H. destruct (frun rd f0 l) as [f1|] eqn:E; [|done]. cbn in H. destruct (fstep rd f1 a) as [f2|] eqn:S; [|done].
  injection H as <-. eapply HS; eauto.
Qed.

Lemma run_calls (ls : list (label c)) (s : state c) : run (init c) ls = Some s -> length (calls ls) = length (s_thr s).
Proof.
  revert ls s. apply (run_ind (fun ls s => length (calls ls) = length (s_thr s))); [done| | |].
  - intros ls s o k n _ _ P _. rewrite calls_snoc. cbn. by rewrite !app_length, P.
  - intros ls s r _ _ P. rewrite calls_snoc. cbn. by rewrite !app_length, P.
  - intros ls s t ch s' _ _ _ P S. rewrite calls_snoc, app_nil_r, P. destruct (SyncVis.thr_step _ _ _ S) as (q & q' & _ & -> & _). by rewrite insert_length.
Qed.

Record ginv l f : Prop := {
  g_coll : forall k, calls (calls_made rd l) !! k = Some (LCollect rd) <-> (k ∈ f_made f \/ exists t, f_busy f = Some (t, k));
  g_done : forall k, k ∈ f_made f -> s_thr (f_sync f) !! k = Some QDone;
  g_count : length (f_made f) = rd_count (f_reader f);
  g_busy : forall t k, f_busy f = Some (t, k) -> k ∉ f_made f /\
    exists x, rd_threads (f_reader f) !! t = Some x /\ at_produce x = true /\ rd_producer (f_reader f) <> None;
  g_once : NoDup (f_made f)
}.
Lemma returns_at r t : returns_production r (Go t) = Some t -> rd_producer r <> None /\ exists x, rd_threads r !! t = Some x /\ at_produce x = true.
Proof.
  cbn. destruct (rd_producer r); [|done]. destruct (rd_threads r !! t) as [x|]; [|done]. destruct (at_produce x) eqn:A; [|done].
  intros _. split; [done|]. by exists x.
Qed.
Lemma ginv_run l f : frun rd (flow_init c) l = Some f -> ginv l f.
Proof.
  revert l f. apply (frun_snoc ginv (flow_init c)).
  - constructor; cbn; try done.
    + intros k. split; [done|]. intros [H|[t H]]; [by apply elem_of_nil in H|done].
    + intros k H. by apply elem_of_nil in H.
    + constructor.
  - intros l f a f' R I S. destruct (frun_parts _ _ _ R) as [R1 R2]. cbn in R1, R2. pose proof (run_calls _ _ R1) as LC.
    assert (KEEP : forall lb s', step (f_sync f) lb = Some s' -> forall k, s_thr (f_sync f) !! k = Some QDone -> s_thr s' !! k = Some QDone).
    { intros lb s' S1 k Hk. assert (R3 : run (f_sync f) [lb] = Some s') by (cbn; by rewrite S1).
      destruct (run_keeps _ _ _ _ R1 R3) as (_ & _ & _ & K). apply K; auto. }
    apply fstep_cases in S. destruct I as [I1 I2 I3 I4 I5]. destruct S as [lb s' S N|t s' P B S|a r' S P|t k r' S P B D]; constructor; cbn [f_made f_busy f_sync f_reader]; rewrite ?calls_made_app; cbn [calls_made flat_map app].
    + intros k. rewrite <- I1. rewrite calls_snoc. destruct lb as [o kk n|rd'|t ch]; [| |by rewrite app_nil_r].
      * split; intros H; [|by apply lookup_app_l_Some]. apply lookup_snoc in H as [H|[_ H]]; done.
      * split; intros H; [|by apply lookup_app_l_Some]. apply lookup_snoc in H as [H|[_ H]]; [done|congruence].
    + eauto.
    + done.
    + done.
    + done.
    + intros k. rewrite calls_snoc. split.
      * intros H. apply lookup_snoc in H as [H|[-> _]]; [|right; exists t; by rewrite LC].
        apply I1 in H as [H|[t' H]]; [by left|congruence].
      * intros [H|[t' H]]; [apply lookup_app_l_Some, I1; by left|]. injection H as <- <-. rewrite <- LC. by apply list_lookup_app_last.
    + intros k Hk. eauto.
    + done.
    + intros t' k [= <- <-]. split.
      * intros H. apply I2 in H. apply lookup_lt_Some in H. lia.
      * destruct (returns_at _ _ P) as [P1 (x & P2 & P3)]. by exists x.
    + done.
    + intros k. by rewrite app_nil_r.
    + done.
    + destruct (reader_step _ _ _ S) as (_ & _ & C & _). by rewrite C.
    + intros t k H. destruct (I4 _ _ H) as (N & x & X1 & X2 & X3). split; [done|].
      destruct (reader_step _ _ _ S) as (_ & Q & _ & K & _). exists x. split; [by apply K|]. split; [done|]. by rewrite Q.
    + done.
    + intros k'. rewrite app_nil_r, I1, elem_of_app, elem_of_list_singleton, B. split.
      * intros [H|[t' H]]; [by left; left|]. injection H as <- <-. left. by right.
      * intros [[H| ->]|[t' H]]; [by left|right; by exists t|done].
    + intros k' H. apply elem_of_app in H as [H|H]; [by apply I2|]. apply elem_of_list_singleton in H as ->. done.
    + rewrite app_length. cbn. destruct (production_step _ _ _ _ P S) as (_ & x & m & y & _ & _ & _ & -> & _). lia.
    + done.
    + apply NoDup_app. split; [done|]. split; [|apply NoDup_singleton]. intros k' H1 H2. apply elem_of_list_singleton in H2 as ->.
      by destruct (I4 _ _ B).
Qed.

Lemma frun_keeps f l f' : frun rd f l = Some f' ->
  (forall n k, f_made f !! n = Some k -> f_made f' !! n = Some k) /\ (forall e, e ∈ rd_log (f_reader f) -> e ∈ rd_log (f_reader f')).
Proof.
  revert l f'. apply (frun_snoc (fun _ f' => (forall n k, f_made f !! n = Some k -> f_made f' !! n = Some k) /\ (forall e, e ∈ rd_log (f_reader f) -> e ∈ rd_log (f_reader f'))) f).
  - done.
  - intros l f1 a f2 _ [P1 P2] S. apply fstep_cases in S. destruct S as [lb s' S N|t s' P B S|a r' S P|t k r' S P B D]; cbn [f_made f_reader]; auto.
    + split; [done|]. intros e He. eapply log_grows; eauto.
    + split; [intros n k' Hn; apply lookup_app_l_Some; auto|]. intros e He. eapply log_grows; eauto.
Qed.

Lemma produced_split f1 l f : frun rd f1 l = Some f -> forall t x, rd_threads (f_reader f) !! t = Some x -> produced x = true ->
  length (rd_threads (f_reader f1)) <= t ->
  exists la lb fa fb k, l = la ++ FReader (Go t) :: lb /\ frun rd f1 la = Some fa /\ fstep rd fa (FReader (Go t)) = Some fb /\ frun rd fb lb = Some f /\
    returns_production (f_reader fa) (Go t) = Some t /\ f_busy fa = Some (t, k) /\ s_thr (f_sync fa) !! k = Some QDone /\
    f_sync fb = f_sync fa /\ f_made fb = f_made fa ++ [k] /\ pstep (f_reader fa) (Go t) = Some (f_reader fb).
Proof.
  revert l f. apply (frun_snoc (fun l f => forall t x, rd_threads (f_reader f) !! t = Some x -> produced x = true ->
  length (rd_threads (f_reader f1)) <= t ->
  exists la lb fa fb k, l = la ++ FReader (Go t) :: lb /\ frun rd f1 la = Some fa /\ fstep rd fa (FReader (Go t)) = Some fb /\ frun rd fb lb = Some f /\
    returns_production (f_reader fa) (Go t) = Some t /\ f_busy fa = Some (t, k) /\ s_thr (f_sync fa) !! k = Some QDone /\
    f_sync fb = f_sync fa /\ f_made fb = f_made fa ++ [k] /\ pstep (f_reader fa) (Go t) = Some (f_reader fb)) f1).
  - intros t x H _ L. apply lookup_lt_Some in H. lia.
  - intros l f a f' R IH S t x H P L.
    assert (EXT : (exists x, rd_threads (f_reader f) !! t = Some x /\ produced x = true) ->
      exists la lb fa fb k, l ++ [a] = la ++ FReader (Go t) :: lb /\ frun rd f1 la = Some fa /\ fstep rd fa (FReader (Go t)) = Some fb /\ frun rd fb lb = Some f' /\
        returns_production (f_reader fa) (Go t) = Some t /\ f_busy fa = Some (t, k) /\ s_thr (f_sync fa) !! k = Some QDone /\
        f_sync fb = f_sync fa /\ f_made fb = f_made fa ++ [k] /\ pstep (f_reader fa) (Go t) = Some (f_reader fb)).
    { intros (x0 & H0 & P0). destruct (IH t x0 H0 P0 L) as (la & lb & fa & fb & k & -> & E1 & E2 & E3 & E4).
      exists la, (lb ++ [a]), fa, fb, k. split; [by rewrite <- app_assoc|]. split; [done|]. split; [done|]. split; [|done].
      rewrite frun_app, E3. cbn. by rewrite S. }
    pose proof S as S0. apply fstep_cases in S. destruct S as [lb s' S N|u s' Q B S|a r' S Q|u k r' S Q B D]; cbn [f_reader] in H.
    + apply EXT. eauto.
    + apply EXT. eauto.
    + destruct (reader_step _ _ _ S) as (_ & _ & _ & _ & K). destruct (K t x H P) as [E|E]; [by apply EXT|congruence].
    + destruct (reader_step _ _ _ S) as (_ & _ & _ & _ & K). destruct (K t x H P) as [E|E]; [by apply EXT|].
      rewrite Q in E. injection E as <-. exists l, [], f, (Flow (f_sync f) r' None (f_made f ++ [k])), k. by repeat split.
Qed.

(** A production begun by a goroutine that began later is of a collection that began later. *)
Lemma busy_later l1 f1 l f : frun rd (flow_init c) l1 = Some f1 -> frun rd f1 l = Some f -> forall t k, f_busy f = Some (t, k) ->
  length (rd_threads (f_reader f1)) <= t -> length (s_thr (f_sync f1)) <= k.
Proof.
  intros R1. revert l f. apply (frun_snoc (fun l f => forall t k, f_busy f = Some (t, k) ->
    length (rd_threads (f_reader f1)) <= t -> length (s_thr (f_sync f1)) <= k) f1).
  - intros t k B L. destruct (g_busy _ _ (ginv_run _ _ R1) _ _ B) as (_ & x & X & _). apply lookup_lt_Some in X. lia.
  - intros l f a f' R IH S t k B L. apply fstep_cases in S.
    destruct S as [lb s' S N|u s' Q B' S|a r' S Q|u k' r' S Q B' D]; cbn [f_busy] in B; [by eapply IH| |by eapply IH|done].
    injection B as <- <-. pose proof (frun_parts _ _ _ R1) as [P1 _]. pose proof (frun_parts _ _ _ R) as [P2 _].
    assert (P3 : run (init c) (calls_made rd l1 ++ calls_made rd l) = Some (f_sync f)) by (rewrite run_app; cbn in P1; by rewrite P1).
    pose proof (run_calls _ _ P1) as E1. pose proof (run_calls _ _ P3) as E3. rewrite <- E1, <- E3. unfold calls. rewrite List.filter_app, app_length. lia.
Qed.

Lemma calls_split (ls : list (label c)) : forall k e, calls ls !! k = Some e -> exists ls0 ls1, ls = ls0 ++ e :: ls1 /\ length (calls ls0) = k.
Proof.
  induction ls as [|a ls IH]; intros k e H; [done|].
  assert (REC : forall k', calls ls !! k' = Some e -> calls [a] = [] -> k' = k -> exists ls0 ls1, a :: ls = ls0 ++ e :: ls1 /\ length (calls ls0) = k).
  { intros k' H' N <-. destruct (IH _ _ H') as (l0 & l1 & -> & L). exists (a :: l0), l1. split; [done|].
    change (a :: l0) with ([a] ++ l0). unfold calls in *. by rewrite List.filter_app, N. }
  destruct a as [o kk n|r|t ch]; cbn in H; try (by eapply REC); (destruct k as [|k]; [injection H as <-; by exists [], ls|]);
    destruct (IH _ _ H) as (l0 & l1 & -> & L); (eexists (_ :: l0), l1); (split; [done|]); cbn; unfold calls in L; by rewrite L.
Qed.

(** The session of a call that has returned: the one whose data it produced. *)
Lemma session_of_return r ss t m e y n : inv r ss -> rd_threads r !! t = Some (CReturned m e) -> EProduce t y n ∈ rd_log r ->
  one_at_a_time (rd_log r) ss (drop (length (concat (map events ss))) (exports (rd_log r))) /\
  exists s, s ∈ ss /\ s_t s = t /\ s_n s = n /\ s_method s = m /\ s_err s = e.
Proof.
  destruct r as [pr ca wt lk ct th lg]. intros (LK & (N1 & N2) & (M1 & M2) & _) T H. cbn [rd_log rd_threads] in T, H |- *.
  assert (H' : EProduce t y n ∈ exports lg).
  { apply elem_of_list_In, filter_In. split; [by apply elem_of_list_In|done]. }
  assert (HS : EProduce t y n ∈ concat (map events ss) -> exists s, s ∈ ss /\ s_t s = t /\ s_n s = n /\ s_method s = m /\ s_err s = e).
  { intros HC. apply elem_of_list_In, in_concat in HC. destruct HC as (es & I1 & I2). apply in_map_iff in I1. destruct I1 as (s & <- & I1).
    cbn in I2. destruct I2 as [I2|[I2|[I2|[]]]]; try done. injection I2 as E1 E2 E3. exists s. apply elem_of_list_In in I1 as I1'.
    do 3 (split; [done|]). pose proof (M1 _ _ T) as [_ Q]. assert (I4 : In s (sessions_of t ss)) by (apply filter_In; split; [done|]; by apply Nat.eqb_eq).
    apply (in_map (fun s => (s_method s, s_err s))) in I4. rewrite Q in I4. destruct I4 as [[= -> ->]|[]]. done. }
  unfold one_at_a_time. unfold lock_ok in LK. destruct lk.
  - destruct LK as (t0 & x0 & m0 & p0 & y0 & T0 & I0 & P0 & U & PR & X & NM & CT). rewrite X, drop_app. split.
    + split; [done|]. split; [done|]. destruct p0; cbn in NM |- *; try (by left).
      * subst. right. exists (Session t0 y0 (length ss) m0 None). left. done.
      * subst. right. exists (Session t0 y0 (length ss) m0 None). right. done.
    + apply HS. rewrite X in H'. apply elem_of_app in H' as [H'|H']; [done|]. exfalso.
      assert (t = t0) as ->; [|rewrite T in T0; by injection T0 as <-].
      destruct p0; cbn in H'; apply elem_of_list_In in H'; cbn in H'; intuition congruence.
  - destruct LK as (U & X & CT). rewrite X in H'. split; [|by apply HS]. rewrite X, drop_all, app_nil_r. split; [done|]. split; [done|]. by left.
Qed.

Lemma delivered l1 f1 l2 f2 t m e :
  frun rd (flow_init c) l1 = Some f1 -> frun rd f1 l2 = Some f2 -> length (rd_threads (f_reader f1)) <= t ->
  rd_threads (f_reader f2) !! t = Some (CReturned m e) -> calm (calls_made rd (l1 ++ l2)) ->
  exists out sup pend n sn, account (f_sync f2) out sup pend /\
    exported f2 n sn /\ s_t sn = t /\ s_method sn = m /\ s_err sn = e /\
    forall x u, measured_by_now rd f1 x u ->
      if vdelta c (u_view u) then
        (exists n' s', n' <= n /\ exported f2 n' s' /\ in_data f2 out n' x) \/ (exists i p, s_drop (f_sync f2) !! i = Some p /\ x ∈ sup i)
      else in_data f2 out n x.
Proof.
  intros R1 R2 L T CALM.
  destruct (produced_split _ _ _ R2 _ _ T eq_refl L) as (la & lb & fa & fb & k & -> & Ra & Sb & Rb & Q & B & D & SB & MB & PB).
  pose proof (busy_later _ _ _ _ R1 Ra _ _ B L) as LK.
  assert (RA : frun rd (flow_init c) (l1 ++ la) = Some fa) by (by rewrite frun_app, R1).
  assert (RF : frun rd (flow_init c) (l1 ++ la ++ FReader (Go t) :: lb) = Some f2) by (by rewrite frun_app, R1).
  pose proof (ginv_run _ _ RA) as GA.
  destruct (frun_parts _ _ _ R1) as [P1 _]. destruct (frun_parts _ _ _ Ra) as [Pa _]. destruct (frun_parts _ _ _ Rb) as [Pb _].
  destruct (frun_parts _ _ _ RA) as [PA _]. destruct (frun_parts _ _ _ RF) as [_ PF]. cbn in P1, PA, PF. rewrite SB in Pb.
  pose proof (run_calls _ _ P1) as LC1.
  assert (HK : calls (calls_made rd la) !! (k - length (calls (calls_made rd l1))) = Some (LCollect rd)).
  { assert (HK : calls (calls_made rd (l1 ++ la)) !! k = Some (LCollect rd)) by (apply (g_coll _ _ GA); right; by exists t).
    rewrite calls_made_app in HK. unfold calls in HK. rewrite List.filter_app in HK. fold (calls (calls_made rd l1)) in HK.
    rewrite lookup_app_r in HK; [done|]. rewrite LC1. done. }
  destruct (calls_split _ _ _ HK) as (B0 & B1 & EB & LB).
  rewrite EB, run_app in Pa. destruct (run (f_sync f1) B0) as [s0|] eqn:R0; [|done]. cbn in Pa.
  assert (R00 : run (init c) (calls_made rd l1 ++ B0) = Some s0) by (by rewrite run_app, P1).
  assert (LS0 : length (s_thr s0) = k).
  { rewrite <- (run_calls _ _ R00). unfold calls. rewrite List.filter_app, app_length. fold (calls (calls_made rd l1)). fold (calls B0). rewrite LB. lia. }
  destruct (run_keeps _ _ _ _ P1 R0) as (_ & _ & KL & KT).
  destruct (run_keeps _ _ _ _ PA Pb) as (KO & KD & _ & _).
  assert (CA : calm ((calls_made rd l1 ++ B0) ++ LCollect rd :: B1)).
  { intros lp sp i r Hp. apply CALM. rewrite !calls_made_app. rewrite EB. etransitivity; [exact Hp|]. rewrite <- !app_assoc.
    exists (calls_made rd (FReader (Go t) :: lb)). cbn. by rewrite <- !app_assoc. }
  assert (DA : s_thr (f_sync fa) !! length (s_thr s0) = Some QDone) by (by rewrite LS0).
  destruct (visible_later _ _ rd B1 (f_sync fa) _ _ R00 Pa (calm_open _ _ _ CA) DA Pb) as (out & sup & pend & AC & V).
  destruct (frun_keeps _ _ _ Rb) as [KM KG].
  set (n := length (f_made fa)). assert (NM : f_made f2 !! n = Some k).
  { apply KM. rewrite MB. unfold n. rewrite lookup_app_r by done. by rewrite Nat.sub_diag. }
  destruct (prun_inv _ _ _ _ new_inv PF) as [ss J]. cbn in J.
  assert (EP : exists y, EProduce t y n ∈ rd_log (f_reader f2)).
  { destruct (production_step _ _ _ _ Q PB) as (_ & x & m0 & y & _ & _ & _ & _ & _ & x' & _ & _ & _ & LG). exists y. apply KG. rewrite LG, <- (g_count _ _ GA).
    apply elem_of_app. right. by apply elem_of_list_singleton. }
  destruct EP as [y EP]. destruct (session_of_return _ _ _ _ _ _ _ J T EP) as [OT (sn & S1 & S2 & S3 & S4 & S5)].
  assert (EXP : forall n', n' <= n -> exists s', exported f2 n' s').
  { intros n' Hn. destruct OT as (O1 & O2 & O3). apply elem_of_list_lookup in S1. destruct S1 as [j S1].
    assert (E1 : forall j' s', ss !! j' = Some s' -> s_n s' = j').
    { intros j' s' Hs. assert (E2 : map s_n ss !! j' = Some (s_n s')) by (change (map s_n ss) with (s_n <$> ss); by rewrite list_lookup_fmap, Hs).
      rewrite O2 in E2. apply lookup_seq in E2. lia. }
    pose proof (E1 _ _ S1) as Ej. apply lookup_lt_Some in S1. destruct (lookup_lt_is_Some_2 ss n') as [s' Hs]; [lia|].
    exists s', ss, (drop (length (concat (map events ss))) (exports (rd_log (f_reader f2)))). split; [by split|]. split; [by eapply elem_of_list_lookup_2|]. by apply E1. }
  exists out, sup, pend, n, sn. split; [done|]. split; [by exists ss, (drop (length (concat (map events ss))) (exports (rd_log (f_reader f2))))|].
  do 3 (split; [done|]). intros x u (X1 & X2 & X3).
  assert (X2' : s_thr s0 !! u_tid u = Some PDone) by (apply KT; [by left|done]).
  specialize (V x u (KL _ _ X1) X2' (proj2 (views_of_iff rd _) X3)). destruct (vdelta c (u_view u)).
  - destruct V as [(i & Hi & IN)|(i & Hi & IN)].
    + left. apply lookup_lt_is_Some_2 in Hi as [p Hp]. pose proof (KO _ _ Hp) as Hp'.
      destruct (point_reader _ _ _ _ PA Hp) as (rd' & C1 & C2).
      destruct (acc_out _ _ _ _ AC _ _ Hp') as (_ & IS & _). destruct (IS x IN) as (u' & U1 & U2 & _).
      assert (u' = u) as ->.
      { assert (X4 : s_log (f_sync f2) !! x = Some u) by (destruct (frun_parts _ _ _ R2) as [P2 _]; by apply (run_keeps _ _ _ _ P1 P2)). congruence. }
      assert (rd' = rd) as -> by (destruct C2 as (w & W1 & W2), X3 as (w' & W3 & W4); congruence).
      apply (g_coll _ _ GA) in C1.
      assert (HN : exists n', n' <= n /\ f_made f2 !! n' = Some (p_tid p)).
      { destruct C1 as [C1|[t' C1]].
        - apply elem_of_list_lookup in C1 as [n' C1]. exists n'. split; [apply lookup_lt_Some in C1; unfold n; lia|]. apply KM. rewrite MB. by apply lookup_app_l_Some.
        - exists n. split; [done|]. rewrite NM. congruence. }
      destruct HN as (n' & Hn & Hm). destruct (EXP n' Hn) as [s' Hs]. exists n', s'. split; [done|]. split; [done|]. by exists i, p.
    + right. apply lookup_lt_is_Some_2 in Hi as [p Hp]. exists i, p. split; [by apply KD|done].
  - destruct V as (i & p & Hp & PT & IN). exists i, p. split; [by apply KO|]. split; [done|]. rewrite NM, PT. by rewrite LS0.
Qed.

(** The data of a production are all there when Produce returns. *)
Lemma sealed l1 f1 l2 f2 : frun rd (flow_init c) l1 = Some f1 -> frun rd f1 l2 = Some f2 -> forall n k i p,
  f_made f1 !! n = Some k -> s_out (f_sync f2) !! i = Some p -> p_tid p = k -> s_out (f_sync f1) !! i = Some p.
Proof.
  intros R1 R2 n k i p Hn Hp Hk. pose proof (g_done _ _ (ginv_run _ _ R1) k (elem_of_list_lookup_2 _ _ _ Hn)) as D.
  destruct (frun_parts _ _ _ R1) as [P1 _]. destruct (frun_parts _ _ _ R2) as [P2 _]. cbn in P1. revert Hp.
  cut (s_thr (f_sync f2) !! k = Some QDone /\ (s_out (f_sync f2) !! i = Some p -> s_out (f_sync f1) !! i = Some p)); [by intros []|].
  revert P2. apply (run_ind_from (fun _ s' => s_thr s' !! k = Some QDone /\ (s_out s' !! i = Some p -> s_out (f_sync f1) !! i = Some p)) _ _ P1).
  - done.
  - intros l s1 o kk n0 _ _ [Q1 Q2] _. split; [by apply lookup_app_l_Some|done].
  - intros l s1 r _ _ [Q1 Q2]. split; [by apply lookup_app_l_Some|done].
  - intros l s1 t ch s2 _ _ _ [Q1 Q2] S. destruct (SyncVis.thr_ended _ _ _ S) as (q & q' & T1 & T2 & N1 & N2).
    assert (t <> k) by (intros ->; rewrite Q1 in T1; by injection T1 as <-). split.
    + rewrite T2. by rewrite list_lookup_insert_ne.
    + intros Ho. destruct (SyncVis.out_new _ _ _ S _ _ Ho) as [Ho'|Ho']; [by apply Q2|congruence].
Qed.

Lemma calls_of_session lg ss rest : one_at_a_time lg ss rest ->
  let calls := omap (fun e => match e with ECall _ _ n => Some n | _ => None end) lg in calls = seq 0 (length calls).
Proof.
  intros (X & N & R). set (g := fun e => match e with ECall _ _ n => Some n | _ => None end). cbn zeta.
  assert (E1 : omap g lg = omap g (exports lg)).
  { clear. induction lg as [|a lg IH]; [done|]. cbn. rewrite IH. by destruct a. }
  assert (E2 : omap g (concat (map events ss)) = map s_n ss).
  { clear. induction ss as [|s ss IH]; [done|]. cbn. by rewrite IH. }
  assert (E3 : omap g rest = [] \/ omap g rest = [length ss]).
  { destruct R as [->|(s & [[R1 ->]|[R1 ->]])]; cbn; [by left|by left|right; by rewrite R1]. }
  rewrite E1, X, omap_app, E2, N. destruct E3 as [-> | ->].
  - by rewrite app_nil_r, seq_length.
  - rewrite app_length, seq_length. cbn. by rewrite seq_app.
Qed.

(** A delta measurement is in the data of one production. *)
Lemma counted_once (ids : nat -> list nat) N x i j : (count_in ids N x <= 1)%nat -> i < N -> j < N -> x ∈ ids i -> x ∈ ids j -> i = j.
Proof.
  unfold count_in. intros C Hi Hj Xi Xj. destruct (decide (i = j)) as [|Ne]; [done|]. exfalso.
  set (l := List.filter (fun i => bool_decide (x ∈ ids i)) (seq 0 N)) in C.
  assert (A : forall a, a < N -> x ∈ ids a -> In a l).
  { intros a Ha Xa. apply filter_In. split; [apply in_seq; lia|]. by apply bool_decide_eq_true. }
  pose proof (A i Hi Xi) as I1. pose proof (A j Hj Xj) as I2. destruct l as [|a [|b l]]; cbn in C, I1, I2; [done| |lia].
  destruct I1 as [<-|[]], I2 as [<-|[]]. done.
Qed.
Lemma in_one l f out sup pend x u n n' : frun rd (flow_init c) l = Some f -> account (f_sync f) out sup pend ->
  s_log (f_sync f) !! x = Some u -> vdelta c (u_view u) = true -> in_data f out n x -> in_data f out n' x -> n = n'.
Proof.
  intros R AC X D (i & p & Hp & IN & M) (j & p' & Hp' & IN' & M').
  pose proof (acc_delta _ _ _ _ AC x u X D) as C.
  assert (i = j) as <- by (eapply counted_once; [| | |exact IN|exact IN']; [|by eapply lookup_lt_Some..]; lia).
  rewrite Hp in Hp'. injection Hp' as <-. eapply NoDup_lookup; [exact (g_once _ _ (ginv_run _ _ R))|exact M|exact M'].
Qed.
Lemma in_own l f out sup pend x n : frun rd (flow_init c) l = Some f -> account (f_sync f) out sup pend -> in_data f out n x ->
  exists u, s_log (f_sync f) !! x = Some u /\ read_by c rd (u_view u).
Proof.
  intros R AC (i & p & Hp & IN & M). destruct (acc_out _ _ _ _ AC _ _ Hp) as (_ & IS & _). destruct (IS x IN) as (u & U1 & U2 & _). exists u. split; [done|].
  destruct (frun_parts _ _ _ R) as [P _]. cbn in P. destruct (point_reader _ _ _ _ P Hp) as (rd' & C1 & C2). rewrite U2.
  assert (C3 : calls (calls_made rd l) !! p_tid p = Some (LCollect rd)).
  { apply (g_coll _ _ (ginv_run _ _ R)). left. by eapply elem_of_list_lookup_2. }
  rewrite C1 in C3. injection C3 as ->. done.
Qed.

(** Somebody can go on. *)
Lemma flow_progress l f a : wf c -> frun rd (flow_init c) l = Some f -> internal a = true -> is_Some (pstep (f_reader f) a) ->
  exists b f', fstep rd f b = Some f' /\ match b with FReader a => internal a = true | FProduce _ => True | FCall (LStep _ _) => True | _ => False end.
Proof.
  intros WF R I [r' S]. destruct (returns_production (f_reader f) a) as [t|] eqn:Q.
  - pose proof (returns_go _ _ _ Q) as ->. pose proof (ginv_run _ _ R) as G. destruct (frun_parts _ _ _ R) as [P1 P2]. cbn in P1, P2.
    destruct (f_busy f) as [[t' k]|] eqn:B.
    + destruct (g_busy _ _ G _ _ B) as (NM & x & X & A & PR). destruct (returns_at _ _ Q) as (_ & x' & X' & A').
      assert (t' = t) as ->.
      { destruct (prun_inv _ _ _ _ new_inv P2) as [ss J]. destruct (f_reader f) as [pr ca wt lk ct th lg]. destruct J as (LK & _). cbn in X, X'.
        assert (H : forall x, at_produce x = true -> holding x) by (intros [|[]| | | |m []| |] Hx; try done; eexists _, _; (split; [reflexivity|done])).
        unfold lock_ok in LK. destruct lk.
        - destruct LK as (t0 & x0 & m & p & y & _ & _ & _ & U & _). rewrite (U _ _ X (H _ A)). by rewrite (U _ _ X' (H _ A')).
        - destruct LK as (U & _). by destruct (U _ _ X (H _ A)). }
      assert (CK : calls (calls_made rd l) !! k = Some (LCollect rd)) by (apply (g_coll _ _ G); right; by exists t).
      destruct (s_thr (f_sync f) !! k) as [p|] eqn:T.
      2: { apply lookup_ge_None in T. rewrite <- (run_calls _ _ P1) in T. apply lookup_lt_Some in CK. lia. }
      destruct (ended p) eqn:E.
      * destruct (CI_run _ _ P1) as ((_ & C) & _). specialize (C _ _ T). rewrite CK in C. destruct C as [C _]. destruct p; try done.
        exists (FReader (Go t)). destruct f as [s r b m]. cbn in B, S, T, Q. subst b. cbn [fstep]. rewrite S. cbn [mbind option_bind]. cbn in Q |- *. rewrite Q, Nat.eqb_refl, T. eexists. by split.
      * destruct (SyncLive.no_deadlock _ _ _ _ WF P1 T E) as (t2 & ch & s' & S2). exists (FCall (LStep t2 ch)).
        destruct f as [s r b m]. cbn [f_sync] in S2. cbn [fstep]. rewrite S2. eexists. by split.
    + exists (FProduce t). destruct f as [s r b m]. cbn in B, Q. subst b. cbn [fstep]. cbn in Q |- *. rewrite Q. eexists. by split.
  - exists (FReader a). destruct f as [s r b m]. cbn in S, Q. cbn [fstep]. rewrite S. cbn. rewrite Q. eexists. by split.
Qed.
End flow.
