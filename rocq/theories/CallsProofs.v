(** Invariants of the calls of providers. *)
From Coq Require Import ZArith Bool String Lia.
From stdpp Require Import base list list_numbers option strings.
From Verif Require Import Lib Per PerSpec PerProofs PerMore Calls CallsSpec.

(** What a step of a periodic reader keeps: the log grows, goroutines stay and keep their purpose, and what has returned stays so. *)
Definition role (x : pthread) : option method :=
  match x with CStop | CWait => Some Final | CCollect m _ | CReturned m _ => Some m | _ => None end.
Record keeps (r r' : reader) : Prop := Keeps {
  kp_log : exists s, rd_log r' = rd_log r ++ s;
  kp_threads : forall t x, rd_threads r !! t = Some x -> exists x', rd_threads r' !! t = Some x' /\
    (x' = CPanic \/ role x' = role x) /\ (forall m e, x = CReturned m e -> x' = x);
  kp_producer : forall y, rd_producer r = Some y -> rd_producer r' = Some y }.
Lemma keeps_refl r : keeps r r.
Proof. split; [exists []; by rewrite app_nil_r| |done]. intros t x T. exists x. split; [done|]. split; [by right|done]. Qed.
Lemma keeps_trans r1 r2 r3 : keeps r1 r2 -> keeps r2 r3 -> (forall t, rd_threads r2 !! t <> Some CPanic) -> keeps r1 r3.
Proof.
  intros [(s1 & L1) T1 P1] [(s2 & L2) T2 P2] N. split; [exists (s1 ++ s2); by rewrite L2, L1, app_assoc| |auto].
  intros t x T. destruct (T1 t x T) as (x1 & H1 & R1 & C1). destruct (T2 t x1 H1) as (x2 & H2 & R2 & C2). exists x2. split; [done|]. split.
  - destruct R2 as [->|R2]; [by left|]. destruct R1 as [->|R1]; [by destruct (N t)|]. right. congruence.
  - intros m e ->. specialize (C1 _ _ eq_refl). subst x1. by apply (C2 m e).
Qed.
Lemma keeps_insert pr pr' ca ca' wt wt' lk lk' ct ct' th lg t x x' s : (forall y, pr = Some y -> pr' = Some y) -> th !! t = Some x -> (x' = CPanic \/ role x' = role x) -> (forall m e, x <> CReturned m e) ->
  keeps (Reader pr ca wt lk ct th lg) (Reader pr' ca' wt' lk' ct' (<[t := x']> th) (lg ++ s)).
Proof.
  intros P T R N. split; cbn; [by exists s| |done]. intros u y U. destruct (decide (u = t)) as [->|D].
  - exists x'. rewrite list_lookup_insert by (by eapply lookup_lt_Some). split; [done|]. assert (y = x) as -> by congruence. split; [done|]. intros m e ->. by destruct (N m e).
  - exists y. rewrite list_lookup_insert_ne by done. split; [done|]. split; [by right|done].
Qed.
Lemma keeps_insert' pr ca ca' wt wt' lk lk' ct ct' th lg t x x' : th !! t = Some x -> (x' = CPanic \/ role x' = role x) -> (forall m e, x <> CReturned m e) ->
  keeps (Reader pr ca wt lk ct th lg) (Reader pr ca' wt' lk' ct' (<[t := x']> th) lg).
Proof. intros T R N. rewrite <- (app_nil_r lg) at 2. by eapply keeps_insert. Qed.
Lemma pstep_keeps r a r' : pstep r a = Some r' -> keeps r r'.
Proof.
  destruct r as [pr ca wt lk ct th lg]. intros S. destruct a as [y| | |t|t|t e]; cbn in S.
  - destruct pr as [q|]; injection S as <-; cbn; (split; cbn; [|intros t x T; exists x; (split; [by (done || apply lookup_app_l_Some)|]); split; [by right|done]|congruence]); [by eexists|].
    exists []. by rewrite app_nil_r.
  - injection S as <-. split; cbn; [exists []; by rewrite app_nil_r|intros t x T; exists x; (split; [by apply lookup_app_l_Some|]); split; [by right|done]|done].
  - injection S as <-. split; cbn; [exists []; by rewrite app_nil_r|intros t x T; exists x; (split; [by apply lookup_app_l_Some|]); split; [by right|done]|done].
  - destruct (th !! t) as [[]|] eqn:T; try done. injection S as <-. eapply keeps_insert'; [done|by right|done].
  - destruct (th !! t) as [[ |p| | | |m p| | ]|] eqn:T; try done.
    + destruct ca; [|done]. injection S as <-. eapply keeps_insert'; [done|by right|done].
    + destruct p as [| |n|n|e]; cbn in S; try (destruct lk; [done|]); try done; try (destruct e); try (destruct pr); injection S as <-; cbn;
        (eapply keeps_insert || eapply keeps_insert'); try done; (by right) || (by left).
    + destruct pr; injection S as <-; eapply keeps_insert'; try done; (by right) || (by left).
    + destruct wt; [|done]. injection S as <-. eapply keeps_insert'; [done|by right|done].
    + destruct p as [| |n|n|e]; cbn in S; try (destruct lk; [done|]); try done; try (destruct pr); injection S as <-; cbn;
        (eapply keeps_insert || eapply keeps_insert'); try done; (by right) || (by left).
  - destruct (th !! t) as [[ |p| | | |m p| | ]|] eqn:T; try done; destruct p; try done; injection S as <-; cbn; eapply keeps_insert; try done; by right.
Qed.

(** A periodic reader in such a world: it has its invariant, nothing panics, and before it is registered nothing happens. *)
Definition sound (r : reader) : Prop := exists h ss, prun new_reader h = Some r /\ inv r ss /\ (forall t, rd_threads r !! t <> Some CPanic) /\ (rd_producer r = None -> rd_threads r = []).
Lemma sound_new : sound new_reader.
Proof. exists [], []. split; [done|]. split; [apply new_inv|]. split; [by intros []|done]. Qed.
Lemma sound_step r a r' : sound r -> pstep r a = Some r' -> (a = AFlush \/ a = AShut -> rd_producer r <> None) -> sound r'.
Proof.
  intros (h & ss & H & J & N & E) S A. destruct (pstep_inv _ _ _ _ J S) as [s J']. exists (h ++ [a]), (ss ++ s). split; [rewrite prun_app, H; cbn; by rewrite S|]. split; [done|].
  destruct (rd_producer r) as [y|] eqn:P.
  - destruct (pstep_no_panic _ _ _ _ J (conj (ltac:(by rewrite P) : rd_producer r <> None) N) S) as [[_ N'] P']. split; [done|]. rewrite P', P. done.
  - specialize (E eq_refl). destruct r as [pr ca wt lk ct th lg]. cbn in P, E. subst. destruct a; cbn in S; try done.
    + injection S as <-. cbn. split; [by intros [|[]]|done].
    + exfalso. by apply A; [left|].
    + exfalso. by apply A; [right|].
Qed.
Definition sound_x (x : xreader) : Prop := match x with Periodic r => sound r | Manual _ _ => True end.
Definition keeps_x (x x' : xreader) : Prop :=
  match x, x' with
  | Periodic r, Periodic r' => keeps r r'
  | Manual p n, Manual p' n' => forall y, p = Some y -> p' = Some y
  | _, _ => False
  end.
Definition registered (x : xreader) : Prop := match x with Periodic r => rd_producer r <> None | Manual p _ => p <> None end.
Lemma keeps_x_refl x : keeps_x x x.
Proof. destruct x; cbn; [auto|apply keeps_refl]. Qed.
Lemma keeps_x_trans x y z : keeps_x x y -> keeps_x y z -> sound_x y -> keeps_x x z.
Proof. destruct x, y, z; cbn; try done; [naive_solver|]. intros A B (h & ss & _ & _ & N & _). by eapply keeps_trans. Qed.
Lemma keeps_registered x y : keeps_x x y -> registered x -> registered y.
Proof.
  destruct x as [p n|r], y as [p' n'|r']; cbn; [|done|done|].
  { intros H R. destruct p as [y|]; [|done]. by rewrite (H _ eq_refl). }
  intros K R. destruct (rd_producer r) as [y|] eqn:P; [|done]. by rewrite (kp_producer _ _ K _ P).
Qed.

(** The readers of a world after a step. *)
Definition rkeeps (w w' : world) : Prop := length (w_readers w') = length (w_readers w) /\
  forall r x, w_readers w !! r = Some x -> exists x', w_readers w' !! r = Some x' /\ keeps_x x x'.
Lemma rkeeps_refl w : rkeeps w w.
Proof. split; [done|]. intros r x R. exists x. split; [done|apply keeps_x_refl]. Qed.
Lemma rkeeps_insert w r x x' : w_readers w !! r = Some x -> keeps_x x x' -> rkeeps w (set_reader w r x').
Proof.
  intros R K. split; [cbn; by rewrite insert_length|]. intros u y U. cbn. destruct (decide (u = r)) as [->|D].
  - exists x'. rewrite list_lookup_insert by (by eapply lookup_lt_Some). split; [done|]. by simplify_eq.
  - exists y. rewrite list_lookup_insert_ne by done. split; [done|apply keeps_x_refl].
Qed.
(** The k-th reader of a call has been served by goroutine t, with error e. *)
Definition answered (w : world) (f : bool) (rx : nat * string) (t : option nat) (e : option string) : Prop :=
  match w_readers w !! rx.1 with
  | Some (Periodic rd) => exists t', t = Some t' /\ rd_threads rd !! t' = Some (CReturned (method_of f) e)
  | Some (Manual _ _) => t = None /\ e = None
  | None => False
  end.
Definition answers (w : world) (f : bool) (mp : provider) (ts : list (option nat)) (errs : list string) : Prop :=
  exists es, errs = some_errors es /\ length es = length ts /\ length ts <= length (mp_readers mp) /\
  forall k rx t e, mp_readers mp !! k = Some rx -> ts !! k = Some t -> es !! k = Some e -> answered w f rx t e.
Definition call_ok (w : world) (c : call) : Prop :=
  exists mp, w_provs w !! c_prov c = Some mp /\ mp_ready mp = length (mp_readers mp) /\
  match c_at c with
  | Start => True
  | Next k ts errs => k = length ts /\ answers w (c_final c) mp ts errs
  | Inside k t ts errs => k = length ts /\ answers w (c_final c) mp ts errs /\ exists r y rd x, mp_readers mp !! k = Some (r, y) /\ w_readers w !! r = Some (Periodic rd) /\
      rd_threads rd !! t = Some x /\ role x = Some (method_of (c_final c))
  | Back ts errs => length ts = length (mp_readers mp) /\ answers w (c_final c) mp ts errs
  | Refused => c_final c = true
  end /\ (c_final c = true -> c_at c <> Start -> mp_shut mp = true).
Definition prov_ok (w : world) (mp : provider) : Prop :=
  mp_ready mp <= length (mp_readers mp) /\
  forall k r y, mp_readers mp !! k = Some (r, y) -> exists x, w_readers w !! r = Some x /\ (k < mp_ready mp -> registered x).
Record winv (w : world) : Prop := Winv {
  wi_readers : forall r x, w_readers w !! r = Some x -> sound_x x;
  wi_provs : forall p mp, w_provs w !! p = Some mp -> prov_ok w mp;
  wi_calls : forall i c, w_calls w !! i = Some c -> call_ok w c }.

Lemma answered_keeps w w' f rx t e : rkeeps w w' -> answered w f rx t e -> answered w' f rx t e.
Proof.
  intros [_ K] A. unfold answered in *. destruct (w_readers w !! rx.1) as [x|] eqn:R; [|done]. destruct (K _ _ R) as (x' & R' & Kx). rewrite R'.
  destruct x, x'; try done. destruct A as (t' & -> & T). exists t'. split; [done|]. destruct (kp_threads _ _ Kx _ _ T) as (z & Z & _ & C). by rewrite (C _ _ eq_refl) in Z.
Qed.
Lemma answers_keeps w w' f mp mp' ts errs : rkeeps w w' -> mp_readers mp' = mp_readers mp -> answers w f mp ts errs -> answers w' f mp' ts errs.
Proof.
  intros K E (es & A & B & C & D). exists es. rewrite E. split; [done|]. split; [done|]. split; [done|]. intros k rx t e H1 H2 H3. eapply answered_keeps; [done|]. by eapply D.
Qed.
(** Providers after a step. *)
Definition pkeeps (w w' : world) : Prop := forall p mp, w_provs w !! p = Some mp -> exists mp', w_provs w' !! p = Some mp' /\ mp_readers mp' = mp_readers mp /\
  (mp_ready mp = length (mp_readers mp) -> mp_ready mp' = mp_ready mp) /\ (mp_shut mp = true -> mp_shut mp' = true).
Lemma pkeeps_refl w : pkeeps w w.
Proof. intros p mp H. by exists mp. Qed.
Definition unpanicked (w : world) : Prop := forall r rd, w_readers w !! r = Some (Periodic rd) -> forall t, rd_threads rd !! t <> Some CPanic.
Lemma call_keeps w w' c : rkeeps w w' -> pkeeps w w' -> unpanicked w' -> call_ok w c -> call_ok w' c.
Proof.
  intros K P U (mp & H & R & A & S). destruct (P _ _ H) as (mp' & H' & E & E2 & E3). exists mp'. split; [done|]. split; [rewrite E2 by done; by rewrite E|].
  split; [|auto]. destruct (c_at c) as [|k ts errs|k t ts errs|ts errs|]; [done| | | |done].
  - destruct A as [-> A]. split; [done|]. by eapply answers_keeps.
  - destruct A as (-> & A & r & y & rd & x & M & Rd & T & Ro). split; [done|]. split; [by eapply answers_keeps|]. destruct K as [_ K]. destruct (K _ _ Rd) as (x' & Rd' & Kx).
    destruct x' as [|rd']; [done|]. destruct (kp_threads _ _ Kx _ _ T) as (z & Z & Rz & _). exists r, y, rd', z. split; [by rewrite E|]. split; [done|]. split; [done|].
    destruct Rz as [->|Rz]; [by destruct (U _ _ Rd' t)|congruence].
  - destruct A as [L A]. split; [by rewrite E|]. by eapply answers_keeps.
Qed.
Lemma prov_keeps w w' mp : rkeeps w w' -> prov_ok w mp -> prov_ok w' mp.
Proof.
  intros [_ K] [A B]. split; [done|]. intros k r y H. destruct (B k r y H) as (x & Rx & Rg). destruct (K _ _ Rx) as (x' & Rx' & Kx). exists x'. split; [done|].
  intros L. eapply keeps_registered; [done|auto].
Qed.
Lemma unpanicked_sound w : (forall r x, w_readers w !! r = Some x -> sound_x x) -> unpanicked w.
Proof. intros H r rd R t. destruct (H _ _ R) as (h & ss & _ & _ & N & _). apply N. Qed.
Lemma set_reader_inv w r x x' : winv w -> w_readers w !! r = Some x -> keeps_x x x' -> sound_x x' -> winv (set_reader w r x') /\ rkeeps w (set_reader w r x').
Proof.
  intros [W1 W2 W3] R K S. pose proof (rkeeps_insert _ _ _ _ R K) as RK. split; [|done].
  assert (W1' : forall u y, w_readers (set_reader w r x') !! u = Some y -> sound_x y).
  { intros u y U. cbn in U. apply list_lookup_insert_Some in U as [(-> & <- & _)|[_ U]]; [done|by eapply W1]. }
  split; [done| |].
  - intros p mp H. eapply prov_keeps; [done|]. by eapply W2.
  - intros i c H. apply (call_keeps w); [done|by intros p mp Hp; exists mp|by apply unpanicked_sound|by eapply W3].
Qed.
Lemma set_at_inv w c p f x c0 : winv w -> w_calls w !! c = Some c0 -> call_ok w (Call p f x) -> winv (set_at w c p f x).
Proof.
  intros [W1 W2 W3] H C. split; [done|done|]. intros i y Y. cbn in Y. apply list_lookup_insert_Some in Y as [(-> & <- & _)|[_ Y]]; [exact C|]. exact (W3 _ _ Y).
Qed.
Lemma set_shut_inv w p mp : winv w -> w_provs w !! p = Some mp -> winv (set_prov w p (Provider (mp_readers mp) (mp_ready mp) true)) /\ pkeeps w (set_prov w p (Provider (mp_readers mp) (mp_ready mp) true)).
Proof.
  intros [W1 W2 W3] H. set (w' := set_prov _ _ _).
  assert (P : pkeeps w w').
  { intros q mq Q. cbn. destruct (decide (q = p)) as [->|D]; [|exists mq; by rewrite list_lookup_insert_ne].
    rewrite list_lookup_insert by (by eapply lookup_lt_Some). assert (mq = mp) as -> by congruence. eexists. by split. }
  split; [|done]. split; [done| |].
  - intros q mq Q. cbn in Q. apply list_lookup_insert_Some in Q as [(-> & <- & _)|[_ Q]]; [exact (W2 _ _ H)|exact (W2 _ _ Q)].
  - intros i c C. apply (call_keeps w); [exact (rkeeps_refl w)|done|by apply unpanicked_sound|by eapply W3].
Qed.
Lemma register_ok x y x' : sound_x x -> register x y = Some x' -> keeps_x x x' /\ sound_x x' /\ registered x'.
Proof.
  intros S R. destruct x as [p n|r]; cbn in R.
  - destruct p as [q|]; injection R as <-; cbn; split; try done; congruence.
  - destruct (pstep r (ARegister y)) as [r'|] eqn:E; [|done]. injection R as <-. split; [by apply (pstep_keeps _ _ _ E)|]. split; [eapply sound_step; [done|done|by intros [|]]|].
    destruct r as [[q|] ca wt lk ct th lg]; cbn in E; injection E as <-; done.
Qed.
Lemma calls_method f x : role x = Some (method_of f) -> forall m e, x = CReturned m e -> m = method_of f.
Proof. by intros R m e ->; injection R. Qed.
Lemma some_errors_snoc es e : some_errors (es ++ [e]) = append_error (some_errors es) e.
Proof. unfold some_errors. rewrite omap_app. destruct e; cbn; [done|]. by rewrite app_nil_r. Qed.
Lemma answers_snoc w f mp ts errs t e rx : answers w f mp ts errs -> mp_readers mp !! length ts = Some rx -> answered w f rx t e -> answers w f mp (ts ++ [t]) (append_error errs e).
Proof.
  intros (es & -> & B & C & D) H A. exists (es ++ [e]). split; [by rewrite some_errors_snoc|]. split; [rewrite !app_length; cbn; lia|]. split.
  { rewrite app_length. cbn. apply lookup_lt_Some in H. lia. }
  intros k rx' t' e' H1 H2 H3. apply lookup_snoc in H2 as [H2|[-> ->]].
  - apply lookup_snoc in H3 as [H3|[K _]]; [by eapply D|]. apply lookup_lt_Some in H2. lia.
  - apply lookup_snoc in H3 as [H3|[_ ->]]; [apply lookup_lt_Some in H3; lia|]. congruence.
Qed.
Lemma xstep_inv w a w' : winv w -> xstep w a = Some w' -> winv w' /\ rkeeps w w' /\ pkeeps w w'.
Proof.
  intros W E. pose proof W as [W1 W2 W3]. destruct a as [l|p|p f|c|r a]; cbn in E.
  - destruct (forallb _ l) eqn:F; [|done]. injection E as <-. split; [|split; [exact (rkeeps_refl w)|]].
    + split; [done| |].
      * intros p mp H. cbn in H. apply lookup_snoc in H as [H|[-> ->]]; [exact (W2 _ _ H)|]. split; [cbn; lia|]. intros k r y K. cbn in K.
        assert (L : r < length (w_readers w)). { rewrite forallb_forall in F. specialize (F (r, y)). apply Nat.ltb_lt, F. apply elem_of_list_In. by eapply elem_of_list_lookup_2. }
        destruct (lookup_lt_is_Some_2 _ _ L) as [x X]. exists x. split; [done|]. cbn. lia.
      * intros i c H. apply (call_keeps w); [exact (rkeeps_refl w)| |by apply unpanicked_sound|by eapply W3]. intros p mp P. exists mp. split; [by apply lookup_app_l_Some|done].
    + intros p mp P. exists mp. split; [by apply lookup_app_l_Some|done].
  - destruct (w_provs w !! p) as [mp|] eqn:P; [|done]. cbn in E. destruct (mp_readers mp !! mp_ready mp) as [[r y]|] eqn:R; [|done]. cbn in E.
    destruct (w_readers w !! r) as [x|] eqn:X; [|done]. cbn in E. destruct (register x y) as [x'|] eqn:G; [|done]. injection E as <-.
    destruct (register_ok _ _ _ (W1 _ _ X) G) as (K & S & Rg). destruct (set_reader_inv _ _ _ _ W X K S) as [[V1 V2 V3] RK].
    set (mp' := Provider _ _ _). set (w1 := set_reader w r x') in *.
    assert (PK : pkeeps w (set_prov w1 p mp')).
    { intros q mq Q. cbn. destruct (decide (q = p)) as [->|D]; [|exists mq; by rewrite list_lookup_insert_ne].
      rewrite list_lookup_insert by (by eapply lookup_lt_Some). assert (mq = mp) as -> by congruence. eexists. split; [done|]. split; [done|]. split; [|done].
      intros L. apply lookup_lt_Some in R. lia. }
    split; [|split; [exact RK|exact PK]]. split; [exact V1| |].
    + intros q mq Q. cbn in Q. apply list_lookup_insert_Some in Q as [(-> & <- & _)|[_ Q]]; [|exact (V2 _ _ Q)].
      destruct (V2 _ mp P) as [A B]. split; [cbn; by apply lookup_lt_Some in R|]. intros k u z H. cbn in H. destruct (B k u z H) as (v & V & Lv). exists v. split; [exact V|]. cbn. intros L.
      destruct (decide (k = mp_ready mp)) as [->|]; [|apply Lv; lia]. assert (u = r) as -> by congruence. cbn in V. rewrite list_lookup_insert in V by (by eapply lookup_lt_Some). by injection V as <-.
    + intros i c C. apply (call_keeps w); [exact RK|exact PK|by apply (unpanicked_sound (set_prov w1 p mp'))|by eapply W3].
  - destruct (w_provs w !! p) as [mp|] eqn:P; [|done]. cbn in E. destruct (Nat.eqb_spec (mp_ready mp) (length (mp_readers mp))) as [L|]; [|done]. injection E as <-.
    split; [|split; [exact (rkeeps_refl w)|exact (pkeeps_refl w)]]. split; [done|done|]. intros i c C. cbn in C. apply lookup_snoc in C as [C|[_ ->]]; [exact (W3 _ _ C)|]. exists mp. done.
  - unfold go in E. destruct (w_calls w !! c) as [[p f x]|] eqn:C; [|done]. cbn in E. destruct (w_provs w !! p) as [mp|] eqn:P; [|done]. cbn in E.
    destruct (W3 _ _ C) as (mp0 & P0 & L & A & Sh). cbn in P0, A, Sh. assert (mp0 = mp) as -> by congruence. clear P0. destruct x as [|k ts errs|k t ts errs|ts errs|]; [| | |done|done].
    + assert (A0 : answers w f mp [] []) by (exists []; split; [done|]; split; [done|]; split; [cbn; lia|]; intros k rx t e _ H; done).
      destruct f.
      * destruct (mp_shut mp) eqn:Sm; injection E as <-.
        -- split; [|split; [exact (rkeeps_refl w)|exact (pkeeps_refl w)]]. eapply set_at_inv; [done|done|]. exists mp. done.
        -- destruct (set_shut_inv w p mp W P) as [W' PK]. split; [|split; [exact (rkeeps_refl w)|exact PK]]. eapply set_at_inv; [exact W'|exact C|]. eexists. cbn. rewrite list_lookup_insert by (by eapply lookup_lt_Some). split; [done|]. split; [done|].
           split; [split; [done|exact A0]|done].
      * injection E as <-. split; [|split; [exact (rkeeps_refl w)|exact (pkeeps_refl w)]]. eapply set_at_inv; [done|done|]. exists mp. done.
    + destruct A as [-> A]. destruct (mp_readers mp !! length ts) as [[r y]|] eqn:R.
      * destruct (w_readers w !! r) as [[q n|rd]|] eqn:X; [| |done].
        -- injection E as <-. split; [|split; [exact (rkeeps_refl w)|exact (pkeeps_refl w)]]. eapply set_at_inv; [done|done|]. exists mp. split; [done|]. split; [done|]. split; [|by intros H _; apply Sh]. cbn. split; [rewrite app_length; cbn; lia|].
           apply (answers_snoc w f mp ts errs None None (r, y)); [done|done|]. unfold answered. cbn. by rewrite X.
        -- destruct (pstep rd _) as [rd'|] eqn:Sp; [|done]. injection E as <-.
           destruct (W2 _ _ P) as [_ Pr]. destruct (Pr _ _ _ R) as (x & X' & Rg). rewrite X in X'. injection X' as <-. specialize (Rg (ltac:(rewrite L; by apply lookup_lt_Some in R))). cbn in Rg.
           pose proof (pstep_keeps _ _ _ Sp) as K. assert (S' : sound rd') by (eapply sound_step; [exact (W1 _ _ X)|exact Sp|done]).
           destruct (set_reader_inv _ _ _ (Periodic rd') W X K S') as [W' RK]. split; [|split; [exact RK|exact (pkeeps_refl w)]]. eapply set_at_inv; [exact W'|exact C|].
           exists mp. split; [done|]. split; [done|]. split; [|by intros H _; apply Sh]. cbn. split; [done|]. split; [by eapply answers_keeps|].
           exists r, y, rd', (if f then CStop else CCollect Flush Locking). split; [done|]. split; [by rewrite list_lookup_insert by (by eapply lookup_lt_Some)|].
           destruct rd as [pr ca wt lk ct th lg]. destruct f; injection Sp as <-; cbn; (split; [by apply list_lookup_middle|done]).
      * injection E as <-. split; [|split; [exact (rkeeps_refl w)|exact (pkeeps_refl w)]]. eapply set_at_inv; [done|done|]. exists mp. split; [done|]. split; [done|]. split; [|by intros H _; apply Sh]. cbn. split; [|done].
        apply lookup_ge_None in R. destruct A as (es & _ & _ & Le & _). lia.
    + destruct A as (-> & A & r & y & rd & x & R & X & T & Ro). rewrite R in E. cbn in E. rewrite X, T in E. destruct x as [| | | | | |m e|]; try done. injection E as <-.
      split; [|split; [exact (rkeeps_refl w)|exact (pkeeps_refl w)]]. eapply set_at_inv; [done|done|]. exists mp. split; [done|]. split; [done|]. split; [|by intros H _; apply Sh]. cbn. split; [rewrite app_length; cbn; lia|].
      apply (answers_snoc w f mp ts errs (Some t) e (r, y)); [done|done|]. unfold answered. cbn. rewrite X. exists t. split; [done|]. injection Ro as ->. done.
  - destruct (w_readers w !! r) as [x|] eqn:X; [|done]. cbn in E.
    assert (Q : exists rd rd', x = Periodic rd /\ pstep rd a = Some rd' /\ (a = AFlush \/ a = AShut -> rd_producer rd <> None) /\ w' = set_reader w r (Periodic rd')).
    { destruct x as [q n|rd]; [by destruct a|]. exists rd. destruct a; try done; try (destruct (rd_producer rd) eqn:Pd; [|done]);
        match type of E with context [pstep rd ?b] => destruct (pstep rd b) as [rd'|] eqn:Sp; [|done] end; injection E as <-; exists rd'; split_and!; try done; by intros [|]. }
    destruct Q as (rd & rd' & -> & Sp & Pn & ->). destruct (set_reader_inv w r (Periodic rd) (Periodic rd')) as [W' RK]; [done|done|by apply pstep_keeps in Sp|by eapply sound_step; [exact (W1 _ _ X)| |]|].
    split; [done|]. split; [done|]. by intros p mp Hp; exists mp.
Qed.
Lemma new_winv ks : winv (new_world ks).
Proof.
  split; [|by intros p mp H|by intros i c H]. intros r x H. cbn in H. apply list_lookup_fmap_Some in H as ([] & _ & ->); [apply sound_new|done].
Qed.
Lemma rkeeps_trans w1 w2 w3 : rkeeps w1 w2 -> rkeeps w2 w3 -> winv w2 -> rkeeps w1 w3.
Proof.
  intros [L1 K1] [L2 K2] W. split; [congruence|]. intros r x R. destruct (K1 _ _ R) as (y & Y & KY). destruct (K2 _ _ Y) as (z & Z & KZ). exists z. split; [done|].
  eapply keeps_x_trans; [done|done|by eapply wi_readers].
Qed.
Lemma pkeeps_trans w1 w2 w3 : pkeeps w1 w2 -> pkeeps w2 w3 -> pkeeps w1 w3.
Proof.
  intros K1 K2 p mp P. destruct (K1 _ _ P) as (m2 & P2 & A2 & B2 & C2). destruct (K2 _ _ P2) as (m3 & P3 & A3 & B3 & C3). exists m3. split; [done|]. split; [congruence|]. split; [|auto].
  intros H. rewrite B3; [auto|]. rewrite A2, B2 by done. done.
Qed.
Lemma xrun_inv l : forall w w', winv w -> xrun w l = Some w' -> winv w' /\ rkeeps w w' /\ pkeeps w w'.
Proof.
  induction l as [|a l IH]; intros w w' W E; cbn in E; [injection E as <-; split; [done|]; split; [apply rkeeps_refl|apply pkeeps_refl]|].
  destruct (xstep w a) as [w1|] eqn:S; [|done]. cbn in E. destruct (xstep_inv _ _ _ W S) as (W1 & R1 & P1). destruct (IH _ _ W1 E) as (W2 & R2 & P2).
  split; [done|]. split; [by eapply rkeeps_trans|by eapply pkeeps_trans].
Qed.
Lemma xrun_app l1 : forall w l2, xrun w (l1 ++ l2) = w' ← xrun w l1; xrun w' l2.
Proof. induction l1 as [|a l1 IH]; intros w l2; cbn; [done|]. destruct (xstep w a); cbn; [apply IH|done]. Qed.

(** Which goroutine of reader r serves the k-th reader of call i. *)
Definition threads_of (x : position) : list (option nat) :=
  match x with Next _ ts _ | Back ts _ => ts | Inside _ t ts _ => ts ++ [Some t] | _ => [] end.
Definition uses (w : world) (i k r t : nat) : Prop :=
  exists c mp y, w_calls w !! i = Some c /\ w_provs w !! c_prov c = Some mp /\ mp_readers mp !! k = Some (r, y) /\ threads_of (c_at c) !! k = Some (Some t).
Lemma uses_alive w i k r t : winv w -> uses w i k r t -> exists rd, w_readers w !! r = Some (Periodic rd) /\ t < length (rd_threads rd).
Proof.
  intros W (c & mp & y & C & P & R & T). destruct (wi_calls _ W _ _ C) as (mp0 & P0 & _ & A & _). assert (mp0 = mp) as -> by congruence.
  assert (Q : forall ts errs, answers w (c_final c) mp ts errs -> ts !! k = Some (Some t) -> exists rd, w_readers w !! r = Some (Periodic rd) /\ t < length (rd_threads rd)).
  { intros ts errs (es & _ & B & _ & D) H. destruct (lookup_lt_is_Some_2 es k) as [e He]; [apply lookup_lt_Some in H; lia|]. specialize (D _ _ _ _ R H He). unfold answered in D. cbn in D.
    destruct (w_readers w !! r) as [[q n|rd]|]; [by destruct D| |done]. destruct D as (t' & [= <-] & D). exists rd. split; [done|by eapply lookup_lt_Some]. }
  destruct (c_at c) as [|k' ts errs|k' t' ts errs|ts errs|]; cbn in T; try done; [destruct A as [_ A]; by eapply Q| |destruct A as [_ A]; by eapply Q].
  destruct A as (-> & A & r' & y' & rd & x & R' & X & T' & _). apply lookup_snoc in T as [T|[-> [= <-]]]; [by eapply Q|]. assert (r' = r) as -> by congruence. exists rd. split; [done|by eapply lookup_lt_Some].
Qed.
Lemma go_calls w j w' : go w j = Some w' -> exists p f z, w_calls w' = <[j := Call p f z]> (w_calls w).
Proof.
  unfold go. intros E. destruct (w_calls w !! j) as [[p f x]|] eqn:J; [|done]. cbn in E. destruct (w_provs w !! p) as [m0|] eqn:P0; [|done]. cbn in E.
  destruct x as [|k' ts errs|k' t' ts errs|ts errs|]; [| | |done|done].
  - destruct f; [destruct (mp_shut m0)|]; injection E as <-; cbn; by eauto.
  - destruct (mp_readers m0 !! k') as [[r0 y0]|]; [|injection E as <-; cbn; by eauto]. destruct (w_readers w !! r0) as [[q n|rd]|]; [injection E as <-; cbn; by eauto| |done].
    destruct (pstep rd _) as [rd'|]; [|done]. injection E as <-. cbn. by eauto.
  - destruct (mp_readers m0 !! k') as [[r0 y0]|]; [|done]. cbn in E. destruct (w_readers w !! r0) as [[q n|rd]|]; [done| |done]. destruct (rd_threads rd !! t') as [[]|]; try done. injection E as <-. cbn. by eauto.
Qed.
Lemma xstep_uses w a w' i k r t : winv w -> xstep w a = Some w' -> uses w' i k r t ->
  uses w i k r t \/ a = AGo i /\ exists p f ts errs rd, w_calls w !! i = Some (Call p f (Next k ts errs)) /\ w_readers w !! r = Some (Periodic rd) /\ t = length (rd_threads rd).
Proof.
  intros W E (c & mp & y & C & P & R & T). destruct (xstep_inv _ _ _ W E) as (W' & _ & PK).
  assert (Q : w_calls w !! i = Some c -> uses w i k r t).
  { intros C0. destruct (wi_calls _ W _ _ C0) as (mp0 & P0 & _). destruct (PK _ _ P0) as (mp' & P' & Er & _). assert (mp' = mp) as -> by congruence. exists c, mp0, y. rewrite <- Er. done. }
  destruct a as [l|p|p f|j|u a]; cbn in E.
  - destruct (forallb _ l); [|done]. injection E as <-. left. by apply Q.
  - destruct (w_provs w !! p) as [m0|]; [|done]. cbn in E. destruct (mp_readers m0 !! mp_ready m0) as [[r0 y0]|]; [|done]. cbn in E.
    destruct (w_readers w !! r0) as [x|]; [|done]. cbn in E. destruct (register x y0); [|done]. injection E as <-. left. by apply Q.
  - destruct (w_provs w !! p) as [m0|]; [|done]. cbn in E. destruct (Nat.eqb _ _); [|done]. injection E as <-. cbn in C. apply lookup_snoc in C as [C|[_ ->]]; [left; by apply Q|done].
  - destruct (decide (i = j)) as [->|D].
    2:{ left. apply Q. destruct (go_calls _ _ _ E) as (p & f & z & Z). rewrite Z in C. by rewrite list_lookup_insert_ne in C. }
    unfold go in E. destruct (w_calls w !! j) as [[p f x]|] eqn:J; [|done]. cbn in E. destruct (w_provs w !! p) as [m0|] eqn:P0; [|done]. cbn in E.
    destruct (wi_calls _ W _ _ J) as (m1 & P1 & _ & A & _). cbn in P1, A. assert (m1 = m0) as -> by congruence. clear P1.
    assert (Cj : forall q z, w_calls q !! j = Some (Call p f x) -> w_calls (set_at q j p f z) !! j = Some (Call p f z)) by (intros q z Hq; cbn; by rewrite list_lookup_insert by (by eapply lookup_lt_Some)).
    assert (Pr : c_prov c = p -> mp_readers m0 !! k = Some (r, y)).
    { intros H. destruct (PK _ _ P0) as (m2 & P2 & Er & _). rewrite H in P. assert (m2 = mp) as -> by congruence. by rewrite <- Er. }
    assert (Keep : forall z, w_calls w' !! j = Some (Call p f z) -> threads_of z = threads_of x -> uses w j k r t).
    { intros z Hz Tz. assert (c = Call p f z) as -> by congruence. cbn in *. exists (Call p f x), m0, y. cbn. rewrite <- Tz. split; [done|]. split; [done|]. split; [by apply Pr|done]. }
    destruct x as [|k' ts errs|k' t' ts errs|ts errs|]; [| | |done|done].
    + left. destruct f; [destruct (mp_shut m0)|]; injection E as <-; (eapply Keep; [by apply Cj|done]).
    + destruct A as [-> A]. destruct (mp_readers m0 !! length ts) as [[r0 y0]|] eqn:R0; [|injection E as <-; left; eapply Keep; [by apply Cj|done]].
      destruct (w_readers w !! r0) as [[q n|rd]|] eqn:X; [| |done].
      * injection E as <-. left. pose proof (Cj w (Next (S (length ts)) (ts ++ [None]) errs) J) as Hc. assert (c = Call p f (Next (S (length ts)) (ts ++ [None]) errs)) as -> by (unfold append_error in C; congruence).
        cbn in T. apply lookup_snoc in T as [T|[_ T]]; [|done]. exists (Call p f (Next (length ts) ts errs)), m0, y. cbn. split; [done|]. split; [done|]. split; [by apply Pr|done].
      * destruct (pstep rd _) as [rd'|] eqn:Sp; [|done]. injection E as <-. set (w2 := set_reader w r0 (Periodic rd')) in *.
        pose proof (Cj w2 (Inside (length ts) (length (rd_threads rd)) ts errs) J) as Hc. assert (c = Call p f (Inside (length ts) (length (rd_threads rd)) ts errs)) as -> by congruence.
        cbn in T. apply lookup_snoc in T as [T|[-> [= ->]]].
        -- left. exists (Call p f (Next (length ts) ts errs)), m0, y. cbn. split; [done|]. split; [done|]. split; [by apply Pr|done].
        -- right. split; [done|]. exists p, f, ts, errs, rd. split; [done|]. specialize (Pr eq_refl). assert (r0 = r) as -> by congruence. done.
    + destruct A as (-> & A & r0 & y0 & rd & x & R0 & X & T0 & _). rewrite R0 in E. cbn in E. rewrite X, T0 in E. destruct x as [| | | | | |m e|]; try done. injection E as <-. left.
      eapply Keep; [by apply Cj|done].
  - destruct (w_readers w !! u) as [x|]; [|done]. cbn in E. left. apply Q. destruct x as [q n|rd]; [by destruct a|]. destruct a; try done; try (destruct (rd_producer rd); [|done]);
      match type of E with context [pstep rd ?b] => destruct (pstep rd b); [|done] end; by injection E as <-.
Qed.
Definition injective (w : world) : Prop := forall i k i' k' r t, uses w i k r t -> uses w i' k' r t -> i = i' /\ k = k'.
Lemma xstep_injective w a w' : winv w -> xstep w a = Some w' -> injective w -> injective w'.
Proof.
  intros W E I i k i' k' r t U U'.
  destruct (xstep_uses _ _ _ _ _ _ _ W E U) as [V|(Ea & p & f & ts & errs & rd & C & X & Et)]; destruct (xstep_uses _ _ _ _ _ _ _ W E U') as [V'|(Ea' & p' & f' & ts' & errs' & rd' & C' & X' & Et')].
  - by eapply I.
  - destruct (uses_alive _ _ _ _ _ W V) as (rd & X & L). assert (rd' = rd) as -> by congruence. lia.
  - destruct (uses_alive _ _ _ _ _ W V') as (rd' & X' & L). assert (rd' = rd) as -> by congruence. lia.
  - rewrite Ea in Ea'. injection Ea' as ->. split; [done|]. congruence.
Qed.
Lemma xrun_injective l : forall w w', winv w -> xrun w l = Some w' -> injective w -> injective w'.
Proof.
  induction l as [|a l IH]; intros w w' W E I; cbn in E; [by injection E as <-|]. destruct (xstep w a) as [w1|] eqn:S; [|done]. cbn in E.
  eapply IH; [by destruct (xstep_inv _ _ _ W S)|done|by eapply xstep_injective].
Qed.
(** The goroutines that serve a call begin after it. *)
Lemma threads_grow rd rd' : keeps rd rd' -> length (rd_threads rd) <= length (rd_threads rd').
Proof.
  intros K. destruct (decide (length (rd_threads rd) = 0)) as [|N]; [lia|]. destruct (lookup_lt_is_Some_2 (rd_threads rd) (length (rd_threads rd) - 1)) as [x X]; [lia|].
  destruct (kp_threads _ _ K _ _ X) as (x' & X' & _). apply lookup_lt_Some in X'. lia.
Qed.
Lemma xrun_fresh l : forall w w' i k r t rd, winv w -> xrun w l = Some w' -> length (w_calls w) <= i -> uses w' i k r t -> w_readers w !! r = Some (Periodic rd) -> length (rd_threads rd) <= t.
Proof.
  induction l as [|a l IH] using rev_ind; intros w w' i k r t rd W E L U X.
  - cbn in E. injection E as <-. destruct U as (c & mp & y & C & _). apply lookup_lt_Some in C. lia.
  - rewrite xrun_app in E. destruct (xrun w l) as [w1|] eqn:E1; [|done]. cbn in E. destruct (xstep w1 a) as [w2|] eqn:S; [|done]. injection E as <-.
    destruct (xrun_inv _ _ _ W E1) as (W1 & [_ R1] & _). destruct (xstep_uses _ _ _ _ _ _ _ W1 S U) as [V|(_ & p & f & ts & errs & rd1 & _ & X1 & ->)]; [by apply (IH w w1 i k r t rd)|].
    destruct (R1 _ _ X) as (x & X' & K). assert (x = Periodic rd1) as -> by congruence. by apply threads_grow.
Qed.
(** What a goroutine did, from the invariant of the reader. *)
Lemma done_app t l1 l2 : done_by t (l1 ++ l2) = done_by t l1 ++ done_by t l2.
Proof. apply List.filter_app. Qed.
Lemma done_exports t l : done_by t l = done_by t (exports l).
Proof. induction l as [|e l IH]; [done|]. destruct e; cbn; (case_bool_decide; [|]); cbn; (done || exact IH || (f_equal; exact IH)). Qed.
Lemma done_events t s : done_by t (events s) = if bool_decide (s_t s = t) then events s else [].
Proof. destruct s as [u y n m e]. cbn. case_bool_decide as H; case_bool_decide as H'; try done; [injection H as ->; done|by subst]. Qed.
Lemma done_sessions t ss : done_by t (concat (map events ss)) = concat (map events (sessions_of t ss)).
Proof.
  induction ss as [|s ss IH]; [done|]. cbn [map concat]. rewrite done_app, done_events, IH. unfold sessions_of. cbn [List.filter].
  case_bool_decide as H; destruct (Nat.eqb_spec (s_t s) t); done.
Qed.
Lemma sound_done rd t x : sound rd -> rd_threads rd !! t = Some x -> ~ holding x -> exists ss, inv rd ss /\ done_by t (rd_log rd) = concat (map events (sessions_of t ss)).
Proof.
  intros (h & ss & _ & J & _) T N. exists ss. split; [done|]. rewrite done_exports. destruct rd as [pr ca wt lk ct th lg]. destruct J as (L & _). cbn [rd_log rd_threads rd_producer] in *. destruct lk; cbn [lock_ok] in L.
  - destruct L as (t' & x' & m & p & y & T' & I & Np & _ & _ & -> & _). rewrite done_app, done_sessions.
    assert (t' <> t). { intros ->. apply N. assert (x' = x) as -> by congruence. by exists m, p. }
    assert (done_by t (opened t' y m p) = []) as ->; [|by rewrite app_nil_r]. destruct p; cbn; try done; rewrite !bool_decide_eq_false_2 by congruence; done.
  - destruct L as (_ & -> & _). apply done_sessions.
Qed.
Lemma done_returned rd t m e : sound rd -> rd_threads rd !! t = Some (CReturned m e) ->
  exists y n, rd_producer rd = Some y /\ done_by t (rd_log rd) = [EProduce t y n; ECall t m n; EReturn t m e].
Proof.
  intros S T. destruct (sound_done _ _ _ S T) as (ss & J & ->). { intros (m' & p & H & _). done. }
  destruct rd as [pr ca wt lk ct th lg]. destruct J as (_ & [_ N2] & [M1 _] & _). cbn in *. specialize (M1 _ _ T). destruct M1 as [_ M1].
  destruct (sessions_of t ss) as [|s [|]] eqn:Q; try done. injection M1 as A B. exists (s_producer s), (s_n s).
  assert (Hs : s ∈ ss /\ s_t s = t). { assert (In s (sessions_of t ss)) as H by (rewrite Q; by left). unfold sessions_of in H. apply filter_In in H as [H1 H2]. split; [by apply elem_of_list_In|by apply Nat.eqb_eq]. }
  destruct Hs as [H1 H2]. split; [by apply (proj1 (list.Forall_forall _ _) N2)|]. destruct s; cbn in *. by subst.
Qed.
Lemma done_none rd t : sound rd -> length (rd_threads rd) <= t -> done_by t (rd_log rd) = [].
Proof.
  intros (h & ss & _ & J & _) T. rewrite done_exports. destruct rd as [pr ca wt lk ct th lg]. destruct J as (L & _ & [_ M2] & _). cbn [rd_log rd_threads rd_producer] in *.
  assert (Z : done_by t (concat (map events ss)) = []).
  { rewrite done_sessions. assert (sessions_of t ss = []) as ->; [|done]. unfold sessions_of. clear L. induction ss as [|s ss IH]; [done|]. inversion M2; subst. cbn. destruct (Nat.eqb_spec (s_t s) t); [lia|]. by apply IH. }
  destruct lk; cbn [lock_ok] in L.
  - destruct L as (t' & x' & m & p & y & T' & I & Np & _ & _ & -> & _). rewrite done_app, Z. apply lookup_lt_Some in T'. destruct p; cbn; try done; rewrite !bool_decide_eq_false_2 by (intros [= ->]; lia); done.
  - destruct L as (_ & -> & _). done.
Qed.
