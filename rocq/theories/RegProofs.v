(** Invariants of the callbacks of a meter. *)
From Coq Require Import Bool Lia.
From stdpp Require Import base list option.
From Verif Require Import Lib Reg RegSpec.

Section proofs.
Context (grow : nat -> nat).
Notation rstep := (rstep grow).
Notation rrun := (rrun grow).
Notation append_to := (append_to grow).

Lemma rrun_app l1 l2 s : rrun s (l1 ++ l2) = s' ← rrun s l1; rrun s' l2.
Proof. revert s. induction l1 as [|a l1 IH]; intros s; [done|]. cbn. destruct (rstep s a); [apply IH|done]. Qed.

(** ** Headers *)
Definition good (arrays : list array) (n : nat) (h : header) : Prop :=
  exists a, arrays !! h_arr h = Some a /\ h_len h <= length a /\ h_len h <= n /\ forall i, i < h_len h -> exists r, a !! i = Some (Some r) /\ r < n.
Definition better (arrays arrays' : list array) (n n' : nat) : Prop :=
  n <= n' /\ forall k a, arrays !! k = Some a -> exists a', arrays' !! k = Some a' /\ length a' = length a /\
  forall i r, a !! i = Some (Some r) -> r < n -> exists r', a' !! i = Some (Some r') /\ r' < n'.
Lemma good_better arrays arrays' n n' h : better arrays arrays' n n' -> good arrays n h -> good arrays' n' h.
Proof.
  intros [L B] (a & A & H1 & H2 & H3). destruct (B _ _ A) as (a' & A' & E & G). exists a'. split; [done|]. rewrite E. split; [done|]. split; [lia|].
  intros i Hi. destruct (H3 i Hi) as (r & R & Hr). by destruct (G i r R Hr) as (r' & ? & ?); exists r'.
Qed.
Lemma better_refl arrays n n' : n <= n' -> better arrays arrays n n'.
Proof. intros L. split; [done|]. intros k a A. exists a. split; [done|]. split; [done|]. intros i r R H. exists r. split; [done|lia]. Qed.
Lemma put_better arrays n k a i r : arrays !! k = Some a -> r < n -> better arrays (<[k := <[i := Some r]> a]> arrays) n n.
Proof.
  intros A R. split; [done|]. intros k' b B. destruct (decide (k' = k)) as [->|D].
  - assert (b = a) as -> by congruence. exists (<[i := Some r]> a). rewrite list_lookup_insert by (by eapply lookup_lt_Some). split; [done|]. split; [by rewrite insert_length|].
    intros j r' J Hj. destruct (decide (j = i)) as [->|Di]; [exists r; rewrite list_lookup_insert by (by eapply lookup_lt_Some); done|exists r'; by rewrite list_lookup_insert_ne].
  - exists b. rewrite list_lookup_insert_ne by done. split; [done|]. split; [done|]. intros j r' J Hj. by exists r'.
Qed.
Lemma append_good arrays n h arrays' h' : good arrays n h -> append_to arrays h n = (arrays', h') -> better arrays arrays' n (S n) /\ good arrays' (S n) h'.
Proof.
  intros (a & A & H1 & H2 & H3) E. unfold Reg.append_to in E. rewrite A in E. change (default [] (Some a)) with a in E. cbv zeta in E. destruct (Nat.ltb_spec (h_len h) (length a)) as [L|L]; injection E as <- <-.
  - assert (La : h_arr h < length arrays) by (by eapply lookup_lt_Some). split.
    + split; [lia|]. intros k b B. destruct (decide (k = h_arr h)) as [->|D].
      * assert (b = a) as -> by congruence. exists (<[h_len h := Some n]> a). rewrite list_lookup_insert by done. split; [done|]. split; [by rewrite insert_length|].
        intros j r J Hj. destruct (decide (j = h_len h)) as [->|Di]; [exists n; rewrite list_lookup_insert by done; split; [done|lia]|exists r; rewrite list_lookup_insert_ne by done; split; [done|lia]].
      * exists b. rewrite list_lookup_insert_ne by done. split; [done|]. split; [done|]. intros j r J Hj. exists r. split; [done|lia].
    + exists (<[h_len h := Some n]> a). cbn. rewrite list_lookup_insert by done. split; [done|]. rewrite insert_length. split; [lia|]. split; [lia|].
      intros i Hi. destruct (decide (i = h_len h)) as [->|D]; [exists n; rewrite list_lookup_insert by done; split; [done|lia]|].
      destruct (H3 i) as (r & R & Hr); [lia|]. exists r. rewrite list_lookup_insert_ne by done. split; [done|lia].
  - split.
    + split; [lia|]. intros k b B. exists b. split; [by apply lookup_app_l_Some|]. split; [done|]. intros j r J Hj. exists r. split; [done|lia].
    + exists (take (h_len h) a ++ [Some n] ++ replicate (grow (h_len h)) None). cbn [h_arr h_len]. split; [by apply list_lookup_middle|].
      assert (Lt : length (take (h_len h) a) = h_len h) by (rewrite take_length; lia). rewrite !app_length. cbn [length]. split; [lia|]. split; [lia|].
      intros i Hi. destruct (decide (i = h_len h)) as [->|D]; [exists n; rewrite lookup_app_r by lia; rewrite Lt, Nat.sub_diag; split; [done|lia]|].
      destruct (H3 i) as (r & R & Hr); [lia|]. exists r. rewrite lookup_app_l by lia. rewrite lookup_take by lia. split; [done|lia].
Qed.
Lemma element_good s n h i : good (s_arrays s) n h -> i < h_len h -> exists r, element s h i = Some r /\ r < n.
Proof. intros (a & A & H1 & H2 & H3) L. unfold element. rewrite A. cbn. destruct (H3 i L) as (r & R & Hr). exists r. by rewrite R. Qed.

(** ** Every schedule *)
Definition thread_ok (s : rstate) (x : rthread) : Prop :=
  let n := length (s_regs s) in
  match x with
  | UWant r | URead r | UClear r | UDone r _ => r < n
  | UScan r h i => r < n /\ good (s_arrays s) n h
  | UTake r h i => r < n /\ good (s_arrays s) n h /\ i < h_len h
  | UPut r h i y => r < n /\ good (s_arrays s) n h /\ i < h_len h /\ exists q, y = Some q /\ q < n
  | UCut r h => r < n /\ good (s_arrays s) n h
  | CLoop h i => good (s_arrays s) n h /\ i <= h_len h
  | CDone => True
  | CCrash => False
  end.
Definition remover (x : rthread) : option nat := match x with URead r | UScan r _ _ | UTake r _ _ | UPut r _ _ _ | UCut r _ | UClear r => Some r | _ => None end.
Definition won (r : nat) (e : revent) : bool := match e with EUnregistered _ r' true => bool_decide (r' = r) | _ => false end.
Definition wins (r : nat) (l : list revent) : nat := length (List.filter (won r) l).
Record rinv (s : rstate) : Prop := RInv {
  ri_hdr : good (s_arrays s) (length (s_regs s)) (s_callbacks s);
  ri_thr : forall t x, s_threads s !! t = Some x -> thread_ok s x;
  ri_reg : forall r, ERegister r ∈ s_log s <-> r < length (s_regs s);
  ri_runs : forall l1 t r l2, s_log s = l1 ++ ERun t r :: l2 -> ERegister r ∈ l1;
  ri_lost : forall l1 t r l2, s_log s = l1 ++ EUnregistered t r false :: l2 -> exists t', EUnregistered t' r true ∈ l1;
  ri_lock : forall t x r, s_threads s !! t = Some x -> remover x = Some r -> s_regs s !! r = Some (Registration true true);
  ri_held : forall r, s_regs s !! r = Some (Registration true true) -> exists t x, s_threads s !! t = Some x /\ remover x = Some r;
  ri_only : forall t t' x x' r, s_threads s !! t = Some x -> s_threads s !! t' = Some x' -> remover x = Some r -> remover x' = Some r -> t = t';
  ri_wins : forall r, wins r (s_log s) = match s_regs s !! r with Some (Registration false _) => 1 | _ => 0 end;
  ri_free : forall r, s_regs s !! r <> Some (Registration false true);
  ri_fresh : forall t, length (s_threads s) <= t -> ran t (s_log s) = [];
  ri_ran : forall t h i, s_threads s !! t = Some (CLoop h i) -> length (ran t (s_log s)) = i
}.
Lemma snoc_split {X} (l : list X) e l1 x l2 : l ++ [e] = l1 ++ x :: l2 -> (x = e /\ l1 = l) \/ exists l2', l2 = l2' ++ [e] /\ l = l1 ++ x :: l2'.
Proof.
  destruct l2 as [|y l2' _] using rev_ind; intros E.
  - apply app_inj_tail in E as [-> ->]. by left.
  - right. exists l2'. rewrite app_comm_cons, app_assoc in E. apply app_inj_tail in E as [-> ->]. done.
Qed.

Lemma thread_better s s' x : better (s_arrays s) (s_arrays s') (length (s_regs s)) (length (s_regs s')) -> thread_ok s x -> thread_ok s' x.
Proof.
  intros B. pose proof (proj1 B) as L. unfold thread_ok. destruct x as [r|r|r h i|r h i|r h i y|r h|r|r ok|h i| |]; try lia; try done.
  - intros [H1 H2]. split; [lia|by eapply good_better].
  - intros (H1 & H2 & H3). split; [lia|]. split; [by eapply good_better|done].
  - intros (H1 & H2 & H3 & q & -> & H4). split; [lia|]. split; [by eapply good_better|]. split; [done|]. exists q. split; [done|lia].
  - intros [H1 H2]. split; [lia|by eapply good_better].
  - intros [H1 H2]. split; [by eapply good_better|done].
Qed.
Lemma move_inv s t x x' arrays' h' : rinv s -> s_threads s !! t = Some x -> remover x' = remover x -> looping x' = false ->
  better (s_arrays s) arrays' (length (s_regs s)) (length (s_regs s)) -> good arrays' (length (s_regs s)) h' ->
  let s' := RState arrays' h' (s_regs s) (<[t := x']> (s_threads s)) (s_log s) in thread_ok s' x' -> rinv s'.
Proof.
  intros I T R Lp B G s' Ok. assert (Lt : t < length (s_threads s)) by (by eapply lookup_lt_Some).
  assert (Q : forall t0 y, <[t := x']> (s_threads s) !! t0 = Some y -> exists y0, s_threads s !! t0 = Some y0 /\ remover y0 = remover y).
  { intros t0 y Hy. apply list_lookup_insert_Some in Hy as [(-> & <- & _)|[_ Hy]]; [by exists x|by exists y]. }
  destruct I as [I1 I2 I3 I4 I5 I6 I7 I8 I9 I10 I11 I12]. subst s'. constructor; cbn [s_arrays s_callbacks s_regs s_threads s_log say to spawn set_reg rinit]; try done.
  - intros t0 y Hy. apply list_lookup_insert_Some in Hy as [(-> & <- & _)|[_ Hy]]; [done|]. eapply (thread_better s); [done|by eapply I2].
  - intros t0 y r Hy Hr. destruct (Q _ _ Hy) as (y0 & H0 & E0). eapply I6; [done|congruence].
  - intros r Hr. destruct (I7 r Hr) as (t0 & y & Hy & Ry). destruct (decide (t0 = t)) as [->|D].
    + exists t, x'. rewrite list_lookup_insert by done. split; [done|]. congruence.
    + exists t0, y. rewrite list_lookup_insert_ne by done. done.
  - intros t0 t1 y0 y1 r H0 H1 R0 R1. destruct (Q _ _ H0) as (z0 & Z0 & E0), (Q _ _ H1) as (z1 & Z1 & E1). eapply (I8 t0 t1 z0 z1 r); congruence.
  - intros t0 Ht. rewrite insert_length in Ht. by apply I11.
  - intros t0 h i H0. apply list_lookup_insert_Some in H0 as [(_ & -> & _)|[_ H0]]; [done|by eapply I12].
Qed.
Lemma ran_app t l l' : ran t (l ++ l') = ran t l ++ ran t l'.
Proof. unfold ran. apply omap_app. Qed.
Lemma wins_app r l l' : wins r (l ++ l') = wins r l + wins r l'.
Proof. unfold wins. by rewrite List.filter_app, app_length. Qed.
Lemma spawn_lookup {X} (l : list X) x t y : (l ++ [x]) !! t = Some y -> l !! t = Some y \/ (t = length l /\ y = x).
Proof. apply lookup_snoc. Qed.

Lemma rstep_inv s a s' : rinv s -> rstep s a = Some s' -> rinv s'.
Proof.
  intros I E. pose proof I as [I1 I2 I3 I4 I5 I6 I7 I8 I9 I10 I11 I12]. destruct a as [|r| |t]; unfold Reg.rstep in E.
  - destruct (append_to (s_arrays s) (s_callbacks s) (length (s_regs s))) as [arrays' h'] eqn:Ap. injection E as <-. destruct (append_good _ _ _ _ _ I1 Ap) as [B G].
    assert (Ln : length (s_regs s ++ [Registration true false]) = S (length (s_regs s))) by (rewrite app_length; cbn; lia).
    assert (Old : forall r x, (s_regs s ++ [Registration true false]) !! r = Some x -> x <> Registration true false -> s_regs s !! r = Some x).
    { intros r x Hx N. apply spawn_lookup in Hx as [Hx|[_ ->]]; done. }
    constructor; cbn [s_arrays s_callbacks s_regs s_threads s_log]; rewrite ?Ln; try done.
    + intros t x T. eapply (thread_better s); [cbn [s_regs s_arrays to set_reg say spawn]; by rewrite Ln|by eapply I2].
    + intros r. rewrite elem_of_app, elem_of_list_singleton, I3. split; [intros [H|[= ->]]; lia|]. intros H. destruct (decide (r = length (s_regs s))) as [->|D]; [by right|left; lia].
    + intros l1 t r l2 Hl. apply snoc_split in Hl as [[? _]|(l2' & -> & Hl)]; [done|by eapply I4].
    + intros l1 t r l2 Hl. apply snoc_split in Hl as [[? _]|(l2' & -> & Hl)]; [done|by eapply I5].
    + intros t x r T R. apply lookup_app_l_Some. by eapply I6.
    + intros r Hr. apply I7. by apply Old in Hr.
    + intros r. rewrite wins_app, I9. cbn. rewrite Nat.add_0_r. destruct (decide (r < length (s_regs s))) as [L|L]; [by rewrite lookup_app_l by done|].
      rewrite (lookup_ge_None_2 (s_regs s) r) by lia. destruct ((s_regs s ++ [Registration true false]) !! r) as [[[] b]|] eqn:H; [done| |done]. apply spawn_lookup in H as [H|[_ H]]; [apply lookup_lt_Some in H; lia|done].
    + intros r Hr. apply (I10 r). by apply Old in Hr.
    + intros t L. rewrite ran_app, I11 by done. done.
    + intros t h i T. rewrite ran_app, app_nil_r. by eapply I12.
  - destruct (Nat.ltb_spec r (length (s_regs s))) as [L|]; [|done]. injection E as <-. constructor; cbn [s_arrays s_callbacks s_regs s_threads s_log say to spawn set_reg rinit]; try done.
    + intros t x T. apply spawn_lookup in T as [T|[_ ->]]; [by eapply I2|done].
    + intros t x r' T R. apply spawn_lookup in T as [T|[_ ->]]; [by eapply I6|done].
    + intros r' Hr. destruct (I7 _ Hr) as (t & x & T & R). exists t, x. split; [by apply lookup_app_l_Some|done].
    + intros t t' x x' r' T T' R R'. apply spawn_lookup in T as [T|[_ ->]]; [|done]. apply spawn_lookup in T' as [T'|[_ ->]]; [|done]. by eapply I8.
    + intros t Ht. rewrite app_length in Ht. apply I11. cbn in Ht. lia.
    + intros t h i T. apply spawn_lookup in T as [T|[_ ?]]; [by eapply I12|done].
  - injection E as <-. constructor; cbn [s_arrays s_callbacks s_regs s_threads s_log say to spawn set_reg rinit]; try done.
    + intros t x T. apply spawn_lookup in T as [T|[_ ->]]; [by eapply (I2 t)|]. split; [done|cbn; lia].
    + intros r. rewrite elem_of_app, elem_of_list_singleton, I3. split; [by intros [H|H]|by left].
    + intros l1 t r l2 Hl. apply snoc_split in Hl as [[? _]|(l2' & -> & Hl)]; [done|by eapply I4].
    + intros l1 t r l2 Hl. apply snoc_split in Hl as [[? _]|(l2' & -> & Hl)]; [done|by eapply I5].
    + intros t x r' T R. apply spawn_lookup in T as [T|[_ ->]]; [by eapply I6|done].
    + intros r' Hr. destruct (I7 _ Hr) as (t & x & T & R). exists t, x. split; [by apply lookup_app_l_Some|done].
    + intros t t' x x' r' T T' R R'. apply spawn_lookup in T as [T|[_ ->]]; [|done]. apply spawn_lookup in T' as [T'|[_ ->]]; [|done]. by eapply I8.
    + intros r. rewrite wins_app, I9. cbn. lia.
    + intros t Ht. rewrite app_length in Ht. cbn in Ht. rewrite ran_app, I11 by lia. done.
    + intros t h i T. rewrite ran_app, app_nil_r. apply spawn_lookup in T as [T|[-> T]]; [by eapply I12|]. injection T as -> ->. by rewrite I11.
  - unfold rgo in E. destruct (s_threads s !! t) as [x|] eqn:T; [|done]. assert (Lt : t < length (s_threads s)) by (by eapply lookup_lt_Some). pose proof (I2 _ _ T) as Ok.
    destruct x as [r|r|r h i|r h i|r h i y|r h|r|r ok|h i| |]; try done.
    + destruct (s_regs s !! r) as [[[] []]|] eqn:Rg; try done; injection E as <-.
      * (* the lock *)
        assert (Hr : r < length (s_regs s)) by (by eapply lookup_lt_Some).
        assert (N : forall t0 x, s_threads s !! t0 = Some x -> remover x <> Some r) by (intros t0 x Hx R; rewrite (I6 _ _ _ Hx R) in Rg; done).
        constructor; cbn [s_arrays s_callbacks s_regs s_threads s_log say to spawn set_reg rinit]; rewrite ?insert_length; try done.
        -- intros t0 x Hx. apply list_lookup_insert_Some in Hx as [(-> & <- & _)|[_ Hx]]; [unfold thread_ok; cbn [s_regs to set_reg say spawn]; rewrite ?insert_length; done|]. eapply (thread_better s); [cbn [s_regs s_arrays to set_reg say spawn]; rewrite insert_length; by apply better_refl|by eapply I2].
        -- intros t0 x r' Hx R. apply list_lookup_insert_Some in Hx as [(-> & <- & _)|[_ Hx]]; [injection R as <-; by apply list_lookup_insert|].
           rewrite list_lookup_insert_ne by (intros <-; by eapply N). by eapply I6.
        -- intros r' Hr'. apply list_lookup_insert_Some in Hr' as [(-> & _ & _)|[D Hr']]; [exists t, (URead r'); by rewrite list_lookup_insert|].
           destruct (I7 _ Hr') as (t0 & x & Hx & R). exists t0, x. rewrite list_lookup_insert_ne; [done|]. intros ->. rewrite T in Hx. by injection Hx as <-.
        -- intros t0 t1 x x' r' Hx Hx' R R'. apply list_lookup_insert_Some in Hx as [(-> & <- & _)|[_ Hx]]; apply list_lookup_insert_Some in Hx' as [(-> & E' & _)|[_ Hx']]; try done.
           ++ injection R as <-. by destruct (N _ _ Hx').
           ++ subst x'. injection R' as <-. by destruct (N _ _ Hx).
           ++ by eapply I8.
        -- intros r'. rewrite I9. destruct (decide (r' = r)) as [->|D]; [by rewrite Rg, list_lookup_insert|by rewrite list_lookup_insert_ne].
        -- intros r' H. apply list_lookup_insert_Some in H as [(-> & ? & _)|[_ H]]; [done|by eapply I10].
        -- intros t0 h i Hx. apply list_lookup_insert_Some in Hx as [(-> & ? & _)|[_ Hx]]; [done|by eapply I12].
      * (* already gone *)
        constructor; cbn [s_arrays s_callbacks s_regs s_threads s_log say to spawn set_reg rinit]; rewrite ?insert_length; try done.
        -- intros t0 x Hx. apply list_lookup_insert_Some in Hx as [(-> & <- & _)|[_ Hx]]; [done|by eapply (I2 t0)].
        -- intros r'. rewrite elem_of_app, elem_of_list_singleton, I3. split; [by intros [H|H]|by left].
        -- intros l1 t0 r' l2 Hl. apply snoc_split in Hl as [[? _]|(l2' & -> & Hl)]; [done|by eapply I4].
        -- intros l1 t0 r' l2 Hl. apply snoc_split in Hl as [[Eq ->]|(l2' & -> & Hl)]; [|by eapply I5]. injection Eq as -> ->.
           pose proof (I9 r) as W. rewrite Rg in W. unfold wins in W. destruct (List.filter (won r) (s_log s)) as [|e f] eqn:F; [done|].
           assert (In e (List.filter (won r) (s_log s))) as He by (rewrite F; by left). apply List.filter_In in He as [He1 He2]. destruct e as [|t1 r1 [] | | |]; try done. apply bool_decide_eq_true in He2 as ->. exists t1. by apply elem_of_list_In.
        -- intros t0 x r' Hx R. apply list_lookup_insert_Some in Hx as [(-> & <- & _)|[_ Hx]]; [done|by eapply I6].
        -- intros r' Hr'. destruct (I7 _ Hr') as (t0 & x & Hx & R). exists t0, x. rewrite list_lookup_insert_ne; [done|]. intros ->. rewrite T in Hx. by injection Hx as <-.
        -- intros t0 t1 x x' r' Hx Hx' R R'. apply list_lookup_insert_Some in Hx as [(-> & <- & _)|[_ Hx]]; [done|]. apply list_lookup_insert_Some in Hx' as [(-> & <- & _)|[_ Hx']]; [done|by eapply I8].
        -- intros r'. rewrite wins_app, I9. cbn. lia.
        -- intros t0 Ht. rewrite ran_app, I11 by done. done.
        -- intros t0 h i Hx. rewrite ran_app, app_nil_r. apply list_lookup_insert_Some in Hx as [(-> & ? & _)|[_ Hx]]; [done|by eapply I12].
    + injection E as <-. eapply (move_inv s t (URead r)); [done|done|done|done|by apply better_refl|done|]. done.
    + injection E as <-. destruct Ok as [Ok1 Ok2]. destruct (Nat.ltb_spec i (h_len h)) as [L|L]; [destruct (bool_decide _)|];
        (eapply (move_inv s t (UScan r h i)); [done|done|done|done|by apply better_refl|done|]); done.
    + injection E as <-. destruct Ok as (Ok1 & Ok2 & Ok3). eapply (move_inv s t (UTake r h i)); [done|done|done|done|by apply better_refl|done|].
      cbn. split; [done|]. split; [done|]. split; [done|]. destruct (element_good s _ h (h_len h - 1) Ok2) as (q & -> & Q); [lia|]. by exists q.
    + injection E as <-. destruct Ok as (Ok1 & Ok2 & Ok3 & q & -> & Ok4). destruct Ok2 as (a & A & Ok2). rewrite A.
      assert (B : better (s_arrays s) (<[h_arr h := <[i := Some q]> a]> (s_arrays s)) (length (s_regs s)) (length (s_regs s))) by (by apply put_better).
      eapply (move_inv s t (UPut r h i (Some q))); [done|done|done|done|exact B|by eapply good_better|]. cbn. split; [done|]. eapply good_better; [exact B|]. by exists a.
    + injection E as <-. destruct Ok as [Ok1 (a & A & L1 & L2 & L3)]. eapply (move_inv s t (UCut r h)); [done|done|done|done|by apply better_refl| |done].
      exists a. cbn. split; [done|]. split; [lia|]. split; [lia|]. intros i Hi. apply L3. lia.
    + injection E as <-. pose proof (I6 _ _ r T eq_refl) as Rg.
      assert (Hr : r < length (s_regs s)) by (by eapply lookup_lt_Some).
      assert (N : forall t0 x, s_threads s !! t0 = Some x -> t0 <> t -> remover x <> Some r) by (intros t0 x Hx D R; apply D; by eapply (I8 t0 t x (UClear r) r)).
      constructor; cbn [s_arrays s_callbacks s_regs s_threads s_log say to spawn set_reg rinit]; rewrite ?insert_length; try done.
      * intros t0 x Hx. apply list_lookup_insert_Some in Hx as [(-> & <- & _)|[_ Hx]]; [unfold thread_ok; cbn [s_regs to set_reg say spawn]; rewrite ?insert_length; done|]. eapply (thread_better s); [cbn [s_regs s_arrays to set_reg say spawn]; rewrite insert_length; by apply better_refl|by eapply I2].
      * intros r'. rewrite elem_of_app, elem_of_list_singleton, I3. split; [by intros [H|H]|by left].
      * intros l1 t0 r' l2 Hl. apply snoc_split in Hl as [[? _]|(l2' & -> & Hl)]; [done|by eapply I4].
      * intros l1 t0 r' l2 Hl. apply snoc_split in Hl as [[? _]|(l2' & -> & Hl)]; [done|by eapply I5].
      * intros t0 x r' Hx R. apply list_lookup_insert_Some in Hx as [(-> & <- & _)|[D Hx]]; [done|]. rewrite list_lookup_insert_ne by (intros <-; by eapply (N t0)). by eapply I6.
      * intros r' Hr'. apply list_lookup_insert_Some in Hr' as [(-> & ? & _)|[D Hr']]; [done|]. destruct (I7 _ Hr') as (t0 & x & Hx & R). exists t0, x. rewrite list_lookup_insert_ne; [done|]. intros ->. rewrite T in Hx. injection Hx as <-. injection R as ->. done.
      * intros t0 t1 x x' r' Hx Hx' R R'. apply list_lookup_insert_Some in Hx as [(-> & <- & _)|[_ Hx]]; [done|]. apply list_lookup_insert_Some in Hx' as [(-> & <- & _)|[_ Hx']]; [done|by eapply I8].
      * intros r'. rewrite wins_app, I9. unfold wins. cbn. destruct (decide (r' = r)) as [->|D].
        -- rewrite Rg, list_lookup_insert, bool_decide_true by done. done.
        -- rewrite list_lookup_insert_ne, bool_decide_false by congruence. cbn. lia.
      * intros r' H. apply list_lookup_insert_Some in H as [(-> & ? & _)|[_ H]]; [done|by eapply I10].
      * intros t0 Ht. rewrite ran_app, I11 by done. done.
      * intros t0 h i Hx. rewrite ran_app, app_nil_r. apply list_lookup_insert_Some in Hx as [(-> & ? & _)|[_ Hx]]; [done|by eapply I12].
    + destruct Ok as [Ok1 Ok2]. destruct (Nat.ltb_spec i (h_len h)) as [L|L].
      * destruct (element_good s _ h i Ok1 L) as (r & El & Hr). rewrite El in E. injection E as <-. constructor; cbn [s_arrays s_callbacks s_regs s_threads s_log say to spawn set_reg rinit]; rewrite ?insert_length; try done.
        -- intros t0 x Hx. apply list_lookup_insert_Some in Hx as [(-> & <- & _)|[_ Hx]]; [split; [done|lia]|by eapply (I2 t0)].
        -- intros r'. rewrite elem_of_app, elem_of_list_singleton, I3. split; [by intros [H|H]|by left].
        -- intros l1 t0 r' l2 Hl. apply snoc_split in Hl as [[Eq ->]|(l2' & -> & Hl)]; [|by eapply I4]. injection Eq as -> ->. by apply I3.
        -- intros l1 t0 r' l2 Hl. apply snoc_split in Hl as [[? _]|(l2' & -> & Hl)]; [done|by eapply I5].
        -- intros t0 x r' Hx R. apply list_lookup_insert_Some in Hx as [(-> & <- & _)|[_ Hx]]; [done|by eapply I6].
        -- intros r' Hr'. destruct (I7 _ Hr') as (t0 & x & Hx & R). exists t0, x. rewrite list_lookup_insert_ne; [done|]. intros ->. rewrite T in Hx. by injection Hx as <-.
        -- intros t0 t1 x x' r' Hx Hx' R R'. apply list_lookup_insert_Some in Hx as [(-> & <- & _)|[_ Hx]]; [done|]. apply list_lookup_insert_Some in Hx' as [(-> & <- & _)|[_ Hx']]; [done|by eapply I8].
        -- intros r'. rewrite wins_app, I9. cbn. lia.
        -- intros t0 Ht. rewrite ran_app, I11 by done. cbn. rewrite decide_False by lia. done.
        -- intros t0 h' i' Hx. rewrite ran_app, app_length. cbn. apply list_lookup_insert_Some in Hx as [(-> & Eq & _)|[D Hx]]; [injection Eq as <- <-|].
           ++ rewrite decide_True by done. cbn. rewrite (I12 _ _ _ T). lia.
           ++ rewrite decide_False by congruence. cbn. rewrite (I12 _ _ _ Hx). lia.
      * injection E as <-. constructor; cbn [s_arrays s_callbacks s_regs s_threads s_log say to spawn set_reg rinit]; rewrite ?insert_length; try done.
        -- intros t0 x Hx. apply list_lookup_insert_Some in Hx as [(-> & <- & _)|[_ Hx]]; [done|by eapply (I2 t0)].
        -- intros r'. rewrite elem_of_app, elem_of_list_singleton, I3. split; [by intros [H|H]|by left].
        -- intros l1 t0 r' l2 Hl. apply snoc_split in Hl as [[? _]|(l2' & -> & Hl)]; [done|by eapply I4].
        -- intros l1 t0 r' l2 Hl. apply snoc_split in Hl as [[? _]|(l2' & -> & Hl)]; [done|by eapply I5].
        -- intros t0 x r' Hx R. apply list_lookup_insert_Some in Hx as [(-> & <- & _)|[_ Hx]]; [done|by eapply I6].
        -- intros r' Hr'. destruct (I7 _ Hr') as (t0 & x & Hx & R). exists t0, x. rewrite list_lookup_insert_ne; [done|]. intros ->. rewrite T in Hx. by injection Hx as <-.
        -- intros t0 t1 x x' r' Hx Hx' R R'. apply list_lookup_insert_Some in Hx as [(-> & <- & _)|[_ Hx]]; [done|]. apply list_lookup_insert_Some in Hx' as [(-> & <- & _)|[_ Hx']]; [done|by eapply I8].
        -- intros r'. rewrite wins_app, I9. cbn. lia.
        -- intros t0 Ht. rewrite ran_app, I11 by done. done.
        -- intros t0 h' i' Hx. rewrite ran_app, app_nil_r. apply list_lookup_insert_Some in Hx as [(-> & ? & _)|[_ Hx]]; [done|by eapply I12].
Qed.
Lemma rinit_inv : rinv rinit.
Proof.
  constructor; cbn [s_arrays s_callbacks s_regs s_threads s_log say to spawn set_reg rinit]; try done.
  - exists []. cbn. split; [done|]. split; [lia|]. split; [lia|]. intros i H. lia.
  - intros r. split; [by intros H%elem_of_nil|cbn; lia].
  - intros l1 t r l2 H. by destruct l1.
  - intros l1 t r l2 H. by destruct l1.
Qed.
Lemma rrun_inv s l s' : rinv s -> rrun s l = Some s' -> rinv s'.
Proof.
  revert s. induction l as [|a l IH]; intros s I E; cbn in E; [by injection E as <-|]. destruct (Reg.rstep grow s a) as [s1|] eqn:S; [|done]. cbn in E.
  apply (IH s1); [by eapply rstep_inv|done].
Qed.
End proofs.
