(** Balances of Storages, and bounds on the number of steps. *)
From Coq Require Import ZArith Bool Lia.
From stdpp Require Import base list option sets.
From Verif Require Import Num Agg Atom AtomSpec AtomProofs AtomMore.
Local Open Scope Z_scope.

(** ** Balances *)
Section balance.
Context {N : Type} (m : methods N) (body : acall N (sto m) -> prog (sto m) (result (sto m))).
Notation S := (sto m).
Notation st := (astate (N:=N) (S:=S)).

Lemma returned_app (l l' : list (aevent (S:=S))) : returned (l ++ l') = returned l ++ returned l'.
Proof. apply omap_app. Qed.
Lemma elem_returned (l : list (aevent (S:=S))) t r : (t, r) ∈ returned l <-> AEnd t r ∈ l.
Proof.
  unfold returned. rewrite elem_of_list_omap. split.
  - intros (e & He & E). destruct e; [done|]. by injection E as -> ->.
  - intros H. eexists. split; [done|]. done.
Qed.
Lemma returned_once_step (s : st) l s' : NoDup ((returned (as_log s)).*1) -> astep body s l = Some s' -> NoDup ((returned (as_log s')).*1).
Proof.
  intros ND St. destruct l as [o c|t]; cbn in St.
  { injection St as <-. cbn [as_log]. rewrite returned_app. cbn. by rewrite app_nil_r. }
  destruct (as_thr s !! t) as [x|]; [cbn in St|done].
  destruct (at_cur x) as [k|k|X get k|set k|X g k|k| |r]; try (injection St as <-; done).
  - destruct (as_lock s (at_obj x)); [done|]. by injection St as <-.
  - destruct (existsb _ _) eqn:Ex; [done|]. injection St as <-. cbn [as_log]. rewrite returned_app, fmap_app. cbn [returned omap list_omap fmap list_fmap fst]. apply NoDup_app. split; [done|]. split; [|apply NoDup_singleton].
    intros u Hu Hv. apply elem_of_list_singleton in Hv as ->. apply elem_of_list_fmap in Hu as ([t' r'] & Et & Hr). cbn in Et. subst t'.
    apply elem_returned in Hr. apply not_true_iff_false in Ex. apply Ex. apply existsb_exists. exists (AEnd t r'). split; [by apply elem_of_list_In|]. apply Nat.eqb_refl.
Qed.
Lemma returned_once ls (s s' : st) : NoDup ((returned (as_log s)).*1) -> arun body s ls = Some s' -> NoDup ((returned (as_log s')).*1).
Proof.
  revert s. induction ls as [|l ls IH]; cbn; intros s ND R; [by injection R as <-|].
  destruct (astep body s l) as [s1|] eqn:E; [cbn in R|done]. eapply IH; [|done]. by eapply returned_once_step.
Qed.
Lemma explains_returned (s : st) h f :
  explains m s h f -> NoDup ((returned (as_log s)).*1) -> all_ended s -> ((fun e => (e_thread e, e_res e)) <$> h) ≡ₚ returned (as_log s).
Proof.
  intros X ND AE. apply NoDup_Permutation.
  - apply (NoDup_fmap_1 fst). rewrite <- list_fmap_compose. apply X.
  - by apply (NoDup_fmap_1 fst).
  - intros [t r]. rewrite elem_returned, elem_of_list_fmap. split.
    + intros (e & [= -> ->] & He). destruct (ex_made _ _ _ _ X e He) as (x & Hx & _). destruct (AE (e_thread e) (lookup_lt_Some _ _ _ Hx)) as [r' Hr].
      destruct (ex_ended _ _ _ _ X _ _ Hr) as (e' & He' & Et & <-). by rewrite (entry_thread_inj m h e' e (ex_once _ _ _ _ X) He' He Et) in Hr.
    + intros H. destruct (ex_ended _ _ _ _ X _ _ H) as (e & He & <- & <-). eauto.
Qed.

Context (one : N -> Z) (size : S -> Z).
Definition weight (c : acall N S) (r : result S) : Z :=
  match c, r with CUpdate n, _ => one n | CMerge from, _ => size from | CMove, Some to => - size to | _, _ => 0 end.
Definition gain (o : nat) (e : entry N S) : Z := if decide (e_obj e = o) then weight (e_call e) (e_res e) else 0.
Lemma sum_app l l' : foldr Z.add 0 (l ++ l') = foldr Z.add 0 l + foldr Z.add 0 l'.
Proof. induction l as [|a l IH]; cbn; [done|]. rewrite IH. lia. Qed.
Lemma sum_perm l l' : l ≡ₚ l' -> foldr Z.add 0 l = foldr Z.add 0 l'.
Proof. induction 1; cbn; lia. Qed.
Lemma serial_gain h f o :
  (exists k, size m_new = k * 2 ^ 64) ->
  (forall q c s v r, seq_call m q c s = (v, r) -> exists k, size v = size s + weight c r + k * 2 ^ 64) ->
  serial m h f -> exists k, size (f o) = foldr Z.add 0 (map (gain o) h) + k * 2 ^ 64.
Proof.
  intros Z0 W. induction 1 as [|h f e v H [k IH] SC]; [done|].
  rewrite map_app, sum_app. cbn. unfold gain at 2. destruct (decide (o = e_obj e)) as [->|Ne].
  - rewrite decide_True by done. destruct (W _ _ _ _ _ SC) as [k' ->]. rewrite IH. exists (k + k'). lia.
  - rewrite decide_False by done. exists k. lia.
Qed.
Lemma balance_gain (s : st) h f o :
  explains m s h f -> NoDup ((returned (as_log s)).*1) -> all_ended s -> balance one size s o = foldr Z.add 0 (map (gain o) h).
Proof.
  intros X ND AE. unfold balance. pose proof (explains_returned _ _ _ X ND AE) as P.
  rewrite <- (sum_perm _ _ (Permutation_map _ P)). f_equal. change (map ?g) with (fmap (M:=list) g). rewrite <- list_fmap_compose.
  apply list_fmap_ext. intros i e He. apply elem_of_list_lookup_2 in He. destruct (ex_made _ _ _ _ X e He) as (x & Hx & Eo & Ec). cbn. rewrite Hx.
  unfold gain, weight. rewrite Eo, Ec. done.
Qed.
End balance.

(** ** Bounds *)
Section short.
Context {N S : Type} (body : acall N S -> prog S (result S)) (new : S).
Notation P := (prog S (result S)).
Notation st := (astate (N:=N) (S:=S)).
(** A body of at most [n] accesses, the return included. *)
Fixpoint short (p : P) (n : nat) : Prop :=
  match n with
  | O => False
  | Datatypes.S n =>
      match p with
      | Lock k | Unlock k | Write _ k => short k n
      | Read get k => forall v, short (k v) n
      | Atomic f k => forall v, short (k v) n
      | Ticket k => forall z, short (k z) n
      | Ret _ => True
      | Again => False
      end
  end.
Variable K : nat.
Hypothesis body_short : forall c, short (body c) K.
Definition tot (ws : list nat) : nat := foldr Nat.add O ws.
Definition budget (s : st) (ws : list nat) : Prop :=
  length ws = length (as_thr s) /\
  forall t x w, as_thr s !! t = Some x -> ws !! t = Some w -> (exists r, AEnd t r ∈ as_log s) \/ short (at_cur x) w.
Lemma sum_insert (ws : list nat) t w w' : ws !! t = Some w -> (w' < w)%nat -> (tot (<[t := w']> ws) < tot ws)%nat.
Proof.
  revert t. induction ws as [|a ws IH]; intros [|t] H L; try done.
  - cbn in H. injection H as ->. change (w' + tot ws < w + tot ws)%nat. lia.
  - specialize (IH t H L). change (a + tot (<[t := w']> ws) < a + tot ws)%nat. lia.
Qed.
Lemma tot_snoc ws w : (tot (ws ++ [w]) = tot ws + w)%nat.
Proof. unfold tot. induction ws as [|a ws IH]; cbn; [lia|]. rewrite IH. lia. Qed.
Lemma budget_go (s s' : st) ws t x p n :
  budget s ws -> as_thr s !! t = Some x -> ws !! t = Some (Datatypes.S n) -> as_log s' = as_log s ->
  (exists q, as_thr s' = <[t := AThread (at_obj x) (at_call x) p q]> (as_thr s)) -> short p n -> budget s' (<[t := n]> ws).
Proof.
  intros [Le B] Hx Hw El [q Et] Sh. split; [by rewrite Et, !insert_length|].
  intros u y w Hy Hu. rewrite El. rewrite Et in Hy. destruct (decide (u = t)) as [->|Ne].
  - rewrite list_lookup_insert in Hy by (by eapply lookup_lt_Some). rewrite list_lookup_insert in Hu by (by eapply lookup_lt_Some).
    injection Hy as <-. injection Hu as <-. by right.
  - rewrite list_lookup_insert_ne in Hy by done. rewrite list_lookup_insert_ne in Hu by done. eauto.
Qed.
Lemma ended_ret (s : st) t x : (forall t r, AEnd t r ∈ as_log s -> exists x r', as_thr s !! t = Some x /\ at_cur x = Ret r') ->
  as_thr s !! t = Some x -> (forall r, at_cur x <> Ret r) -> ~ exists r, AEnd t r ∈ as_log s.
Proof. intros E Hx NR [r Hr]. destruct (E t r Hr) as (y & r' & Hy & Cy). rewrite Hx in Hy. injection Hy as <-. by apply (NR r'). Qed.
Lemma ended_step (s : st) l s' : (forall t r, AEnd t r ∈ as_log s -> exists x r', as_thr s !! t = Some x /\ at_cur x = Ret r') -> astep body s l = Some s' ->
  forall t r, AEnd t r ∈ as_log s' -> exists x r', as_thr s' !! t = Some x /\ at_cur x = Ret r'.
Proof.
  intros E St u r. destruct l as [o c|t]; cbn in St.
  { injection St as <-. cbn. intros Hr. apply elem_of_app in Hr as [Hr|Hr]; [|by apply elem_of_list_singleton in Hr].
    destruct (E u r Hr) as (y & r' & Hy & Cy). exists y, r'. split; [by apply lookup_app_l_Some|done]. }
  destruct (as_thr s !! t) as [x|] eqn:Hx; [cbn in St|done].
  assert (G : forall p q, (forall r, at_cur x <> Ret r) -> AEnd u r ∈ as_log s -> exists y r', <[t := AThread (at_obj x) (at_call x) p q]> (as_thr s) !! u = Some y /\ at_cur y = Ret r').
  { intros p q NR Hr. destruct (E u r Hr) as (y & r' & Hy & Cy). exists y, r'. split; [|done]. rewrite list_lookup_insert_ne; [done|]. intros <-.
    rewrite Hx in Hy. injection Hy as <-. by apply (NR r'). }
  destruct (at_cur x) as [k|k|X get k|set k|X g k|k| |r0] eqn:Cur; try (injection St as <-; cbn; by apply G).
  - destruct (as_lock s (at_obj x)); [done|]. injection St as <-. cbn. by apply G.
  - destruct (existsb _ _); [done|]. injection St as <-. cbn. intros Hr. apply elem_of_app in Hr as [Hr|Hr]; [by apply (E u r)|].
    apply elem_of_list_singleton in Hr. injection Hr as -> _. eauto.
Qed.
Lemma budget_step (s : st) l s' ws :
  (forall t r, AEnd t r ∈ as_log s -> exists x r', as_thr s !! t = Some x /\ at_cur x = Ret r') ->
  budget s ws -> astep body s l = Some s' ->
  exists ws', budget s' ws' /\ (Datatypes.S (tot ws') <= tot ws + match l with LCall _ _ => Datatypes.S K | _ => 0 end)%nat.
Proof.
  intros E B St. pose proof B as [Le B0]. destruct l as [o c|t]; cbn in St.
  { injection St as <-. exists (ws ++ [K]). split.
    - split; [cbn; rewrite !app_length; cbn; lia|]. cbn. intros t x w Hx Hw.
      apply lookup_app_Some in Hx as [Hx|[Hl Hx]].
      + rewrite lookup_app_l in Hw by (rewrite Le; by eapply lookup_lt_Some). destruct (B0 t x w Hx Hw) as [[r Hr]|Sh]; [left; exists r; apply elem_of_app; by left|by right].
      + apply list_lookup_singleton_Some in Hx as [Z <-]. rewrite lookup_app_r in Hw by lia. apply list_lookup_singleton_Some in Hw as [_ <-]. right. apply body_short.
    - assert (tot (ws ++ [K]) = tot ws + K)%nat as -> by apply tot_snoc. lia. }
  destruct (as_thr s !! t) as [x|] eqn:Hx; [cbn in St|done].
  destruct (lookup_lt_is_Some_2 ws t) as [w Hw]; [rewrite Le; by eapply lookup_lt_Some|].
  assert (G : forall r, existsb (fun e => match e with AEnd t' _ => Nat.eqb t t' | _ => false end) (as_log s) = false -> AEnd t r ∉ as_log s).
  { intros r Ex Hr. apply not_true_iff_false in Ex. apply Ex. apply existsb_exists. exists (AEnd t r). split; [by apply elem_of_list_In|]. apply Nat.eqb_refl. }
  destruct (B0 t x w Hx Hw) as [En|Sh].
  - destruct En as [r Hr]. destruct (E t r Hr) as (y & r' & Hy & Cy). rewrite Hx in Hy. injection Hy as <-. rewrite Cy in St.
    destruct (existsb _ _) eqn:Ex; [done|]. by destruct (G r eq_refl Hr).
  - destruct w as [|n]; [by destruct (at_cur x)|].
    assert (Go : forall s'' p, as_log s'' = as_log s -> (exists q, as_thr s'' = <[t := AThread (at_obj x) (at_call x) p q]> (as_thr s)) -> short p n ->
      exists ws', budget s'' ws' /\ (Datatypes.S (tot ws') <= tot ws + 0)%nat).
    { intros s'' p El Et Sp. exists (<[t := n]> ws). split; [by eapply budget_go|]. pose proof (sum_insert ws t _ n Hw). lia. }
    destruct (at_cur x) as [k|k|X get k|set k|X g k|k| |r0] eqn:Cur; cbn in Sh; try done.
    + destruct (as_lock s (at_obj x)); [done|]. injection St as <-. eapply Go; eauto.
    + injection St as <-. eapply Go; eauto.
    + injection St as <-. eapply (Go _ (k (get (as_val s (at_obj x))))); eauto.
    + injection St as <-. eapply Go; eauto.
    + injection St as <-. eapply (Go _ (k (g (as_val s (at_obj x))).2)); eauto.
    + injection St as <-. eapply (Go _ (k (uwrap (as_seq s + 1)))); eauto.
    + destruct (existsb _ _) eqn:Ex; [done|]. injection St as <-. exists (<[t := n]> ws). split.
      * split; [by rewrite insert_length|]. cbn. intros u y w Hy Hu. destruct (decide (u = t)) as [->|Ne].
        -- left. exists r0. apply elem_of_app. right. by apply elem_of_list_singleton.
        -- rewrite list_lookup_insert_ne in Hu by done. destruct (B0 u y w Hy Hu) as [[r Hr]|]; [|by right]. left. exists r. apply elem_of_app. by left.
      * pose proof (sum_insert ws t _ n Hw). lia.
Qed.
Lemma calls_cons l (ls : list (alabel (N:=N) (S:=S))) : calls (l :: ls) = (match l with LCall _ _ => 1 | _ => 0 end + calls ls)%nat.
Proof. unfold calls. by destruct l. Qed.
Lemma budget_run ls (s s' : st) ws :
  (forall t r, AEnd t r ∈ as_log s -> exists x r', as_thr s !! t = Some x /\ at_cur x = Ret r') ->
  budget s ws -> arun body s ls = Some s' -> (length ls <= tot ws + Datatypes.S K * calls ls)%nat.
Proof.
  revert s ws. induction ls as [|l ls IH]; intros s ws E B R; cbn [arun] in R; [cbn; lia|].
  destruct (astep body s l) as [s1|] eqn:St; [cbn in R|done].
  destruct (budget_step _ _ _ _ E B St) as (ws' & B' & Le). specialize (IH s1 ws' (ended_step _ _ _ E St) B' R).
  rewrite calls_cons. cbn [length]. destruct l; nia.
Qed.
Lemma short_run ls s : arun body (a_init new) ls = Some s -> (length ls <= Datatypes.S K * calls ls)%nat.
Proof.
  intros R. assert (B : budget (a_init new) []) by done.
  apply (budget_run ls (a_init new) s []) in R; [done| |done]. cbn. intros t r H. by apply elem_of_nil in H.
Qed.
End short.

Lemma gauge_short (N : arith) c : short (gauge_body N c) 12.
Proof. destruct c as [n| | |[v p]]; cbn; try done. destruct (p =? 0); cbn; [done|]. intros r. by destruct (r <? p). Qed.
Lemma mmsc_short (N : arith) c : short (mmsc_body N c) 12.
Proof.
  destruct c as [n| | |[a' b' s' n']]; cbn; try done.
  - intros k. destruct (k =? 0); cbn; [done|]. intros a. destruct (ltb n a); cbn; intros b; destruct (ltb b n); done.
  - destruct (n' =? 0); cbn; [done|]. intros k. destruct (k =? 0); cbn; [done|]. intros a. destruct (ltb a' a); cbn; intros b; destruct (ltb b b'); done.
Qed.
Lemma lib_short {N} (m : methods N) c : short (lib_body m c) 12.
Proof. by destruct c. Qed.
Lemma sum_int_short (N : arith) c : short (sum_body N (add_int N) c) 2.
Proof. by destruct c. Qed.
