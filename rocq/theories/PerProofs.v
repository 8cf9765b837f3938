(** Invariants of the periodic reader. *)
From Coq Require Import ZArith Bool String Lia.
From stdpp Require Import base list list_numbers option strings.
From Verif Require Import Per PerSpec.
#[global] Instance pthread_dec : EqDecision pthread.
Proof. solve_decision. Defined.

Definition inner (x : pthread) : option (method * phase) :=
  match x with LCollect p => Some (Export, p) | CCollect m p => Some (m, p) | _ => None end.
Definition holding (x : pthread) : Prop := exists m p, inner x = Some (m, p) /\ p <> Locking.
Definition past_wait (x : pthread) : bool := match x with CCollect Final _ | CReturned Final _ => true | _ => false end.
Definition opened (t : nat) (y : string) (m : method) (p : phase) : list event :=
  match p with
  | Produced n => [EProduce t y n]
  | Calling n => [EProduce t y n; ECall t m n]
  | _ => []
  end.
Definition numbered (p : phase) (k : nat) : Prop := match p with Produced n | Calling n => n = k | _ => True end.
Definition extra (p : phase) : nat := match p with Produced _ | Calling _ => 1 | _ => 0 end.
Definition mine (x : pthread) (l : list (method * option string)) : Prop :=
  match x with
  | LSelect | LCollect _ | LDone => Forall (fun s => s.1 = Export) l
  | CCollect m (Unlocking e) | CReturned m e => m <> Export /\ l = [(m, e)]
  | CCollect m _ => m <> Export /\ l = []
  | _ => l = []
  end.
Definition quiet (l : list event) : Prop :=
  forall l1 t n l2, l = l1 ++ ECall t Final n :: l2 -> Forall (fun e => periodic e = false) l2.
Definition pending (x : pthread) : list string := match x with LCollect (Unlocking (Some e)) => [e] | _ => [] end.

Definition lock_ok (pr : option string) (lk : bool) (ct : nat) (th : list pthread) (lg : list event) (ss : list session) : Prop :=
  if lk then exists t x m p y, th !! t = Some x /\ inner x = Some (m, p) /\ p <> Locking /\
               (forall t' x', th !! t' = Some x' -> holding x' -> t' = t) /\
               (extra p = 0 \/ pr = Some y) /\
               exports lg = concat (map events ss) ++ opened t y m p /\ numbered p (length ss) /\ ct = length ss + extra p
  else (forall t' x', th !! t' = Some x' -> ~ holding x') /\ exports lg = concat (map events ss) /\ ct = length ss.
Definition loop_ok (pr : option string) (wt : nat) (th : list pthread) (lg : list event) : Prop :=
  match pr with
  | None => wt = 0 /\ (forall t x, th !! t = Some x -> is_loop x = false /\ x <> CWait /\ past_wait x = false) /\ export_errors lg = [] /\ handled lg = []
  | Some _ => exists t0 x0, th !! t0 = Some x0 /\ is_loop x0 = true /\
               (forall t x, th !! t = Some x -> is_loop x = true -> t = t0) /\
               wt = (if bool_decide (x0 = LDone) then 0 else 1) /\
               export_errors lg = handled lg ++ pending x0
  end.
Definition mine_ok (th : list pthread) (ss : list session) : Prop :=
  (forall t x, th !! t = Some x -> mine x (map (fun s => (s_method s, s_err s)) (sessions_of t ss))) /\ Forall (fun s => s_t s < length th) ss.
Definition wait_ok (wt : nat) (ca : bool) (th : list pthread) : Prop :=
  (forall t x, th !! t = Some x -> past_wait x = true -> wt = 0) /\ (forall t, th !! t = Some CWait -> ca = true).
Definition final_ok (pr : option string) (wt : nat) (lg : list event) : Prop :=
  (forall t n, ECall t Final n ∈ lg -> wt = 0 /\ pr <> None) /\ quiet lg.
Definition num_ok (pr : option string) (ss : list session) : Prop :=
  map s_n ss = seq 0 (length ss) /\ Forall (fun s => pr = Some (s_producer s)) ss.
Definition inv (r : reader) (ss : list session) : Prop :=
  let 'Reader pr ca wt lk ct th lg := r in
  lock_ok pr lk ct th lg ss /\ num_ok pr ss /\ mine_ok th ss /\ loop_ok pr wt th lg /\ wait_ok wt ca th /\ final_ok pr wt lg.

(** Changing the state of one goroutine. *)
Ltac ins H := apply list_lookup_insert_Some in H as [(-> & <- & H)|[? H]].
Lemma mine_insert th ss t x x' : mine_ok th ss -> th !! t = Some x ->
  (forall l, mine x l -> mine x' l) -> mine_ok (<[t := x']> th) ss.
Proof.
  intros [M O] T H. split; [|by rewrite insert_length]. intros t' y Hy. ins Hy; [|by apply M]. by apply H, M.
Qed.
Lemma mine_new th ss x : mine_ok th ss -> mine x [] -> mine_ok (th ++ [x]) ss.
Proof.
  intros [M O] H. split.
  - intros t' y Hy. apply lookup_app_Some in Hy as [Hy|[Hl Hy]]; [by apply M|].
    destruct (t' - length th) eqn:E; [|done]. injection Hy as <-. assert (t' = length th) as -> by lia.
    replace (sessions_of (length th) ss) with (@nil session); [done|]. symmetry. clear M.
    induction ss as [|s ss IH]; [done|]. apply list.Forall_cons in O as [O1 O2]. cbn. destruct (Nat.eqb_spec (s_t s) (length th)); [lia|by apply IH].
  - eapply list.Forall_impl; [exact O|]. cbn. intros s Hs. rewrite app_length. cbn. lia.
Qed.
Lemma mine_add th ss t x x' s : mine_ok th ss -> th !! t = Some x -> s_t s = t ->
  (forall l, mine x l -> mine x' (l ++ [(s_method s, s_err s)])) -> mine_ok (<[t := x']> th) (ss ++ [s]).
Proof.
  intros [M O] T Es H. split.
  - intros t' y Hy. unfold sessions_of. rewrite List.filter_app, map_app. ins Hy.
    + cbn. match goal with |- context [Nat.eqb ?a ?b] => destruct (Nat.eqb_spec a b); [|congruence] end. apply H. by eapply M.
    + cbn. destruct (Nat.eqb_spec (s_t s) t'); [lia|]. cbn. rewrite app_nil_r. by apply M.
  - rewrite insert_length. apply list.Forall_app. split; [done|]. apply list.Forall_cons. split; [|constructor]. rewrite Es. by eapply lookup_lt_Some.
Qed.
Lemma lock_insert pr lk ct th lg ss t x x' : lock_ok pr lk ct th lg ss -> th !! t = Some x -> ~ holding x -> ~ holding x' ->
  lock_ok pr lk ct (<[t := x']> th) lg ss.
Proof.
  intros L T H H'. destruct lk; cbn in *.
  - destruct L as (t1 & x1 & m & p & y & T1 & I1 & P1 & U & R). assert (t1 <> t). { intros ->. rewrite T in T1. injection T1 as <-. apply H. by exists m, p. }
    exists t1, x1, m, p, y. rewrite list_lookup_insert_ne by done. split; [done|]. split; [done|]. split; [done|]. split; [|done].
    intros t' z Hz Hh. ins Hz; [done|]. by eapply U.
  - destruct L as (U & R). split; [|done]. intros t' z Hz. ins Hz; [done|]. by eapply U.
Qed.
Lemma lock_new pr lk ct th lg ss x : lock_ok pr lk ct th lg ss -> ~ holding x -> lock_ok pr lk ct (th ++ [x]) lg ss.
Proof.
  intros L H. destruct lk; cbn in *.
  - destruct L as (t1 & x1 & m & p & y & T1 & I1 & P1 & U & R). exists t1, x1, m, p, y. split; [by apply lookup_app_l_Some|].
    split; [done|]. split; [done|]. split; [|done].
    intros t' z Hz Hh. apply lookup_app_Some in Hz as [Hz|[_ Hz]]; [by eapply U|]. destruct (t' - length th); [|done]. by injection Hz as <-.
  - destruct L as (U & R). split; [|done]. intros t' z Hz. apply lookup_app_Some in Hz as [Hz|[_ Hz]]; [by eapply U|].
    destruct (t' - length th); [|done]. by injection Hz as <-.
Qed.
Lemma lock_log pr lk ct th lg ss e : lock_ok pr lk ct th lg ss -> is_handle e = true -> lock_ok pr lk ct th (lg ++ [e]) ss.
Proof.
  intros L H. assert (E : exports (lg ++ [e]) = exports lg). { unfold exports. rewrite List.filter_app. cbn. rewrite H. by rewrite app_nil_r. }
  unfold lock_ok in *. by rewrite E.
Qed.

(** The goroutine that holds the lock. *)
Lemma lock_holder pr lk ct th lg ss t x m p : lock_ok pr lk ct th lg ss -> th !! t = Some x -> inner x = Some (m, p) -> p <> Locking ->
  lk = true /\ (forall t' x', th !! t' = Some x' -> holding x' -> t' = t) /\
  exists y, (extra p = 0 \/ pr = Some y) /\ exports lg = concat (map events ss) ++ opened t y m p /\ numbered p (length ss) /\ ct = length ss + extra p.
Proof.
  intros L T I P. destruct lk; cbn in L.
  - destruct L as (t1 & x1 & m1 & p1 & y & T1 & I1 & P1 & U & R). assert (t = t1) as -> by (eapply U; [done|by exists m, p]).
    rewrite T in T1. injection T1 as <-. rewrite I in I1. injection I1 as <- <-. split; [done|]. split; [done|]. by exists y.
  - destruct L as (U & R). destruct (U t x T). by exists m, p.
Qed.
Lemma lock_acquire pr ct th lg ss t x x' m : lock_ok pr false ct th lg ss -> th !! t = Some x -> inner x' = Some (m, Locked) ->
  lock_ok pr true ct (<[t := x']> th) lg ss.
Proof.
  intros (U & E & C) T I. exists t, x', m, Locked, "". rewrite list_lookup_insert by (by eapply lookup_lt_Some). repeat split; try done.
  - intros t' z Hz Hh. ins Hz; [done|]. by destruct (U t' z).
  - by left.
  - cbn. by rewrite app_nil_r.
  - cbn. lia.
Qed.
Lemma lock_next pr ct th lg ss t x x' m p p' y ct' lg' ss' : lock_ok pr true ct th lg ss -> th !! t = Some x -> inner x = Some (m, p) -> p <> Locking ->
  inner x' = Some (m, p') -> p' <> Locking -> (extra p' = 0 \/ pr = Some y) ->
  exports lg' = concat (map events ss') ++ opened t y m p' -> numbered p' (length ss') -> ct' = length ss' + extra p' ->
  lock_ok pr true ct' (<[t := x']> th) lg' ss'.
Proof.
  intros L T I P I' P' Y E N C. destruct (lock_holder _ _ _ _ _ _ _ _ _ _ L T I P) as (_ & U & _).
  exists t, x', m, p', y. rewrite list_lookup_insert by (by eapply lookup_lt_Some). repeat split; try done.
  intros t' z Hz Hh. ins Hz; [done|]. by eapply U.
Qed.
Lemma lock_release pr lk ct th lg ss t x x' m p : lock_ok pr lk ct th lg ss -> th !! t = Some x -> inner x = Some (m, p) -> p <> Locking ->
  extra p = 0 -> ~ holding x' -> lock_ok pr false ct (<[t := x']> th) lg ss.
Proof.
  intros L T I P X H. destruct (lock_holder _ _ _ _ _ _ _ _ _ _ L T I P) as (_ & U & y & Y & E & N & C).
  split; [|split].
  - intros t' z Hz Hh. ins Hz; [done|]. assert (t' = t) by (by eapply U). done.
  - destruct p; try done; cbn in E; by rewrite app_nil_r in E.
  - lia.
Qed.
Lemma exports_app lg e : is_handle e = false -> exports (lg ++ [e]) = exports lg ++ [e].
Proof. intros H. unfold exports. rewrite List.filter_app. cbn. by rewrite H. Qed.

(** The timer loop. *)
Lemma loop_caller pr wt th lg t x x' : loop_ok pr wt th lg -> th !! t = Some x -> is_loop x = false -> is_loop x' = false ->
  (pr = None -> x' <> CWait /\ past_wait x' = false) -> loop_ok pr wt (<[t := x']> th) lg.
Proof.
  intros L T H H' N. destruct pr as [y|]; cbn in *.
  - destruct L as (t0 & x0 & T0 & I0 & U & R). assert (t0 <> t). { intros ->. rewrite T in T0. injection T0 as <-. by rewrite H in I0. }
    exists t0, x0. rewrite list_lookup_insert_ne by done. split; [done|]. split; [done|]. split; [|done].
    intros t' z Hz Hh. ins Hz; [by rewrite H' in Hh|]. by eapply U.
  - destruct L as (W & U & R). split; [done|]. split; [|done]. intros t' z Hz. ins Hz; [|by eapply U]. split; [done|]. by apply N.
Qed.
Lemma loop_new pr wt th lg x : loop_ok pr wt th lg -> is_loop x = false -> x <> CWait -> past_wait x = false -> loop_ok pr wt (th ++ [x]) lg.
Proof.
  intros L H N1 N2. destruct pr as [y|]; cbn in *.
  - destruct L as (t0 & x0 & T0 & I0 & U & R). exists t0, x0. split; [by apply lookup_app_l_Some|]. split; [done|]. split; [|done].
    intros t' z Hz Hh. apply lookup_app_Some in Hz as [Hz|[_ Hz]]; [by eapply U|]. destruct (t' - length th); [|done]. injection Hz as <-. by rewrite H in Hh.
  - destruct L as (W & U & R). split; [done|]. split; [|done]. intros t' z Hz. apply lookup_app_Some in Hz as [Hz|[_ Hz]]; [by eapply U|].
    destruct (t' - length th); [|done]. by injection Hz as <-.
Qed.
Lemma loop_log pr wt th lg e : loop_ok pr wt th lg -> export_errors [e] = [] -> handled [e] = [] -> loop_ok pr wt th (lg ++ [e]).
Proof.
  intros L H1 H2. unfold loop_ok, export_errors, handled in *. rewrite !omap_app, H1, H2, !app_nil_r. done.
Qed.
Lemma loop_self pr wt th lg t x x' lg' wt' : loop_ok pr wt th lg -> th !! t = Some x -> is_loop x = true -> is_loop x' = true ->
  wt' = (if bool_decide (x' = LDone) then 0 else 1) ->
  (export_errors lg = handled lg ++ pending x -> export_errors lg' = handled lg' ++ pending x') ->
  loop_ok pr wt' (<[t := x']> th) lg'.
Proof.
  intros L T H H' W E. destruct pr as [y|]; cbn in *.
  - destruct L as (t0 & x0 & T0 & I0 & U & Wt & Er). assert (t = t0) as <- by (by eapply U).
    rewrite T in T0. injection T0 as <-. exists t, x'. rewrite list_lookup_insert by (by eapply lookup_lt_Some). repeat split; try done; auto.
    intros t' z Hz Hh. ins Hz; [done|]. by eapply U.
  - destruct L as (_ & U & _). destruct (U t x T) as [X _]. by rewrite H in X.
Qed.
Lemma loop_running pr wt th lg t x : loop_ok pr wt th lg -> th !! t = Some x -> is_loop x = true -> x <> LDone -> pr <> None /\ wt = 1.
Proof.
  intros L T H N. destruct pr as [y|]; cbn in L.
  - destruct L as (t0 & x0 & T0 & I0 & U & Wt & Er). assert (t = t0) as <- by (by eapply U). rewrite T in T0. injection T0 as <-.
    split; [done|]. rewrite bool_decide_eq_false_2 in Wt; done.
  - destruct L as (_ & U & _). destruct (U t x T) as [X _]. by rewrite H in X.
Qed.

Lemma wait_insert wt ca th t x' wt' ca' : wait_ok wt ca th -> (wt = 0 -> wt' = 0) -> (ca = true -> ca' = true) ->
  (past_wait x' = true -> wt' = 0) -> (x' = CWait -> ca' = true) -> wait_ok wt' ca' (<[t := x']> th).
Proof.
  intros [A B] H1 H2 H3 H4. split.
  - intros t' z Hz Hp. ins Hz; [by apply H3|]. by eapply H1, A.
  - intros t' Hz. apply list_lookup_insert_Some in Hz as [(-> & Hz & _)|[_ Hz]]; [by apply H4|]. by eapply H2, B.
Qed.
Lemma wait_new wt ca th x : wait_ok wt ca th -> past_wait x = false -> x <> CWait -> wait_ok wt ca (th ++ [x]).
Proof.
  intros [A B] H1 H2. split; intros t'.
  - intros z Hz Hp. apply lookup_app_Some in Hz as [Hz|[_ Hz]]; [by eapply A|]. destruct (t' - length th); [|done]. injection Hz as <-. by rewrite H1 in Hp.
  - intros Hz. apply lookup_app_Some in Hz as [Hz|[_ Hz]]; [by eapply B|]. destruct (t' - length th); [|done]. injection Hz as Hz. congruence.
Qed.
Lemma final_log pr wt lg e : final_ok pr wt lg -> (periodic e = true -> wt <> 0) -> (forall t n, e = ECall t Final n -> wt = 0 /\ pr <> None) ->
  final_ok pr wt (lg ++ [e]).
Proof.
  intros [A Q] H1 H2. split.
  - intros t n Hin. apply elem_of_app in Hin as [Hin|Hin]; [by eapply A|]. apply elem_of_list_singleton in Hin. by eapply H2.
  - intros l1 t n l2 E. destruct (decide (l2 = [])) as [->|Hne]; [constructor|].
    destruct (exists_last Hne) as (l3 & z & ->). rewrite app_comm_cons, app_assoc in E. apply app_inj_tail in E as [E ->].
    apply list.Forall_app. split; [by eapply Q|]. apply list.Forall_cons. split; [|constructor].
    destruct (periodic z) eqn:P; [|done]. destruct (H1 eq_refl). apply (A t n). rewrite E. apply elem_of_app. right. by left.
Qed.

(** Every step keeps the invariant; a return of the exporter's method ends a session. *)
Ltac nh := let H := fresh in intros (? & ? & H & ?); cbn in H; congruence.
(** A step of a collection, whoever makes it. *)
Lemma collect_inv pr ca wt lk ct th lg ss t x m p : inv (Reader pr ca wt lk ct th lg) ss -> th !! t = Some x -> inner x = Some (m, p) ->
  (m = Export -> is_loop x = true) ->
  forall r' c, collect_step (Reader pr ca wt lk ct th lg) t m p = Some (r', c) ->
  let 'Reader pr' ca' wt' lk' ct' th' lg' := r' in
  pr' = pr /\ ca' = ca /\ wt' = wt /\ th' = th /\ final_ok pr wt lg' /\ export_errors lg' = export_errors lg /\ handled lg' = handled lg /\
  (forall x', match c with At p' => inner x' = Some (m, p') | _ => ~ holding x' end -> lock_ok pr lk' ct' (<[t := x']> th) lg' ss) /\
  match c with
  | At p' => p' <> Locking /\ (forall e, p' <> Unlocking e)
  | Return e => p = Unlocking e
  | Panic => p = Locked /\ pr = None
  end.
Proof.
  intros (L & N & M & P & W & F) T I Lo r' c E. destruct p as [| |n|n|e]; cbn in E.
  - destruct lk; [done|]. injection E as <- <-. repeat (split; [done|]). split; [|done]. intros x' Hx. by eapply lock_acquire.
  - destruct (lock_holder _ _ _ _ _ _ _ _ _ _ L T I) as (-> & U & y & Y & Ex & Nu & C); [done|]. destruct pr as [z|]; injection E as <- <-.
    + repeat (split; [done|]). split; [apply final_log; done|]. unfold export_errors, handled. rewrite !omap_app. cbn. rewrite !app_nil_r. repeat (split; [done|]).
      split; [|done]. intros x' Hx. cbn in C. rewrite Nat.add_0_r in C. subst ct.
      eapply (lock_next _ _ _ _ _ _ _ _ _ _ _ z); try done; [by right| |cbn; lia].
      rewrite exports_app, Ex by done. cbn. by rewrite app_nil_r.
    + repeat (split; [done|]). split; [|done]. intros x' Hx. by eapply lock_release.
  - destruct (lock_holder _ _ _ _ _ _ _ _ _ _ L T I) as (-> & U & y & Y & Ex & Nu & C); [done|]. injection E as <- <-.
    repeat (split; [done|]). split.
    { apply final_log; [done| |].
      - cbn. intros Hp. destruct m; try done. destruct (loop_running _ _ _ _ _ _ P T (Lo eq_refl)) as [_ ->]; [|done]. by intros ->.
      - intros t' n' [= -> -> ->]. destruct W as [W _]. destruct pr as [z|]; [|by destruct Y].
        split; [|done]. apply (W t' x T). destruct x; try done; cbn in I; injection I as -> ->; done. }
    unfold export_errors, handled. rewrite !omap_app. cbn. rewrite !app_nil_r. repeat (split; [done|]).
    split; [|done]. intros x' Hx. eapply (lock_next _ _ _ _ _ _ _ _ _ _ _ y); try done.
    rewrite exports_app, Ex by done. cbn. by rewrite <- app_assoc.
  - done.
  - injection E as <- <-. repeat (split; [done|]). split; [|done]. intros x' Hx. by eapply lock_release.
Qed.
Lemma return_inv pr ca wt lk ct th lg ss t x m n e x' : inv (Reader pr ca wt lk ct th lg) ss -> th !! t = Some x -> inner x = Some (m, Calling n) ->
  inner x' = Some (m, Unlocking e) -> exists s, s_t s = t /\ s_method s = m /\ s_err s = e /\
  lock_ok pr lk ct (<[t := x']> th) (lg ++ [EReturn t m e]) (ss ++ [s]) /\ num_ok pr (ss ++ [s]).
Proof.
  intros (L & [N1 N2] & M & P & W & F) T I I'. destruct (lock_holder _ _ _ _ _ _ _ _ _ _ L T I) as (-> & U & y & Y & Ex & Nu & C); [done|].
  exists (Session t y n m e). repeat (split; [done|]). cbn in Nu, C. subst n. destruct Y as [Y|Y]; [done|]. split.
  - eapply (lock_next _ _ _ _ _ _ _ _ _ _ _ y); try done; [by right| |rewrite app_length; cbn; lia].
    rewrite exports_app, Ex by done. cbn. rewrite map_app, concat_app. cbn. by rewrite <- !app_assoc.
  - split; [rewrite map_app, app_length, N1; cbn; by rewrite Nat.add_1_r, seq_S|]. apply list.Forall_app. split; [done|]. by constructor.
Qed.
Lemma pstep_inv r a r' ss : inv r ss -> pstep r a = Some r' -> exists s, inv r' (ss ++ s).
Proof.
  destruct r as [pr ca wt lk ct th lg]. intros J E. pose proof J as (L & N & M & P & W & F). destruct a as [y| | |t|t|t e]; cbn [pstep] in E.
  - (* Register *) exists []. rewrite app_nil_r. destruct pr as [y'|]; injection E as <-; cbn [inv log_event].
    + split; [by apply lock_log|]. split; [done|]. split; [done|]. split; [by apply loop_log|]. split; [done|]. by apply final_log.
    + destruct N as [N1 N2]. destruct P as (-> & U & Er & Ha).
      assert (Ss : ss = []). { destruct ss as [|s ss]; [done|]. apply list.Forall_cons in N2 as [X _]. done. }
      subst ss. assert (L' : lock_ok None lk ct (th ++ [LSelect]) lg []) by (apply lock_new; [done|nh]).
      split.
      { destruct lk; cbn in *; [|done]. destruct L' as (t1 & x1 & m & p & y0 & T1 & I1 & P1 & U1 & Y & R).
        exists t1, x1, m, p, y0. repeat (split; [done|]). split; [|done]. destruct Y as [Y|Y]; [by left|done]. }
      split; [by split|]. split; [apply mine_new; [done|constructor]|]. split; [|split].
      * exists (length th), LSelect. rewrite lookup_app_r, Nat.sub_diag by done. repeat split; try done.
        -- intros t' z Hz Hh. apply lookup_app_Some in Hz as [Hz|[Hl Hz]]; [destruct (U t' z Hz) as [X _]; congruence|].
           destruct (t' - length th) eqn:D; [lia|discriminate Hz].
        -- by rewrite Er, Ha.
      * destruct W as [A B]. split; intros t'.
        -- intros z Hz Hp. exfalso. apply lookup_app_Some in Hz as [Hz'|[_ Hz']]; [destruct (U t' _ Hz') as (_ & _ & X); by rewrite X in Hp|].
           destruct (t' - length th); [|done]. injection Hz' as <-. done.
        -- intros Hz. exfalso. apply lookup_app_Some in Hz as [Hz'|[_ Hz']]; [destruct (U t' _ Hz') as (_ & X & _); done|].
           destruct (t' - length th); done.
      * destruct F as [A Q]. split; [|done]. intros t n Hin. by destruct (A t n Hin).
  - (* ForceFlush *) exists []. rewrite app_nil_r. injection E as <-. cbn [inv spawn]. split; [apply lock_new; [done|nh]|]. split; [done|].
    split; [by apply mine_new|]. split; [by apply loop_new|]. split; [by apply wait_new|done].
  - (* Shutdown *) exists []. rewrite app_nil_r. injection E as <-. cbn [inv spawn]. split; [apply lock_new; [done|nh]|]. split; [done|].
    split; [by apply mine_new|]. split; [by apply loop_new|]. split; [by apply wait_new|done].
  - (* Tick *) exists []. rewrite app_nil_r. destruct (th !! t) as [[]|] eqn:T; try done. injection E as <-. cbn [inv set_thread].
    destruct (loop_running _ _ _ _ _ _ P T) as [_ ->]; [done|done|].
    split; [eapply lock_insert; [done|done|nh|nh]|]. split; [done|]. split; [by eapply mine_insert|]. split; [by eapply loop_self|].
    split; [|done]. by eapply wait_insert.
  - (* Go *) destruct (th !! t) as [[|p| | | |m p|m e|]|] eqn:T; try done.
    + (* the loop ends *) exists []. rewrite app_nil_r. destruct ca; [|done]. injection E as <-. cbn [inv].
      destruct (loop_running _ _ _ _ _ _ P T) as [PN ->]; [done|done|].
      split; [eapply lock_insert; [done|done|nh|nh]|]. split; [done|]. split; [by eapply mine_insert|]. split; [by eapply loop_self|].
      split; [by eapply wait_insert|]. destruct F as [A Q]. split; [|done]. intros t' n Hin. by destruct (A t' n Hin).
    + (* the loop collects *) exists []. rewrite app_nil_r. destruct (collect_step _ t Export p) as [[[pr' ca' wt' lk' ct' th' lg'] c]|] eqn:Ec; [|done].
      cbn [mbind option_bind] in E.
      pose proof (collect_inv _ _ _ _ _ _ _ _ _ _ _ _ J T eq_refl (fun _ => eq_refl) _ _ Ec) as (-> & -> & -> & -> & F' & Ex & Ha & L' & C).
      destruct (loop_running _ _ _ _ _ _ P T) as [PN ->]; [done|done|].
      destruct c as [p'|[e|]|]; injection E as <-; cbn [inv set_thread log_event].
      * destruct C as [C1 C2]. split; [by apply L'|]. split; [done|]. split; [by eapply mine_insert|].
        split; [|split; [by eapply wait_insert|done]]. eapply loop_self; try done. rewrite Ex, Ha. intros ->.
        assert (pending (LCollect p') = []) as ->. { destruct p' as [| | | |e']; try done. by destruct (C2 e'). }
        assert (pending (LCollect p) = []) as ->; [|done]. by destruct p.
      * subst p. split; [apply lock_log; [apply L'; nh|done]|]. split; [done|]. split; [by eapply mine_insert|].
        split; [|split; [by eapply wait_insert|by apply final_log]]. eapply loop_self; try done.
        unfold export_errors, handled in *. rewrite !omap_app, Ex, Ha. cbn. intros ->. rewrite ?app_nil_r. done.
      * subst p. split; [apply L'; nh|]. split; [done|]. split; [by eapply mine_insert|].
        split; [|split; [by eapply wait_insert|done]]. eapply loop_self; try done. by rewrite Ex, Ha.
      * destruct C as [_ ->]. done.
    + (* stop *) exists []. rewrite app_nil_r. destruct pr as [y|]; injection E as <-; cbn [inv set_thread].
      * split; [eapply lock_insert; [done|done|nh|nh]|]. split; [done|]. split; [by eapply mine_insert|]. split; [by eapply loop_caller|].
        split; [|done]. by eapply wait_insert.
      * split; [eapply lock_insert; [done|done|nh|nh]|]. split; [done|]. split; [by eapply mine_insert|]. split; [by eapply loop_caller|].
        split; [|done]. by eapply wait_insert.
    + (* wait *) exists []. rewrite app_nil_r. destruct wt; [|done]. injection E as <-; cbn [inv set_thread].
      split; [eapply lock_insert; [done|done|nh|nh]|]. split; [done|]. split; [by eapply mine_insert|].
      split; [|split; [by eapply wait_insert|done]]. eapply loop_caller; try done. intros ->. destruct P as (_ & U & _). by destruct (U t _ T) as (_ & X & _).
    + (* a caller collects *) exists []. rewrite app_nil_r. destruct (collect_step _ t m p) as [[[pr' ca' wt' lk' ct' th' lg'] c]|] eqn:Ec; [|done].
      cbn [mbind option_bind] in E.
      assert (Nm : m <> Export). { destruct M as [M _]. specialize (M t _ T). destruct p; by destruct M. }
      pose proof (collect_inv _ _ _ _ _ _ _ _ _ _ _ _ J T eq_refl (fun X => False_ind _ (Nm X)) _ _ Ec) as (-> & -> & -> & -> & F' & Ex & Ha & L' & C).
      assert (P' : loop_ok pr wt th lg') by (unfold loop_ok in *; by rewrite Ex, Ha).
      destruct W as [W1 W2].
      destruct c as [p'|e|]; injection E as <-; cbn [inv set_thread].
      * destruct C as [C1 C2]. split; [by apply L'|]. split; [done|]. split.
        { eapply mine_insert; [done|done|]. intros l. destruct p as [| | | |e']; [| | | |discriminate Ec];
            (destruct p' as [| | | |e']; [..|by destruct (C2 e')]); done. }
        split; [|split; [|done]].
        -- eapply loop_caller; try done. intros ->. split; [done|]. destruct P as (_ & U & _). destruct (U t _ T) as (_ & _ & X). by destruct m.
        -- eapply wait_insert; try done. intros X. apply (W1 t _ T). by destruct m.
      * subst p. split; [apply L'; nh|]. split; [done|]. split; [by eapply mine_insert|].
        split; [|split; [|done]].
        -- eapply loop_caller; try done. intros ->. split; [done|]. destruct P as (_ & U & _). destruct (U t _ T) as (_ & _ & X). by destruct m.
        -- eapply wait_insert; try done. intros X. apply (W1 t _ T). by destruct m.
      * destruct C as [-> ->]. split; [apply L'; nh|]. split; [done|]. split; [|split; [by eapply loop_caller|split; [by eapply wait_insert|done]]].
        eapply mine_insert; [done|done|]. by intros l [_ ->].
  - (* the exporter returns *) destruct (th !! t) as [[|p| | | |m p|m e'|]|] eqn:T; try done.
    + destruct p as [| | |n|]; try done. injection E as <-. destruct (return_inv _ _ _ _ _ _ _ _ _ _ _ _ e (LCollect (Unlocking e)) J T eq_refl eq_refl) as (s & S1 & S2 & S3 & L' & N').
      exists [s]. cbn [inv set_thread log_event]. destruct (loop_running _ _ _ _ _ _ P T) as [PN ->]; [done|done|].
      split; [done|]. split; [done|]. split; [|split; [|split; [by eapply wait_insert|by apply final_log]]].
      * eapply mine_add; [done|done|done|]. rewrite S2. cbn. intros l Hl. apply list.Forall_app. split; [done|]. by constructor.
      * eapply loop_self; try done. unfold export_errors, handled. rewrite !omap_app. cbn. intros ->. rewrite !app_nil_r. by destruct e.
    + destruct p as [| | |n|]; try done. injection E as <-. destruct (return_inv _ _ _ _ _ _ _ _ _ _ _ _ e (CCollect m (Unlocking e)) J T eq_refl eq_refl) as (s & S1 & S2 & S3 & L' & N').
      assert (Nm : m <> Export). { destruct M as [M _]. specialize (M t _ T). by destruct M. }
      exists [s]. cbn [inv set_thread log_event]. destruct W as [W1 W2].
      split; [done|]. split; [done|]. split; [|split; [|split]].
      * eapply mine_add; [done|done|done|]. rewrite S2, S3. cbn. by intros l [_ ->].
      * apply loop_log; [|by destruct m|done]. eapply loop_caller; try done. intros ->. split; [done|]. destruct P as (_ & U & _). destruct (U t _ T) as (_ & _ & X). by destruct m.
      * eapply wait_insert; try done. intros X. apply (W1 t _ T). by destruct m.
      * apply final_log; [done|by destruct m|done].
Qed.
Lemma prun_inv l : forall r ss r', inv r ss -> prun r l = Some r' -> exists s, inv r' (ss ++ s).
Proof.
  induction l as [|a l IH]; intros r ss r' J E; cbn in E.
  - injection E as <-. exists []. by rewrite app_nil_r.
  - destruct (pstep r a) as [r1|] eqn:E1; [|done]. cbn in E. destruct (pstep_inv _ _ _ _ J E1) as [s J1].
    destruct (IH _ _ _ J1 E) as [s' J2]. exists (s ++ s'). by rewrite app_assoc.
Qed.
Lemma new_inv : inv new_reader [].
Proof.
  split; [done|]. split; [by split|]. split; [by split|]. split; [done|]. split; [by split|]. split; [intros t n H; by apply elem_of_nil in H|].
  intros l1 t n l2 E. by destruct l1.
Qed.
Lemma prun_app l1 : forall r l2, prun r (l1 ++ l2) = r' ← prun r l1; prun r' l2.
Proof. induction l1 as [|a l1 IH]; intros r l2; cbn; [done|]. destruct (pstep r a); cbn; [apply IH|done]. Qed.

(** How many steps each goroutine can still take without ticks. *)
Definition left_phase (p : phase) : nat := match p with Locking => 5 | Locked => 4 | Produced _ => 3 | Calling _ => 2 | Unlocking _ => 1 end.
Definition left_thread (x : pthread) : nat :=
  match x with
  | LSelect => 1 | LCollect p => left_phase p + 1 | LDone => 0
  | CStop => 7 | CWait => 6 | CCollect _ p => left_phase p | CReturned _ _ => 0 | CPanic => 0
  end.
Definition todo (r : reader) : nat := sum_list_with left_thread (rd_threads r).
Lemma sum_insert (l : list pthread) t x x' : l !! t = Some x ->
  sum_list_with left_thread (<[t := x']> l) + left_thread x = sum_list_with left_thread l + left_thread x'.
Proof.
  revert t. induction l as [|y l IH]; intros [|t] E; try done; [injection E as ->; cbn; lia|].
  specialize (IH t E). change (<[S t := x']> (y :: l)) with (y :: <[t := x']> l). cbn [sum_list_with]. lia.
Qed.
Lemma pstep_todo r a r' : internal a = true -> pstep r a = Some r' -> todo r' < todo r.
Proof.
  intros I E. destruct r as [pr ca wt lk ct th lg]. unfold todo.
  assert (X : forall t x x' l, th !! t = Some x -> l = <[t := x']> th -> left_thread x' < left_thread x -> sum_list_with left_thread l < sum_list_with left_thread th).
  { intros t x x' l T -> H. pose proof (sum_insert th t x x' T). lia. }
  destruct a as [y| | |t|t|t e]; try done; cbn [pstep] in E; destruct (th !! t) as [x|] eqn:T; try done.
  - destruct x as [|p| | | |m p|m e|]; try done.
    + destruct ca; [|done]. injection E as <-. by eapply X; [done|done|cbn; lia].
    + destruct p, lk, pr; cbn in E; try done; repeat (case_match; try done); simplify_eq; cbn; eapply X; try done; cbn; lia.
    + destruct pr; injection E as <-; cbn; eapply X; try done; cbn; lia.
    + destruct wt; [|done]. injection E as <-; cbn; eapply X; try done; cbn; lia.
    + destruct p, lk, pr; cbn in E; try done; repeat (case_match; try done); simplify_eq; cbn; eapply X; try done; cbn; lia.
  - destruct x as [|p| | | |m p|m e'|]; try done; destruct p; try done; injection E as <-; cbn; eapply X; try done; cbn; lia.
Qed.
Lemma prun_todo l : forall r r', forallb internal l = true -> prun r l = Some r' -> length l + todo r' <= todo r.
Proof.
  induction l as [|a l IH]; intros r r' I E; cbn in *; [injection E as ->; lia|]. apply andb_prop in I as [I1 I2].
  destruct (pstep r a) as [r1|] eqn:E1; [|done]. cbn in E. specialize (IH _ _ I2 E). pose proof (pstep_todo _ _ _ I1 E1). lia.
Qed.
(** Whoever is in collect can go on, or the holder of the lock can. *)
Lemma collect_progress r ss t x m p : inv r ss -> rd_threads r !! t = Some x -> inner x = Some (m, p) -> exists a, internal a = true /\ is_Some (pstep r a).
Proof.
  destruct r as [pr ca wt lk ct th lg]. intros (L & _) T I. cbn in T.
  assert (Q : forall t x m p, th !! t = Some x -> inner x = Some (m, p) -> (p = Locking -> lk = false) ->
              exists a, internal a = true /\ is_Some (pstep (Reader pr ca wt lk ct th lg) a)).
  { clear. intros t x m p T I Hp. destruct p as [| |n|n|e].
    - exists (Go t). split; [done|]. cbn. rewrite T. rewrite Hp by done. destruct x; try done; cbn in I; injection I as -> ->; by eexists.
    - exists (Go t). split; [done|]. cbn. rewrite T. destruct x; try done; cbn in I; injection I as -> ->; destruct pr; by eexists.
    - exists (Go t). split; [done|]. cbn. rewrite T. destruct x; try done; cbn in I; injection I as -> ->; by eexists.
    - exists (Exported t None). split; [done|]. cbn. rewrite T. destruct x; try done; cbn in I; injection I as -> ->; by eexists.
    - exists (Go t). split; [done|]. cbn. rewrite T. destruct x; try done; cbn in I; injection I as -> ->; destruct e; by eexists. }
  destruct (decide (p = Locking)) as [->|]; [|by apply (Q t x m p)]. destruct lk; [|by apply (Q t x m Locking)].
  destruct L as (t1 & x1 & m1 & p1 & y & T1 & I1 & P1 & _). by apply (Q t1 x1 m1 p1).
Qed.
Lemma progress r ss t x : inv r ss -> rd_producer r <> None -> rd_threads r !! t = Some x -> is_loop x = false -> returned x = false -> x <> CPanic ->
  exists a, internal a = true /\ is_Some (pstep r a).
Proof.
  intros J Pr T H R NP. destruct x as [|p| | | |m p|m e|]; try done.
  - exists (Go t). split; [done|]. destruct r as [[y|] ca wt lk ct th lg]; [|done]. cbn in *. rewrite T. by eexists.
  - destruct r as [[y|] ca wt lk ct th lg]; [|done]. pose proof J as (L & N & M & P & [W1 W2] & F). cbn in T.
    destruct P as (t0 & x0 & T0 & I0 & U & Wt & _). destruct x0 as [|p| | | | | |]; try done.
    + exists (Go t0). split; [done|]. cbn. rewrite T0, (W2 t T). by eexists.
    + eapply (collect_progress _ _ t0); done.
    + exists (Go t). split; [done|]. cbn. rewrite T. cbn in Wt. subst wt. by eexists.
  - eapply (collect_progress _ _ t); done.
Qed.
(** After registration nothing panics. *)
Definition no_panic (r : reader) : Prop := rd_producer r <> None /\ forall t, rd_threads r !! t <> Some CPanic.
Lemma pstep_no_panic r a r' ss : inv r ss -> no_panic r -> pstep r a = Some r' -> no_panic r' /\ rd_producer r' = rd_producer r.
Proof.
  destruct r as [[y|] ca wt lk ct th lg]; [|by intros _ []]. intros J [_ NP] E. cbn in NP.
  assert (X1 : forall t x', x' <> CPanic -> forall t', <[t := x']> th !! t' <> Some CPanic).
  { intros t x' Hx t' Ht. apply list_lookup_insert_Some in Ht as [(-> & -> & _)|[_ Ht]]; [done|]. by destruct (NP t'). }
  assert (X2 : forall x', x' <> CPanic -> forall t', (th ++ [x']) !! t' <> Some CPanic).
  { intros x' Hx t' Ht. apply lookup_app_Some in Ht as [Ht|[_ Ht]]; [by destruct (NP t')|]. destruct (t' - length th); [|done]. by injection Ht as ->. }
  destruct a as [z| | |t|t|t e]; cbn [pstep] in E.
  - injection E as <-. done.
  - injection E as <-. split; [split; [done|]|done]. by apply X2.
  - injection E as <-. split; [split; [done|]|done]. by apply X2.
  - destruct (th !! t) as [[]|]; try done. injection E as <-. split; [split; [done|]|done]. by apply X1.
  - destruct (th !! t) as [[|p| | | |m p|m e|]|] eqn:T; try done.
    + destruct ca; [|done]. injection E as <-. split; [split; [done|]|done]. by apply X1.
    + destruct p, lk; cbn in E; try done; repeat (case_match; try done); simplify_eq; (split; [split; [done|]|done]); by apply X1.
    + injection E as <-. split; [split; [done|]|done]. by apply X1.
    + destruct wt; [|done]. injection E as <-. split; [split; [done|]|done]. by apply X1.
    + destruct p, lk; cbn in E; try done; repeat (case_match; try done); simplify_eq; (split; [split; [done|]|done]); by apply X1.
  - destruct (th !! t) as [[|p| | | |m p|m e'|]|] eqn:T; try done; destruct p; try done; injection E as <-; (split; [split; [done|]|done]); by apply X1.
Qed.
Lemma prun_no_panic l : forall r ss r', inv r ss -> no_panic r -> prun r l = Some r' -> no_panic r' /\ rd_producer r' = rd_producer r.
Proof.
  induction l as [|a l IH]; intros r ss r' J NP E; cbn in E; [by injection E as <-|].
  destruct (pstep r a) as [r1|] eqn:E1; [|done]. cbn in E. destruct (pstep_inv _ _ _ _ J E1) as [s J1].
  destruct (pstep_no_panic _ _ _ _ J NP E1) as [NP1 P1]. destruct (IH _ _ _ J1 NP1 E) as [NP2 P2]. split; [done|]. by rewrite P2.
Qed.
