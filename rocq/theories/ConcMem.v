(** The number of entries that the views of asynchronous instruments hold in memory: an invariant of Conc, for C71.  M stands for /repo/lightstep/sdk/metric. *)
From Coq Require Import ZArith Bool String Lia.
From stdpp Require Import base list option strings.
From Verif Require Import Num Agg Attr Async Conc ConcSpec ConcInv ConcKeys.
Local Open Scope nat_scope.

(** InMemorySize (M/internal/viewstate/base_instrument.go:63-68; for delta temporality collectors.go:122-128). *)
Definition in_memory {N : arith} (w : aview) (y : vw N) : nat := if stateful w then length (w_prior y) else length (w_data y).

Section mem.
Context {N : arith} (c : acfg) (vr : nat -> nat) (decl : list (list nat)).

(** A map of at most [lim] attribute sets; if it is full, the overflow set is among them. *)
Definition small (lim : nat) (l : list (list kv * nat)) : Prop := NoDup (map fst l) /\ length l <= lim /\ (length l = lim -> overflow_set ∈ map fst l).
Definition view_ok (w : aview) (y : vw N) : Prop := small (av_limit w) (w_data y) /\ small (av_limit w) (w_prior y).
Definition out_small (w : aview) (l : list (list kv * N)) : Prop := NoDup (map fst l) /\ length l <= av_limit w.
Record minv (s : cst N) : Prop := {
  mi_views : forall v y w, s_views s !! v = Some y -> a_views c !! v = Some w -> 1 <= av_limit w -> view_ok w y;
  mi_out : forall q k o w, s_colls s !! q = Some k -> o ∈ k_out k -> a_views c !! o.1 = Some w -> 1 <= av_limit w -> out_small w o.2
}.
Lemma minv_coll q k s : minv s -> (forall o w, o ∈ k_out k -> a_views c !! o.1 = Some w -> 1 <= av_limit w -> out_small w o.2) -> minv (put_coll q k s).
Proof.
  intros [I1 I2] A. constructor; [done|]; cbn. intros q' k' o w H. apply list_lookup_insert_Some in H as [(-> & -> & _)|[_ H]]; [apply A|by eapply I2].
Qed.
Lemma minv_same q k k' s : minv s -> s_colls s !! q = Some k -> k_out k' = k_out k -> minv (put_coll q k' s).
Proof. intros I H O. apply minv_coll; [done|]. intros o w. rewrite O. by eapply mi_out. Qed.
Lemma minv_view v y s : minv s -> (forall w, a_views c !! v = Some w -> 1 <= av_limit w -> view_ok w y) -> minv (put_view v y s).
Proof. intros [I1 I2] A. constructor; [|done]. cbn. intros v' y' w H. apply list_lookup_insert_Some in H as [(-> & -> & _)|[_ H]]; [apply A|by eapply I1]. Qed.
Lemma minv_pc t f s : minv s -> minv (put_pc t f s).
Proof. intros [I1 I2]. unfold put_pc. by destruct (s_thr s !! t); constructor. Qed.

Lemma cell_none k (l : list (list kv * nat)) : cell k l = None -> k ∉ map fst l.
Proof.
  unfold cell. intros F X. change (map ?f ?l) with (f <$> l) in X. apply elem_of_list_fmap in X as ([k' h] & E & X). cbn in E. subst k'.
  destruct (find (fun p => bool_decide (p.1 = k)) l) eqn:G; [done|]. apply elem_of_list_In in X. pose proof (find_none _ _ G _ X) as Y. cbn in Y. by apply bool_decide_eq_false in Y.
Qed.
Lemma cell_some k (l : list (list kv * nat)) h : cell k l = Some h -> k ∈ map fst l.
Proof. intros E. apply cell_in in E. change (map ?f ?l) with (f <$> l). apply elem_of_list_fmap. by exists (k, h). Qed.
Lemma small_add lim (l : list (list kv * nat)) k h : small lim l -> k ∉ map fst l -> length l < lim -> (S (length l) = lim -> k = overflow_set \/ overflow_set ∈ map fst l) -> small lim (l ++ [(k, h)]).
Proof.
  intros (A & B & C) K L O. unfold small. rewrite map_app, app_length. cbn. split_and!.
  - apply list.NoDup_app. split; [done|]. split; [|apply NoDup_singleton]. intros x X Y. apply elem_of_list_singleton in Y as ->. done.
  - lia.
  - intros E. apply elem_of_app. destruct O as [-> |O]; [lia|right; apply elem_of_list_singleton; done|by left].
Qed.
Lemma find_small lim k (y : vw N) : small lim (w_data y) -> small lim (w_data (find_storage lim k y).1).
Proof.
  intros S. pose proof S as (_ & B & C). unfold find_storage. destruct (cell k (w_data y)) as [h|] eqn:K; [done|]. apply cell_none in K.
  destruct (Nat.eqb_spec (length (w_data y)) lim) as [E|NE].
  - destruct (cell overflow_set (w_data y)) as [h|] eqn:O; [done|]. apply cell_none in O. exfalso. auto.
  - destruct (Nat.eqb_spec (Datatypes.S (length (w_data y))) lim) as [E|NE'].
    + case_bool_decide as KO.
      * cbn. apply small_add; [done|done|lia|by left].
      * destruct (cell overflow_set (w_data y)) as [h|] eqn:O.
        -- cbn. apply small_add; [done|done|lia|]. intros _. right. by eapply cell_some.
        -- cbn. apply small_add; [done|by apply cell_none|lia|by left].
    + cbn. apply small_add; [done|done|lia|]. intros. lia.
Qed.
Lemma find_prior lim k (y : vw N) : w_prior (find_storage lim k y).1 = w_prior y.
Proof. unfold find_storage. by repeat case_match. Qed.
Lemma nodup_omap {A} (f : list kv * A -> option (list kv * A)) (l : list (list kv * A)) : (forall e e', f e = Some e' -> e'.1 = e.1) -> NoDup (map fst l) ->
  NoDup (map fst (omap f l)) /\ length (omap f l) <= length l.
Proof.
  intros F. induction l as [|e l IH]; cbn [map]; intros ND; [by split|]. apply list.NoDup_cons in ND as [N1 N2]. destruct (IH N2) as [I1 I2]. cbn [omap list_omap].
  destruct (f e) as [e'|] eqn:E; [|cbn [length]; split; [done|lia]]. cbn [map length]. split; [|lia]. apply list.NoDup_cons. split; [|done].
  rewrite (F _ _ E). intros X. apply N1. change (map ?g ?l) with (g <$> l) in X |- *. apply elem_of_list_fmap in X as (x & EX & X). apply elem_of_list_omap in X as (y & Y & EY).
  apply elem_of_list_fmap. exists y. split; [|done]. by rewrite EX, (F _ _ EY).
Qed.
Lemma collect_small w (y : vw N) : 1 <= av_limit w -> view_ok w y -> out_small w (collect_cells w y).1 /\ view_ok w (collect_cells w y).2.
Proof.
  intros L [D P]. assert (E0 : small (av_limit w) []) by (split_and!; [constructor|cbn; lia|cbn; lia]).
  assert (O : out_small w (collect_view w (VSt (values y (w_data y)) (values y (w_prior y)))).1).
  { destruct D as (D1 & D2 & _). assert (V : map fst (values y (w_data y)) = map fst (w_data y)) by (unfold values; rewrite map_map; by apply map_ext).
    unfold out_small, collect_view. cbn [d_data d_prior]. destruct (stateful w); cbn [fst].
    - set (g := omap _ _). assert (X : NoDup (map fst g) /\ length g <= length (values y (w_data y))).
      { apply nodup_omap; [|by rewrite V]. intros e e' E. destruct (get e.1 _) as [old|]; [|by injection E as <-]. case_match; [|done]. by injection E as <-. }
      destruct X as [X1 X2]. split; [done|]. unfold values in X2. rewrite map_length in X2. lia.
    - rewrite V. split; [done|]. unfold values. by rewrite map_length. }
  unfold collect_cells. destruct (stateful w) eqn:ST.
  - destruct (cell overflow_set (w_data y)) as [h|] eqn:E; cbn; (split; [exact O|]); split; cbn; try done.
    split_and!; cbn; [apply NoDup_singleton|lia|]. intros _. apply elem_of_list_singleton. done.
  - cbn. split; [exact O|]. by split.
Qed.
Lemma process_minv a s : minv s -> minv (process c a s).
Proof.
  intros I. unfold process. destruct (s_views s !! ac_view a) as [y|] eqn:E; [|done]. destruct (a_views c !! ac_view a) as [w|] eqn:W; [|done]. apply minv_view; [done|].
  intros w' W' L. assert (w' = w) as -> by congruence. exact (mi_views _ I _ _ _ E W L).
Qed.
Lemma minv_exec s a s' : minv s -> exec c vr decl s a = Some s' -> minv s'.
Proof.
  intros I E. destruct a as [p cbs|j x n l|q n|t]; cbn [exec] in E.
  - injection E as <-. destruct I as [I1 I2]. constructor; [done|]; cbn.
    intros q k o w H. apply lookup_app_Some in H as [H|[_ H]]; [by eapply I2|]. apply list_lookup_singleton_Some in H as [_ <-]. cbn. intros X. by apply elem_of_nil in X.
  - destruct (s_runs s !! j); [|done]. injection E as <-. destruct I as [I1 I2]. by constructor.
  - unfold go in E. destruct (s_colls s !! q) as [k|] eqn:K; [|done]. cbn [mbind option_bind] in E. destruct (k_phase k) as [todo [j|]|todo [pend|]|todo|] eqn:F.
    + assert (E' : (r ← s_runs s !! j; Some (put_coll q (set_phase k (KRun todo None)) (put_run j (Run (r_coll r) (r_cb r) false) s))) = Some s') by (by destruct todo).
      clear E. destruct (s_runs s !! j) as [r|]; [|done]. injection E' as <-. eapply (minv_same q k); [|exact K|done]. destruct I as [I1 I2]. by constructor.
    + destruct todo as [|cb todo]; injection E as <-; [by eapply minv_same|]. eapply (minv_same q k); [|exact K|done]. destruct I as [I1 I2]. by constructor.
    + assert (E' : match pend with [] => Some (put_coll q (set_lock (set_phase k (KSnap todo None)) Free) s)
        | _ => x ← pend !! n; a ← the_acc (k_store k) x; Some (put_coll q (set_phase k (KSnap todo (Some (delete n pend)))) (process c a s)) end = Some s') by (by destruct todo).
      clear E. destruct pend as [|p pend]; [injection E' as <-; by eapply minv_same|]. destruct ((p :: pend) !! n) as [z|]; [|done]. cbn [mbind option_bind] in E'.
      destruct (the_acc (k_store k) z) as [a|]; [|done]. injection E' as <-. eapply (minv_same q k); [by apply process_minv|by rewrite process_colls|done].
    + destruct todo as [|i todo].
      * injection E as <-. by eapply minv_same.
      * destruct (k_lock k); try done. injection E as <-. by eapply minv_same.
    + destruct todo as [|v todo]; [injection E as <-; by eapply minv_same|]. destruct (s_views s !! v) as [y|] eqn:Y; [|done]. cbn [mbind option_bind] in E.
      destruct (a_views c !! v) as [w|] eqn:W; [|done]. cbn [mbind option_bind] in E.
      pose proof (fun L => collect_small w y L (mi_views _ I v y w Y W L)) as C. destruct (collect_cells w y) as [pts y'] eqn:CC. cbn in C. injection E as <-.
      apply minv_coll; [apply minv_view; [done|]|]; cbn.
      * intros w' W' L. assert (w' = w) as -> by congruence. by apply C.
      * intros o w' X. apply elem_of_app in X as [X|X]; [by eapply mi_out|]. apply elem_of_list_singleton in X as ->. cbn. intros W' L. assert (w' = w) as -> by congruence. by apply C.
    + done.
  - unfold step in E. destruct (s_thr s !! t) as [x|] eqn:X; [|done]. cbn [mbind option_bind] in E. destruct (s_runs s !! t_run x) as [r|]; [|done]. cbn [mbind option_bind] in E.
    destruct (s_colls s !! r_coll r) as [k|] eqn:K; [|done]. cbn [mbind option_bind] in E. destruct (t_pc x) as [| |[|v todo] accs|e pos|res].
    + injection E as <-. by apply minv_pc.
    + destruct (k_lock k); try done. destruct (find_entry _ _ _); injection E as <-; [by apply minv_pc|]. apply minv_pc. by eapply minv_same.
    + injection E as <-. apply minv_pc. by eapply minv_same.
    + destruct (s_views s !! v) as [y|] eqn:Y; [|done]. cbn [mbind option_bind] in E. destruct (a_views c !! v) as [w|] eqn:W; [|done]. cbn [mbind option_bind] in E.
      pose proof (fun L => mi_views _ I v y w Y W L) as V. pose proof (fun S => find_small (av_limit w) (view_key w (t_set x)) y S) as FS.
      pose proof (find_prior (av_limit w) (view_key w (t_set x)) y) as FP. destruct (find_storage _ _ y) as [y' h]. cbn [fst] in FS, FP. injection E as <-. apply minv_pc, minv_view; [done|].
      intros w' W' L. assert (w' = w) as -> by congruence. destruct (V L) as [V1 V2]. split; [by apply FS|by rewrite FP].
    + destruct (the_acc _ _); injection E as <-; [|by apply minv_pc]. apply minv_pc. by eapply minv_same.
    + done.
Qed.
Lemma minv_reached tr s : reached c vr decl tr s -> minv s.
Proof.
  revert s. induction tr as [|a tr IH] using rev_ind; intros s R.
  - injection R as <-. constructor; cbn; [|done]. intros v y w H W L. unfold c_init in H. cbn in H. change (map ?f ?l) with (f <$> l) in H. rewrite list_lookup_fmap in H.
    destruct (a_views c !! v); [|done]. injection H as <-. split; (split_and!; [constructor|cbn; lia|cbn; lia]).
  - apply reached_snoc in R as (s0 & R & E). eapply minv_exec; [by apply IH|exact E].
Qed.
End mem.
