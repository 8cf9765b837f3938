(** Proofs about the aggregators' methods step by step. *)
From Coq Require Import ZArith Bool Lia.
From stdpp Require Import base list option sets.
From Verif Require Import Num Agg Atom AtomSpec.
Local Open Scope Z_scope.

Section lin.
Context {N : Type} (m : methods N) (body : acall N (sto m) -> prog (sto m) (result (sto m))).
Notation S := (sto m).
Notation P := (prog S (result S)).

(** What a body does between Lock and Unlock when run alone. *)
Fixpoint inside (p : P) (s : S) : option (S * result S) :=
  match p with
  | Read get k => inside (k (get s)) s
  | Write set k => inside k (set s)
  | Unlock (Ret r) => Some (s, r)
  | _ => None
  end.
(** A body that has not taken effect yet. *)
Fixpoint pend (lk : bool) (c : acall N S) (q : Z) (p : P) : Prop :=
  match p with
  | Lock k => lk = true /\ forall s, inside k s = Some (seq_call m q c s)
  | Atomic f k =>
      lk = false /\ forall s, (exists r, k (f s).2 = Ret r /\ seq_call m q c s = ((f s).1, r)) \/ ((f s).1 = s /\ pend lk c q (k (f s).2))
  | Ticket k => forall z, pend lk c z (k z)
  | Again => lk = false
  | _ => False
  end.

Variable lk : bool.
Hypothesis body_ok : forall c q, pend lk c q (body c).
Notation st := (astate (N:=N) (S:=S)).

Definition no_end (s : st) (t : nat) : Prop := forall r, AEnd t r ∉ as_log s.
Inductive stage (s : st) (h : list (entry N S)) (f : nat -> S) (t : nat) (x : athread (N:=N) (S:=S)) : Prop :=
  | st_pending : (forall e, e ∈ h -> e_thread e <> t) -> as_lock s (at_obj x) <> Some t -> pend lk (at_call x) (at_seq x) (at_cur x) -> no_end s t ->
      stage s h f t x
  | st_inside e : e ∈ h -> e_thread e = t -> lk = true -> as_lock s (at_obj x) = Some t ->
      inside (at_cur x) (as_val s (at_obj x)) = Some (f (at_obj x), e_res e) -> no_end s t -> stage s h f t x
  | st_done e : e ∈ h -> e_thread e = t -> as_lock s (at_obj x) <> Some t -> at_cur x = Ret (e_res e) -> stage s h f t x.

Record inv (s : st) (h : list (entry N S)) (f : nat -> S) : Prop := {
  iv_serial : serial m h f;
  iv_once : NoDup (e_thread <$> h);
  iv_made : forall e, e ∈ h -> exists x, as_thr s !! e_thread e = Some x /\ at_obj x = e_obj e /\ at_call x = e_call e /\ at_seq x = e_seq e;
  iv_ended : forall t r, AEnd t r ∈ as_log s -> exists e, e ∈ h /\ e_thread e = t /\ e_res e = r;
  iv_order : forall h1 e h2 e', h = h1 ++ e :: h2 -> e' ∈ h2 -> ~ ended_before (as_log s) (e_thread e') (e_thread e);
  iv_contents : forall o, as_lock s o = None -> as_val s o = f o;
  iv_stage : forall t x, as_thr s !! t = Some x -> stage s h f t x;
  iv_holder : forall o t, as_lock s o = Some t -> exists x, as_thr s !! t = Some x /\ at_obj x = o;
  iv_begun : forall t, ABegin t ∈ as_log s -> (t < length (as_thr s))%nat;
  iv_free : lk = false -> forall o, as_lock s o = None
}.

Lemma inv_explains s h f : inv s h f -> explains m s h f.
Proof.
  intros I. constructor; try apply I.
  intros e He. destruct (iv_made _ _ _ I e He) as (x & A & B & C & _). exists x; auto.
Qed.

Lemma putc_eq {X} i (x : X) g : putc i x g i = x.
Proof. unfold putc. by rewrite Nat.eqb_refl. Qed.
Lemma putc_ne {X} i j (x : X) g : j <> i -> putc i x g j = g j.
Proof. unfold putc. intros H. by rewrite (proj2 (Nat.eqb_neq j i) H). Qed.

Lemma entry_thread_inj h (e e' : entry N S) : NoDup (e_thread <$> h) -> e ∈ h -> e' ∈ h -> e_thread e = e_thread e' -> e = e'.
Proof.
  induction h as [|a h IH]; cbn; intros ND He He' E; [by apply elem_of_nil in He|].
  apply list.NoDup_cons in ND as [Na ND].
  apply elem_of_cons in He as [->|He]; apply elem_of_cons in He' as [->|He']; auto.
  - exfalso. apply Na. rewrite E. by apply (elem_of_list_fmap_1 e_thread).
  - exfalso. apply Na. rewrite <- E. by apply (elem_of_list_fmap_1 e_thread).
Qed.

Lemma inv_init : inv (a_init m_new) [] (fun _ => m_new).
Proof.
  clear body_ok body. constructor; cbn; try done; try (by intros; set_solver).
  - apply serial_nil.
  - apply NoDup_nil_2.
  - intros h1 e h2 e' H. by destruct h1.
Qed.

Lemma ended_before_snoc_end (log : list (aevent (S:=S))) t r a b : ended_before (log ++ [AEnd t r]) a b -> ended_before log a b.
Proof.
  intros (l1 & r' & l2 & E & B). unfold ended_before.
  destruct (List.exists_last (l := l2)) as (l2' & z & ->); [by intros ->; apply elem_of_nil in B|].
  rewrite app_comm_cons, app_assoc in E. apply app_inj_tail in E as [E <-].
  exists l1, r', l2'. split; [done|]. apply elem_of_app in B as [B|B]; [done|]. by apply elem_of_list_singleton in B.
Qed.
Lemma ended_before_snoc_begin (log : list (aevent (S:=S))) t a b : ended_before (log ++ [ABegin t]) a b -> b <> t -> ended_before log a b.
Proof.
  intros (l1 & r' & l2 & E & B) Nb. unfold ended_before.
  destruct (List.exists_last (l := l2)) as (l2' & z & ->); [by intros ->; apply elem_of_nil in B|].
  rewrite app_comm_cons, app_assoc in E. apply app_inj_tail in E as [E <-].
  exists l1, r', l2'. split; [done|]. apply elem_of_app in B as [B|B]; [done|]. apply elem_of_list_singleton in B. congruence.
Qed.
Lemma ended_before_end (log : list (aevent (S:=S))) a b : ended_before log a b -> exists r, AEnd a r ∈ log.
Proof. intros (l1 & r & l2 & -> & _). exists r. apply elem_of_app. right. apply elem_of_cons. by left. Qed.

(** A step of [t] that changes neither [h] nor the log, keeps locks and contents of other Storages, and leads [t] to a good stage. *)
Lemma stage_other s s' h f h' f' t u y :
  inv s h f -> as_thr s !! u = Some y -> u <> t ->
  as_log s' = as_log s ->
  (forall e, e ∈ h -> e ∈ h') -> (forall e, e ∈ h' -> e ∈ h \/ e_thread e = t) ->
  (as_lock s (at_obj y) = Some u -> as_lock s' (at_obj y) = Some u /\ as_val s' (at_obj y) = as_val s (at_obj y) /\ f' (at_obj y) = f (at_obj y)) ->
  (as_lock s (at_obj y) <> Some u -> as_lock s' (at_obj y) <> Some u) ->
  stage s' h' f' u y.
Proof.
  intros I Hy Ne L Sub Sup Own Oth. unfold no_end.
  destruct (iv_stage _ _ _ I u y Hy) as [A B C D|e A B K C D E|e A B C D].
  - apply st_pending; auto.
    + intros e He. destruct (Sup e He) as [He'|He']; [by apply A|congruence].
    + unfold no_end. by rewrite L.
  - destruct (Own C) as (O1 & O2 & O3). eapply st_inside; eauto.
    + by rewrite O2, O3.
    + unfold no_end. by rewrite L.
  - eapply st_done; eauto.
Qed.

Lemma lookup_to (s : st) t x p u :
  as_thr s !! t = Some x ->
  as_thr (at_to t x p s) !! u = if decide (u = t) then Some (AThread (at_obj x) (at_call x) p (at_seq x)) else as_thr s !! u.
Proof.
  intros H. cbn. destruct (decide (u = t)) as [->|Ne].
  - apply list_lookup_insert. by eapply lookup_lt_Some.
  - by apply list_lookup_insert_ne.
Qed.

Lemma order_snoc (log : list (aevent (S:=S))) (h : list (entry N S)) e0 :
  (forall h1 e h2 e', h = h1 ++ e :: h2 -> e' ∈ h2 -> ~ ended_before log (e_thread e') (e_thread e)) ->
  (forall r, AEnd (e_thread e0) r ∉ log) ->
  forall h1 e h2 e', h ++ [e0] = h1 ++ e :: h2 -> e' ∈ h2 -> ~ ended_before log (e_thread e') (e_thread e).
Proof.
  intros O F h1 e h2 e' E M B.
  destruct (List.exists_last (l := h2)) as (h3 & z & ->); [by intros ->; apply elem_of_nil in M|].
  rewrite app_comm_cons, app_assoc in E. apply app_inj_tail in E as [E <-].
  apply elem_of_app in M as [M|M].
  - by eapply O.
  - apply elem_of_list_singleton in M. subst e'. apply ended_before_end in B as [r B]. by apply (F r).
Qed.

Lemma inv_step s h f l s' : inv s h f -> astep body s l = Some s' -> exists h' f', inv s' h' f'.
Proof.
  intros I St. destruct l as [o c|t]; cbn in St.
  { (* a call begins *)
    injection St as <-. exists h, f.
    assert (NB : forall e, e ∈ h -> (e_thread e < length (as_thr s))%nat).
    { intros e He. destruct (iv_made _ _ _ I e He) as (x & A & _). by eapply lookup_lt_Some. }
    constructor; cbn; try apply I.
    - intros e He. destruct (iv_made _ _ _ I e He) as (x & A & B). exists x. split; [|done]. by apply lookup_app_l_Some.
    - intros t r Ht. apply elem_of_app in Ht as [Ht|Ht]; [by apply I|]. by apply elem_of_list_singleton in Ht.
    - intros h1 e h2 e' E M B. apply ended_before_snoc_begin in B.
      + by eapply (iv_order _ _ _ I).
      + assert (He : e ∈ h) by (rewrite E; set_solver). specialize (NB e He). lia.
    - intros t x H. apply lookup_app_Some in H as [H|[Hl H]].
      + destruct (iv_stage _ _ _ I t x H) as [A B C D|e A B K C D E|e A B C D].
        * apply st_pending; auto. intros r Hr. cbn in Hr. apply elem_of_app in Hr as [Hr|Hr]; [by apply (D r)|by apply elem_of_list_singleton in Hr].
        * eapply st_inside; eauto. intros r Hr. cbn in Hr. apply elem_of_app in Hr as [Hr|Hr]; [by apply (E r)|by apply elem_of_list_singleton in Hr].
        * eapply st_done; eauto.
      + apply list_lookup_singleton_Some in H as [Z <-]. assert (t = length (as_thr s)) as -> by lia.
        apply st_pending; cbn.
        * intros e He. specialize (NB e He). lia.
        * intros Hl'. destruct (iv_holder _ _ _ I _ _ Hl') as (x & A & _). apply lookup_lt_Some in A. lia.
        * apply body_ok.
        * intros r Hr. cbn in Hr. apply elem_of_app in Hr as [Hr|Hr]; [|by apply elem_of_list_singleton in Hr].
          destruct (iv_ended _ _ _ I _ _ Hr) as (e & He & Et & _). specialize (NB e He). lia.
    - intros o' t H. destruct (iv_holder _ _ _ I _ _ H) as (x & A & B). exists x. split; [|done]. by apply lookup_app_l_Some.
    - intros t H. rewrite app_length. cbn. apply elem_of_app in H as [H|H].
      + apply (iv_begun _ _ _ I) in H. lia.
      + apply elem_of_list_singleton in H. injection H as ->. lia. }
  destruct (as_thr s !! t) as [x|] eqn:Hx; [cbn in St|done].
  pose proof (lookup_lt_Some _ _ _ Hx) as Lt.
  destruct (iv_stage _ _ _ I t x Hx) as [Np NL Pe NE|e He Et K HL In NE|e He Et NL Cu].
  - (* it has not taken effect *)
    destruct (at_cur x) as [k|k|X get k|set k|X g k|k| |r] eqn:Cur; cbn in Pe; try done.
    + (* Lock *)
      destruct Pe as [K In]. destruct (as_lock s (at_obj x)) as [?|] eqn:Lk; [done|]. injection St as <-.
      destruct (seq_call m (at_seq x) (at_call x) (f (at_obj x))) as [v r] eqn:SC.
      set (e := Entry t (at_obj x) (at_call x) (at_seq x) r).
      exists (h ++ [e]), (fun o => if decide (o = at_obj x) then v else f o).
      assert (Vf : as_val s (at_obj x) = f (at_obj x)) by by apply I.
      constructor.
      * by apply (serial_snoc m h f e v); [apply I|].
      * rewrite fmap_app. cbn. apply NoDup_app. split; [apply I|]. split; [|apply NoDup_singleton].
        intros a Ha Hb. apply elem_of_list_singleton in Hb as ->. apply elem_of_list_fmap in Ha as (e' & -> & He'). by apply (Np e').
      * intros e' He'. rewrite (lookup_to (with_lock _ _ s)) by done. cbn [as_thr with_lock]. apply elem_of_app in He' as [He'|He'].
        -- destruct (decide (e_thread e' = t)) as [Eq|Ne]; [by apply Np in Eq|]. by apply I.
        -- apply elem_of_list_singleton in He' as ->. rewrite decide_True by done. eexists. cbn. eauto.
      * intros u r' Hu. destruct (iv_ended _ _ _ I u r' Hu) as (e' & A & B). exists e'. split; [set_solver|done].
      * cbn. apply order_snoc; [apply I|]. apply NE.
      * intros o. cbn. destruct (decide (o = at_obj x)) as [->|Ne]; [by rewrite putc_eq|]. rewrite putc_ne by done. apply I.
      * intros u y. rewrite (lookup_to (with_lock _ _ s)) by done. cbn [as_thr with_lock]. destruct (decide (u = t)) as [->|Ne].
        -- intros [= <-]. apply (st_inside _ _ _ _ _ e); cbn; auto.
           ++ apply elem_of_app. right. by apply elem_of_list_singleton.
           ++ by rewrite putc_eq.
           ++ rewrite decide_True by done. by rewrite In, Vf, SC.
        -- intros Hy. eapply (stage_other s); eauto.
           ++ intros e' He'. apply elem_of_app. by left.
           ++ intros e' He'. apply elem_of_app in He' as [He'|He']; [by left|]. right. by apply elem_of_list_singleton in He' as ->.
           ++ intros Lu. assert (at_obj y <> at_obj x) by congruence. cbn. rewrite putc_ne, decide_False by done. auto.
           ++ intros Lu. cbn. destruct (decide (at_obj y = at_obj x)) as [->|Nb]; [rewrite putc_eq; congruence|by rewrite putc_ne].
      * intros o u. cbn [as_lock with_lock at_to]. rewrite (lookup_to (with_lock _ _ s)) by done. cbn [as_thr with_lock].
        destruct (decide (o = at_obj x)) as [->|Nb].
        -- rewrite putc_eq. intros [= ->]. rewrite decide_True by done. eauto.
        -- rewrite putc_ne by done. intros Hu. destruct (iv_holder _ _ _ I _ _ Hu) as (y & A & B). destruct (decide (u = t)) as [->|]; [|eauto].
           rewrite Hx in A. injection A as <-. congruence.
      * intros u Hu. cbn. rewrite insert_length. by apply (iv_begun _ _ _ I).
      * intros K'. congruence.
    + (* Atomic *)
      destruct Pe as [K Pe]. injection St as <-.
      assert (NoL : forall o, as_lock s o = None) by by apply (iv_free _ _ _ I).
      assert (Vf : as_val s (at_obj x) = f (at_obj x)) by by apply I.
      destruct (Pe (as_val s (at_obj x))) as [(r & Kr & SC)|[Same Pe']].
      * (* it takes effect *)
        rewrite Kr. set (v := (g (as_val s (at_obj x))).1) in *.
        set (e := Entry t (at_obj x) (at_call x) (at_seq x) r).
        exists (h ++ [e]), (fun o => if decide (o = at_obj x) then v else f o).
        constructor.
        -- apply (serial_snoc m h f e v); [apply I|]. cbn. by rewrite <- Vf.
        -- rewrite fmap_app. cbn. apply NoDup_app. split; [apply I|]. split; [|apply NoDup_singleton].
           intros a Ha Hb. apply elem_of_list_singleton in Hb as ->. apply elem_of_list_fmap in Ha as (e' & -> & He'). by apply (Np e').
        -- intros e' He'. rewrite (lookup_to (with_val _ _ s)) by done. cbn [as_thr with_val]. apply elem_of_app in He' as [He'|He'].
           ++ destruct (decide (e_thread e' = t)) as [Eq|Ne]; [by apply Np in Eq|]. by apply I.
           ++ apply elem_of_list_singleton in He' as ->. rewrite decide_True by done. eexists. cbn. eauto.
        -- intros u r' Hu. destruct (iv_ended _ _ _ I u r' Hu) as (e' & A & B). exists e'. split; [set_solver|done].
        -- cbn. apply order_snoc; [apply I|]. apply NE.
        -- intros o _. cbn. destruct (decide (o = at_obj x)) as [->|Ne]; [by rewrite putc_eq|]. rewrite putc_ne by done. by apply I.
        -- intros u y. rewrite (lookup_to (with_val _ _ s)) by done. cbn [as_thr with_val]. destruct (decide (u = t)) as [->|Ne].
           ++ intros [= <-]. apply (st_done _ _ _ _ _ e); cbn; auto.
              apply elem_of_app. right. by apply elem_of_list_singleton.
           ++ intros Hy. eapply (stage_other s); eauto.
              ** intros e' He'. apply elem_of_app. by left.
              ** intros e' He'. apply elem_of_app in He' as [He'|He']; [by left|]. right. by apply elem_of_list_singleton in He' as ->.
              ** rewrite NoL. done.
        -- intros o u. cbn. by rewrite NoL.
        -- intros u Hu. cbn. rewrite insert_length. by apply (iv_begun _ _ _ I).
        -- intros _ o. cbn. apply NoL.
      * (* it does not *)
        rewrite Same. exists h, f. constructor; try apply I.
        -- intros e' He'. rewrite (lookup_to (with_val _ _ s)) by done. cbn [as_thr with_val].
           destruct (decide (e_thread e' = t)) as [Eq|Ne]; [by apply Np in Eq|]. by apply I.
        -- intros o Ho. cbn. destruct (decide (o = at_obj x)) as [->|Ne]; [by rewrite putc_eq|]. rewrite putc_ne by done. by apply I.
        -- intros u y. rewrite (lookup_to (with_val _ _ s)) by done. cbn [as_thr with_val]. destruct (decide (u = t)) as [->|Ne].
           ++ intros [= <-]. apply st_pending; auto.
           ++ intros Hy. eapply (stage_other s); eauto. rewrite NoL. done.
        -- intros o u. cbn. by rewrite NoL.
        -- intros u Hu. cbn. rewrite insert_length. by apply (iv_begun _ _ _ I).
    + (* Ticket *)
      injection St as <-. exists h, f. constructor; cbn [as_thr as_val as_lock as_log]; try apply I.
      * intros e' He'. rewrite list_lookup_insert_ne by (by apply not_eq_sym, Np). by apply I.
      * intros u y. destruct (decide (u = t)) as [->|Ne].
        -- rewrite list_lookup_insert by done. intros [= <-]. apply st_pending; auto. apply Pe.
        -- rewrite list_lookup_insert_ne by done. intros Hy. eapply (stage_other s); eauto.
      * intros o u Hu. destruct (iv_holder _ _ _ I _ _ Hu) as (y & A & B). destruct (decide (u = t)) as [->|Ne].
        -- rewrite list_lookup_insert by done. eexists. split; [done|]. cbn. congruence.
        -- rewrite list_lookup_insert_ne by done. eauto.
      * intros u Hu. rewrite insert_length. by apply (iv_begun _ _ _ I).
    + (* Again *)
      injection St as <-. exists h, f. constructor; try apply I.
      * intros e' He'. rewrite lookup_to by done. rewrite decide_False by (by apply Np). by apply I.
      * intros u y. rewrite lookup_to by done. destruct (decide (u = t)) as [->|Ne].
        -- intros [= <-]. apply st_pending; auto. apply body_ok.
        -- intros Hy. eapply (stage_other s); eauto.
      * intros o u Hu. destruct (iv_holder _ _ _ I _ _ Hu) as (y & A & B). rewrite lookup_to by done. destruct (decide (u = t)) as [->|Ne]; [|eauto].
        eexists. split; [done|]. cbn. congruence.
      * intros u Hu. cbn. rewrite insert_length. by apply (iv_begun _ _ _ I).
  - (* it has the lock *)
    assert (Oth : forall u y, as_thr s !! u = Some y -> u <> t -> as_lock s (at_obj y) = Some u -> at_obj y <> at_obj x) by congruence.
    destruct (at_cur x) as [k|k|X get k|set k|X g k|k| |r] eqn:Cur; cbn in In; try done.
    + (* Unlock *)
      destruct k as [ | | | | | | |r]; try done. injection In as Iv Ir. injection St as <-. subst r. exists h, f. constructor; try apply I.
      * intros e' He'. rewrite (lookup_to (with_lock _ _ s)) by done. cbn [as_thr with_lock].
        destruct (iv_made _ _ _ I e' He') as (y & A & B). destruct (decide (e_thread e' = t)) as [Eq|Ne]; [|eauto].
        rewrite Eq, Hx in A. injection A as <-. eexists. cbn. eauto.
      * intros o. cbn. destruct (decide (o = at_obj x)) as [->|Ne]; [by intros _|]. rewrite putc_ne by done. apply I.
      * intros u y. rewrite (lookup_to (with_lock _ _ s)) by done. cbn [as_thr with_lock]. destruct (decide (u = t)) as [->|Ne].
        -- intros [= <-]. apply (st_done _ _ _ _ _ e); cbn; auto. by rewrite putc_eq.
        -- intros Hy. eapply (stage_other s); eauto.
           ++ intros Lu. cbn. rewrite putc_ne by (by eapply Oth). auto.
           ++ intros Lu. cbn. destruct (decide (at_obj y = at_obj x)) as [->|Nb]; [by rewrite putc_eq|by rewrite putc_ne].
      * intros o u. cbn [as_lock with_lock at_to]. rewrite (lookup_to (with_lock _ _ s)) by done. cbn [as_thr with_lock].
        destruct (decide (o = at_obj x)) as [->|Nb]; [by rewrite putc_eq|].
        rewrite putc_ne by done. intros Hu. destruct (iv_holder _ _ _ I _ _ Hu) as (y & A & B). destruct (decide (u = t)) as [->|]; [|eauto].
        rewrite Hx in A. injection A as <-. congruence.
      * intros u Hu. cbn. rewrite insert_length. by apply (iv_begun _ _ _ I).
      * intros K'. congruence.
    + (* Read *)
      injection St as <-. exists h, f. constructor; try apply I.
      * intros e' He'. rewrite lookup_to by done.
        destruct (iv_made _ _ _ I e' He') as (y & A & B). destruct (decide (e_thread e' = t)) as [Eq|Ne]; [|eauto].
        rewrite Eq, Hx in A. injection A as <-. eexists. cbn. eauto.
      * intros u y. rewrite lookup_to by done. destruct (decide (u = t)) as [->|Ne].
        -- intros [= <-]. by apply (st_inside _ _ _ _ _ e).
        -- intros Hy. eapply (stage_other s); eauto.
      * intros o u Hu. destruct (iv_holder _ _ _ I _ _ Hu) as (y & A & B). rewrite lookup_to by done. destruct (decide (u = t)) as [->|Ne]; [|eauto].
        eexists. split; [done|]. cbn. congruence.
      * intros u Hu. cbn. rewrite insert_length. by apply (iv_begun _ _ _ I).
    + (* Write *)
      injection St as <-. exists h, f. constructor; try apply I.
      * intros e' He'. rewrite (lookup_to (with_val _ _ s)) by done. cbn [as_thr with_val].
        destruct (iv_made _ _ _ I e' He') as (y & A & B). destruct (decide (e_thread e' = t)) as [Eq|Ne]; [|eauto].
        rewrite Eq, Hx in A. injection A as <-. eexists. cbn. eauto.
      * intros o Ho. cbn in *. rewrite putc_ne by congruence. by apply I.
      * intros u y. rewrite (lookup_to (with_val _ _ s)) by done. cbn [as_thr with_val]. destruct (decide (u = t)) as [->|Ne].
        -- intros [= <-]. apply (st_inside _ _ _ _ _ e); cbn; auto. by rewrite putc_eq.
        -- intros Hy. eapply (stage_other s); eauto. intros Lu. cbn. rewrite putc_ne by (by eapply Oth). auto.
      * intros o u Hu. destruct (iv_holder _ _ _ I _ _ Hu) as (y & A & B). rewrite (lookup_to (with_val _ _ s)) by done. cbn [as_thr with_val].
        destruct (decide (u = t)) as [->|Ne]; [|eauto]. eexists. split; [done|]. cbn. congruence.
      * intros u Hu. cbn. rewrite insert_length. by apply (iv_begun _ _ _ I).
  - (* it returns *)
    rewrite Cu in St. destruct (existsb _ _) eqn:Ex; [done|]. injection St as <-. exists h, f.
    constructor; cbn [as_thr as_val as_lock as_log]; try apply I.
    + intros u r Hu. apply elem_of_app in Hu as [Hu|Hu]; [by apply I|]. apply elem_of_list_singleton in Hu. injection Hu as -> ->. eauto.
    + intros h1 e1 h2 e' E M B. apply ended_before_snoc_end in B. by eapply (iv_order _ _ _ I).
    + intros u y Hy. destruct (decide (u = t)) as [->|Ne].
      * rewrite Hx in Hy. injection Hy as <-. by apply (st_done _ _ _ _ _ e).
      * destruct (iv_stage _ _ _ I u y Hy) as [A B C D|e' A B K C D E|e' A B C D].
        -- apply st_pending; auto. intros r Hr. cbn in Hr. apply elem_of_app in Hr as [Hr|Hr]; [by apply (D r)|]. apply elem_of_list_singleton in Hr. congruence.
        -- eapply st_inside; eauto. intros r Hr. cbn in Hr. apply elem_of_app in Hr as [Hr|Hr]; [by apply (E r)|]. apply elem_of_list_singleton in Hr. congruence.
        -- eapply st_done; eauto.
    + intros u Hu. apply elem_of_app in Hu as [Hu|Hu]; [by apply I|]. by apply elem_of_list_singleton in Hu.
Qed.

Lemma inv_run ls s h f s' : inv s h f -> arun body s ls = Some s' -> exists h' f', inv s' h' f'.
Proof.
  revert s h f. induction ls as [|l ls IH]; cbn; intros s h f I R; [injection R as <-; eauto|].
  destruct (astep body s l) as [s1|] eqn:E; [cbn in R|done].
  destruct (inv_step _ _ _ _ _ I E) as (h1 & f1 & I1). by eapply IH.
Qed.
Theorem lin_run ls s : arun body (a_init m_new) ls = Some s -> linearizable m s.
Proof. intros R. destruct (inv_run _ _ _ _ _ inv_init R) as (h & f & I). exists h, f. by apply inv_explains. Qed.

(** ** No race, no bad unlock, no deadlock *)
Lemma pend_not_plain c q p : pend lk c q p -> ~ plain p.
Proof. destruct p; cbn; tauto. Qed.
Lemma inv_race s h f : inv s h f -> ~ race s.
Proof.
  intros I (t & u & x & y & Ne & Hx & Hy & Eo & Pl & Ac).
  destruct (iv_stage _ _ _ I t x Hx) as [_ _ Pe _|e He Et K HL In _|e _ _ _ Cu].
  - by apply pend_not_plain in Pe.
  - destruct (iv_stage _ _ _ I u y Hy) as [_ _ Pe _|e' _ _ _ HL' _ _|e' _ _ _ Cu].
    + destruct (at_cur y); cbn in Pe, Ac; try done. destruct Pe; congruence.
    + congruence.
    + by rewrite Cu in Ac.
  - by rewrite Cu in Pl.
Qed.
Lemma inv_unlock s h f : inv s h f -> ~ bad_unlock s.
Proof.
  intros I (t & x & k & Hx & Cu & NL).
  destruct (iv_stage _ _ _ I t x Hx) as [_ _ Pe _|e He Et K HL In _|e _ _ _ Cu']; [|done|congruence].
  by rewrite Cu in Pe.
Qed.
Lemma inside_go s t x : as_thr s !! t = Some x -> (exists v, inside (at_cur x) (as_val s (at_obj x)) = Some v) -> is_Some (astep body s (LGo t)).
Proof. intros H [v Hv]. cbn. rewrite H. cbn. destruct (at_cur x); cbn in Hv; try done; eauto. Qed.
Lemma inv_go s h f : inv s h f -> ~ all_ended s -> exists t, is_Some (astep body s (LGo t)).
Proof.
  intros I NA.
  assert (Ex : exists t, (t < length (as_thr s))%nat /\ forall r, AEnd t r ∉ as_log s).
  { unfold all_ended in NA.
    assert (D : forall (l : list (aevent (S:=S))) t, (exists r, AEnd t r ∈ l) \/ (forall r, AEnd t r ∉ l)).
    { intros l t. induction l as [|a l IH]; [right; intros r Hr; by apply elem_of_nil in Hr|].
      destruct IH as [IH|IH]; [left; destruct IH as [r Hr]; exists r; apply elem_of_cons; by right|].
      destruct a as [u|u r]; [right; intros r' Hr; apply elem_of_cons in Hr as [Hr|Hr]; [done|by apply (IH r')]|].
      destruct (decide (u = t)) as [->|Ne]; [left; exists r; apply elem_of_cons; by left|].
      right. intros r' Hr. apply elem_of_cons in Hr as [Hr|Hr]; [congruence|by apply (IH r')]. }
    assert (G : forall n, (forall t, (t < n)%nat -> exists r, AEnd t r ∈ as_log s) \/ exists t, (t < n)%nat /\ forall r, AEnd t r ∉ as_log s).
    { induction n as [|n [IH|(t & A & B)]]; [left; intros; lia| |right; exists t; split; [lia|done]].
      destruct (D (as_log s) n) as [Y|No]; [left|right; exists n; split; [lia|done]].
      intros t Ht. destruct (decide (t = n)) as [->|]; [done|]. apply IH. lia. }
    by destruct (G (length (as_thr s))) as [Y|No]. }
  destruct Ex as (t & Lt & NE). destruct (lookup_lt_is_Some_2 _ _ Lt) as [x Hx].
  assert (Blocked : forall u y, as_thr s !! u = Some y -> as_lock s (at_obj y) = Some u -> is_Some (astep body s (LGo u))).
  { intros u y Hy HL. destruct (iv_stage _ _ _ I u y Hy) as [_ NL _ _|e He Et K _ In _|e _ _ NL _]; try done. eapply inside_go; eauto. }
  destruct (iv_stage _ _ _ I t x Hx) as [_ _ Pe _|e He Et K HL In _|e _ _ _ Cu].
  - destruct (at_cur x) as [k|k|X get k|set k|X g k|k| |r] eqn:Cur; cbn in Pe; try done; try (exists t; cbn; rewrite Hx; cbn; rewrite Cur; by eauto).
    destruct (as_lock s (at_obj x)) as [u|] eqn:HL.
    + destruct (iv_holder _ _ _ I _ _ HL) as (y & Hy & Eo). exists u. eapply Blocked; eauto. congruence.
    + exists t. cbn. rewrite Hx. cbn. rewrite Cur, HL. eauto.
  - exists t. eapply Blocked; eauto.
  - exists t. cbn. rewrite Hx. cbn. rewrite Cu.
    destruct (existsb _ _) eqn:Ex; [|eauto]. exfalso. apply existsb_exists in Ex as (a & Ha & Eb). destruct a as [|u r]; [done|].
    apply Nat.eqb_eq in Eb as <-. apply (NE r). by apply elem_of_list_In.
Qed.
End lin.
