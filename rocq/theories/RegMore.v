(** Histories in which no Unregister overlaps other calls. *)
From Coq Require Import Bool Lia.
From stdpp Require Import base list option.
From Verif Require Import Lib Reg RegSpec RegProofs.

(** The callbacks of a slice. *)
Definition contents (s : rstate) (h : header) : list (option nat) := take (h_len h) (default [] (s_arrays s !! h_arr h)).
Definition there (s : rstate) (r : nat) : Prop := exists b, s_regs s !! r = Some (Registration true b).
Definition holds (s : rstate) (h : header) (P : nat -> Prop) : Prop := exists C, contents s h = Some <$> C /\ NoDup C /\ forall r, r ∈ C <-> P r.
Definition phase (s : rstate) (x : rthread) : Prop :=
  match x with
  | URead r => holds s (s_callbacks s) (there s)
  | UScan r h i => h = s_callbacks s /\ holds s h (there s) /\ forall j, j < i -> element s h j <> Some r
  | UTake r h i => h = s_callbacks s /\ holds s h (there s) /\ i < h_len h /\ element s h i = Some r
  | UPut r h i x => h = s_callbacks s /\ holds s h (there s) /\ i < h_len h /\ element s h i = Some r /\ x = element s h (h_len h - 1)
  | UCut r h => h = s_callbacks s /\ holds s (Header (h_arr h) (h_len h - 1)) (fun q => there s q /\ q <> r)
  | UClear r => holds s (s_callbacks s) (fun q => there s q /\ q <> r)
  | _ => True
  end.
Record rquiet (s : rstate) : Prop := RQuiet {
  rq_one : forall t t' x x', s_threads s !! t = Some x -> s_threads s !! t' = Some x' -> removing x = true -> removing x' = true -> t = t';
  rq_none : existsb removing (s_threads s) = false -> holds s (s_callbacks s) (there s);
  rq_phase : forall t x, s_threads s !! t = Some x -> removing x = true -> phase s x
}.
Lemma existsb_lookup {X} (f : X -> bool) l : existsb f l = true <-> exists t x, l !! t = Some x /\ f x = true.
Proof.
  rewrite List.existsb_exists. split.
  - intros (x & H & Fx). apply elem_of_list_In, elem_of_list_lookup_1 in H as [t H]. by exists t, x.
  - intros (t & x & H & Fx). exists x. split; [by eapply elem_of_list_In, elem_of_list_lookup_2|done].
Qed.
Lemma existsb_none {X} (f : X -> bool) l : existsb f l = false <-> forall t x, l !! t = Some x -> f x = false.
Proof.
  split.
  - intros E t x H. destruct (f x) eqn:Fx; [|done]. assert (existsb f l = true) by (apply existsb_lookup; by exists t, x). congruence.
  - intros H. destruct (existsb f l) eqn:E; [|done]. apply existsb_lookup in E as (t & x & Hx & Fx). by rewrite (H _ _ Hx) in Fx.
Qed.

Lemma element_contents s h i : i < h_len h -> element s h i = default None (contents s h !! i).
Proof.
  intros L. unfold element, contents. rewrite lookup_take by done. destruct (s_arrays s !! h_arr h) as [a|]; [|done]. cbn. by destruct (a !! i) as [[]|].
Qed.
Lemma contents_eq s s' h : s_arrays s' = s_arrays s -> contents s' h = contents s h.
Proof. unfold contents. by intros ->. Qed.
Lemma holds_eq s s' h P Q : s_arrays s' = s_arrays s -> (forall r, P r <-> Q r) -> holds s h P -> holds s' h Q.
Proof. intros A E (C & HC & N & M). exists C. split; [by rewrite (contents_eq s s')|]. split; [done|]. intros r. by rewrite M. Qed.
Lemma element_eq s s' h i : s_arrays s' = s_arrays s -> element s' h i = element s h i.
Proof. unfold element. by intros ->. Qed.
Lemma phase_eq s s' x : s_arrays s' = s_arrays s -> s_callbacks s' = s_callbacks s -> (forall r, there s' r <-> there s r) -> phase s x -> phase s' x.
Proof.
  intros A H T. assert (T' : forall r, there s r <-> there s' r) by (intros r; by rewrite T).
  assert (T2 : forall q r, there s r /\ r <> q <-> there s' r /\ r <> q) by (intros q r; by rewrite T).
  destruct x; cbn; rewrite ?H; try done.
  - by apply holds_eq.
  - intros (-> & B & C). split; [done|]. split; [by eapply holds_eq|]. intros j L. rewrite (element_eq s s') by done. by apply C.
  - intros (-> & B & C & D). split; [done|]. split; [by eapply holds_eq|]. by rewrite (element_eq s s') by done.
  - intros (-> & B & C & D & ->). split; [done|]. split; [by eapply holds_eq|]. by rewrite !(element_eq s s') by done.
  - intros (-> & B). split; [done|]. eapply holds_eq; [done|apply T2|done].
  - intros B. eapply holds_eq; [done|apply T2|done].
Qed.

(** Removal of one element. *)
Lemma swap_out (C : list nat) i r x : NoDup C -> C !! i = Some r -> C !! (length C - 1) = Some x -> take (length C - 1) (<[i := x]> C) ++ [r] ≡ₚ C.
Proof.
  intros N Hi Hx. destruct C as [|y D _] using rev_ind; [done|]. rewrite app_length in *. cbn [length] in *. replace (length D + 1 - 1) with (length D) in * by lia.
  rewrite lookup_app_r in Hx by lia. rewrite Nat.sub_diag in Hx. injection Hx as <-. apply lookup_snoc in Hi as [Hi|[-> ->]].
  - assert (L : i < length D) by (by eapply lookup_lt_Some). rewrite insert_app_l by done. rewrite take_app_alt by (by rewrite insert_length).
    rewrite <- (list_insert_id D i r Hi) at 2. rewrite !(insert_take_drop D i) by done. rewrite <- !app_assoc. apply Permutation_app_head. cbn.
    rewrite <- !Permutation_cons_append. apply perm_swap.
  - rewrite insert_app_r_alt by lia. rewrite take_app_alt by done. done.
Qed.
Section quiet.
Context (grow : nat -> nat).
Notation rstep := (rstep grow).
Notation rrun := (rrun grow).

Lemma there_regs s s' : s_regs s' = s_regs s -> forall r, there s' r <-> there s r.
Proof. unfold there. by intros ->. Qed.

(** A thread other than a remover moves, and nothing else. *)
Lemma frame_quiet s s' t x x' : rquiet s -> s_arrays s' = s_arrays s -> s_callbacks s' = s_callbacks s -> s_regs s' = s_regs s -> s_threads s' = <[t := x']> (s_threads s) ->
  s_threads s !! t = Some x -> removing x = false -> removing x' = false -> rquiet s'.
Proof.
  intros [Q1 Q3 Q4] A H R T Tx Nx Nx'. assert (Lt : t < length (s_threads s)) by (by eapply lookup_lt_Some).
  assert (Q : forall u y, s_threads s' !! u = Some y -> removing y = true -> s_threads s !! u = Some y).
  { intros u y Hy Ry. rewrite T in Hy. apply list_lookup_insert_Some in Hy as [(-> & <- & _)|[_ Hy]]; [congruence|done]. }
  constructor.
  - intros u v y y' Hu Hv Ru Rv. by eapply (Q1 u v y y'); auto.
  - intros E. rewrite H. eapply (holds_eq s); [done|intros r; symmetry; by apply there_regs|]. apply Q3. apply existsb_none. intros u y Hy. destruct (decide (u = t)) as [->|D]; [congruence|].
    rewrite existsb_none in E. apply (E u). rewrite T. by rewrite list_lookup_insert_ne.
  - intros u y Hy Ry. eapply (phase_eq s); [done|done|by apply there_regs|]. exact (Q4 u y (Q u y Hy Ry) Ry).
Qed.
(** The remover moves. *)
Lemma move_quiet s s' t x x' : rquiet s -> s_threads s' = <[t := x']> (s_threads s) -> s_threads s !! t = Some x -> removing x = true -> removing x' = true -> phase s' x' -> rquiet s'.
Proof.
  intros [Q1 Q3 Q4] T Tx Rx Rx' Ph. assert (Lt : t < length (s_threads s)) by (by eapply lookup_lt_Some).
  assert (Q : forall u y, s_threads s' !! u = Some y -> removing y = true -> u = t /\ y = x').
  { intros u y Hy Ry. rewrite T in Hy. apply list_lookup_insert_Some in Hy as [(-> & <- & _)|[D Hy]]; [done|]. destruct D. symmetry. by eapply (Q1 u t). }
  constructor.
  - intros u v y y' Hu Hv Ru Rv. destruct (Q _ _ Hu Ru) as [-> _], (Q _ _ Hv Rv) as [-> _]. done.
  - intros E. rewrite existsb_none in E. rewrite (E t x') in Rx'; [done|]. by rewrite T, list_lookup_insert.
  - intros u y Hy Ry. by destruct (Q _ _ Hy Ry) as [-> ->].
Qed.
Lemma spawn_quiet s s' x : rquiet s -> s_arrays s' = s_arrays s -> s_callbacks s' = s_callbacks s -> s_regs s' = s_regs s -> s_threads s' = s_threads s ++ [x] ->
  removing x = false -> rquiet s'.
Proof.
  intros [Q1 Q3 Q4] A H R T Nx.
  assert (Q : forall u y, s_threads s' !! u = Some y -> removing y = true -> s_threads s !! u = Some y).
  { intros u y Hy Ry. rewrite T in Hy. apply lookup_snoc in Hy as [Hy|[_ ->]]; [done|congruence]. }
  constructor.
  - intros u v y y' Hu Hv Ru Rv. by eapply (Q1 u v y y'); auto.
  - intros E. rewrite H. eapply (holds_eq s); [done|intros r; symmetry; by apply there_regs|]. apply Q3. rewrite existsb_none in *. intros u y Hy. apply (E u). rewrite T. by apply lookup_app_l_Some.
  - intros u y Hy Ry. eapply (phase_eq s); [done|done|by apply there_regs|]. exact (Q4 u y (Q u y Hy Ry) Ry).
Qed.

Lemma append_contents s h x s' h' : rinv s -> h = s_callbacks s -> append_to grow (s_arrays s) h x = (s_arrays s', h') -> contents s' h' = contents s h ++ [Some x].
Proof.
  intros I -> E. destruct (ri_hdr _ I) as (a & A & H1 & _). unfold append_to in E. rewrite A in E. change (default [] (Some a)) with a in E. cbv zeta in E.
  assert (La : h_arr (s_callbacks s) < length (s_arrays s)) by (by eapply lookup_lt_Some). unfold contents. rewrite A. cbn [default from_option].
  destruct (Nat.ltb_spec (h_len (s_callbacks s)) (length a)) as [L|L]; injection E as E <-; rewrite <- E; cbn [h_arr h_len].
  - rewrite list_lookup_insert by done. cbn [default from_option id]. rewrite (take_S_r _ _ (Some x)) by (by apply list_lookup_insert). by rewrite take_insert by lia.
  - rewrite list_lookup_middle by done. cbn [default from_option id].
    match goal with |- take _ (?x ++ ?y :: ?z) = _ => change (x ++ y :: z) with (x ++ ([y] ++ z)) end. rewrite app_assoc. rewrite take_app_alt; [done|]. rewrite app_length, take_length. cbn. lia.
Qed.
Lemma rstep_quiet s a s' : rinv s -> rquiet s -> solo_step s a = true -> rstep s a = Some s' -> rquiet s'.
Proof.
  intros I Q Ap E. pose proof Q as [Q1 Q3 Q4]. destruct a as [|r| |t]; unfold solo_step in Ap; unfold Reg.rstep in E.
  - apply negb_true_iff in Ap. destruct (append_to grow (s_arrays s) (s_callbacks s) (length (s_regs s))) as [arrays' h'] eqn:Ae. injection E as <-. set (s' := RState _ _ _ _ _).
    assert (N : forall t x, s_threads s !! t = Some x -> removing x = false) by (by apply existsb_none).
    constructor.
    + intros t t' x x' Hx _ Rx. cbn in Hx. by rewrite (N _ _ Hx) in Rx.
    + intros _. destruct (Q3 Ap) as (C & HC & Nd & M). exists (C ++ [length (s_regs s)]). cbn [s_callbacks s'].
      assert (D : length (s_regs s) ∉ C) by (intros H; apply M in H as [b H]; apply lookup_lt_Some in H; lia).
      split; [rewrite (append_contents s (s_callbacks s) (length (s_regs s)) s' h' I eq_refl Ae), HC, fmap_app; done|].
      split; [apply NoDup_app; split; [done|]; split; [intros r Hr ->%elem_of_list_singleton; done|apply NoDup_singleton]|].
      intros r. rewrite elem_of_app, elem_of_list_singleton, M. unfold there. cbn [s_regs s']. split.
      * intros [[b H]| ->]; [exists b; by apply lookup_app_l_Some|exists false; by apply list_lookup_middle].
      * intros [b H]. apply lookup_snoc in H as [H|[-> _]]; [left; by exists b|by right].
    + intros t x Hx Rx. cbn in Hx. by rewrite (N _ _ Hx) in Rx.
  - destruct (Nat.ltb r (length (s_regs s))); [|done]. injection E as <-. by eapply (spawn_quiet s).
  - injection E as <-. by eapply (spawn_quiet s).
  - unfold rgo in E. destruct (s_threads s !! t) as [x|] eqn:T; [|done]. assert (Lt : t < length (s_threads s)) by (by eapply lookup_lt_Some).
    pose proof (ri_thr _ I _ _ T) as Ok. destruct x as [r|r|r h i|r h i|r h i y|r h|r|r ok|h i| |]; try done.
    + pose proof Ap as A1. apply negb_true_iff in A1.
      assert (N : forall t x, s_threads s !! t = Some x -> removing x = false) by (by apply existsb_none).
      destruct (s_regs s !! r) as [[[] []]|] eqn:Rg; try done; injection E as <-; [|by eapply (frame_quiet s _ t (UWant r) (UDone r false))].
      assert (Th : forall q, there (to (set_reg s r (Registration true true)) t (URead r)) q <-> there s q).
      { intros q. unfold there. cbn. destruct (decide (q = r)) as [->|D]; [|by rewrite list_lookup_insert_ne]. rewrite list_lookup_insert by (by eapply lookup_lt_Some). rewrite Rg. split; intros _; by eexists. }
      assert (P : forall u y, <[t := URead r]> (s_threads s) !! u = Some y -> removing y = true -> u = t /\ y = URead r).
      { intros u y Hy Ry. apply list_lookup_insert_Some in Hy as [(-> & <- & _)|[_ Hy]]; [done|]. by rewrite (N _ _ Hy) in Ry. }
      constructor; cbn [s_threads to set_reg].
      * intros u v y y' Hu Hv Ru Rv. destruct (P _ _ Hu Ru) as [-> _], (P _ _ Hv Rv) as [-> _]. done.
      * intros F. rewrite existsb_none in F. specialize (F t (URead r)). rewrite list_lookup_insert in F by done. specialize (F eq_refl). done.
      * intros u y Hy Ry. destruct (P _ _ Hy Ry) as [-> ->]. cbn [phase]. eapply (holds_eq s); [done|intros q; symmetry; apply Th|by apply Q3].
    + injection E as <-. eapply (move_quiet s _ t (URead r)); [done|done|done|done|done|]. pose proof (Q4 _ _ T eq_refl) as Ph. cbn in Ph |- *. split; [done|]. split; [done|]. intros j L. lia.
    + injection E as <-. pose proof (Q4 _ _ T eq_refl) as (-> & Ph & Nf). destruct (Nat.ltb_spec i (h_len (s_callbacks s))) as [L|L].
      * destruct (bool_decide _) eqn:B.
        -- apply bool_decide_eq_true in B. by eapply (move_quiet s _ t (UScan r (s_callbacks s) i)).
        -- apply bool_decide_eq_false in B. eapply (move_quiet s _ t (UScan r (s_callbacks s) i)); [done|done|done|done|done|]. cbn. split; [done|]. split; [done|].
           intros j Lj. destruct (decide (j = i)) as [->|D]; [done|apply Nf; lia].
      * exfalso. destruct Ph as (C & HC & Nd & M). assert (Hr : r ∈ C) by (apply M; exists true; eapply (ri_lock _ I); [exact T|done]).
        apply elem_of_list_lookup in Hr as [j Hj]. assert (Lj : j < h_len (s_callbacks s)).
        { assert (j < length (contents s (s_callbacks s))) by (rewrite HC, fmap_length; by eapply lookup_lt_Some). unfold contents in *. rewrite take_length in *. lia. }
        apply (Nf j); [lia|]. rewrite element_contents by done. rewrite HC, list_lookup_fmap, Hj. done.
    + injection E as <-. pose proof (Q4 _ _ T eq_refl) as (-> & Ph & L & El). by eapply (move_quiet s _ t (UTake r (s_callbacks s) i)).
    + injection E as <-. pose proof (Q4 _ _ T eq_refl) as (-> & (C & HC & Nd & M) & L & El & Ey). destruct (ri_hdr _ I) as (a & A & H1 & H2 & H3). rewrite A. change (default [] (Some a)) with a.
      eapply (move_quiet s _ t (UPut r (s_callbacks s) i y)); [done|done|done|done|done|]. cbn [phase]. split; [done|].
      assert (Ea : contents s (s_callbacks s) = take (h_len (s_callbacks s)) a) by (unfold contents; by rewrite A).
      assert (Lc : length C = h_len (s_callbacks s)) by (apply (f_equal length) in HC; rewrite Ea, fmap_length, take_length in HC; lia).
      rewrite element_contents, HC, list_lookup_fmap in El by done. destruct (C !! i) as [r'|] eqn:Ci; [|done]. cbn in El. injection El as ->.
      rewrite element_contents, HC, list_lookup_fmap in Ey by lia. destruct (lookup_lt_is_Some_2 C (h_len (s_callbacks s) - 1)) as [z Z]; [lia|]. rewrite Z in Ey. cbn in Ey. subst y.
      pose proof Z as Z'. rewrite <- Lc in Z'. pose proof (swap_out C i r z Nd Ci Z') as Sw.
      exists (take (length C - 1) (<[i := z]> C)). split; [|split].
      * unfold contents. cbn. rewrite list_lookup_insert by (by eapply lookup_lt_Some). cbn. rewrite fmap_take, list_fmap_insert, <- HC, Ea, Lc.
        apply list_eq. intros j. destruct (decide (j < h_len (s_callbacks s) - 1)) as [Lj|Lj]; [|by rewrite !lookup_take_ge by lia]. rewrite !lookup_take by done.
        destruct (decide (j = i)) as [->|D]; [by rewrite !list_lookup_insert by (rewrite ?take_length; lia)|]. rewrite !list_lookup_insert_ne by done. by rewrite lookup_take by lia.
      * rewrite <- Sw in Nd. apply NoDup_app in Nd. tauto.
      * assert (Nr : r ∉ take (length C - 1) (<[i := z]> C)). { rewrite <- Sw in Nd. apply NoDup_app in Nd as (_ & D & _). intros H. eapply D; [exact H|left]. }
        intros q. change (there s q) with (there s q). transitivity (q ∈ C /\ q <> r); [|by rewrite M]. assert (Mq : q ∈ C <-> q ∈ take (length C - 1) (<[i:=z]> C) \/ q = r) by (rewrite <- elem_of_list_singleton, <- elem_of_app; symmetry; apply (elem_of_Permutation_proper q), Sw). rewrite Mq. split; [intros H; split; [by left|by intros ->]|tauto].
    + injection E as <-. pose proof (Q4 _ _ T eq_refl) as (-> & Ph). eapply (move_quiet s _ t (UCut r (s_callbacks s))); [done|done|done|done|done|]. exact Ph.
    + injection E as <-. pose proof (Q4 _ _ T eq_refl) as Ph. cbn in Ph. pose proof (ri_lock _ I _ _ r T eq_refl) as Rg.
      assert (N : forall u y, <[t := UDone r true]> (s_threads s) !! u = Some y -> removing y = false).
      { intros u y Hy. destruct (removing y) eqn:Ry; [|done]. apply list_lookup_insert_Some in Hy as [(_ & <- & _)|[D Hy]]; [done|]. destruct D. symmetry. by eapply (Q1 u t y (UClear r)). }
      constructor; cbn [s_threads to set_reg say].
      * intros u v y y' Hu _ Ru. by rewrite (N _ _ Hu) in Ru.
      * intros _. cbn [s_callbacks]. eapply (holds_eq s); [done| |exact Ph]. intros q. unfold there. cbn. destruct (decide (q = r)) as [->|D].
        -- rewrite list_lookup_insert by (by eapply lookup_lt_Some). split; [by intros [_ ?]|by intros [b ?]].
        -- rewrite list_lookup_insert_ne by done. split; [by intros [? _]|done].
      * intros u y Hy Ry. by rewrite (N _ _ Hy) in Ry.
    + destruct (Nat.ltb i (h_len h)); [destruct (element s h i)|]; injection E as <-; [by eapply (frame_quiet s _ t (CLoop h i) (CLoop h (S i)))|by eapply (frame_quiet s _ t (CLoop h i) CCrash)|by eapply (frame_quiet s _ t (CLoop h i) CDone)].
Qed.
Lemma rinit_quiet : rquiet rinit.
Proof. constructor; try done. intros _. exists []. split; [done|]. split; [constructor|]. intros r. split; [by intros H%elem_of_nil|by intros [b H]]. Qed.
Lemma rrun_quiet s l s' : rinv s -> rquiet s -> solo grow s l = true -> rrun s l = Some s' -> rquiet s'.
Proof.
  revert s. induction l as [|a l IH]; intros s I Q A E; cbn in E, A; [by injection E as <-|]. apply andb_prop in A as [A1 A2]. destruct (Reg.rstep grow s a) as [s1|] eqn:S; [|done]. cbn in E.
  apply (IH s1); [by eapply rstep_inv|by eapply rstep_quiet|done|done].
Qed.

(** A collection runs the callbacks it found. *)
Definition loop_ok (s : rstate) (t : nat) (C : list nat) : Prop :=
  match s_threads s !! t with
  | Some (CLoop h i) => contents s h = Some <$> C /\ length C = h_len h /\ ran t (s_log s) = take i C /\ h_arr h < length (s_arrays s) /\ (h_arr (s_callbacks s) = h_arr h -> h_len h <= h_len (s_callbacks s))
  | Some CDone => ran t (s_log s) = C
  | _ => False
  end.
Lemma loop_frame s s' t C : s_arrays s' = s_arrays s -> s_callbacks s' = s_callbacks s -> s_threads s' !! t = s_threads s !! t -> ran t (s_log s') = ran t (s_log s) -> loop_ok s t C -> loop_ok s' t C.
Proof. unfold loop_ok, contents. by intros -> -> -> ->. Qed.
(** No Unregister is under way while collection t runs callbacks. *)
Definition lone (s : rstate) (t : nat) : Prop := forall h i, s_threads s !! t = Some (CLoop h i) -> forall u y, s_threads s !! u = Some y -> removing y = false.
Lemma rstep_lone s a s' t : t < length (s_threads s) -> spares_step t s a = true -> rstep s a = Some s' -> lone s t -> lone s' t.
Proof.
  intros Lt Sp E N h i H u y Hy.
  assert (Back : forall h i, s_threads s' !! t = Some (CLoop h i) -> exists h i, s_threads s !! t = Some (CLoop h i)).
  { clear -Lt E. intros h i H. destruct a as [|r| |v]; unfold Reg.rstep in E.
    - destruct (append_to _ _ _ _) as [arrays' h']. injection E as <-. by exists h, i.
    - destruct (Nat.ltb r (length (s_regs s))); [|done]. injection E as <-. cbn in H. rewrite lookup_app_l in H by done. by exists h, i.
    - injection E as <-. cbn in H. rewrite lookup_app_l in H by done. by exists h, i.
    - destruct (decide (v = t)) as [->|D].
      + unfold rgo in E. destruct (s_threads s !! t) as [x|] eqn:T; [|done]. destruct x as [r|r|r h' i'|r h' i'|r h' i' y|r h'|r|r ok|h' i'| |]; try done; try by exists h', i'.
        all: try destruct (s_regs s !! r) as [[[] []]|]; try done; injection E as <-; cbn [s_threads to say set_reg] in H; rewrite list_lookup_insert in H by done; injection H as H; try done.
        all: destruct (Nat.ltb i' (h_len h')); [destruct (bool_decide _)|]; done.
      + exists h, i. rewrite <- H. symmetry. unfold rgo in E. destruct (s_threads s !! v) as [x|] eqn:T; [|done]. destruct x as [r|r|r h' i'|r h' i'|r h' i' y|r h'|r|r ok|h' i'| |]; try done.
        all: try destruct (s_regs s !! r) as [[[] []]|]; try done; try (destruct (Nat.ltb i' (h_len h')); [destruct (element s h' i')|]); injection E as <-; cbn; by rewrite list_lookup_insert_ne. }
  destruct (Back _ _ H) as (h0 & i0 & H0). specialize (N _ _ H0).
  destruct a as [|r| |v]; unfold Reg.rstep in E; unfold spares_step in Sp.
  - destruct (append_to _ _ _ _) as [arrays' h']. injection E as <-. by eapply N.
  - destruct (Nat.ltb r (length (s_regs s))); [|done]. injection E as <-. cbn in Hy. apply lookup_snoc in Hy as [Hy|[_ ->]]; [by eapply N|done].
  - injection E as <-. cbn in Hy. apply lookup_snoc in Hy as [Hy|[_ ->]]; [by eapply N|done].
  - unfold rgo in E. destruct (s_threads s !! v) as [x|] eqn:T; [|done]. rewrite H0 in Sp. pose proof (N _ _ T) as Nx. destruct x as [r|r|r h' i'|r h' i'|r h' i' y'|r h'|r|r ok|h' i'| |]; try done.
    destruct (Nat.ltb i' (h_len h')); [destruct (element s h' i')|]; injection E as <-; cbn in Hy; (apply list_lookup_insert_Some in Hy as [(-> & <- & _)|[_ Hy]]; [done|by eapply N]).
Qed.
Lemma rstep_loop s a s' t C : rinv s -> lone s t -> spares_step t s a = true -> rstep s a = Some s' -> loop_ok s t C -> loop_ok s' t C.
Proof.
  intros I Ln Ap E J. assert (exists x, s_threads s !! t = Some x) as [x Tx] by (unfold loop_ok in J; destruct (s_threads s !! t) as [x|]; [by exists x|done]).
  assert (Lx : t < length (s_threads s)) by (by eapply lookup_lt_Some).
  destruct a as [|r| |u]; unfold spares_step in Ap; unfold Reg.rstep in E.
  - destruct (append_to grow (s_arrays s) (s_callbacks s) (length (s_regs s))) as [arrays' h'] eqn:Ae. injection E as <-. unfold loop_ok in *. cbn [s_threads s_log s_arrays s_callbacks]. rewrite Tx in *.
    rewrite ran_app, app_nil_r. destruct x as [| | | | | | | |h i| |]; try done. destruct J as (J1 & J2 & J3 & J4 & J5). destruct (ri_hdr _ I) as (a & A & H1 & _).
    unfold append_to in Ae. rewrite A in Ae. change (default [] (Some a)) with a in Ae. cbv zeta in Ae. unfold contents in *. cbn [s_arrays] in *.
    destruct (Nat.ltb_spec (h_len (s_callbacks s)) (length a)) as [L|L]; injection Ae as <- <-; cbn [h_arr h_len].
    + rewrite insert_length. assert (La : h_arr (s_callbacks s) < length (s_arrays s)) by (by eapply lookup_lt_Some). split; [|split; [done|split; [done|split; [done|intros D; specialize (J5 D); lia]]]].
      destruct (decide (h_arr (s_callbacks s) = h_arr h)) as [D|D]; [|by rewrite list_lookup_insert_ne by done]. rewrite <- D in *. rewrite A in J1. rewrite list_lookup_insert by done. cbn in J1 |- *.
      rewrite take_insert by (apply J5; done). done.
    + rewrite app_length. cbn. split; [by rewrite lookup_app_l by done|]. split; [done|]. split; [done|]. split; [lia|]. intros D. lia.
  - destruct (Nat.ltb r (length (s_regs s))); [|done]. injection E as <-. eapply (loop_frame s); [done|done| |done|done]. cbn. by rewrite lookup_app_l.
  - injection E as <-. eapply (loop_frame s); [done|done| | |done]; cbn [s_arrays s_callbacks s_regs s_threads s_log say to spawn set_reg]; [by rewrite lookup_app_l|by rewrite ran_app, app_nil_r].
  - unfold rgo in E. destruct (s_threads s !! u) as [y|] eqn:Ty; [|done].
    destruct (decide (u = t)) as [->|D].
    + assert (y = x) as -> by congruence. unfold loop_ok in J. rewrite Tx in J. destruct x as [| | | | | | | |h i| |]; try done. destruct J as (J1 & J2 & J3 & J4 & J5).
      destruct (Nat.ltb_spec i (h_len h)) as [L|L].
      * destruct (lookup_lt_is_Some_2 C i) as [r Hr]; [lia|]. rewrite element_contents, J1, list_lookup_fmap, Hr in E by done. cbn [default from_option fmap option_fmap option_map] in E. injection E as <-.
        unfold loop_ok. cbn [s_threads to say s_log s_arrays s_callbacks]. rewrite list_lookup_insert by done. split; [done|]. split; [done|]. split; [|done].
        rewrite ran_app, J3. cbn. rewrite decide_True by done. by rewrite (take_S_r _ _ r).
      * injection E as <-. unfold loop_ok. cbn [s_threads to say s_log s_arrays s_callbacks]. rewrite list_lookup_insert by done. rewrite ran_app, app_nil_r, J3. apply take_ge. lia.
    + assert (Lu : forall s1, s_threads s1 = s_threads s -> forall z, s_threads (to s1 u z) !! t = s_threads s !! t) by (intros s1 H1 z; cbn; rewrite H1; by apply list_lookup_insert_ne).
      destruct x as [| | | | | | | |h i| |]; try (unfold loop_ok in J; rewrite Tx in J; done).
      * assert (Nr : removing y = false) by (by eapply Ln).
        destruct y as [r|r|r h' i'|r h' i'|r h' i' y|r h'|r|r ok|h' i'| |]; try done.
        -- by rewrite Tx in Ap.
        -- destruct (Nat.ltb i' (h_len h')); [destruct (element s h' i')|]; injection E as <-; (eapply (loop_frame s); [done|done|by apply (Lu s)| |done]); cbn [s_log say to]; [|done|by rewrite ran_app, app_nil_r].
           rewrite ran_app. cbn. rewrite decide_False by done. by rewrite app_nil_r.
      * assert (Th : s_threads s' !! t = Some CDone /\ ran t (s_log s') = ran t (s_log s)); [|unfold loop_ok in *; destruct Th as [-> ->]; by rewrite Tx in J].
        assert (Fin : forall s1 z e, s_threads s1 = s_threads s -> s_log s1 = s_log s -> ran t [e] = [] ->
          (s_threads (to s1 u z) !! t = Some CDone /\ ran t (s_log (to s1 u z)) = ran t (s_log s)) /\ (s_threads (say (to s1 u z) e) !! t = Some CDone /\ ran t (s_log (say (to s1 u z) e)) = ran t (s_log s))).
        { intros s1 z e H1 H2 H3. cbn [s_arrays s_callbacks s_regs s_threads s_log say to spawn set_reg]. rewrite H1, H2, list_lookup_insert_ne, ran_app, H3, app_nil_r by done. done. }
        destruct y as [r|r|r h' i'|r h' i'|r h' i' y|r h'|r|r ok|h' i'| |]; try done.
        -- destruct (s_regs s !! r) as [[[] []]|]; try done; injection E as <-; [eapply proj1; by apply (Fin _ _ (ECollect 0))|eapply proj2; by apply Fin].
        -- injection E as <-. eapply proj1. by apply (Fin s _ (ECollect 0)).
        -- injection E as <-. eapply proj1. by apply (Fin s _ (ECollect 0)).
        -- injection E as <-. eapply proj1. by apply (Fin s _ (ECollect 0)).
        -- injection E as <-. eapply proj1. by apply (Fin _ _ (ECollect 0)).
        -- injection E as <-. eapply proj1. by apply (Fin _ _ (ECollect 0)).
        -- injection E as <-. eapply proj2. by apply Fin.
        -- destruct (Nat.ltb i' (h_len h')); [destruct (element s h' i')|]; injection E as <-; [eapply proj2; apply Fin; [done|done|]|eapply proj1; by apply (Fin s _ (ECollect 0))|eapply proj2; by apply Fin].
           cbn. by rewrite decide_False by done.
Qed.
Lemma loop_in s t C : loop_ok s t C -> t < length (s_threads s).
Proof. unfold loop_ok. destruct (s_threads s !! t) eqn:E; [|done]. intros _. by eapply lookup_lt_Some. Qed.
Lemma rrun_loop s l s' t C : rinv s -> lone s t -> spares grow t s l = true -> rrun s l = Some s' -> loop_ok s t C -> loop_ok s' t C.
Proof.
  revert s. induction l as [|a l IH]; intros s I N A E J; cbn in E, A; [by injection E as <-|]. apply andb_prop in A as [A1 A2]. destruct (Reg.rstep grow s a) as [s1|] eqn:S; [|done]. cbn in E.
  apply (IH s1); [by eapply rstep_inv|by eapply rstep_lone; [eapply loop_in| | |]|done|done|by eapply rstep_loop].
Qed.

(** ** Collections, in every schedule *)
Definition bounded (s : rstate) (t n : nat) : Prop :=
  match s_threads s !! t with
  | Some (CLoop h i) => length (ran t (s_log s)) = i /\ i <= h_len h /\ h_len h <= n
  | Some CDone => length (ran t (s_log s)) <= n
  | _ => False
  end.
Lemma rstep_bounded s a s' t n : rinv s -> bounded s t n -> rstep s a = Some s' -> bounded s' t n.
Proof.
  intros I B E. assert (exists x, s_threads s !! t = Some x) as [x Tx] by (unfold bounded in B; destruct (s_threads s !! t) as [x|]; [by exists x|done]).
  assert (Lx : t < length (s_threads s)) by (by eapply lookup_lt_Some).
  assert (Fr : s_threads s' !! t = s_threads s !! t -> ran t (s_log s') = ran t (s_log s) -> bounded s' t n) by (intros H1 H2; unfold bounded; by rewrite H1, H2).
  destruct a as [|r| |u]; unfold Reg.rstep in E.
  - destruct (append_to _ _ _ _) as [arrays' h']. injection E as <-. apply Fr; cbn [s_threads s_log]; [done|by rewrite ran_app, app_nil_r].
  - destruct (Nat.ltb r (length (s_regs s))); [|done]. injection E as <-. apply Fr; cbn [s_threads s_log spawn]; [by rewrite lookup_app_l|done].
  - injection E as <-. apply Fr; cbn [s_threads s_log spawn say]; [by rewrite lookup_app_l|by rewrite ran_app, app_nil_r].
  - unfold rgo in E. destruct (s_threads s !! u) as [y|] eqn:Ty; [|done]. destruct (decide (u = t)) as [->|D].
    + assert (y = x) as -> by congruence. unfold bounded in B. rewrite Tx in B. destruct x as [| | | | | | | |h i| |]; try done. destruct B as (B1 & B2 & B3).
      destruct (ri_thr _ I _ _ Tx) as [Ok _].
      destruct (Nat.ltb_spec i (h_len h)) as [L|L].
      * destruct (element_good s _ h i Ok L) as (r & El & _). rewrite El in E. injection E as <-. unfold bounded. cbn [s_threads say to s_log]. rewrite list_lookup_insert by done.
        rewrite ran_app, app_length. cbn. rewrite decide_True by done. cbn. lia.
      * injection E as <-. unfold bounded. cbn [s_threads say to s_log]. rewrite list_lookup_insert by done. rewrite ran_app, app_nil_r. lia.
    + assert (Fin : forall s1 z, s_threads s1 = s_threads s -> s_threads (to s1 u z) !! t = s_threads s !! t) by (intros s1 z H; cbn; rewrite H; by apply list_lookup_insert_ne).
      destruct y as [r|r|r h' i'|r h' i'|r h' i' y|r h'|r|r ok|h' i'| |]; try done; try (injection E as <-; apply Fr; [by apply Fin|done]).
      * destruct (s_regs s !! r) as [[[] []]|]; try done; injection E as <-; apply Fr; cbn [s_threads s_log say to set_reg]; first [done|by apply list_lookup_insert_ne|by rewrite ran_app, app_nil_r].
      * injection E as <-. apply Fr; [cbn; by apply list_lookup_insert_ne|cbn [s_log say to set_reg]; by rewrite ran_app, app_nil_r].
      * destruct (Nat.ltb i' (h_len h')); [destruct (element s h' i')|]; injection E as <-; apply Fr; try (cbn [s_threads say to]; by apply list_lookup_insert_ne); cbn [s_log say to]; [|done|by rewrite ran_app, app_nil_r].
        rewrite ran_app. cbn. rewrite decide_False by done. by rewrite app_nil_r.
Qed.
Lemma rrun_bounded s l s' t n : rinv s -> bounded s t n -> rrun s l = Some s' -> bounded s' t n.
Proof.
  revert s. induction l as [|a l IH]; intros s I B E; cbn in E; [by injection E as <-|]. destruct (Reg.rstep grow s a) as [s1|] eqn:S; [|done]. cbn in E.
  apply (IH s1); [by eapply rstep_inv|by eapply rstep_bounded|done].
Qed.
(** A collection that has been logged as done is done. *)
Definition closed (s : rstate) : Prop := forall t, ECollected t ∈ s_log s -> s_threads s !! t = Some CDone.
Lemma rstep_closed s a s' : closed s -> rstep s a = Some s' -> closed s'.
Proof.
  intros K E t H.
  assert (Fin : forall s1 u z, s_threads s1 = s_threads s -> ECollected t ∈ s_log s -> (exists x, s_threads s !! u = Some x /\ x <> CDone) -> s_threads (to s1 u z) !! t = Some CDone).
  { intros s1 u z H1 H2 (x & Hx & Nx). cbn. rewrite H1. apply K in H2. rewrite list_lookup_insert_ne; [done|]. intros ->. congruence. }
  destruct a as [|r| |u]; unfold Reg.rstep in E.
  - destruct (append_to _ _ _ _) as [arrays' h']. injection E as <-. cbn in H |- *. apply elem_of_app in H as [H|H%elem_of_list_singleton]; [by apply K|done].
  - destruct (Nat.ltb r (length (s_regs s))); [|done]. injection E as <-. cbn in H |- *. by apply lookup_app_l_Some, K.
  - injection E as <-. cbn in H |- *. apply elem_of_app in H as [H|H%elem_of_list_singleton]; [by apply lookup_app_l_Some, K|done].
  - unfold rgo in E. destruct (s_threads s !! u) as [y|] eqn:Ty; [|done]. assert (Lu : u < length (s_threads s)) by (by eapply lookup_lt_Some).
    destruct y as [r|r|r h' i'|r h' i'|r h' i' y|r h'|r|r ok|h' i'| |]; try done; try (injection E as <-; apply Fin; [done|done|by eexists]).
    + destruct (s_regs s !! r) as [[[] []]|]; try done; injection E as <-; [apply (Fin (set_reg s r (Registration true true))); [done|done|by eexists]|].
      cbn in H. apply elem_of_app in H as [H|H%elem_of_list_singleton]; [|done]. apply (Fin s); [done|done|by eexists].
    + injection E as <-. cbn in H. apply elem_of_app in H as [H|H%elem_of_list_singleton]; [|done]. apply (Fin (set_reg s r (Registration false false))); [done|done|by eexists].
    + destruct (Nat.ltb i' (h_len h')); [destruct (element s h' i')|]; injection E as <-; cbn in H.
      * apply elem_of_app in H as [H|H%elem_of_list_singleton]; [|done]. apply (Fin s); [done|done|by eexists].
      * apply (Fin s); [done|done|by eexists].
      * apply elem_of_app in H as [H|H%elem_of_list_singleton]; [apply (Fin s); [done|done|by eexists]|]. injection H as ->. cbn. by apply list_lookup_insert.
Qed.
Lemma rrun_closed s l s' : closed s -> rrun s l = Some s' -> closed s'.
Proof.
  revert s. induction l as [|a l IH]; intros s K E; cbn in E; [by injection E as <-|]. destruct (Reg.rstep grow s a) as [s1|] eqn:S; [|done]. cbn in E.
  apply (IH s1); [by eapply rstep_closed|done].
Qed.

(** ** Goroutines return *)
Definition steps_of (n : nat) (x : rthread) : nat :=
  match x with
  | UWant _ => n + 7 | URead _ => n + 6 | UScan _ h i => (h_len h - i) + 5 | UTake _ _ _ => 4 | UPut _ _ _ _ => 3 | UCut _ _ => 2 | UClear _ => 1
  | CLoop h i => (h_len h - i) + 1
  | _ => 0
  end.
Definition steps_left (n : nat) (l : list rthread) : nat := list_sum (map (steps_of n) l).
Lemma steps_left_insert n l t x x' : l !! t = Some x -> steps_of n x' < steps_of n x -> steps_left n (<[t := x']> l) < steps_left n l.
Proof.
  revert t. induction l as [|y l IH]; intros [|t] H L; try done.
  - injection H as ->. change (steps_of n x' + steps_left n l < steps_of n x + steps_left n l). lia.
  - specialize (IH _ H L). change (steps_of n y + steps_left n (<[t := x']> l) < steps_of n y + steps_left n l). lia.
Qed.
Lemma rgo_steps s t s' : rinv s -> rstep s (AGo t) = Some s' -> length (s_regs s') = length (s_regs s) /\ length (s_threads s') = length (s_threads s) /\ steps_left (length (s_regs s)) (s_threads s') < steps_left (length (s_regs s)) (s_threads s).
Proof.
  intros I E. cbn in E. unfold rgo in E. destruct (s_threads s !! t) as [y|] eqn:Ty; [|done]. pose proof (ri_thr _ I _ _ Ty) as Ok. destruct (ri_hdr _ I) as (a & _ & _ & Hl & _).
  destruct y as [r|r|r h' i'|r h' i'|r h' i' y|r h'|r|r ok|h' i'| |]; try done.
  - destruct (s_regs s !! r) as [[[] []]|]; try done; injection E as <-; cbn; rewrite ?insert_length; (split; [done|]; split; [done|]); (eapply steps_left_insert; [done|cbn; lia]).
  - injection E as <-. cbn. rewrite insert_length. split; [done|]. split; [done|]. eapply steps_left_insert; [done|cbn; lia].
  - injection E as <-. cbn [to s_regs s_threads]. rewrite insert_length. split; [done|]. split; [done|]. eapply steps_left_insert; [done|]. destruct (Nat.ltb_spec i' (h_len h')) as [L|L]; [destruct (bool_decide _)|]; cbn; lia.
  - injection E as <-. cbn. rewrite insert_length. split; [done|]. split; [done|]. eapply steps_left_insert; [done|cbn; lia].
  - injection E as <-. cbn. rewrite insert_length. split; [done|]. split; [done|]. eapply steps_left_insert; [done|cbn; lia].
  - injection E as <-. cbn. rewrite insert_length. split; [done|]. split; [done|]. eapply steps_left_insert; [done|cbn; lia].
  - injection E as <-. cbn. rewrite !insert_length. split; [done|]. split; [done|]. eapply steps_left_insert; [done|cbn; lia].
  - destruct (Nat.ltb_spec i' (h_len h')) as [L|L]; [destruct (element s h' i')|]; injection E as <-; cbn; rewrite ?insert_length; (split; [done|]; split; [done|]); (eapply steps_left_insert; [done|cbn; lia]).
Qed.
Lemma rgo_unfinished s t x : rinv s -> s_threads s !! t = Some x -> finished x = false -> exists t' s', rstep s (AGo t') = Some s' /\ (t' = t \/ exists r y, x = UWant r /\ s_threads s !! t' = Some y /\ remover y = Some r).
Proof.
  intros I T F. assert (Rm : forall u y r, s_threads s !! u = Some y -> remover y = Some r -> exists s', rstep s (AGo u) = Some s').
  { intros u y r Hy R. cbn. unfold rgo. rewrite Hy. destruct y; try done; by eexists. }
  destruct x as [r|r|r h' i'|r h' i'|r h' i' y|r h'|r|r ok|h' i'| |]; try done; try (destruct (Rm _ _ _ T eq_refl) as [s' E]; exists t, s'; split; [done|by left]).
  - destruct (s_regs s !! r) as [[[] []]|] eqn:Rg.
    + destruct (ri_held _ I _ Rg) as (u & y & Hy & R). destruct (Rm _ _ _ Hy R) as [s' E]. exists u, s'. split; [done|]. right. by exists r, y.
    + exists t. eexists. split; [cbn; unfold rgo; rewrite T, Rg; done|by left].
    + by destruct (ri_free _ I r).
    + exists t. eexists. split; [cbn; unfold rgo; rewrite T, Rg; done|by left].
    + pose proof (ri_thr _ I _ _ T) as Ok. cbn in Ok. apply lookup_ge_None in Rg. lia.
  - exists t. destruct (Nat.ltb i' (h_len h')) eqn:L; [destruct (element s h' i') eqn:El|]; eexists; (split; [cbn; unfold rgo; rewrite T, L, ?El; done|by left]).
  - by destruct (ri_thr _ I _ _ T).
Qed.
End quiet.
