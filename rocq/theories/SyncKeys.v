(** What holds of the attributes of every call, and of the overflow attributes, holds of the series of every point. *)
From Coq Require Import ZArith Lia Bool.
From stdpp Require Import base list option.
From Verif Require Import Base Lib SyncModel SyncInv SyncStep SyncStepB SyncCases SyncRun SyncSpec SyncCall SyncVis SyncLimit.
Local Open Scope Z_scope.

Section keys.
Context {c : config} (P : c_K c -> Prop) (Q : c_key c -> Prop).
Context (Povk : P (c_ovk c)) (Qovk : Q (c_ovkey c)) (PQ : forall v k, P k -> Q (c_vkey c v k)).
Notation st := (state c).
Implicit Types (ls : list (label c)) (s : st).

Definition KT s : Prop :=
  (forall i r, s_recs s !! i = Some r -> P (r_attrs r)) /\
  (forall t o k n, s_thr s !! t = Some (PRead o k n) \/ s_thr s !! t = Some (PWrite o k n) -> P k) /\
  (forall h hd, s_holds s !! h = Some hd -> Q (h_key hd)) /\
  (forall i p, s_out s !! i = Some p -> Q (p_key p)).

Lemma KT_step s t s' : stepR s t s' -> KT s -> KT s'.
Proof.
  intros H (N1 & N2 & N3 & N4).
  destruct (thr_step _ _ _ H) as (p1 & p1' & Ht1 & Et & _).
  split; [|split; [|split]].
  - intros i0 r0 Hr0. stepR_cases H; try (destruct S1 as [->|(?k0 & -> & -> & ?F)]); snorm; try (by eapply N1);
      try (apply lookup_insert_inv in Hr0 as [(<- & <- & _)|(_ & Hr0)]; [cbn|]; by eapply N1).
    apply lookup_snoc in Hr0 as [Hr0|[-> ->]]; [by eapply N1|]. cbn. eapply N2. by right.
  - intros t0 o0 k0 n0.
    assert (X : match p1' with PRead o k n | PWrite o k n => P k | _ => True end).
    { assert (t < length (s_thr s))%nat as Lt by (by eapply lookup_lt_Some).
      assert (s_thr s' !! t = Some p1') as Hp1 by (rewrite Et; by rewrite list_lookup_insert). clear Et.
      stepR_cases H; try (destruct S1 as [->|(?k0 & -> & -> & ?F)]); snorm; rewrite list_lookup_insert in Hp1 by done; inversion Hp1; subst p1'; try done; try (by destruct ph as [[]|]).
      unfold miss_key. destruct (_ <=? _); [done|]. eapply N2. by left. }
    rewrite Et. intros [Hx|Hx]; apply lookup_insert_inv in Hx as [(<- & -> & _)|(_ & Hx)]; try done; eapply N2; [by left|by right].
  - intros h0 hd0 Hh0. stepR_cases H; try (destruct S1 as [->|(?k0 & -> & -> & ?F)]); snorm; try (by eapply N3);
      try (apply lookup_insert_inv in Hh0 as [(<- & <- & _)|(_ & Hh0)]; [cbn|]; by eapply N3).
    assert (K0 : Q k0).
    { destruct (get_or_create_cases _ _ _ _ _ G) as [(k1 & hd1 & Hk & F' & E & _)|(k1 & Hk & E & _)].
      - apply (f_equal s_holds) in E. cbn in E. apply (f_equal length) in E. rewrite app_length in E. cbn in E. lia.
      - apply (f_equal s_holds) in E. cbn in E. apply app_inj_tail in E as [_ E]. injection E as ->.
        destruct Hk as [->| ->]; [apply PQ; by eapply N1|done]. }
    assert (L : forall h x, (s_holds s ++ [Holder v k0 true 0 mu]) !! h = Some x -> Q (h_key x)).
    { intros h x Hx. apply lookup_snoc in Hx as [Hx|[-> ->]]; [by eapply N3|done]. }
    apply lookup_insert_inv in Hh0 as [(<- & <- & _)|(_ & Hh0)]; [cbn|]; by eapply L.
  - intros i0 p0 Hp0. stepR_cases H; try (destruct S1 as [->|(?k0 & -> & -> & ?F)]); snorm; try (by eapply N4);
      apply lookup_snoc in Hp0 as [Hp0|[-> ->]]; try (by eapply N4); cbn; by eapply N3.
Qed.

Lemma keys_run ls s : run (init c) ls = Some s -> (forall o k n, LObserve o k n ∈ ls -> P k) ->
  forall i p, s_out s !! i = Some p -> Q (p_key p).
Proof.
  intros R0 F. enough (KT s) as (_ & _ & _ & N) by exact N. revert F. revert ls s R0.
  apply (run_ind (fun ls s => (forall o k n, LObserve o k n ∈ ls -> P k) -> KT s)).
  - intros _. split_and!; try done. intros t o k n [Hx|Hx]; by inversion Hx.
  - intros ls s o k n _ _ IH _ F. destruct IH as (N1 & N2 & N3 & N4).
    { intros o1 k1 n1 X. eapply F, elem_of_app. left. exact X. }
    split_and!; try done. snorm. intros t o1 k1 n1 [Hx|Hx]; apply lookup_snoc in Hx as [Hx|[-> E]]; try (eapply N2; eauto; fail); [|done].
    injection E as -> -> ->. eapply F, elem_of_app. right. left.
  - intros ls s rd _ _ IH F. destruct IH as (N1 & N2 & N3 & N4).
    { intros o1 k1 n1 X. eapply F, elem_of_app. left. exact X. }
    split_and!; try done. snorm. intros t o1 k1 n1 [Hx|Hx]; apply lookup_snoc in Hx as [Hx|[-> E]]; try (eapply N2; eauto; fail); done.
  - intros ls s t ch s' _ _ _ IH S F. eapply KT_step; [done|]. apply IH. intros o1 k1 n1 X. eapply F, elem_of_app. left. exact X.
Qed.
End keys.
