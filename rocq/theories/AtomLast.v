(** A gauge read after an update reports that update, when no other call can come between. *)
From Coq Require Import ZArith Bool Lia.
From stdpp Require Import base list option sets.
From Verif Require Import Num Agg Atom AtomSpec AtomProofs AtomMore.
Local Open Scope Z_scope.

Section serial.
Context {N : Type} (m : methods N).
Notation S := (sto m).
Lemma serial_split h1 h2 f : serial m (h1 ++ h2) f -> exists f1, serial m h1 f1.
Proof.
  revert f. induction h2 as [|e h2 IH] using rev_ind; intros f H; [rewrite app_nil_r in H; eauto|].
  rewrite app_assoc in H. inversion H as [E|h f0 e' v Hs SC E].
  - by destruct (h1 ++ h2).
  - apply app_inj_tail in E as [-> ->]. eauto.
Qed.
Lemma serial_last h e f : serial m (h ++ [e]) f -> exists f0, serial m h f0 /\ seq_call m (e_seq e) (e_call e) (f0 (e_obj e)) = (f (e_obj e), e_res e) /\ forall o, o <> e_obj e -> f o = f0 o.
Proof.
  intros H. inversion H as [E|h' f0 e' v Hs SC E]; [by destruct h|].
  apply app_inj_tail in E as [-> ->]. exists f0. split; [done|]. rewrite decide_True by done. split; [done|]. intros o Ne. by rewrite decide_False.
Qed.
(** Calls that leave Storage [o] as it is. *)
Lemma serial_keeps (Q : S -> Prop) h1 h2 f o :
  (forall f1, serial m h1 f1 -> Q (f1 o)) -> (forall e, e ∈ h2 -> e_obj e = o -> e_call e = CCopy) -> serial m (h1 ++ h2) f -> Q (f o).
Proof.
  intros Q1 K. revert f. induction h2 as [|e h2 IH] using rev_ind; intros f H; [rewrite app_nil_r in H; by apply Q1|].
  rewrite app_assoc in H. apply serial_last in H as (f0 & H0 & SC & Ot).
  assert (Q0 : Q (f0 o)). { apply IH; [|done]. intros e' He'. apply K. apply elem_of_app. by left. }
  destruct (decide (o = e_obj e)) as [->|Ne]; [|by rewrite Ot].
  rewrite K in SC; [|apply elem_of_app; right; by apply elem_of_list_singleton|done]. cbn in SC. injection SC as <- _. done.
Qed.
End serial.

Lemma before_in {N} (m : methods N) s h f e e' :
  explains m s h f -> e ∈ h -> e' ∈ h -> ended_before (as_log s) (e_thread e) (e_thread e') -> e_thread e <> e_thread e' -> exists h1 h2 h3, h = h1 ++ e :: h2 ++ e' :: h3.
Proof.
  intros X He He' Be Ne. destruct (elem_of_list_split _ _ He) as (h1 & h2 & E). rewrite E in He'. apply elem_of_app in He' as [He'|He'].
  - exfalso. destruct (elem_of_list_split _ _ He') as (g1 & g2 & ->). rewrite <- app_assoc in E. cbn in E.
    apply (ex_order _ _ _ _ X g1 e' (g2 ++ e :: h2) e E); [|done]. apply elem_of_app. right. apply elem_of_cons. by left.
  - apply elem_of_cons in He' as [->|He']; [done|]. destruct (elem_of_list_split _ _ He') as (g1 & g2 & ->). eauto.
Qed.

Lemma gauge_last (N : arith) (s : astate (N:=N) (S:=sto (gauge_methods N))) (h : list (entry N (sto (gauge_methods N)))) f t u o n r xt xu :
  explains (gauge_methods N) s h f -> tickets (as_log s) h ->
  as_thr s !! t = Some xt -> at_obj xt = o -> at_call xt = CUpdate n ->
  as_thr s !! u = Some xu -> at_obj xu = o -> at_call xu = CMove \/ at_call xu = CCopy ->
  (exists r', AEnd t r' ∈ as_log s) -> ended_before (as_log s) t u -> AEnd u r ∈ as_log s ->
  (forall v y, v <> t -> v <> u -> as_thr s !! v = Some y -> at_obj y = o -> at_call y <> CCopy -> ended_before (as_log s) v t \/ ended_before (as_log s) u v) ->
  exists g, r = Some g /\ gauge_report g = n.
Proof.
  intros X T Ht Eo Ec Hu Eo' Ec' [r' Hr'] Be Hr Oth.
  destruct (ex_ended _ _ _ _ X _ _ Hr') as (et & He & Et & Er). destruct (ex_ended _ _ _ _ X _ _ Hr) as (eu & He' & Et' & Er').
  assert (Ne : t <> u). { intros ->. rewrite Hu in Ht. injection Ht as <-. destruct Ec' as [E|E]; rewrite E in Ec; done. }
  destruct (before_in (gauge_methods N) s h f et eu X He He') as (h1 & h2 & h3 & Eh); [by rewrite Et, Et'|congruence|].
  pose proof (ex_made _ _ _ _ X et He) as (x1 & A1 & A2 & A3). rewrite Et, Ht in A1. injection A1 as <-.
  pose proof (ex_made _ _ _ _ X eu He') as (x2 & B1 & B2 & B3). rewrite Et', Hu in B1. injection B1 as <-.
  assert (Nz : e_seq et <> 0). { destruct T as [T _]. assert (2 <= e_seq et); [|lia]. apply (T et n He). congruence. }
  pose proof (ex_serial _ _ _ _ X) as Se. rewrite Eh in Se.
  replace (h1 ++ et :: h2 ++ eu :: h3) with (((h1 ++ [et]) ++ h2 ++ [eu]) ++ h3) in Se by (rewrite <- !app_assoc; done).
  apply serial_split in Se as (f1 & Se). rewrite app_assoc in Se. apply serial_last in Se as (f2 & Se & SC & _).
  assert (Q : (fun g : gauge N => g_value g = n /\ g_seq g <> 0) (f2 o)).
  { apply (serial_keeps (gauge_methods N) (fun g : gauge N => g_value g = n /\ g_seq g <> 0) (h1 ++ [et]) h2 f2 o); [| |exact Se].
    - intros g Sg. apply serial_last in Sg as (g0 & Sg & SC0 & _). rewrite <- A2, <- A3, Eo, Ec in SC0. cbn in SC0. injection SC0 as G _. rewrite <- G. cbn. done.
    - intros e Ein Eobj. destruct (decide (e_thread e = t)) as [E1|N1].
      { exfalso. pose proof (ex_once _ _ _ _ X) as ND. rewrite Eh, fmap_app in ND. cbn in ND. apply NoDup_app in ND as (_ & _ & ND). apply list.NoDup_cons in ND as [ND _].
        apply ND. match goal with |- ?a ∈ _ => change (a ∈ (e_thread <$> (h2 ++ eu :: h3))) end. assert (e_thread et = e_thread e) as G by congruence. match goal with |- ?a ∈ _ => change a with (e_thread et) end. rewrite G, fmap_app. apply elem_of_app. left. by apply elem_of_list_fmap_1. }
      destruct (decide (e_thread e = u)) as [E2|N2].
      { exfalso. pose proof (ex_once _ _ _ _ X) as ND. rewrite Eh, fmap_app in ND. cbn in ND. rewrite fmap_app in ND. cbn in ND.
        apply NoDup_app in ND as (_ & _ & ND). apply list.NoDup_cons in ND as [_ ND]. apply NoDup_app in ND as (_ & ND & _). apply (ND u).
        - rewrite <- E2. by apply elem_of_list_fmap_1.
        - change (u ∈ e_thread eu :: (e_thread <$> h3)). rewrite Et'. apply elem_of_cons. by left. }
      assert (Ein' : e ∈ h). { rewrite Eh. apply elem_of_app. right. apply elem_of_cons. right. apply elem_of_app. by left. }
      destruct (ex_made _ _ _ _ X e Ein') as (y & C1 & C2 & C3).
      destruct (e_call e) as [a| | |a] eqn:Ee; try done; exfalso;
      (destruct (Oth (e_thread e) y N1 N2 C1) as [B|B]; [congruence|by rewrite C3| |]).
      all: try (apply (ex_order _ _ _ _ X h1 et (h2 ++ eu :: h3) e Eh); [apply elem_of_app; by left|by rewrite Et]).
      all: destruct (elem_of_list_split _ _ Ein) as (k1 & k2 & ->).
      all: apply (ex_order _ _ _ _ X (h1 ++ et :: k1) e (k2 ++ eu :: h3) eu);
        [rewrite Eh; rewrite <- !app_assoc; cbn; by rewrite <- ?app_assoc|apply elem_of_app; right; apply elem_of_cons; by left|by rewrite Et']. }
  rewrite Er', <- B2, <- B3, Eo' in SC. destruct Q as [Q1 Q2]. unfold gauge_report.
  destruct Ec' as [E|E]; rewrite E in SC; cbn in SC; injection SC as _ SC; exists (f2 o); (split; [done|]); by rewrite (proj2 (Z.eqb_neq _ _) Q2).
Qed.
