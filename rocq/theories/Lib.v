(** Lemmas about sums over lists, used by the proofs. *)
From Coq Require Import ZArith Lia.
From stdpp Require Import base list gmultiset.
From Verif Require Import Base.
Local Open Scope Z_scope.

Section msum.
Context {M : cmon}.
Implicit Types a : M.

Lemma mop_unit_r a : mop a mu = a.
Proof. rewrite mop_comm. apply mop_unit. Qed.
Lemma mop_swap a (b x : M) : mop a (mop b x) = mop b (mop a x).
Proof. rewrite !mop_assoc. f_equal. apply mop_comm. Qed.

Lemma msum_app {X} (f : X -> M) l k : msum f (l ++ k) = mop (msum f l) (msum f k).
Proof.
  induction l as [|x l IH]; cbn; [by rewrite mop_unit|]. by rewrite IH, mop_assoc.
Qed.
Lemma msum_ext {X} (f g : X -> M) l : (forall x, x ∈ l -> f x = g x) -> msum f l = msum g l.
Proof.
  induction l as [|x l IH]; cbn; intros H; [done|].
  rewrite (H x) by left. f_equal. apply IH. intros y Hy. apply H. by right.
Qed.
Lemma msum_unit {X} (f : X -> M) l : (forall x, x ∈ l -> f x = mu) -> msum f l = mu.
Proof.
  induction l as [|x l IH]; cbn; intros H; [done|].
  rewrite (H x) by left. rewrite mop_unit. apply IH. intros y Hy. apply H. by right.
Qed.
Lemma msum_delete {X} (f : X -> M) l i x :
  l !! i = Some x -> msum f l = mop (f x) (msum f (delete i l)).
Proof.
  revert i. induction l as [|y l IH]; intros [|i] H; try done; cbn in *.
  - by inversion H.
  - change (delete (S i) (y :: l)) with (y :: delete i l). cbn.
    rewrite (IH i H). apply mop_swap.
Qed.
Lemma msum_insert {X} (f : X -> M) l i x y :
  l !! i = Some x -> msum f (<[i:=y]> l) = mop (f y) (msum f (delete i l)).
Proof.
  revert i. induction l as [|z l IH]; intros [|i] H; try done.
  change (delete (S i) (z :: l)) with (z :: delete i l).
  change (<[S i:=y]> (z :: l)) with (z :: <[i:=y]> l). cbn [msum].
  rewrite (IH i H). apply mop_swap.
Qed.
Lemma msum_insert_same {X} (f : X -> M) l i x y :
  l !! i = Some x -> f y = f x -> msum f (<[i:=y]> l) = msum f l.
Proof. intros H E. rewrite (msum_insert _ _ _ _ _ H), (msum_delete _ _ _ _ H). by rewrite E. Qed.
Lemma only_mop (b : bool) (x y : M) : only b (mop x y) = mop (only b x) (only b y).
Proof. destruct b; cbn; [done|]. by rewrite mop_unit. Qed.
Lemma only_mu (b : bool) : only b (mu : M) = mu.
Proof. by destruct b. Qed.
Lemma msum_perm {X} (f : X -> M) l k : l ≡ₚ k -> msum f l = msum f k.
Proof.
  induction 1; cbn; [done| by f_equal | apply mop_swap | by etransitivity].
Qed.
End msum.

(** Integer sums. *)
Fixpoint zsum {X} (f : X -> Z) (l : list X) : Z :=
  match l with [] => 0 | x :: l => f x + zsum f l end.

Lemma zsum_app {X} (f : X -> Z) l k : zsum f (l ++ k) = zsum f l + zsum f k.
Proof. induction l; cbn; lia. Qed.
Lemma zsum_insert {X} (f : X -> Z) l i x y :
  l !! i = Some x -> zsum f (<[i:=y]> l) = zsum f l - f x + f y.
Proof.
  revert i. induction l as [|z l IH]; intros [|i] H; try done.
  - inversion H; subst. cbn. lia.
  - change (<[S i:=y]> (z :: l)) with (z :: <[i:=y]> l). cbn [zsum].
    rewrite (IH i H). lia.
Qed.
Lemma zsum_ext {X} (f g : X -> Z) l : (forall x, x ∈ l -> f x = g x) -> zsum f l = zsum g l.
Proof.
  induction l as [|x l IH]; cbn; intros H; [done|].
  rewrite (H x) by left. f_equal. apply IH. intros y Hy. apply H. by right.
Qed.
Lemma zsum_nonneg {X} (f : X -> Z) l : (forall x, x ∈ l -> 0 <= f x) -> 0 <= zsum f l.
Proof.
  induction l as [|x l IH]; cbn; intros H; [done|].
  assert (0 <= f x) by (apply H; left). assert (0 <= zsum f l); [|lia].
  apply IH. intros y Hy. apply H. by right.
Qed.
Lemma zsum_le {X} (f g : X -> Z) l : (forall x, x ∈ l -> f x <= g x) -> zsum f l <= zsum g l.
Proof.
  induction l as [|x l IH]; cbn; intros H; [done|].
  assert (f x <= g x) by (apply H; left). assert (zsum f l <= zsum g l); [|lia].
  apply IH. intros y Hy. apply H. by right.
Qed.
Lemma zsum_elem {X} (f : X -> Z) l i x :
  (forall y, 0 <= f y) -> l !! i = Some x -> f x <= zsum f l.
Proof.
  intros Hf. revert i. induction l as [|z l IH]; intros [|i] H; try done; cbn in *.
  - inversion H; subst. pose proof (zsum_nonneg f l (fun y _ => Hf y)). lia.
  - specialize (IH i H). specialize (Hf z). lia.
Qed.
Lemma zsum_zero {X} (f : X -> Z) l :
  (forall y, 0 <= f y) -> zsum f l = 0 -> forall x, x ∈ l -> f x = 0.
Proof.
  intros Hf. induction l as [|z l IH]; cbn; intros H x Hx; [by apply elem_of_nil in Hx|].
  pose proof (zsum_nonneg f l (fun y _ => Hf y)). pose proof (Hf z).
  apply elem_of_cons in Hx as [->|Hx]; [lia|]. apply IH; [lia|done].
Qed.
Lemma zsum_pos {X} (f : X -> Z) l :
  0 < zsum f l -> exists i x, l !! i = Some x /\ 0 < f x.
Proof.
  induction l as [|z l IH]; cbn; intros H; [lia|].
  destruct (Z.ltb_spec 0 (f z)); [by exists 0%nat, z|].
  destruct IH as (i & x & ? & ?); [lia|]. by exists (S i), x.
Qed.

(** Sums with the position known to the summand. *)
Fixpoint isum_from {X} (f : nat -> X -> Z) (n : nat) (l : list X) : Z :=
  match l with [] => 0 | x :: l => f n x + isum_from f (S n) l end.
Definition isum {X} (f : nat -> X -> Z) (l : list X) : Z := isum_from f 0 l.

Lemma isum_from_change {X} (f g : nat -> X -> Z) n l i x y :
  l !! i = Some x ->
  (forall j z, j <> i -> l !! j = Some z -> g (n + j)%nat z = f (n + j)%nat z) ->
  isum_from g n (<[i:=y]> l) = isum_from f n l - f (n + i)%nat x + g (n + i)%nat y.
Proof.
  revert n i. induction l as [|z l IH]; intros n [|i] H E; try done;
    [change (<[0%nat:=y]> (z :: l)) with (y :: l)
    |change (<[S i:=y]> (z :: l)) with (z :: <[i:=y]> l)]; cbn [isum_from].
  - inversion H; subst. rewrite !Nat.add_0_r.
    assert (isum_from g (S n) l = isum_from f (S n) l) as ->; [|lia].
    clear IH H. assert (forall j z, l !! j = Some z -> g (S n + j)%nat z = f (S n + j)%nat z) as E'.
    { intros j z Hj. specialize (E (S j) z). rewrite Nat.add_succ_r in E. by apply E. }
    clear E. revert n E'. induction l as [|w l IH]; intros n E'; cbn; [done|].
    rewrite IH.
    + specialize (E' 0%nat w eq_refl). rewrite Nat.add_0_r in E'. by rewrite E'.
    + intros j z Hj. specialize (E' (S j) z Hj). by rewrite Nat.add_succ_r in E'.
  - rewrite (IH (S n) i H).
    + rewrite !Nat.add_succ_r. specialize (E 0%nat z). rewrite Nat.add_0_r in E.
      rewrite E by done. cbn. lia.
    + intros j w Hj Hl. specialize (E (S j) w). rewrite !Nat.add_succ_r in E. apply E; [lia|done].
Qed.
Lemma isum_change {X} (f g : nat -> X -> Z) l i x y :
  l !! i = Some x ->
  (forall j z, j <> i -> l !! j = Some z -> g j z = f j z) ->
  isum g (<[i:=y]> l) = isum f l - f i x + g i y.
Proof. intros H E. exact (isum_from_change f g 0 l i x y H E). Qed.
Lemma isum_ext {X} (f g : nat -> X -> Z) l :
  (forall j z, l !! j = Some z -> g j z = f j z) -> isum g l = isum f l.
Proof.
  unfold isum. intros E.
  assert (forall j z, l !! j = Some z -> g (0 + j)%nat z = f (0 + j)%nat z) as E' by done.
  clear E. generalize dependent 0%nat. induction l as [|w l IH]; intros n E'; cbn; [done|].
  rewrite IH.
  - specialize (E' 0%nat w eq_refl). rewrite Nat.add_0_r in E'. by rewrite E'.
  - intros j z Hj. specialize (E' (S j) z Hj). by rewrite Nat.add_succ_r in E'.
Qed.
Lemma isum_from_app {X} (f : nat -> X -> Z) n l k :
  isum_from f n (l ++ k) = isum_from f n l + isum_from f (n + length l) k.
Proof.
  revert n. induction l as [|x l IH]; intros n; cbn; [by rewrite Nat.add_0_r|].
  rewrite IH, Nat.add_succ_r. cbn. lia.
Qed.
Lemma isum_snoc {X} (f : nat -> X -> Z) l x : isum f (l ++ [x]) = isum f l + f (length l) x.
Proof. unfold isum. rewrite isum_from_app. cbn. lia. Qed.
Lemma isum_from_nonneg {X} (f : nat -> X -> Z) n l : (forall j z, 0 <= f j z) -> 0 <= isum_from f n l.
Proof.
  intros H. revert n. induction l as [|x l IH]; intros n; cbn; [lia|].
  specialize (H n x). specialize (IH (S n)). lia.
Qed.
Lemma isum_elem {X} (f : nat -> X -> Z) l i x :
  (forall j z, 0 <= f j z) -> l !! i = Some x -> f i x <= isum f l.
Proof.
  intros Hf. unfold isum.
  assert (forall n i, l !! i = Some x -> f (n + i)%nat x <= isum_from f n l) as H; [|intros; by apply (H 0%nat)].
  induction l as [|z l IH]; intros n [|j] H; try done; cbn in *.
  - inversion H; subst. rewrite Nat.add_0_r. pose proof (isum_from_nonneg f (S n) l Hf). lia.
  - specialize (IH (S n) j H). rewrite Nat.add_succ_r. specialize (Hf n z). cbn in IH. lia.
Qed.

Lemma list_lookup_app_last {X} (l : list X) x : (l ++ [x]) !! length l = Some x.
Proof. by rewrite lookup_app_r, Nat.sub_diag by lia. Qed.
Lemma lookup_snoc {X} (l : list X) x i y :
  (l ++ [x]) !! i = Some y -> l !! i = Some y \/ (i = length l /\ y = x).
Proof.
  intros H. apply lookup_app_Some in H as [H|[H1 H2]]; [by left|right].
  destruct (i - length l)%nat eqn:E; cbn in H2; [|done]. split; [lia|by inversion H2].
Qed.
Lemma lookup_insert_inv {X} (l : list X) i j x y :
  <[i:=x]> l !! j = Some y -> (i = j /\ x = y /\ (i < length l)%nat) \/ (i <> j /\ l !! j = Some y).
Proof.
  intros H. destruct (decide (i = j)) as [<-|Hne].
  - left. assert (i < length l)%nat. { apply lookup_lt_Some in H. by rewrite insert_length in H. }
    rewrite list_lookup_insert in H by done. by inversion H.
  - right. by rewrite list_lookup_insert_ne in H.
Qed.

(** A decision procedure for equations between combinations in a commutative monoid. *)
Inductive mexp := MU | MV (n : nat) | MOP (a b : mexp).
Section mexp.
Context {M : cmon}.
Fixpoint mden (env : list M) (e : mexp) : M :=
  match e with
  | MU => mu
  | MV n => nth n env mu
  | MOP a b => mop (mden env a) (mden env b)
  end.
Fixpoint mflat (e : mexp) : list nat :=
  match e with MU => [] | MV n => [n] | MOP a b => mflat a ++ mflat b end.
Fixpoint mins (n : nat) (l : list nat) : list nat :=
  match l with
  | [] => [n]
  | m :: l' => if Nat.leb n m then n :: l else m :: mins n l'
  end.
Definition msort (l : list nat) : list nat := foldr mins [] l.
Lemma mflat_ok env e : mden env e = msum (fun n => nth n env mu) (mflat e).
Proof.
  induction e as [| |a IHa b IHb]; cbn; [done|by rewrite mop_unit_r|]. rewrite msum_app. by rewrite IHa, IHb.
Qed.
Lemma mins_perm n l : mins n l ≡ₚ n :: l.
Proof.
  induction l as [|m l IH]; cbn; [done|]. destruct (Nat.leb n m); [done|]. rewrite IH. apply perm_swap.
Qed.
Lemma msort_perm l : msort l ≡ₚ l.
Proof. induction l as [|n l IH]; cbn; [done|]. by rewrite mins_perm, IH. Qed.
Lemma mac_ok env e1 e2 : msort (mflat e1) = msort (mflat e2) -> mden env e1 = mden env e2.
Proof.
  intros E. rewrite !mflat_ok. apply msum_perm. by rewrite <- (msort_perm (mflat e1)), E, msort_perm.
Qed.
End mexp.

Ltac mem_idx x l :=
  match l with
  | x :: _ => constr:(Some 0%nat)
  | _ :: ?l' => match mem_idx x l' with Some ?n => constr:(Some (S n)) | None => constr:(@None nat) end
  | _ => constr:(@None nat)
  end.
Ltac mcollect env t :=
  lazymatch t with
  | mop ?a ?b => let env := mcollect env a in mcollect env b
  | mu => env
  | ?x => lazymatch mem_idx x env with Some _ => env | None => constr:(x :: env) end
  end.
Ltac mreify env t :=
  lazymatch t with
  | mop ?a ?b => let a := mreify env a in let b := mreify env b in constr:(MOP a b)
  | mu => constr:(MU)
  | ?x => lazymatch mem_idx x env with Some ?n => constr:(MV n) end
  end.
Ltac mac :=
  lazymatch goal with
  | |- @eq (car ?M) ?a ?b =>
      let env := mcollect (@nil (car M)) a in let env := mcollect env b in
      let ea := mreify env a in let eb := mreify env b in
      change (mden env ea = mden env eb); apply mac_ok; vm_compute; reflexivity
  end.

Lemma filter_none {X} (f : X -> bool) (l : list X) : (forall x, x ∈ l -> f x = false) -> List.filter f l = [].
Proof.
  induction l as [|x l IH]; intros H; cbn; [done|]. rewrite H by left. apply IH. intros y Hy. apply H. by right.
Qed.
