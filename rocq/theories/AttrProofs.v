(** Proofs about attribute lists. *)
From Coq Require Import ZArith Lia Bool String Ascii.
From stdpp Require Import base list option strings sorting.
From Verif Require Import Base Lib SyncModel Attr.
From Verif Require Export AttrSpec.
Local Open Scope Z_scope.

(** ** The order of strings *)
Lemma N_of_ascii_inj x y : N_of_ascii x = N_of_ascii y -> x = y.
Proof. intros H. rewrite <- (ascii_N_embedding x), <- (ascii_N_embedding y). by rewrite H. Qed.
Lemma str_lt_irrefl a : str_lt a a = false.
Proof. induction a as [|x a IH]; [done|]. cbn. by rewrite N.ltb_irrefl. Qed.
Lemma str_lt_trans a b d : str_lt a b = true -> str_lt b d = true -> str_lt a d = true.
Proof.
  revert b d. induction a as [|x a IH]; intros [|y b] [|z d] H1 H2; cbn in *; try done.
  destruct (N.ltb_spec (N_of_ascii x) (N_of_ascii y)); destruct (N.ltb_spec (N_of_ascii y) (N_of_ascii x)); try done;
  destruct (N.ltb_spec (N_of_ascii y) (N_of_ascii z)); destruct (N.ltb_spec (N_of_ascii z) (N_of_ascii y)); try done;
  destruct (N.ltb_spec (N_of_ascii x) (N_of_ascii z)); destruct (N.ltb_spec (N_of_ascii z) (N_of_ascii x)); try done; try lia.
  by eapply IH.
Qed.
Lemma str_lt_total a b : str_lt a b = true \/ a = b \/ str_lt b a = true.
Proof.
  revert b. induction a as [|x a IH]; intros [|y b]; cbn; auto.
  destruct (N.ltb_spec (N_of_ascii x) (N_of_ascii y)); auto. destruct (N.ltb_spec (N_of_ascii y) (N_of_ascii x)); auto.
  assert (x = y) as -> by (apply N_of_ascii_inj; lia). destruct (IH b) as [|[->|]]; auto.
Qed.
Lemma str_lt_ne a b : str_lt a b = true -> a <> b.
Proof. intros H ->. by rewrite str_lt_irrefl in H. Qed.

(** ** Sets *)
Fixpoint assoc (k : string) (l : list kv) : option value :=
  match l with [] => None | a :: l => if String.eqb a.1 k then Some a.2 else assoc k l end.

Lemma put_elem a b l : b ∈ put a l -> b = a \/ b ∈ l.
Proof.
  induction l as [|x l IH]; cbn; [rewrite elem_of_list_singleton; auto|].
  destruct (String.eqb a.1 x.1); [rewrite !elem_of_cons; tauto|]. destruct (str_lt a.1 x.1); rewrite !elem_of_cons; [tauto|].
  intros [->|H]; [auto|]. destruct (IH H); auto.
Qed.
Lemma put_sorted a l : sorted l -> sorted (put a l).
Proof.
  induction l as [|x l IH]; cbn.
  - intros _. split; [|done]. intros b H. by apply elem_of_nil in H.
  - intros [H1 H2]. destruct (String.eqb_spec a.1 x.1) as [E|E].
    + cbn. split; [|done]. intros b Hb. rewrite E. by apply H1.
    + destruct (str_lt a.1 x.1) eqn:L.
      * cbn. split; [|by split]. intros b Hb. apply elem_of_cons in Hb as [->|Hb]; [done|].
        eapply str_lt_trans; [exact L|by apply H1].
      * cbn. split; [|by apply IH]. intros b Hb. apply put_elem in Hb as [->|Hb]; [|by apply H1].
        destruct (str_lt_total a.1 x.1) as [?|[?|?]]; congruence.
Qed.
Lemma put_assoc a l k : assoc k (put a l) = if String.eqb a.1 k then Some a.2 else assoc k l.
Proof.
  induction l as [|x l IH]; cbn; [done|].
  destruct (String.eqb_spec a.1 x.1) as [E|E].
  - cbn. destruct (String.eqb_spec a.1 k); [done|]. destruct (String.eqb_spec x.1 k); [congruence|done].
  - destruct (str_lt a.1 x.1) eqn:L; cbn; [done|]. rewrite IH.
    destruct (String.eqb_spec x.1 k); [|done]. destruct (String.eqb_spec a.1 k); [congruence|done].
Qed.
Lemma fold_put_spec l s : sorted s ->
  sorted (fold_left (fun s a => put a s) l s) /\
  forall k, assoc k (fold_left (fun s a => put a s) l s) =
            fold_left (fun r (a : kv) => if String.eqb a.1 k then Some a.2 else r) l (assoc k s).
Proof.
  revert s. induction l as [|a l IH]; intros s S; cbn; [done|].
  destruct (IH (put a s) (put_sorted _ _ S)) as [I1 I2]. split; [done|]. intros k. by rewrite I2, put_assoc.
Qed.
Lemma new_set_sorted l : sorted (new_set l).
Proof. by apply (fold_put_spec l []). Qed.
Lemma new_set_assoc l k : assoc k (new_set l) = value_of l k.
Proof. unfold new_set, value_of. by rewrite (proj2 (fold_put_spec l [] I)). Qed.

Lemma sorted_assoc l k v : sorted l -> ((k, v) ∈ l <-> assoc k l = Some v).
Proof.
  induction l as [|[k' v'] l IH]; cbn; [intros _; split; [intros H; by apply elem_of_nil in H|done]|].
  intros [H1 H2]. rewrite elem_of_cons, (IH H2). destruct (String.eqb_spec k' k) as [->|NE].
  - split; [|intros [= ->]; auto]. intros [[= ->]|H]; [done|]. apply IH in H; [|done]. specialize (H1 _ H). cbn in H1.
    by rewrite str_lt_irrefl in H1.
  - split; [|auto]. intros [[= -> ->]|H]; done.
Qed.
Lemma sorted_ext l l' : sorted l -> sorted l' -> (forall k, assoc k l = assoc k l') -> l = l'.
Proof.
  revert l'. induction l as [|[k v] l IH]; intros [|[k' v'] l'] S S' E.
  - done.
  - specialize (E k'). cbn in E. by rewrite String.eqb_refl in E.
  - specialize (E k). cbn in E. by rewrite String.eqb_refl in E.
  - destruct S as [S1 S2], S' as [S1' S2'].
    assert (NL : forall (a : kv) (l : list kv), (forall b, b ∈ l -> str_lt a.1 b.1 = true) -> sorted l -> assoc a.1 l = None).
    { intros a l0 H HS. destruct (assoc a.1 l0) as [x|] eqn:A; [|done]. apply sorted_assoc in A; [|done]. specialize (H _ A).
      cbn in H. by rewrite str_lt_irrefl in H. }
    assert (k = k') as ->.
    { destruct (str_lt_total k k') as [L|[L|L]]; [|done|]; exfalso.
      - pose proof (E k) as X. cbn in X. rewrite String.eqb_refl in X. destruct (String.eqb_spec k' k) as [->|_]; [by rewrite str_lt_irrefl in L|].
        symmetry in X. apply sorted_assoc in X; [|done]. specialize (S1' _ X). cbn in S1'.
        pose proof (str_lt_trans _ _ _ L S1') as Y. by rewrite str_lt_irrefl in Y.
      - pose proof (E k') as X. cbn in X. rewrite String.eqb_refl in X. destruct (String.eqb_spec k k') as [->|_]; [by rewrite str_lt_irrefl in L|].
        apply sorted_assoc in X; [|done]. specialize (S1 _ X). cbn in S1.
        pose proof (str_lt_trans _ _ _ L S1) as Y. by rewrite str_lt_irrefl in Y. }
    pose proof (E k') as X. cbn in X. rewrite String.eqb_refl in X. inversion X; subst v'. f_equal. apply IH; [done|done|].
    intros j. specialize (E j). cbn in E. destruct (String.eqb_spec k' j) as [->|]; [|done].
    etransitivity; [exact (NL (j, v) l S1 S2)|symmetry; exact (NL (j, v) l' S1' S2')].
Qed.

(** A list with distinct keys: the value passed is the one in the list, whatever the order. *)
Lemma value_of_elem l k v : NoDup (map fst l) -> (value_of l k = Some v <-> (k, v) ∈ l).
Proof.
  unfold value_of. intros N.
  assert (G : forall l r, NoDup (map fst l) ->
    fold_left (fun r (a : kv) => if String.eqb a.1 k then Some a.2 else r) l r = Some v <->
    ((k, v) ∈ l \/ ((forall w, (k, w) ∉ l) /\ r = Some v))).
  { clear N l. induction l as [|[k' v'] l IH]; intros r N; cbn.
    - split; [intros ->; right; split; [intros w H; by apply elem_of_nil in H|done]|].
      intros [H|[_ H]]; [by apply elem_of_nil in H|done].
    - cbn in N. apply list.NoDup_cons in N as [N1 N2]. rewrite (IH _ N2). clear IH.
      assert (N1' : forall w, (k', w) ∉ l). { intros w H. apply N1. apply (elem_of_list_fmap_1 fst) in H. exact H. }
      destruct (String.eqb_spec k' k) as [->|NE].
      + split.
        * intros [H|[_ [= ->]]]; [by apply N1' in H|]. left. left.
        * intros [H|[H _]]; [|exfalso; apply (H v'); left]. apply elem_of_cons in H as [[= ->]|H]; [|by apply N1' in H]. right. done.
      + split.
        * intros [H|[H ->]]; [left; by right|]. right. split; [|done]. intros w Hw. apply elem_of_cons in Hw as [[= ->]|Hw]; [done|]. by apply (H w).
        * intros [H|[H ->]]; [left|right].
          -- apply elem_of_cons in H as [[= -> ->]|H]; done.
          -- split; [|done]. intros w Hw. apply (H w). by right. }
  rewrite (G l None N). split; [intros [H|[_ H]]; done|auto].
Qed.
Lemma new_set_perm l l' : NoDup (map fst l) -> l ≡ₚ l' -> new_set l = new_set l'.
Proof.
  intros N P. apply sorted_ext; [apply new_set_sorted|apply new_set_sorted|]. intros k. rewrite !new_set_assoc.
  assert (N' : NoDup (map fst l')). { by rewrite <- P. }
  destruct (value_of l k) as [v|] eqn:E.
  - symmetry. apply value_of_elem; [done|]. apply value_of_elem in E; [|done]. by rewrite <- P.
  - destruct (value_of l' k) as [v|] eqn:E'; [|done]. apply value_of_elem in E'; [|done]. rewrite <- P in E'.
    apply value_of_elem in E'; [|done]. congruence.
Qed.

(** ** Fingerprints *)
Lemma u64_add x y : u64 (u64 x + y) = u64 (x + y).
Proof. unfold u64. by rewrite Zplus_mod_idemp_l. Qed.
Lemma fold_u64_perm {T} (f : T -> Z) l l' : l ≡ₚ l' -> forall x,
  fold_left (fun fp a => u64 (fp + f a)) l x = fold_left (fun fp a => u64 (fp + f a)) l' x.
Proof.
  induction 1 as [|a l l' P IH|a b l|l1 l2 l3 P1 IH1 P2 IH2]; intros x; cbn; try done.
  - f_equal. rewrite !u64_add. f_equal. lia.
  - by rewrite IH1.
Qed.

(** ** Filters *)
Lemma apply_filter_elem keys s a :
  a ∈ apply_filter keys s <-> a ∈ s /\ a.1 <> ""%string /\ match keys with None => True | Some ks => a.1 ∈ ks end.
Proof.
  assert (KF : forall ks, key_filter ks a = true <-> a.1 ∈ ks).
  { intros ks. unfold key_filter. rewrite existsb_exists. rewrite elem_of_list_In. split.
    - intros (x & Hx & E). apply String.eqb_eq in E. by subst.
    - intros H. exists a.1. split; [done|]. apply String.eqb_refl. }
  assert (VA : valid_attr a = true <-> a.1 <> ""%string).
  { unfold valid_attr. rewrite negb_true_iff, String.eqb_neq. done. }
  assert (NI : existsb (fun a => negb (valid_attr a)) s = false -> a ∈ s -> a.1 <> ""%string).
  { intros H Hin. rewrite <- VA. destruct (valid_attr a) eqn:E; [done|]. apply not_true_iff_false in H. exfalso. apply H.
    apply existsb_exists. exists a. split; [by apply elem_of_list_In|by rewrite E]. }
  assert (FE : forall f : kv -> bool, a ∈ List.filter f s <-> a ∈ s /\ f a = true).
  { intros f. rewrite !elem_of_list_In. apply filter_In. }
  unfold apply_filter. destruct (existsb (fun a => negb (valid_attr a)) s) eqn:EI; destruct keys as [ks|]; rewrite ?FE, ?andb_true_iff, ?KF, ?VA.
  - tauto.
  - tauto.
  - split; [|tauto]. intros [H1 H2]. auto.
  - split; [|tauto]. intros H1. auto.
Qed.
Lemma filter_sorted f l : sorted l -> sorted (List.filter f l).
Proof.
  induction l as [|a l IH]; cbn; [done|]. intros [H1 H2]. destruct (f a); [|by apply IH]. cbn. split; [|by apply IH].
  intros b Hb. apply H1. apply elem_of_list_In in Hb. apply filter_In in Hb as [Hb _]. by apply elem_of_list_In.
Qed.
Lemma apply_filter_sorted keys s : sorted s -> sorted (apply_filter keys s).
Proof. intros S. unfold apply_filter. destruct keys; destruct (existsb _ s); try done; by apply filter_sorted. Qed.
Lemma apply_filter_idem keys s : apply_filter keys (apply_filter keys s) = apply_filter keys s.
Proof.
  assert (F : forall f g (l : list kv), (forall a, f a = true -> g a = true) -> List.filter g (List.filter f l) = List.filter f l).
  { intros f g l H. induction l as [|a l IH]; [done|]. cbn. destruct (f a) eqn:E; [|done]. cbn. by rewrite (H _ E), IH. }
  assert (E : forall t, (forall a, a ∈ t -> valid_attr a = true) -> existsb (fun a => negb (valid_attr a)) t = false).
  { intros t H. apply not_true_iff_false. intros X. apply existsb_exists in X as (a & Ha & N). apply elem_of_list_In in Ha.
    by rewrite (H _ Ha) in N. }
  unfold apply_filter at 1. rewrite E.
  - destruct keys as [ks|]; [|done]. unfold apply_filter. destruct (existsb _ s); apply F; [|done]. intros a H. by apply andb_prop in H as [_ H].
  - intros a Ha. apply apply_filter_elem in Ha as (_ & H & _). unfold valid_attr. by apply negb_true_iff, String.eqb_neq.
Qed.

(** ** Equality of attribute lists *)
Lemma slice_eq_true {T} (eq : T -> T -> bool) (R : T -> T -> Prop) a b :
  (forall x y, eq x y = true -> R x y) -> slice_eq eq a b = true -> Forall2 R a b.
Proof.
  intros H. revert b. induction a as [|x a IH]; intros [|y b]; cbn; try done. rewrite andb_true_iff. intros [H1 H2].
  constructor; [by apply H|by apply IH].
Qed.
Lemma slice_eq_eq {T} (eq : T -> T -> bool) (a b : list T) : (forall x y, eq x y = true -> x = y) -> slice_eq eq a b = true -> a = b.
Proof. intros H E. apply (slice_eq_true _ (=)) in E; [|done]. induction E; by subst. Qed.
Lemma f_eqb_canon a b : f_eqb a b = true -> canon_float a = canon_float b.
Proof.
  unfold f_eqb, canon_float. rewrite !andb_true_iff, orb_true_iff, Z.eqb_eq, andb_true_iff.
  intros [_ [->|[-> ->]]]; done.
Qed.
Lemma value_eq_canon a b : value_eq a b = true -> canon_value a = canon_value b.
Proof.
  destruct a, b; cbn; try done; intros H.
  - apply eqb_prop in H. by subst.
  - apply Z.eqb_eq in H. by subst.
  - apply Z.eqb_eq in H. by subst.
  - apply String.eqb_eq in H. by subst.
  - apply slice_eq_eq in H; [by subst|apply eqb_prop].
  - apply slice_eq_eq in H; [by subst|intros x y; apply Z.eqb_eq].
  - f_equal. apply (slice_eq_true _ (fun x y => canon_float x = canon_float y)) in H; [|apply f_eqb_canon].
    induction H as [|x y l0 l1 E F IH]; cbn; [done|]. by rewrite E, IH.
  - apply slice_eq_eq in H; [by subst|intros x y; apply String.eqb_eq].
Qed.
Lemma equal_canon a b : attributes_equal a b = true -> canon a = canon b.
Proof.
  intros H. apply (slice_eq_true _ (fun x y : kv => x.1 = y.1 /\ canon_value x.2 = canon_value y.2)) in H.
  - unfold canon. induction H as [|x y l0 l1 [E1 E2] F IH]; cbn; [done|]. by rewrite E1, E2, IH.
  - intros x y. rewrite andb_true_iff. intros [H1 H2]. apply String.eqb_eq in H1. apply value_eq_canon in H2. done.
Qed.
Lemma f_nan_spec b : f_nan b = false <-> ~ is_nan b.
Proof.
  unfold f_nan, is_nan. split.
  - intros H (s & f & -> & F). replace (s * 2 ^ 63 + 2047 * 2 ^ 52 + f) with (f + (s * 2 ^ 11 + 2047) * 2 ^ 52) in H by lia.
    rewrite Z.div_add, Z.mod_add, (Z.div_small f), (Z.mod_small f) in H by lia.
    replace (0 + (s * 2 ^ 11 + 2047)) with (2047 + s * 2048) in H by lia. rewrite Z.mod_add in H by lia. cbn in H. apply negb_false_iff, Z.eqb_eq in H. lia.
  - intros H. destruct (Z.eqb_spec ((b / 2 ^ 52) mod 2048) 2047) as [E|]; [|done]. cbn. apply negb_false_iff, Z.eqb_eq.
    destruct (Z.eq_dec (b mod 2 ^ 52) 0) as [|N]; [done|]. exfalso. apply H. exists (b / 2 ^ 52 / 2048), (b mod 2 ^ 52).
    pose proof (Z.mod_pos_bound b (2 ^ 52) ltac:(lia)). pose proof (Z.div_mod b (2 ^ 52) ltac:(lia)). pose proof (Z.div_mod (b / 2 ^ 52) 2048 ltac:(lia)). lia.
Qed.
Lemma value_eq_complete a b : canon_value a = canon_value b -> no_nan a -> value_eq a b = true.
Proof.
  assert (R : forall (T : Type) (eq : T -> T -> bool) l, (forall x, eq x x = true) -> slice_eq eq l l = true).
  { intros T eq l H. induction l as [|x l IH]; cbn; [done|]. by rewrite H, IH. }
  destruct a, b; cbn; try done; intros E N; inversion E; subst.
  - apply eqb_reflx.
  - apply Z.eqb_refl.
  - apply Z.eqb_refl.
  - apply String.eqb_refl.
  - apply R, eqb_reflx.
  - apply R, Z.eqb_refl.
  - clear E. rename l0 into l1. rename l into l0. revert l1 H0. induction l0 as [|x l0 IH]; intros [|y l1] H0; cbn in *; try done. inversion H0 as [[H1 H2]].
    rewrite (IH (fun z Hz => N z ltac:(by right)) _ H2), andb_true_r. specialize (N x ltac:(by left)). apply f_nan_spec in N.
    unfold f_eqb. rewrite N. cbn. unfold canon_float in H1.
    assert (Z : forall z, f_zero z = true -> f_nan z = false).
    { clear. intros z H. unfold f_zero, f_nan in *. apply Z.eqb_eq in H. apply andb_false_iff. right. apply negb_false_iff, Z.eqb_eq.
      apply Z.mod_divide in H; [|lia]. apply Z.mod_divide; [lia|]. destruct H as [q ->]. exists (q * 2 ^ 11). lia. }
    destruct (f_zero x) eqn:Zx, (f_zero y) eqn:Zy; subst; cbn.
    + rewrite (Z y Zy). cbn. by rewrite orb_true_r.
    + done.
    + done.
    + by rewrite N, Z.eqb_refl.
  - apply R, String.eqb_refl.
Qed.
Lemma equal_complete a b : canon a = canon b -> (forall x, x ∈ a -> no_nan x.2) -> attributes_equal a b = true.
Proof.
  revert b. unfold attributes_equal. induction a as [|[k v] a IH]; intros [|[k' v'] b] E N; cbn in *; try done.
  inversion E as [[E1 E2 E3]]. rewrite String.eqb_refl, (value_eq_complete _ _ E2 (N _ ltac:(left))). cbn.
  apply IH; [done|]. intros x Hx. apply N. by right.
Qed.
Lemma equal_no_nan a b : attributes_equal a b = true -> forall x, x ∈ a -> no_nan x.2.
Proof.
  intros H x Hx. apply (slice_eq_true _ (fun x y : kv => value_eq x.2 y.2 = true)) in H.
  - apply elem_of_list_lookup in Hx as [i Hi]. destruct (Forall2_lookup_l _ _ _ _ _ H Hi) as (y & _ & E).
    destruct x as [k [| | | | | | |l|]]; cbn in *; try done. destruct y as [k' [| | | | | | |l'|]]; cbn in *; try done.
    clear -E. revert l' E. induction l as [|x l IH]; intros [|y l'] E z Hz; cbn in *; try done; [by apply elem_of_nil in Hz|].
    apply andb_prop in E as [E1 E2]. apply elem_of_cons in Hz as [->|Hz]; [|by eapply IH].
    unfold f_eqb in E1. apply andb_prop in E1 as [E1 _]. apply andb_prop in E1 as [E1 _]. by apply f_nan_spec, negb_true_iff.
  - intros y z E. by apply andb_prop in E as [_ E].
Qed.
Lemma canon_put a l : canon (put a l) = put (a.1, canon_value a.2) (canon l).
Proof.
  induction l as [|b l IH]; cbn; [done|]. destruct (String.eqb a.1 b.1); [done|]. destruct (str_lt a.1 b.1); [done|]. cbn. f_equal. exact IH.
Qed.
Lemma canon_new_set l : canon (new_set l) = new_set (canon l).
Proof.
  unfold new_set. change (@nil kv) with (canon []) at 2. generalize (@nil kv). induction l as [|a l IH]; intros s; cbn; [done|].
  by rewrite IH, canon_put.
Qed.
Lemma canon_filter keys s : canon (apply_filter keys s) = apply_filter keys (canon s).
Proof.
  assert (F : forall (f : kv -> bool) l, (forall a, f (a.1, canon_value a.2) = f a) -> canon (List.filter f l) = List.filter f (canon l)).
  { intros f l H. induction l as [|a l IH]; cbn; [done|]. rewrite H. destruct (f a); cbn; [f_equal|]; exact IH. }
  assert (E : existsb (fun a => negb (valid_attr a)) (canon s) = existsb (fun a => negb (valid_attr a)) s).
  { induction s as [|a l IH]; cbn; [done|]. f_equal. exact IH. }
  unfold apply_filter. rewrite E. destruct keys, (existsb _ s); rewrite ?F; done.
Qed.
Lemma equal_same_series keys a b : attributes_equal a b = true ->
  canon (apply_filter keys (new_set a)) = canon (apply_filter keys (new_set b)).
Proof. intros H. rewrite !canon_filter, !canon_new_set. by rewrite (equal_canon _ _ H). Qed.

(** ** Truncation *)
Lemma substring_length n s : (n <= String.length s)%nat -> String.length (substring 0 n s) = n.
Proof. revert n. induction s as [|x s IH]; intros [|n] H; cbn in *; try lia. rewrite IH; lia. Qed.
Lemma cut_length n s : (String.length (cut n s) <= n)%nat.
Proof. unfold cut. destruct (Nat.ltb_spec n (String.length s)); [rewrite substring_length; lia|done]. Qed.
Lemma cut_id n s : (String.length s <= n)%nat -> cut n s = s.
Proof. intros H. unfold cut. destruct (Nat.ltb_spec n (String.length s)); [lia|done]. Qed.
Lemma cut_idem n s : cut n (cut n s) = cut n s.
Proof. apply cut_id, cut_length. Qed.
Lemma cut_prefix n s : exists r, s = (cut n s ++ r)%string.
Proof.
  unfold cut. destruct (Nat.ltb_spec n (String.length s)) as [H|H].
  - clear H. revert n. induction s as [|x s IH]; intros [|n]; try (by eexists).
    destruct (IH n) as [r Hr]. exists r. change (String x s = String x (substring 0 n s ++ r)%string). f_equal. exact Hr.
  - exists ""%string. clear H. induction s as [|x s IH]; [done|]. change (String x s = String x (s ++ "")%string). f_equal. exact IH.
Qed.
