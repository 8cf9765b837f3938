(** Proofs about the errors of creating an instrument. *)
From Coq Require Import ZArith Bool String Ascii Lia.
From stdpp Require Import base list option strings pretty gmap.
From Verif Require Import Num Attr AttrProofs View ViewSpec ViewProofs ViewRun ViewHist ViewMore Data Prov ProvSpec ProvProofs ProvMore Conf ConfSpec.
Local Open Scope string_scope.

(** * Texts *)
Lemma kind_trim k : trim_kind (kind_string k) = kind_word k. Proof. by destruct k. Qed.
Lemma number_trim n : trim_kind (number_string n) = number_word n. Proof. by destruct n. Qed.
Lemma agg_trim a : trim_kind (agg_string a) = agg_word a. Proof. by destruct a. Qed.
Lemma kind_word_inj k k' x y : kind_word k ++ "-" ++ x = kind_word k' ++ "-" ++ y -> k = k' /\ x = y.
Proof. destruct k, k'; cbn; intros E; first [discriminate E | by injection E]. Qed.
Lemma number_word_inj k k' x y : number_word k ++ "-" ++ x = number_word k' ++ "-" ++ y -> k = k' /\ x = y.
Proof. destruct k, k'; cbn; intros E; first [discriminate E | by injection E]. Qed.
Lemma agg_word_inj k k' x y : agg_word k ++ x = agg_word k' ++ y -> k = k' /\ x = y.
Proof. destruct k, k'; cbn; intros E; first [discriminate E | split; [done|]; repeat (injection E as E); done]. Qed.
Lemma app_assoc_s (a b c : string) : (a ++ b) ++ c = a ++ b ++ c.
Proof. induction a as [|x a IH]; [done|]. change (String x ((a ++ b) ++ c) = String x (a ++ b ++ c)). by rewrite IH. Qed.
Lemma app_nil_s (a : string) : a ++ "" = a.
Proof. induction a as [|x a IH]; [done|]. change (String x (a ++ "") = String x a). by rewrite IH. Qed.
Lemma short_string_spec s : short_string s = summary s.
Proof.
  unfold short_string, summary. rewrite kind_trim, number_trim, agg_trim. destruct (String.eqb_spec (i_unit (s_desc s)) "") as [E|E].
  - rewrite decide_True by done. by rewrite app_nil_s.
  - rewrite decide_False by done. by rewrite !app_assoc_s.
Qed.
Lemma summary_spec s t : summary s = summary t <-> facts s = facts t.
Proof.
  unfold summary, facts. split.
  - intros E. apply kind_word_inj in E as [-> E]. apply number_word_inj in E as [-> E]. apply agg_word_inj in E as [-> E].
    do 2 case_decide; [congruence|discriminate|discriminate|]. injection E as E. by rewrite E.
  - intros E. injection E as -> -> -> ->. done.
Qed.
Section quote.
Context (quote : string -> string).
Lemma rename_spec s : rename_string quote s = original quote s.
Proof. unfold rename_string, original. destruct (String.eqb_spec (s_from s) (i_name (s_desc s))); by case_decide. Qed.
Lemma duplicate_spec ss : 2 <= length ss -> (forall s t, head ss = Some s -> last ss = Some t -> ~ alike s t) -> tells_difference quote ss (duplicate_error quote ss).
Proof.
  intros Hl H. destruct ss as [|s [|t r]]; cbn in Hl; [lia|lia|]. set (ss := s :: t :: r) in *. destruct (last (t :: r)) as [u|] eqn:Lu; [|by apply last_None in Lu].
  assert (Ls : last ss = Some u) by exact Lu. specialize (H s u eq_refl Ls).
  exists s, u, (if negb (String.eqb (short_string s) (short_string u)) then " conflicts " ++ short_string s ++ ", " ++ short_string u ++ rename_string quote u
       else if negb (bool_decide (s_cfg s = s_cfg u)) then " has conflicts: different aggregator configuration"
       else " has conflicts: different attribute filters").
  split; [done|]. split; [done|]. split; [exact Hl|]. split.
  - unfold duplicate_error. unfold ss at 1. fold ss. rewrite Lu. cbn [from_option id]. unfold full_name. rewrite rename_spec, !app_assoc_s. do 4 f_equal.
    assert (Hs : 2 <= length ss) by exact Hl. destruct (Nat.ltb_spec 2 (length ss)); case_decide; first [done | lia].
  - rewrite !short_string_spec, rename_spec. destruct (String.eqb_spec (summary s) (summary u)) as [E|E]; cbn [negb].
    + right. apply summary_spec in E. case_bool_decide as Ec; cbn [negb]; [right|left; done]. split; [done|]. split; [done|]. split; [done|].
      intros K. apply H. unfold facts in E. injection E as E1 E2 E3 E4. unfold alike. split_and!; try done. by rewrite E1.
    + left. split; [done|]. intros X. apply E. by apply summary_spec.
Qed.
Lemma semantic_spec k a : semantic_error k (Some a) = tells_incompatible k a.
Proof. unfold semantic_error, tells_incompatible. by rewrite kind_trim, agg_trim. Qed.
Lemma semantic_some k a : semantic_error k (Some a) <> "".
Proof. rewrite semantic_spec. by destruct k. Qed.
Lemma duplicate_some ss : 2 <= length ss -> duplicate_error quote ss <> "".
Proof. destruct ss as [|s [|t r]]; cbn [length]; [lia|lia|done]. Qed.
Lemma duplicate_none ss : length ss < 2 -> duplicate_error quote ss = "".
Proof. destruct ss as [|s [|t r]]; cbn [length]; [done|done|lia]. Qed.

(** * Conflicts *)
Lemma place_all_conf k bs : forall st st' ids cs, wf st -> place_all k st bs = (st', ids, cs) -> forall c, c ∈ cs ->
  exists b p i, bs !! p = Some b /\ ids !! p = Some i /\ i ∈ cf_duplicates c /\ cf_semantic c = (check_semantic k b).2 /\
  NoDup (cf_duplicates c) /\ (2 <= length (cf_duplicates c) \/ cf_semantic c <> None) /\
  (forall j, j ∈ cf_duplicates c -> exists s, collectors st' !! j = Some s /\ i_name (s_desc s) = i_name (b_desc b)) /\
  (forall j s, collectors st !! j = Some s -> i_name (s_desc s) = i_name (b_desc b) -> j ∈ cf_duplicates c).
Proof.
  induction bs as [|b bs IH]; intros st st' ids cs W E c Hc; cbn in E.
  - injection E as <- <- <-. by apply elem_of_nil in Hc.
  - destruct (place k st b) as [[st1 i] cs1] eqn:E1. destruct (place_all k st1 bs) as [[st2 is] cs2] eqn:E2. injection E as <- <- <-.
    pose proof (place_spec _ _ _ _ _ _ W E1) as P. pose proof (place_all_spec _ _ _ _ _ _ (pl_wf _ _ _ _ _ _ P) E2) as Q.
    apply elem_of_app in Hc as [Hc|Hc].
    + exists b, 0, i. split; [done|]. split; [done|].
      assert (cf_semantic c = (check_semantic k b).2 /\ (2 <= length (cf_duplicates c) \/ cf_semantic c <> None)) as [S1 S2].
      { unfold place in E1. destruct (check_semantic k b) as [b1 sem]. cbv zeta in E1.
        assert (X : forall ex, c ∈ (if Nat.ltb 1 (length ex) || match sem with None => false | Some _ => true end then [Conflict sem ex] else []) ->
          cf_semantic c = sem /\ (2 <= length (cf_duplicates c) \/ cf_semantic c <> None)).
        { intros ex Hx. destruct (_ || _) eqn:T in Hx; [|by apply elem_of_nil in Hx]. apply elem_of_list_singleton in Hx as ->. cbn.
          split; [done|]. apply orb_true_iff in T as [T|T]; [left; by apply Nat.ltb_lt in T|right; by destruct sem]. }
        destruct (find_shared _ _ _) in E1; injection E1 as <- <- <-; by eapply X. }
      rewrite (pl_dups _ _ _ _ _ _ P _ Hc) in *. split.
      { apply (pl_wf _ _ _ _ _ _ P). destruct (pl_leaf _ _ _ _ _ _ P) as (s & Hs & Hn & _). exists s. done. }
      split; [done|]. split; [apply (pl_wf _ _ _ _ _ _ P)|]. split; [done|]. split.
      * intros j Hj. apply (pl_wf _ _ _ _ _ _ P) in Hj as (s & Hs & Hn). destruct (proj1 (ap_ext _ _ _ _ _ _ Q) _ _ Hs) as (t & Ht & G).
        exists t. split; [done|]. by rewrite <- (grown_name _ _ G).
      * intros j s Hs Hn. apply (pl_wf _ _ _ _ _ _ P). destruct (proj1 (pl_ext _ _ _ _ _ _ P) _ _ Hs) as (t & Ht & G).
        exists t. split; [done|]. by rewrite <- (grown_name _ _ G).
    + destruct (IH _ _ _ _ (pl_wf _ _ _ _ _ _ P) E2 c Hc) as (b' & q & x & H1 & H2 & H3 & H4 & H5 & H6 & H7 & H8). exists b', (S q), x. split_and!; try done.
      intros j s Hs Hn. destruct (proj1 (pl_ext _ _ _ _ _ _ P) _ _ Hs) as (t & Ht & G). apply (H8 j t Ht). by rewrite <- (grown_name _ _ G).
Qed.
Lemma omap_all {A B} (f : A -> option B) (l : list A) : (forall x, x ∈ l -> is_Some (f x)) -> length (omap f l) = length l /\
  forall q x, l !! q = Some x -> omap f l !! q = f x.
Proof.
  induction l as [|x l IH]; intros H; [split; [done|]; by intros q x|]. destruct (H x) as [y Hy]; [left|]. cbn. rewrite Hy.
  destruct IH as [I1 I2]; [intros z Hz; apply H; by right|]. cbn. split; [by rewrite I1|]. intros [|q] z; cbn; [by intros [= <-]|apply I2].
Qed.

(** * The builder *)
Definition texts_of {X} (b : option (gmap string (list X))) (n : string) : list X := default [] (default ∅ b !! n).
Lemma add_all n (cs : list string) : forall b, cs <> [] -> fold_left (fun b c => add n c b) cs b = Some (<[n := (texts_of b n ++ cs)%list]> (default ∅ b)).
Proof.
  induction cs as [|c cs IH]; intros b Hc; [done|]. cbn [fold_left]. destruct cs as [|c' cs]; [done|]. rewrite IH by done. unfold texts_of, add. cbn [from_option id].
  rewrite lookup_insert. cbn [from_option id]. rewrite insert_insert, <- app_assoc. done.
Qed.
Lemma fold_add {X} n (f : X -> string) (l : list X) : forall b, fold_left (fun b c => add n (f c) b) l b = fold_left (fun b c => add n c b) (map f l) b.
Proof. induction l as [|x l IH]; intros b; [done|]. cbn. apply IH. Qed.
Section libs.
Context (L : libs).
(** The texts of the conflicts of one reader. *)
Definition texts (v : views) (lib : scope) (st : cstate) (d : descriptor) : list string :=
  let '(st', _, cs) := compile L v lib st d in map (conflict_error quote (collectors st') (i_kind d)) cs.
Lemma compile_conflicts_spec v lib st d : compile_conflicts quote L v lib st d =
  match texts v lib st d with [] => None | c :: l => Some {[ v_name v := c :: l ]} end.
Proof.
  unfold compile_conflicts, texts. destruct (compile L v lib st d) as [[st' ids] cs]. rewrite fold_add.
  destruct (map _ cs) as [|c l] eqn:E; [done|]. rewrite add_all by done. done.
Qed.
Lemma combine_one b v (l : list string) : combine b (match l with [] => None | c :: r => Some {[ v := c :: r ]} end) =
  match l with [] => b | c :: r => Some (<[v := c :: r]> (default ∅ b)) end.
Proof.
  destruct l as [|x l]; [by destruct b|]. destruct b as [m|]; cbn.
  - f_equal. by rewrite insert_union_singleton_l.
  - rewrite map_size_singleton. done.
Qed.
(** The error as a fold over the readers with their texts. *)
Definition gather (l : list (string * list string)) (b : builder) : builder :=
  fold_left (fun b p => match p.2 with [] => b | c :: t => Some (<[p.1 := c :: t]> (default ∅ b)) end) l b.
Lemma creation_gather lib d l : forall b, fold_left (fun b p => combine b (compile_conflicts quote L p.1 lib p.2 d)) l b =
  gather (map (fun p => (v_name p.1, texts p.1 lib p.2 d)) l) b.
Proof.
  induction l as [|[v st] l IH]; intros b; [done|]. cbn [fold_left map]. rewrite compile_conflicts_spec, combine_one, IH. done.
Qed.
End libs.
Lemma gather_none l : forall b, gather l b = None <-> b = None /\ forall n t, (n, t) ∈ l -> t = [].
Proof.
  unfold gather. induction l as [|[n t] l IH]; intros b; cbn [fold_left fst snd].
  - split; [intros ->; split; [done|]; intros n t X; by apply elem_of_nil in X|by intros [-> _]].
  - rewrite IH. destruct t as [|c t].
    + split; intros [-> H]; (split; [done|]); intros n' t' X; [apply elem_of_cons in X as [[= -> ->]|X]; [done|]|]; eapply H; [exact X|by right].
    + split; [by intros [X _]|]. intros [_ H]. specialize (H n (c :: t)). discriminate H. left.
Qed.
Lemma gather_other l n : forall b, n ∉ map fst l -> texts_of (gather l b) n = texts_of b n.
Proof.
  unfold gather. induction l as [|[n' t] l IH]; intros b H; cbn [fold_left fst snd]; [done|]. cbn in H. apply not_elem_of_cons in H as [Hn H]. rewrite IH by done.
  destruct t as [|c t]; [done|]. unfold texts_of. cbn [from_option id]. by rewrite lookup_insert_ne.
Qed.
Lemma gather_spec l : forall b, NoDup (map fst l) -> (forall n, n ∈ map fst l -> default ∅ b !! n = None) -> forall n t, (n, t) ∈ l -> default ∅ (gather l b) !! n = match t with [] => None | t => Some t end.
Proof.
  unfold gather. induction l as [|[n' t'] l IH]; intros b N F n t H; cbn [fold_left fst snd]; [by apply elem_of_nil in H|]. cbn in N, F. apply list.NoDup_cons in N as [N1 N2].
  apply elem_of_cons in H as [[= -> ->]|H].
  - assert (G : forall b0, default ∅ (gather l b0) !! n' = default ∅ b0 !! n').
    { clear -N1. induction l as [|[m u] l IH]; intros b0; [done|]. cbn in N1. apply not_elem_of_cons in N1 as [Nm N1]. unfold gather in *. cbn [fold_left fst snd]. rewrite IH by done.
      destruct u; [done|]. cbn [from_option id]. by rewrite lookup_insert_ne. }
    unfold gather in G. rewrite G. destruct t'; [apply F; left|]. cbn [from_option id]. by rewrite lookup_insert.
  - apply IH; [done| |done]. intros m Hm. destruct t' as [|c t']; [apply F; by right|]. cbn [from_option id]. rewrite lookup_insert_ne; [apply F; by right|]. intros ->. done.
Qed.
Lemma gather_full l : forall b, (forall n t, default ∅ b !! n = Some t -> t <> []) -> forall n t, default ∅ (gather l b) !! n = Some t -> t <> [].
Proof.
  unfold gather. induction l as [|[n' t'] l IH]; intros b F n t; cbn [fold_left fst snd]; [apply F|]. apply IH. intros m u. destruct t' as [|c t']; [apply F|].
  cbn [from_option id]. destruct (decide (n' = m)) as [->|Ne]; [rewrite lookup_insert; by intros [= <-]|rewrite lookup_insert_ne by done; apply F].
Qed.
Lemma gather_dom l : forall b n t, default ∅ (gather l b) !! n = Some t -> default ∅ b !! n = Some t \/ (n, t) ∈ l.
Proof.
  unfold gather. induction l as [|[n' t'] l IH]; intros b n t; cbn [fold_left fst snd]; [by left|]. intros H. destruct (IH _ _ _ H) as [X|X]; [|right; by right].
  destruct t' as [|c t']; [by left|]. cbn [from_option id] in X. destruct (decide (n' = n)) as [->|Ne]; [rewrite lookup_insert in X; injection X as <-; right; left|].
  rewrite lookup_insert_ne in X by done. by left.
Qed.
Lemma gather_count l : forall b, NoDup (map fst l) -> (forall n, n ∈ map fst l -> default ∅ b !! n = None) ->
  sum_list (map (fun p => length p.2) (map_to_list (default ∅ (gather l b)))) =
  (sum_list (map (fun p => length p.2) (map_to_list (default ∅ b))) + sum_list (map (fun p => length p.2) l))%nat.
Proof.
  unfold gather. induction l as [|[n' t'] l IH]; intros b N F; cbn [fold_left fst snd map sum_list]; [cbn; lia|]. cbn in N, F. apply list.NoDup_cons in N as [N1 N2].
  rewrite IH; [|done|].
  - destruct t' as [|c t']; [cbn; lia|]. cbn [from_option id].
    assert (P : map_to_list (<[n' := c :: t']> (default ∅ b)) ≡ₚ (n', c :: t') :: map_to_list (default ∅ b)) by (apply map_to_list_insert, F; left).
    assert (Q : forall l1 l2 : list (string * list string), l1 ≡ₚ l2 -> sum_list (map (fun p => length p.2) l1) = sum_list (map (fun p => length p.2) l2)).
    { intros l1 l2 X. induction X; cbn in *; lia. }
    rewrite (Q _ _ P). cbn. lia.
  - intros m Hm. destruct t' as [|c t']; [apply F; by right|]. cbn [from_option id]. rewrite lookup_insert_ne; [apply F; by right|]. intros ->. done.
Qed.
End quote.

(** * What is created *)
Lemma find_pair_cons {K V} `{EqDecision K} (k k' : K) (v : V) l : find_pair k ((k', v) :: l) = if decide (k' = k) then Some v else find_pair k l.
Proof. unfold find_pair. cbn. case_decide; [by rewrite bool_decide_eq_true_2|by rewrite bool_decide_eq_false_2]. Qed.
Lemma step_created L p a p' r i m d x : Prov.step L p a = Some (p', r) -> pv_ordered p' !! i = Some m -> find_pair d (mr_desc m) = Some x ->
  (exists m0, pv_ordered p !! i = Some m0 /\ find_pair d (mr_desc m0) = Some x) \/ exists e, a = AInst i d /\ r = RInst (Some x) e.
Proof.
  intros E H F. destruct p as [vs t0 ord ms nx la cl calls]. destruct a as [lib|k d'|k now| |t errs]; cbn [Prov.step] in E.
  - destruct ms as [l|]; [|injection E as <- <-; left; eauto]. destruct (find_pair lib l); injection E as <- <-; [left; eauto|]. cbn [pv_ordered] in *.
    apply lookup_app_Some in H as [H|[_ H]]; [left; eauto|]. apply list_lookup_singleton_Some in H as [_ <-]. done.
  - destruct (ord !! k) as [m0|] eqn:O; [|done]. cbn [mbind option_bind] in E. destruct (configure L vs m0 d' nx) as [[m' y] e'] eqn:C. injection E as <- <-. cbn [pv_ordered] in *.
    destruct (decide (k = i)) as [->|Ne]; [|rewrite list_lookup_insert_ne in H by done; left; eauto]. rewrite list_lookup_insert in H by (by eapply lookup_lt_Some). injection H as <-.
    unfold configure in C. destruct (compile_each L vs (mr_lib m0) (mr_comp m0) d') as [[cs idss] es].
    destruct (find_pair d' (mr_desc m0)) as [z|] eqn:Z0; [injection C as <- <- <-; left; eauto|].
    destruct (synchronous (i_kind d')); [destruct (forallb is_nil idss)|]; injection C as <- <- <-; cbn [mr_desc] in F; try (left; by eauto);
      rewrite find_pair_cons in F; case_decide as Dd; try (left; by eauto); subst d'; injection F as <-; right; eauto.
  - destruct (la !! k); [|done]. cbn in E. injection E as <- <-. left; eauto.
  - injection E as <- <-. left; eauto.
  - destruct (cl !! t) as [c|]; [|done]. cbn [mbind option_bind] in E. destruct c; try done.
    + destruct ms; injection E as <- <-; left; eauto.
    + destruct (Nat.ltb next (length vs)); injection E as <- <-; left; eauto.
Qed.
Lemma run_created L l : forall p p' tr i m d x, Prov.run L p l = Some (p', tr) -> pv_ordered p' !! i = Some m -> find_pair d (mr_desc m) = Some x ->
  (exists m0, pv_ordered p !! i = Some m0 /\ find_pair d (mr_desc m0) = Some x) \/ exists e, (AInst i d, RInst (Some x) e) ∈ tr.
Proof.
  induction l as [|a l IH]; intros p p' tr i m d x E H F; cbn [Prov.run] in E; [injection E as <- <-; eauto|].
  destruct (Prov.step L p a) as [[p1 r]|] eqn:S; [|done]. cbn [mbind option_bind] in E. destruct (Prov.run L p1 l) as [[p2 rs]|] eqn:R; [|done]. cbn in E. injection E as <- <-.
  destruct (IH _ _ _ _ _ _ _ R H F) as [(m1 & H1 & F1)|(e & He)]; [|right; exists e; by right].
  destruct (step_created _ _ _ _ _ _ _ _ _ S H1 F1) as [?|(e & -> & ->)]; [by left|]. right. exists e. left.
Qed.
