(** Proofs about views. *)
From Coq Require Import ZArith Bool String Ascii Lia.
From stdpp Require Import base list option strings gmap.
From Verif Require Import Num Attr AttrProofs View ViewSpec.
Local Open Scope Z_scope.

(** * Matching *)
Lemma string_mismatch_spec t v : string_mismatch t v = false <-> accepts t v.
Proof.
  unfold string_mismatch, accepts. destruct (String.eqb_spec t ""), (String.eqb_spec t v); simpl; split; try done; intros H.
  by destruct n0; apply H.
Qed.
Lemma library_mismatch_spec t l : library_mismatch t l = false <->
  accepts (sc_name t) (sc_name l) /\ accepts (sc_version t) (sc_version l) /\ accepts (sc_schema t) (sc_schema l).
Proof.
  unfold library_mismatch. destruct (_ && _) eqn:E.
  - apply andb_true_iff in E as [[E1 E2]%andb_true_iff E3].
    apply String.eqb_eq in E1, E2, E3. unfold accepts. rewrite E1, E2, E3. naive_solver.
  - rewrite !orb_false_iff, !string_mismatch_spec. tauto.
Qed.
Lemma matches_spec c lib d : matches c lib d = true <-> selects c lib d.
Proof.
  unfold matches, selects. rewrite negb_true_iff, !orb_false_iff, library_mismatch_spec, string_mismatch_spec.
  assert (kind_mismatch (k_kind c) (i_kind d) = false <-> forall k, k_kind c = Some k -> i_kind d = k) as ->.
  { unfold kind_mismatch. destruct (k_kind c) as [k|]; [|naive_solver]. rewrite negb_false_iff, bool_decide_eq_true. naive_solver. }
  assert (num_mismatch (k_num c) (i_num d) = false <-> forall k, k_num c = Some k -> i_num d = k) as ->.
  { unfold num_mismatch. destruct (k_num c) as [k|]; [|naive_solver]. rewrite negb_false_iff, bool_decide_eq_true. naive_solver. }
  assert (pattern_mismatch (k_pattern c) (i_name d) = false <-> forall p, k_pattern c = Some p -> p (i_name d) = true) as ->.
  { unfold pattern_mismatch. destruct (k_pattern c) as [k|]; [|naive_solver]. rewrite negb_false_iff. naive_solver. }
  tauto.
Qed.

(** What the options leave in a clause. *)
Lemma new_clause_snoc os o : new_clause (os ++ [o]) = apply_clause_option o (new_clause os).
Proof. unfold new_clause. by rewrite fold_left_app. Qed.
Lemma last_set_snoc {A} (f : clause_option -> option A) os o :
  last_set f (os ++ [o]) = match f o with Some a => Some a | None => last_set f os end.
Proof. unfold last_set. by rewrite fold_left_app. Qed.
Lemma new_clause_fields os :
  k_name (new_clause os) = default ""%string (last_set name_of os) /\
  k_pattern (new_clause os) = last_set pattern_of os /\
  k_kind (new_clause os) = last_set kind_of os /\
  k_num (new_clause os) = last_set number_of os /\
  k_lib (new_clause os) = default (Scope "" "" "") (last_set library_of os).
Proof.
  induction os as [|o os IH] using rev_ind; [done|].
  rewrite new_clause_snoc, !last_set_snoc. destruct (new_clause os), o; simpl in *; naive_solver.
Qed.
Lemma selected_clause os lib d : matches (new_clause os) lib d = true <-> selected os lib d.
Proof.
  rewrite matches_spec. unfold selects, selected. destruct (new_clause_fields os) as (-> & -> & -> & -> & ->).
  destruct (last_set name_of os) as [n|], (last_set library_of os) as [l|]; simpl; unfold accepts; naive_solver.
Qed.

(** * Validation *)
Section V.
Context (L : libs).
Lemma cfg_validate_legal c lim : library_ok L -> cfg_legal L (check_cfg L lim c).1.
Proof.
  intros H. unfold check_cfg, cfg_validate, cfg_legal. pose proof (H (c_size c)) as Hc.
  destruct (Z.eqb_spec (c_limit c) 0) as [Z0|Z0]; cbn [c_size c_limit];
    destruct (hist_validate L (c_size c)) as [h er] eqn:E; cbn [fst snd c_size c_limit] in *.
  - split; [done|]. destruct (Z.eqb_spec lim 0); lia.
  - split; [done|]. destruct (Z.eqb_spec (c_limit c) 0); lia.
Qed.
Lemma check_cfg_legal c lim : cfg_legal L c -> check_cfg L lim c = (c, []).
Proof.
  intros [H1 H2]. unfold check_cfg, cfg_validate. destruct (Z.eqb_spec (c_limit c) 0); [lia|].
  rewrite H1. simpl. destruct (Z.eqb_spec (c_limit c) 0); [lia|]. by destruct c.
Qed.
Lemma check_default_legal lim k f : library_ok L -> default_legal L (check_default L lim k f).1.
Proof.
  intros H. unfold check_default, default_legal, check_agg, check_tempo.
  pose proof (cfg_validate_legal (f_int f) lim H). pose proof (cfg_validate_legal (f_float f) lim H).
  destruct (check_cfg L lim (f_int f)), (check_cfg L lim (f_float f)).
  destruct (f_agg f) eqn:E1, (f_tempo f) eqn:E2, k; simpl in *; repeat split; done || apply H0 || apply H1.
Qed.
Lemma check_default_fixed lim k f : default_legal L f -> check_default L lim k f = (f, []).
Proof.
  intros (H1 & H2 & H3 & H4). unfold check_default, check_agg, check_tempo. rewrite (check_cfg_legal _ _ H3), (check_cfg_legal _ _ H4).
  destruct f as [a t i fl]; simpl in *. by destruct a, t.
Qed.
Lemma check_clause_legal lim c : library_ok L -> clause_legal L (check_clause L lim c).1.
Proof.
  intros H. destruct c as [n p k nk l ks r d a cfg]. unfold check_clause, clause_legal, check_agg.
  pose proof (cfg_validate_legal cfg lim H). destruct (check_cfg L lim cfg).
  destruct (String.eqb_spec n ""), p, a; simpl in *; repeat split; auto; try done; apply H0.
Qed.
Lemma check_clause_fixed lim c : clause_legal L c -> (check_clause L lim c).1 = c /\ forall e, In e (check_clause L lim c).2 -> e = EmptyKey.
Proof.
  intros (H1 & H2 & H3). destruct c as [n p k nk l ks r d a cfg]. unfold check_clause, check_agg. simpl in *.
  rewrite (check_cfg_legal _ _ H2).
  assert (agg_valid a = true) as -> by by destruct a.
  assert (negb (String.eqb n "") && match p with Some _ => true | None => false end = false) as ->.
  { destruct H3 as [-> | ->]; [done|]. by rewrite andb_false_r. }
  simpl. split; [done|]. intros e (x & <- & _)%in_map_iff. done.
Qed.
Lemma validate_legal v : library_ok L -> views_legal L (validate L v).1.
Proof.
  intros H. split; simpl.
  - intros k. by apply check_default_legal.
  - intros c (c0 & <- & _)%in_map_iff. by apply check_clause_legal.
Qed.
Lemma validate_fixed v : views_legal L v -> views_same (validate L v).1 v /\ forall e, In e (validate L v).2 -> e = EmptyKey.
Proof.
  intros [H1 H2]. split; [split; [done|split]|]; simpl.
  - rewrite <- (map_id (v_clauses v)) at 2. apply map_ext_in. intros c Hc. by apply check_clause_fixed, H2.
  - intros k. by rewrite check_default_fixed.
  - intros e [Hd | Hc]%in_app_or.
    + exfalso. simpl in Hd. rewrite !check_default_fixed in Hd by done. done.
    + apply in_concat in Hc as (es & (c & <- & Hc)%in_map_iff & He). destruct (check_clause_fixed (v_limit v) c) as [_ E]; auto.
Qed.
(** Errors: something was not legal, and not only missing. *)
Lemma check_cfg_errors lim c : (check_cfg L lim c).2 = [] <-> (hist_validate L (c_size c)).2 = false.
Proof.
  unfold check_cfg, cfg_validate. destruct (Z.eqb_spec (c_limit c) 0); cbn [c_size]; destruct (hist_validate L (c_size c)) as [h []]; done.
Qed.

(** * Hints *)
Lemma has_brace_spec s : has_brace s = true <-> In "{"%char (list_ascii_of_string s).
Proof.
  induction s as [|c s IH]; [done|]. cbn [has_brace list_ascii_of_string In]. destruct (Ascii.eqb_spec c "{"); naive_solver.
Qed.
Lemma no_hint_plain v d : no_hint L d ->
  apply_hint L v d = (d, f_agg (v_defaults v (i_kind d)), f_tempo (v_defaults v (i_kind d)), default_cfg v (i_kind d) (i_num d),
                      default_cfg v (i_kind d) (i_num d), false).
Proof.
  intros H. unfold apply_hint. destruct (has_brace (i_desc d)) eqn:E; [|done].
  apply has_brace_spec in E. destruct H as [H | ->]; done.
Qed.
Lemma clause_behaviors_plain v d ms : no_hint L d ->
  clause_behaviors L v d ms =
  (d, map (fun c => Behavior (i_name d) (view_descriptor d c) (if bool_decide (k_agg c = UndefinedAgg) then f_agg (v_defaults v (i_kind d)) else k_agg c)
                             (f_tempo (v_defaults v (i_kind d))) (k_cfg c) (k_keys c) false)
          (filter (fun c => k_agg c <> DropAgg) ms)).
Proof.
  intros H. induction ms as [|c ms IH]; [done|]. cbn [clause_behaviors]. rewrite filter_cons.
  destruct (decide (k_agg c = DropAgg)) as [E|E].
  - rewrite bool_decide_eq_true_2 by done. rewrite decide_False by tauto. apply IH.
  - rewrite bool_decide_eq_false_2 by done. rewrite decide_True by done. rewrite no_hint_plain by done. rewrite IH. cbn [map].
    unfold pick_cfg. repeat f_equal. case_bool_decide; congruence.
Qed.
End V.

(** * Semantic compatibility *)
Lemma check_semantic_plain k b : b_hinted b = false -> i_kind (b_desc b) = k ->
  check_semantic k b = (with_agg b (granted k (b_agg b)),
                        if allowed k (b_agg b) then None else Some (match b_agg b with AnySumAgg => UndefinedAgg | a => a end)) /\
  built_agg (with_agg b (granted k (b_agg b))) = granted k (b_agg b).
Proof.
  intros H E. unfold check_semantic, granted, built_agg. rewrite H. cbn [with_agg b_desc b_agg]. rewrite E.
  destruct k, (b_agg b); vm_compute; done.
Qed.
Lemma granted_concrete k a : concrete (granted k a).
Proof. unfold concrete. destruct k, a; vm_compute; tauto. Qed.
Lemma granted_allowed k a : allowed k (granted k a) = true.
Proof. by destruct k, a. Qed.

(** * Keys *)
Lemma keys_value (ks : list string) k : value_of (map (fun k => (k, VInt 0)) ks) k = if decide (k ∈ ks) then Some (VInt 0) else None.
Proof.
  unfold value_of. induction ks as [|x ks IH] using rev_ind; [done|].
  rewrite map_app, !fold_left_app. simpl. rewrite IH.
  destruct (String.eqb_spec x k) as [->|N].
  - rewrite decide_True; [done|]. apply elem_of_app. right. by apply elem_of_list_singleton.
  - apply decide_ext. rewrite elem_of_app, elem_of_list_singleton. naive_solver.
Qed.
Lemma key_set_spec x y : key_set x = key_set y <-> forall k, In k x <-> In k y.
Proof.
  unfold key_set. split.
  - intros E k. assert (value_of (map (fun k => (k, VInt 0)) x) k = value_of (map (fun k => (k, VInt 0)) y) k) as E'
      by by rewrite <- !new_set_assoc, E.
    rewrite !keys_value in E'. rewrite <- !elem_of_list_In. destruct (decide (k ∈ x)), (decide (k ∈ y)); naive_solver.
  - intros H. apply sorted_ext; [apply new_set_sorted..|]. intros k. rewrite !new_set_assoc, !keys_value. apply decide_ext.
    rewrite !elem_of_list_In. apply H.
Qed.
(** Sets of keys have no float slices: equality of sets is equality. *)
Lemma key_set_plain ks a : a ∈ key_set ks -> a.2 = VInt 0.
Proof.
  intros H. destruct a as [k v]. apply sorted_assoc in H; [|apply new_set_sorted]. unfold key_set in H. rewrite new_set_assoc, keys_value in H.
  destruct (decide (k ∈ ks)); naive_solver.
Qed.
Lemma equal_refl_plain l : (forall a, a ∈ l -> a.2 = VInt 0) -> attributes_equal l l = true.
Proof.
  unfold attributes_equal. intros H. induction l as [|[k v] l IH]; [done|]. simpl.
  pose proof (H (k, v) (elem_of_list_here _ _)) as E. simpl in E. subst v. rewrite String.eqb_refl. simpl. apply IH. intros a Ha. apply H. by right.
Qed.
Lemma canon_plain l : (forall a, a ∈ l -> a.2 = VInt 0) -> canon l = l.
Proof.
  unfold canon. intros H. induction l as [|[k v] l IH]; [done|]. simpl.
  pose proof (H (k, v) (elem_of_list_here _ _)) as E. simpl in E. subst v. f_equal. apply IH. intros a Ha. apply H. by right.
Qed.
Lemma same_keys_spec a b : same_keys a b = true <-> keys_alike a b.
Proof.
  destruct a as [x|], b as [y|]; simpl; try done. rewrite <- key_set_spec. split.
  - intros E%equal_canon. by rewrite !canon_plain in E by apply key_set_plain.
  - intros ->. apply equal_refl_plain, key_set_plain.
Qed.
