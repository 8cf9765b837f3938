(** Proofs about the export of spans. *)
From Coq Require Import ZArith Bool String Lia.
From stdpp Require Import base list option strings.
From Verif Require Import Num Attr AttrProofs View Exp ExpSpec ExpProofs Trace TraceSpec.
Local Open Scope Z_scope.

(** The set of a list of attributes. *)
Lemma value_last l : forall k v, value_of l k = Some v <-> last_given l k v.
Proof.
  intros k v. unfold value_of. induction l as [|a l IH] using rev_ind.
  - split; [done|]. intros (l1 & l2 & E & _). by destruct l1.
  - rewrite fold_left_app. cbn [fold_left]. destruct (String.eqb_spec a.1 k) as [Ek|Ne].
    + split.
      * intros [= <-]. exists l, []. destruct a as [k' v']; cbn in *. subst k'. split; [done|apply not_elem_of_nil].
      * intros (l1 & l2 & E & N). destruct l2 as [|b l2 _] using rev_ind.
        -- apply app_inj_tail in E as [_ ->]. done.
        -- rewrite app_comm_cons, app_assoc in E. apply app_inj_tail in E as [_ <-]. destruct N. rewrite map_app. apply elem_of_app. right. cbn. rewrite Ek. by left.
    + rewrite IH. split.
      * intros (l1 & l2 & -> & N). exists l1, (l2 ++ [a]). split; [by rewrite <- app_assoc|]. rewrite map_app. intros [X|X]%elem_of_app; [done|].
        cbn in X. apply elem_of_list_singleton in X. done.
      * intros (l1 & l2 & E & N). destruct l2 as [|b l2 _] using rev_ind.
        -- apply app_inj_tail in E as [_ ->]. by destruct Ne.
        -- rewrite app_comm_cons, app_assoc in E. apply app_inj_tail in E as [-> <-]. exists l1, l2. split; [done|]. intros X. apply N. rewrite map_app. apply elem_of_app. by left.
Qed.
Lemma sorted_nodup l : sorted l -> NoDup (map fst l).
Proof.
  induction l as [|a l IH]; intros S; [constructor|]. destruct S as [S1 S2]. cbn. constructor; [|by apply IH].
  intros X. change (map fst l) with (fst <$> l) in X. apply elem_of_list_fmap in X as (b & E & Hb). apply S1 in Hb. rewrite E in Hb. by rewrite str_lt_irrefl in Hb.
Qed.
Lemma assoc_elem l k v : NoDup (map fst l) -> assoc k l = Some v <-> (k, v) ∈ l.
Proof.
  induction l as [|[k' v'] l IH]; intros N; cbn; [split; [done|intros X; by apply elem_of_nil in X]|]. cbn in N. apply list.NoDup_cons in N as [N1 N2]. rewrite elem_of_cons.
  destruct (String.eqb_spec k' k) as [->|Ne].
  - split; [intros [= <-]; by left|]. intros [[= ->]|X]; [done|]. destruct N1. change (map fst l) with (fst <$> l). apply elem_of_list_fmap. by exists (k, v).
  - rewrite (IH N2). split; [auto|]. intros [[= -> ->]|X]; done.
Qed.
Lemma new_set_elem l k v : (k, v) ∈ new_set l <-> last_given l k v.
Proof. rewrite <- value_last, <- new_set_assoc. symmetry. apply assoc_elem, sorted_nodup, new_set_sorted. Qed.
Lemma copy_set_says l : with_types l -> exists d, copy_set l = Some d /\ last_say l d.
Proof.
  intros W. assert (A : a_set (new_set l)) by apply sorted_nodup, new_set_sorted.
  assert (W' : with_types (new_set l)).
  { apply list.Forall_forall. intros [k v] H. apply new_set_elem in H as (l1 & l2 & -> & _). unfold with_types in W. rewrite list.Forall_forall in W. apply (W (k, v)).
    apply elem_of_app. right. by left. }
  destruct (copy_new _ A W') as (d & E & Sd). exists d. split; [done|]. unfold attrs_say in Sd. split; [|split].
  - replace (map fst d) with (map fst (new_set l)); [done|]. clear -Sd. induction Sd as [|a p s d [K _] S IH]; cbn; [done|]. by rewrite IH, K.
  - intros k v Hl. apply new_set_elem, elem_of_list_lookup in Hl as (i & Hi). destruct (Forall2_lookup_l _ _ _ _ _ Sd Hi) as ([k' p] & Hp & K & V). cbn in *. subst k'.
    exists p. split; [|done]. apply elem_of_list_lookup. by exists i.
  - intros k p Hp. apply elem_of_list_lookup in Hp as (i & Hi). destruct (Forall2_lookup_r _ _ _ _ _ Sd Hi) as ([k' v] & Hv & K & V). cbn in *. subst k'.
    exists v. split; [|done]. apply new_set_elem, elem_of_list_lookup. by exists i.
Qed.

Lemma uint32_id z : a_count z -> uint32 z = z.
Proof. intros A. by apply Z.mod_small. Qed.
Lemma copy_event_says e : event_ok e -> exists p, copy_event e = Some p /\ event_says e p.
Proof.
  intros (W & C & T). destruct (copy_set_says _ W) as (d & E & L). unfold copy_event. rewrite E. cbn [mbind option_bind]. eexists. split; [done|].
  split; [done|]. split; [by apply uwrap_id|]. split; [by apply uint32_id|done].
Qed.
Lemma copy_link_says e : link_ok e -> exists p, copy_link e = Some p /\ link_says e p.
Proof.
  intros (W & C). destruct (copy_set_says _ W) as (d & E & L). unfold copy_link. rewrite E. cbn [mbind option_bind]. eexists. split; [done|].
  repeat (split; [done|]). split; [by apply uint32_id|done].
Qed.
Lemma code_all c : 0 <= c <= 2 -> code_says c (translate_code c).
Proof. intros I. unfold code_says. rewrite !elem_of_cons. assert (c = 0 \/ c = 1 \/ c = 2) as [->|[->| ->]] by lia; cbn; auto. Qed.
Lemma kind_all c : 0 <= c <= 5 -> kind_says c (translate_kind c).
Proof.
  intros I. unfold kind_says. rewrite !elem_of_cons. assert (c = 0 \/ c = 1 \/ c = 2 \/ c = 3 \/ c = 4 \/ c = 5) as [->|[->|[->|[->|[->| ->]]]]] by lia; cbn; repeat (first [by left|right]).
Qed.
Lemma copy_span_says s : span_ok s -> exists p, copy_span s = Some p /\ span_says s p.
Proof.
  intros (W & C1 & C2 & C3 & T1 & T2 & Co & Ki & Ev & Li). destruct (copy_set_says _ W) as (d & E & L).
  destruct (each_spec copy_event event_says (sp_events s)) as (es & Ee & Fe); [intros e He; apply copy_event_says; by apply (proj1 (list.Forall_forall _ _) Ev)|].
  destruct (each_spec copy_link link_says (sp_links s)) as (ls & El & Fl); [intros e He; apply copy_link_says; by apply (proj1 (list.Forall_forall _ _) Li)|].
  unfold copy_span. rewrite E, Ee, El. cbn [mbind option_bind]. eexists. split; [done|]. unfold span_says. cbn.
  repeat (split; [first [done|by apply uwrap_id|by apply uint32_id|by apply code_all|by apply kind_all]|]). done.
Qed.

(** The loop. *)
Lemma append_last l x p : append_span (l ++ [x]) p = Some (l ++ [PScopeSpans (pss_schema x) (pss_name x) (pss_version x) (pss_spans x ++ [p])]).
Proof.
  induction l as [|y l IH]; [by destruct x|]. cbn [app append_span]. rewrite IH. cbn [mbind option_bind]. by destruct y, l.
Qed.
Lemma copy_spans_one cur l out x : pss_name x = cur -> Forall span_ok l -> exists r rest ps xs, l = r ++ rest /\
  Forall (fun s => sc_name (sp_scope s) = cur) r /\ Forall2 span_says r ps /\ (forall s' rest', rest = s' :: rest' -> sc_name (sp_scope s') <> cur) /\ runs rest xs /\
  copy_spans cur (out ++ [x]) l = Some (out ++ PScopeSpans (pss_schema x) (pss_name x) (pss_version x) (pss_spans x ++ ps) :: xs).
Proof.
  revert cur out x. induction l as [|s l IH]; intros cur out x N F.
  - exists [], [], [], []. split; [done|]. split; [constructor|]. split; [constructor|]. split; [done|]. split; [constructor|].
    cbn. rewrite app_nil_r. by destruct x.
  - apply list.Forall_cons in F as [Fs F]. destruct (copy_span_says s Fs) as (p & Ep & Sp). cbn [copy_spans]. destruct (String.eqb_spec (sc_name (sp_scope s)) cur) as [En|Ne].
    + replace (match out ++ [x] with [] => None | _ :: _ => p ← copy_span s; out'' ← append_span (out ++ [x]) p; copy_spans cur out'' l end)
        with (p ← copy_span s; out'' ← append_span (out ++ [x]) p; copy_spans cur out'' l) by (by destruct out).
      rewrite Ep. cbn [mbind option_bind]. rewrite append_last. cbn [mbind option_bind].
      destruct (IH cur out (PScopeSpans (pss_schema x) (pss_name x) (pss_version x) (pss_spans x ++ [p])) N F) as (r & rest & ps & xs & -> & A & B & C & D & E).
      exists (s :: r), rest, (p :: ps), xs. split; [done|]. split; [by constructor|]. split; [by constructor|]. split; [done|]. split; [done|].
      rewrite E. cbn. by rewrite <- app_assoc.
    + set (y := PScopeSpans (sc_schema (sp_scope s)) (sc_name (sp_scope s)) (sc_version (sp_scope s)) []).
      replace (match (out ++ [x]) ++ [y] with [] => None | _ :: _ => p ← copy_span s; out'' ← append_span ((out ++ [x]) ++ [y]) p; copy_spans (sc_name (sp_scope s)) out'' l end)
        with (p ← copy_span s; out'' ← append_span ((out ++ [x]) ++ [y]) p; copy_spans (sc_name (sp_scope s)) out'' l) by (by destruct out).
      rewrite Ep. cbn [mbind option_bind]. rewrite append_last. cbn [mbind option_bind]. unfold y. cbn [pss_schema pss_name pss_version pss_spans app].
      destruct (IH (sc_name (sp_scope s)) (out ++ [x]) (PScopeSpans (sc_schema (sp_scope s)) (sc_name (sp_scope s)) (sc_version (sp_scope s)) [p]) eq_refl F)
        as (r & rest & ps & xs & -> & A & B & C & D & E).
      eexists [], (s :: r ++ rest), [], (PScopeSpans (sc_schema (sp_scope s)) (sc_name (sp_scope s)) (sc_version (sp_scope s)) ([p] ++ ps) :: xs).
      split; [done|]. split; [constructor|]. split; [constructor|]. split; [intros s' rest' [= -> _]; done|]. split.
      * eapply runs_cons; try done. cbn. by constructor.
      * rewrite E. cbn. rewrite <- app_assoc, app_nil_r. by destruct x.
Qed.
Lemma copy_spans_runs l : Forall span_ok l -> (forall s r, l = s :: r -> sc_name (sp_scope s) <> ""%string) -> exists xs, copy_spans ""%string [] l = Some xs /\ runs l xs.
Proof.
  intros F N. destruct l as [|s l]; [exists []; split; [done|constructor]|]. specialize (N s l eq_refl). apply list.Forall_cons in F as [Fs F].
  destruct (copy_span_says s Fs) as (p & Ep & Sp). cbn [copy_spans]. destruct (String.eqb_spec (sc_name (sp_scope s)) ""%string) as [|_]; [done|].
  rewrite Ep. cbn [mbind option_bind app append_span].
  destruct (copy_spans_one (sc_name (sp_scope s)) l [] (PScopeSpans (sc_schema (sp_scope s)) (sc_name (sp_scope s)) (sc_version (sp_scope s)) [p]) eq_refl F)
    as (r & rest & ps & xs & -> & A & B & C & D & E). cbn [app] in E. rewrite E. cbn. eexists. split; [done|].
  eapply runs_cons; try done. cbn. by constructor.
Qed.
Lemma runs_spans l xs : runs l xs -> Forall2 span_says l (concat (map pss_spans xs)) /\ length l = foldr Nat.add 0%nat (map (fun s => length (pss_spans s)) xs).
Proof.
  intros R. induction R as [|s r rest x xs N V U F S C R [I1 I2]]; [split; [constructor|done]|]. split.
  - cbn. rewrite app_comm_cons. by apply Forall2_app.
  - cbn. rewrite app_length, I2. apply Forall2_length in S. cbn in S. lia.
Qed.
