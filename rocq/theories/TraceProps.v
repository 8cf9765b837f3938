(** Properties of the export of spans: C39, and C37 for spans. *)
From Coq Require Import ZArith Bool String Lia.
From stdpp Require Import base list option strings.
From Verif Require Import Num Attr View Exp ExpSpec ExpProofs ExpProps Trace TraceSpec TraceProofs.
Local Open Scope string_scope.
Local Open Scope Z_scope.

(** C39: the batch becomes runs of consecutive spans of one scope name, that keep every span once, in order. *)
Theorem C39_runs rm s l rm' r : Forall span_ok (s :: l) -> sc_name (sp_scope s) <> "" -> rm_get rm (sp_res s) = Some (rm', r) ->
  exists xs, t_d2pd rm (s :: l) = Some (rm', [PResSpans r xs]) /\ runs (s :: l) xs.
Proof.
  intros F N E. destruct (copy_spans_runs (s :: l) F) as (xs & Ex & R); [by intros s' r' [= <- _]|]. exists xs. split; [|done].
  unfold t_d2pd. rewrite E. cbn [mbind option_bind]. rewrite Ex. done.
Qed.
Theorem C39_keeps rm s l rm' r : Forall span_ok (s :: l) -> sc_name (sp_scope s) <> "" -> rm_get rm (sp_res s) = Some (rm', r) ->
  exists xs, t_d2pd rm (s :: l) = Some (rm', [PResSpans r xs]) /\ Forall2 span_says (s :: l) (concat (map pss_spans xs)) /\
  forall x p, x ∈ xs -> p ∈ pss_spans x -> exists s', s' ∈ s :: l /\ span_says s' p /\ sc_name (sp_scope s') = pss_name x.
Proof.
  intros F N E. destruct (C39_runs rm s l rm' r F N E) as (xs & Ex & R). exists xs. split; [done|]. split; [by apply runs_spans|].
  clear Ex N E F. induction R as [|s0 r0 rest x xs N V U F S C R IH]; intros y p Hy Hp; [by apply elem_of_nil in Hy|]. apply elem_of_cons in Hy as [->|Hy].
  - apply elem_of_list_lookup in Hp as (i & Hi). destruct (Forall2_lookup_r _ _ _ _ _ S Hi) as (s' & Hs & Ss). apply elem_of_list_lookup_2 in Hs.
    exists s'. split; [rewrite app_comm_cons; apply elem_of_app; by left|]. split; [done|]. apply elem_of_cons in Hs as [->|Hs]; [done|].
    by apply (proj1 (list.Forall_forall _ _) F).
  - destruct (IH y p Hy Hp) as (s' & Hs & ?). exists s'. split; [|done]. rewrite app_comm_cons. apply elem_of_app. by right.
Qed.
(** So for every history of exports of one client. *)
Theorem C39_history l : Forall (fun i => batch_ok i.1) l -> exists os, span_exports rm_zero l = Some os /\ Forall2 span_export_says l os.
Proof.
  assert (C : cache_ok rm_zero) by done. revert C. generalize rm_zero. induction l as [|[b consume] l IH]; intros rm C F; [by exists []|].
  apply list.Forall_cons in F as [[B1 B2] F]. cbn [fst] in B1, B2. destruct b as [|s b].
  - destruct (IH rm C F) as (os & Eo & Fo). cbn [span_exports]. unfold export_spans, t_d2pd. cbn [mbind option_bind]. rewrite Eo. cbn [mbind option_bind].
    eexists. split; [reflexivity|]. constructor; [|done]. split; [done|]. split; [done|]. eexists. split; [reflexivity|]. apply report_says.
  - destruct B2 as (N & A & W). destruct (rm_get_says rm _ C A W) as (rm' & r & E & C' & R). destruct (IH rm' C' F) as (os & Eo & Fo).
    destruct (C39_runs rm s b rm' r B1 N E) as (xs & Ex & Rx). cbn [span_exports]. unfold export_spans. rewrite Ex. cbn [mbind option_bind]. rewrite Eo. cbn [mbind option_bind].
    eexists. split; [reflexivity|]. constructor; [|done]. destruct (runs_spans _ _ Rx) as [R1 R2]. split; [by exists r, xs|]. split; [done|].
    eexists. split; [reflexivity|]. assert (Q : span_count [PResSpans r xs] = length (s :: b)). { cbn [span_count map foldr pr_scopes]. rewrite Nat.add_0_r. by symmetry. }
    rewrite <- Q. apply report_says.
Qed.
Theorem C39_none rm : t_d2pd rm [] = Some (rm, []).
Proof. done. Qed.
(** Different statuses and kinds stay different. *)
Theorem C39_one_to_one : (forall a b, 0 <= a <= 2 -> 0 <= b <= 2 -> translate_code a = translate_code b -> a = b) /\
  (forall a b, 0 <= a <= 5 -> 0 <= b <= 5 -> translate_kind a = translate_kind b -> a = b).
Proof.
  split; intros a b A B E.
  - assert (a = 0 \/ a = 1 \/ a = 2) as [->|[->| ->]] by lia; assert (b = 0 \/ b = 1 \/ b = 2) as [->|[->| ->]] by lia; done.
  - assert (a = 0 \/ a = 1 \/ a = 2 \/ a = 3 \/ a = 4 \/ a = 5) as [->|[->|[->|[->|[->| ->]]]]] by lia;
      assert (b = 0 \/ b = 1 \/ b = 2 \/ b = 3 \/ b = 4 \/ b = 5) as [->|[->|[->|[->|[->| ->]]]]] by lia; done.
Qed.

Module Ex39.
  Definition sp nm sc v k c at_ := Span (Scope sc v "u") [("service.name", VString "svc")] 1 2 3 k nm 10 20 30 40 50 "st" c "m" at_
    [Event 4 "ev" 35 [("e", VInt 1)]] [Link 5 60 70 "ls" [("l", VBools [true])]].
  Definition l := [sp "a" "x" "1" 2 1 [("k", VInt 1); ("j", VInt 5); ("k", VInt 2)]; sp "b" "x" "1" 0 2 []; sp "c" "" "1" 5 0 []; sp "d" "x" "2" 3 0 []].
  Lemma sp_ok nm sc v k c at_ : with_types at_ -> 0 <= c <= 2 -> 0 <= k <= 5 -> span_ok (sp nm sc v k c at_).
  Proof. intros A B C. repeat (split; [first [done | lia]|]). repeat split; repeat constructor; try done; cbn; lia. Qed.
  Example ok : Forall span_ok l.
  Proof. repeat constructor; try done; cbn; try lia; cbn; try done. Qed.
  Example history : Forall (fun i => batch_ok i.1) [(l, fun _ : list presspans => Some (Error "late" true false)); ([], fun _ => None); (l, fun _ => None)].
  Proof.
    assert (B : batch_ok l). { split; [exact ok|]. split; [done|]. split; [apply (bool_decide_unpack _); vm_compute; exact I|by repeat constructor]. }
    constructor; [exact B|]. constructor; [by split; [constructor|]|]. constructor; [exact B|constructor].
  Qed.
  Example exported : (fun r => map (fun x => (pss_name x, pss_version x, map pp_name (pss_spans x))) (concat (map pr_scopes r.2))) <$> t_d2pd rm_zero l =
    Some [("x", "1", ["a"; "b"]); ("", "1", ["c"]); ("x", "2", ["d"])].
  Proof. vm_compute. reflexivity. Qed.
  Example attrs : (fun p => (pp_attrs p, pp_kind p, pp_code p)) <$> copy_span (sp "a" "x" "1" 2 1 [("k", VInt 1); ("j", VInt 5); ("k", VInt 2)]) =
    Some ([("j", PInt 5); ("k", PInt 2)], PKServer, PSError).
  Proof. vm_compute. reflexivity. Qed.
End Ex39.

(** A batch that begins with spans of an unnamed scope makes the export panic. *)
Theorem C39_unnamed_scope_refuted rm s l : sc_name (sp_scope s) = "" -> t_d2pd rm (s :: l) = None.
Proof. intros N. unfold t_d2pd. destruct (rm_get rm (sp_res s)) as [[rm' r]|]; [|done]. cbn. by rewrite N. Qed.
(** Spans of two versions of a scope end up under the version of the first. *)
Theorem C39_version_refuted : exists l x, Forall span_ok l /\ map (fun s => sc_version (sp_scope s)) l = ["1"; "2"] /\
  t_d2pd rm_zero l = Some x /\ (concat (map (fun r => map pss_version (pr_scopes r)) x.2) = ["1"]).
Proof.
  exists [Ex39.sp "a" "x" "1" 1 0 []; Ex39.sp "b" "x" "2" 1 0 []]. eexists. split; [repeat constructor; try done; cbn; try lia; cbn; try done|].
  split; [done|]. split; [vm_compute; reflexivity|done].
Qed.
(** Spans of another resource end up under the resource of the first span. *)
Theorem C39_resource_refuted rm s l l' rm' x : t_d2pd rm (s :: l) = Some (rm', x) -> map without_resource l =
  map without_resource l' ->
  t_d2pd rm (s :: l') = Some (rm', x).
Proof.
  unfold t_d2pd. destruct (rm_get rm (sp_res s)) as [[rm1 r]|]; [|done]. cbn [mbind option_bind].
  assert (Q : forall l l' cur out, map without_resource l =
  map without_resource l' ->
    copy_spans cur out l = copy_spans cur out l').
  { clear. induction l as [|a l IH]; intros [|b l'] cur out E; try done. cbn [map] in E. injection E as H1 H2 H3 H4 H5 H6 H7 H8 H9 H10 H11 H12 H13 H14 H15 H16 H17 E.
    assert (C : copy_span a = copy_span b) by (unfold copy_span; by rewrite H2, H3, H4, H5, H6, H7, H8, H9, H10, H11, H12, H13, H14, H15, H16, H17).
    cbn [copy_spans]. rewrite C, H1. destruct (String.eqb (sc_name (sp_scope b)) cur).
    - destruct out; [done|]. destruct (copy_span b); [|done]. cbn [mbind option_bind]. destruct (append_span (p :: out) p0); [|done]. cbn [mbind option_bind]. by apply IH.
    - destruct (out ++ _)%list; [done|]. destruct (copy_span b); [|done]. cbn [mbind option_bind]. destruct (append_span (p :: l0) p0); [|done]. cbn [mbind option_bind]. by apply IH. }
  intros E M. rewrite <- (Q (s :: l) (s :: l') "" []); [done|]. cbn [map]. by rewrite M.
Qed.

(** C37 for spans. *)
Theorem C37_spans_counted rm s l rm' r consume : Forall span_ok (s :: l) -> sc_name (sp_scope s) <> "" -> rm_get rm (sp_res s) = Some (rm', r) ->
  exists x t, export_spans rm (s :: l) consume = Some (rm', x, [t], consume x) /\ tl_added t = Z.of_nat (length (s :: l)).
Proof.
  intros F N E. destruct (C39_runs rm s l rm' r F N E) as (xs & Ex & R). unfold export_spans. rewrite Ex. cbn [mbind option_bind]. eexists _, _. split; [reflexivity|].
  apply runs_spans in R as [_ R]. rewrite R. cbn. f_equal. lia.
Qed.
Theorem C37_spans_outcome rm l consume rm' x ts e : export_spans rm l consume = Some (rm', x, ts, e) ->
  e = consume x /\ exists t, ts = [t] /\
  (("success", VBool true) ∈ tl_attrs t <-> e = None) /\ (tl_ok t = true <-> e = None) /\ (forall y, e = Some y -> tl_message t = er_text y) /\
  (forall st, ("state", VString st) ∈ tl_attrs t <-> 
     match e with None => st = "ok" | Some y => er_canceled y = true /\ st = "canceled" \/ er_canceled y = false /\ er_deadline y = true /\ st = "timeout" \/
                                               er_canceled y = false /\ er_deadline y = false /\ st = "error" end).
Proof.
  unfold export_spans. destruct (t_d2pd rm l) as [[rm1 x1]|]; [|done]. cbn [mbind option_bind]. intros [= <- <- <- <-]. split; [done|].
  eexists. split; [reflexivity|]. cbn. destruct (consume x1) as [[tx ca de]|]; cbn.
  - split; [rewrite !elem_of_cons, elem_of_nil; split; [intros [X|[X|X]]; done|done]|]. split; [done|]. split; [by intros y [= <-]|]. intros st.
    rewrite !elem_of_cons, elem_of_nil. split.
    + intros [X|[X|X]]; try done. injection X as ->. destruct ca, de; auto.
    + intros [(-> & ->)|[(-> & -> & ->)|(-> & -> & ->)]]; auto.
  - split; [split; [done|intros _; by left]|]. split; [done|]. split; [done|]. intros st. rewrite !elem_of_cons, elem_of_nil. split; [|intros ->; auto].
    intros [X|[X|X]]; try done. by injection X as ->.
Qed.

Theorem C37_spans_told rm l consume rm' x ts e : export_spans rm l consume = Some (rm', x, ts, e) ->
  exists t, ts = [t] /\ telemetry_says "num_spans" (span_count x) e t.
Proof.
  unfold export_spans. destruct (t_d2pd rm l) as [[rm1 x1]|]; [|done]. cbn [mbind option_bind]. intros [= <- <- <- <-].
  eexists. split; [reflexivity|]. apply report_says.
Qed.

Print Assumptions C39_runs.
Print Assumptions C39_keeps.
Print Assumptions C39_history.
Print Assumptions C39_none.
Print Assumptions C39_one_to_one.
Print Assumptions C39_unnamed_scope_refuted.
Print Assumptions C39_version_refuted.
Print Assumptions C39_resource_refuted.
Print Assumptions C37_spans_counted.
Print Assumptions C37_spans_outcome.
Print Assumptions C37_spans_told.
