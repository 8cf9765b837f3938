(** Proofs for C64. *)
From Coq Require Import ZArith Bool String Lia.
From stdpp Require Import base list option strings gmap pretty.
From Verif Require Import Num Attr View Data DataSpec DataProofs Exp ExpSpec ExpProofs Trace TraceSpec TraceProofs TraceProps Pipe Client ClientSpec.
Local Open Scope string_scope.

(** ** Configuration *)
Lemma new_oconfig_snoc b l o : new_oconfig b (l ++ [o])%list = match o with Some f => apply_oopt f (new_oconfig b l) | None => new_oconfig b l end.
Proof. unfold new_oconfig. by rewrite fold_left_app. Qed.
Lemma latest_snoc {O A} (f : O -> option A) l o : latest f (l ++ [o])%list = match (match o with Some x => f x | None => None end) with Some a => Some a | None => latest f l end.
Proof.
  unfold latest. rewrite omap_app. cbn. destruct (match o with Some x => f x | None => None end) as [a|]; cbn; [by rewrite list.last_snoc|by rewrite app_nil_r].
Qed.
Lemma oconfig_rest b l : Forall plain l -> exists x, new_oconfig b l = set_client (fun _ => x) (default_oconfig b).
Proof.
  induction l as [|o l IH] using rev_ind; intros F; [by exists xc_default|]. apply list.Forall_app in F as [F P]. apply list.Forall_cons in P as [P _].
  destruct (IH F) as [x E]. rewrite new_oconfig_snoc. destruct o as [o|]; [|by exists x].
  destruct o as [a|h|s| |t|f]; cbn [apply_oopt]; rewrite ?E; try (eexists; reflexivity). by destruct (P f).
Qed.
Lemma oconfig_endpoint b l : Forall plain l -> xc_endpoint (oc_client (new_oconfig b l)) = default "" (latest says_endpoint l).
Proof.
  induction l as [|o l IH] using rev_ind; intros F; [done|]. apply list.Forall_app in F as [F P]. apply list.Forall_cons in P as [P _].
  rewrite new_oconfig_snoc, latest_snoc. destruct o as [[a|h|s| |t|f]|]; cbn; auto. by destruct (P f).
Qed.
Lemma oconfig_compressor b l : Forall plain l -> xc_compression (oc_client (new_oconfig b l)) = default "zstd" (latest says_compressor l).
Proof.
  induction l as [|o l IH] using rev_ind; intros F; [done|]. apply list.Forall_app in F as [F P]. apply list.Forall_cons in P as [P _].
  rewrite new_oconfig_snoc, latest_snoc. destruct o as [[a|h|s| |t|f]|]; cbn; auto. by destruct (P f).
Qed.
Lemma oconfig_headers b l k : Forall plain l -> xc_headers (oc_client (new_oconfig b l)) !! k = latest (says_header k) l.
Proof.
  induction l as [|o l IH] using rev_ind; intros F; [done|]. apply list.Forall_app in F as [F P]. apply list.Forall_cons in P as [P _].
  rewrite new_oconfig_snoc, latest_snoc. destruct o as [[a|h|s| |t|f]|]; cbn; auto; [|by destruct (P f)].
  destruct (h !! k) as [x|] eqn:E; [by apply lookup_union_Some_l|]. rewrite lookup_union_r by done. auto.
Qed.
Lemma tls_from l : forall c, Forall plain l -> Forall no_tls l ->
  let t := xc_tls (oc_client (fold_left (fun c o => match o with Some f => apply_oopt f c | None => c end) l c)) in
  tls_other t = tls_other (xc_tls (oc_client c)) /\ (tls_insecure t = true <-> tls_insecure (xc_tls (oc_client c)) = true \/ Some WithInsecure ∈ l).
Proof.
  induction l as [|o l IH]; intros c P N; cbn zeta.
  - cbn. split; [done|]. split; [by left|]. intros [E|E]; [done|by apply elem_of_nil in E].
  - apply list.Forall_cons in P as [P P']. apply list.Forall_cons in N as [N N']. cbn [fold_left]. rewrite elem_of_cons.
    destruct o as [[a|h|s| |t|f]|];
      [destruct (IH (set_client (with_endpoint a) c) P' N') as [E1 E2]|destruct (IH (set_client (with_headers h) c) P' N') as [E1 E2]
      |destruct (IH (set_client (with_compressor s) c) P' N') as [E1 E2]|destruct (IH (set_client with_insecure c) P' N') as [E1 E2]
      |by destruct (N t)|by destruct (P f)|destruct (IH c P' N') as [E1 E2]]; cbn [apply_oopt]; (split; [exact E1|]); rewrite E2; cbn; intuition congruence.
Qed.
Lemma oconfig_tls b l t r : Forall plain (l ++ Some (WithTLSSetting t) :: r)%list -> Forall no_tls r ->
  let x := xc_tls (oc_client (new_oconfig b (l ++ Some (WithTLSSetting t) :: r)%list)) in
  tls_other x = tls_other t /\ (tls_insecure x = true <-> tls_insecure t = true \/ Some WithInsecure ∈ r).
Proof.
  intros P N. apply list.Forall_app in P as [_ P]. apply list.Forall_cons in P as [_ P]. unfold new_oconfig. rewrite fold_left_app. cbn [fold_left].
  destruct (tls_from r (set_client (with_tls t) (fold_left (fun c o => match o with Some f => apply_oopt f c | None => c end) l (default_oconfig b))) P N) as [E1 E2].
  split; [exact E1|]. exact E2.
Qed.
Lemma oconfig_no_tls b l : Forall plain l -> Forall no_tls l ->
  let x := xc_tls (oc_client (new_oconfig b l)) in tls_other x = "" /\ (tls_insecure x = true <-> Some WithInsecure ∈ l).
Proof. intros P N. destruct (tls_from l (default_oconfig b) P N) as [E1 E2]. split; [exact E1|]. unfold new_oconfig. rewrite E2. cbn. intuition congruence. Qed.
Lemma pconfig_says l : Forall p_plain l -> new_pconfig l =
  PConfig true true match latest says_port l with Some n => "0.0.0.0:" ++ pretty n | None => "0.0.0.0:9090" end 3600000000000 true.
Proof.
  induction l as [|o l IH] using rev_ind; intros F; [done|]. apply list.Forall_app in F as [F P]. apply list.Forall_cons in P as [P _].
  rewrite latest_snoc. unfold new_pconfig. rewrite fold_left_app. fold (new_pconfig l). rewrite (IH F). destruct o as [[n|f]|]; cbn; [done|by destruct (P f)|done].
Qed.

(** ** Creation *)
Section creation.
Context (fails : log -> nat * cact -> option error).
Lemma chosen_fold l : forall x, fold_left (fun x o => apply_sopt o x) l x =
  (match list.last (omap says_tracer l) with Some p => p | None => x.1 end, match list.last (omap says_meter l) with Some p => p | None => x.2 end).
Proof.
  induction l as [|o l IH] using rev_ind; intros x; [by destruct x|]. rewrite fold_left_app. cbn. rewrite IH, !omap_app.
  destruct o as [p|p]; cbn; rewrite ?list.last_snoc, ?app_nil_r; done.
Qed.
Lemma spans_asked n c l w : new_otlp_spans fails n c l w = assemble fails n OTLPSpans (chosen says_tracer l (oc_spans c)) (chosen says_meter l (oc_metrics c)) (inl c) w.
Proof.
  unfold new_otlp_spans. rewrite chosen_fold. cbn [fst snd]. unfold chosen.
  destruct (list.last (omap says_tracer l)) as [[p|]|], (list.last (omap says_meter l)) as [[q|]|]; done.
Qed.
Ltac tidy := repeat rewrite <- app_assoc in *; cbn [app map fst snd] in *.
Lemma assemble_creation n k tp mp cfg w : creation fails n k tp mp cfg w (assemble fails n k tp mp cfg w).1 (assemble fails n k tp mp cfg w).2.
Proof.
  unfold assemble, self_telemetry, attempt, act.
  change (fix_name "otelsdk.telemetry.items") with "otelsdk.telemetry.items".
  assert (Q : forall l r es, plan k tp mp cfg = (l ++ r)%list -> errors fails n w l = es -> es <> [] ->
    (forall l1 a l2, l = (l1 ++ a :: l2)%list -> answer fails (w ++ map (pair n) l1)%list n a <> None -> l2 = [] \/ a = CLogger /\ length l2 = 2%nat) ->
    creation fails n k tp mp cfg w (w ++ map (pair n) l)%list (inl es)).
  { intros l r es E <- N A. by apply (refused fails n k tp mp cfg w l r). }
  assert (S : errors fails n w (plan k tp mp cfg) = [] -> creation fails n k tp mp cfg w (w ++ map (pair n) (plan k tp mp cfg))%list (inr (Client k mp rm_zero))) by (intros E; by constructor).
  destruct k; cbn [scope_of plan] in *; tidy;
  repeat match goal with |- context [match fails ?a ?b with _ => _ end] => destruct (fails a b) eqn:? end; tidy; cbn [app fst snd];
  try (apply S; cbn [errors answer]; tidy; repeat match goal with Z : fails _ _ = None |- _ => rewrite Z; clear Z end; reflexivity).
  all: match goal with |- creation _ _ _ _ _ _ _ (?w ++ ?l)%list _ => let l' := eval cbn in (map snd l) in
    change (w ++ l)%list with (w ++ map (pair n) l')%list; eapply (Q l'); [reflexivity| |done|] end.
  all: try (cbn [errors answer]; tidy; repeat match goal with Z : fails _ _ = _ |- _ => rewrite Z; clear Z end; reflexivity).
  all: intros l1 a l2 E A.
  all: repeat (destruct l1 as [|? l1]; cbn [app] in E; [injection E as <- <-; cbn [map app] in A; rewrite ?app_nil_r in A; cbn [answer] in A; try (by left); try (by right; split; [done|done]); exfalso; congruence|injection E as <- E]).
  all: exfalso; by destruct l1.
Qed.
End creation.

(** ** Use *)
Lemma rm_get_cache m s m' o : cache_ok m -> rm_get m s = Some (m', o) -> cache_ok m'.
Proof.
  intros C. destruct m as [dis inp out]. unfold rm_get, rm_fresh. destruct (copy_attributes [] s) as [e|] eqn:E; cbn [mbind option_bind].
  - destruct dis, inp as [i|]; cbn [mbind option_bind]; repeat case_match; try done; intros [= <- _]; done.
  - destruct dis, inp as [i|]; cbn [mbind option_bind]; repeat case_match; try done; intros [= <- _]; done.
Qed.
Lemma d2pd_cache H rs rm m u rm' x : cache_ok rm -> d2pd H rs rm m u = Some (rm', x) -> cache_ok rm'.
Proof.
  intros C. unfold d2pd. destruct (rm_get rm (rs (mt_res m))) as [[m1 r]|] eqn:E; [|done]. cbn [mbind option_bind]. pose proof (rm_get_cache _ _ _ _ C E).
  match goal with |- context [mbind _ ?z] => destruct z end; [|done]. cbn. by intros [= <- _].
Qed.
Lemma t_d2pd_cache rm l rm' x : cache_ok rm -> t_d2pd rm l = Some (rm', x) -> cache_ok rm'.
Proof.
  intros C. unfold t_d2pd. destruct l as [|s l]; [by intros [= <- _]|]. destruct (rm_get rm (sp_res s)) as [[m1 r]|] eqn:E; [|done]. cbn [mbind option_bind].
  pose proof (rm_get_cache _ _ _ _ C E). match goal with |- context [mbind _ ?z] => destruct z end; [|done]. cbn. by intros [= <- _].
Qed.
Lemma of_client_app n w w' : of_client n (w ++ w')%list = (of_client n w ++ of_client n w')%list.
Proof. apply omap_app. Qed.
Lemma of_client_own n l : of_client n (map (pair n) l) = l.
Proof. induction l as [|a l IH]; [done|]. cbn. rewrite Nat.eqb_refl. by f_equal. Qed.
Lemma of_client_other n m l : n <> m -> of_client n (map (pair m) l) = [].
Proof. intros N. induction l as [|a l IH]; [done|]. cbn. destruct (Nat.eqb_spec m n); [congruence|done]. Qed.

Section use.
Context (fails : log -> nat * cact -> option error) (H : hlib) (rs : string -> list kv).
(** What a call on a client does to the log and the client. *)
Definition tame (n : nat) (c : client) (w : log) (w' : log) (c' : client) : Prop :=
  cl_kind c' = cl_kind c /\ cl_meter c' = cl_meter c /\ (cache_ok (cl_rm c) -> cache_ok (cl_rm c')) /\
  exists u, w' = (w ++ map (pair n) u)%list /\ Forall (use (cl_kind c) (cl_meter c)) u.
Lemma export_tame n c m w w' c' e : cl_kind c <> OTLPSpans -> export fails H rs n c m w = Some (w', c', e) -> tame n c w w' c'.
Proof.
  intros N. unfold export, export_metrics.
  destruct (d2pd H rs (cl_rm c) m _) as [[rm x]|] eqn:E; [|done]. cbn [mbind option_bind]. intros [= <- <- _].
  split; [done|]. split; [done|]. split; [intros C; by apply (d2pd_cache _ _ _ _ _ _ _ C E)|].
  eexists [_; _]. split; [reflexivity|]. repeat constructor.
Qed.
Lemma spans_tame n c l w w' c' e : cl_kind c = OTLPSpans -> spans fails n c l w = Some (w', c', e) -> tame n c w w' c'.
Proof.
  intros N. unfold spans, export_spans. destruct (t_d2pd (cl_rm c) l) as [[rm x]|] eqn:E; [|done]. cbn [mbind option_bind]. intros [= <- <- _].
  split; [done|]. split; [done|]. split; [intros C; by apply (t_d2pd_cache _ _ _ _ C E)|].
  eexists [_; _]. split; [reflexivity|]. rewrite N. repeat constructor.
Qed.
Lemma stop_says n k w es : stop fails n k (w, es) = ((w ++ map (pair n) (stops k))%list, (es ++ errors fails n w (stops k))%list).
Proof.
  destruct k; cbn; unfold also, act; cbn; rewrite ?app_nil_r, <- ?app_assoc; try done.
Qed.
Lemma stops_use k mp : Forall (use k mp) (stops k).
Proof. destruct k; cbn; repeat constructor; done. Qed.
Lemma shutdown_tame n c m w w' c' es : shutdown fails H rs n c m w = Some (w', c', es) -> tame n c w w' c'.
Proof.
  assert (Q : cl_kind c <> OTLPSpans -> match export fails H rs n c m w with
      | Some (w1, c1, e) => let '(w', es) := stop fails n (cl_kind c) (w1, match e with Some x => [x] | None => [] end) in Some (w', c1, es)
      | None => None end = Some (w', c', es) -> tame n c w w' c').
  { intros N. destruct (export fails H rs n c m w) as [[[w1 c1] e]|] eqn:E; [|done]. rewrite stop_says. intros [= <- <- _].
    destruct (export_tame _ _ _ _ _ _ _ N E) as (K & M & R & u & -> & F). split; [done|]. split; [done|]. split; [done|].
    exists (u ++ stops (cl_kind c))%list. rewrite map_app, app_assoc. split; [done|]. apply list.Forall_app. split; [done|apply stops_use]. }
  unfold shutdown. destruct (cl_kind c) eqn:Ek; [by apply Q| |by apply Q]. rewrite stop_says. intros [= <- <- _].
  split; [done|]. split; [done|]. split; [done|]. exists (stops OTLPSpans). split; [done|]. rewrite Ek. apply stops_use.
Qed.

(** The invariant of programs. *)
Definition life (n : nat) (q : ckind * provider * provider * (oconfig + pconfig)) (x : option client) (w : log) : Prop :=
  let '(k, tp, mp, cfg) := q in
  match x with
  | None => exists r, plan k tp mp cfg = (of_client n w ++ r)%list
  | Some c => cl_kind c = k /\ cl_meter c = mp /\ cache_ok (cl_rm c) /\ exists u, of_client n w = (plan k tp mp cfg ++ u)%list /\ Forall (use k mp) u
  end.
Definition inv (l : list call) (p : prog) : Prop :=
  length (pg_clients p) = length (omap asked l) /\
  (forall n, length (omap asked l) <= n -> of_client n (pg_log p) = [])%nat /\
  forall n q, omap asked l !! n = Some q -> exists x, pg_clients p !! n = Some x /\ life n q x (pg_log p).
Lemma life_other n q x w m u : n <> m -> life n q x w -> life n q x (w ++ map (pair m) u)%list.
Proof. intros N. destruct q as [[[k tp] mp] cfg]. unfold life. rewrite of_client_app, of_client_other by done. by rewrite app_nil_r. Qed.
Lemma inv_make l p a k tp mp cfg w r : inv l p -> asked a = Some (k, tp, mp, cfg) -> creation fails (length (pg_clients p)) k tp mp cfg (pg_log p) w r ->
  inv (l ++ [a])%list (made p (w, r)).1.
Proof.
  intros (L & O & I) A C.
  assert (E : exists u x, made p (w, r) = (Prog (pg_log p ++ map (pair (length (pg_clients p))) u)%list (pg_clients p ++ [x])%list, match r with inl es => es | inr _ => [] end) /\
    match x with None => exists r, plan k tp mp cfg = (u ++ r)%list | Some c => c = Client k mp rm_zero /\ u = plan k tp mp cfg end).
  { destruct C as [C|u r' E N X]; cbn; [eexists _, (Some _); by split|exists u, None; split; [done|by exists r']]. }
  clear C. destruct E as (u & x & -> & X). unfold inv. cbn [fst pg_log pg_clients]. rewrite omap_app. cbn. rewrite A. rewrite !app_length. cbn.
  split; [lia|]. split.
  - intros n Hn. rewrite of_client_app, O, of_client_other by lia. done.
  - intros n q Hq. destruct (decide (n < length (omap asked l))%nat) as [Hn|Hn].
    + rewrite lookup_app_l in Hq by done. destruct (I n q Hq) as (y & Hy & Ly). exists y. split; [by apply lookup_app_l_Some|].
      apply life_other; [lia|done].
    + apply lookup_app_Some in Hq as [Hq|[_ Hq]]; [apply lookup_lt_Some in Hq; lia|]. apply list_lookup_singleton_Some in Hq as [Hn' <-].
      assert (n = length (pg_clients p)) as -> by lia. exists x. split; [by rewrite list_lookup_middle|]. unfold life.
      rewrite of_client_app, O, of_client_own by lia. cbn. destruct x as [c|]; [|done]. destruct X as [-> ->]. cbn. split; [done|]. split; [done|]. split; [done|].
      exists []. by rewrite app_nil_r.
Qed.
Lemma inv_use l p a i c w' c' : inv l p -> asked a = None -> pg_clients p !! i = Some (Some c) -> tame i c (pg_log p) w' c' ->
  inv (l ++ [a])%list (Prog w' (<[i := Some c']> (pg_clients p))).
Proof.
  intros (L & O & I) A Hc (K & M & R & u & -> & F). unfold inv. cbn [pg_log pg_clients]. rewrite omap_app. cbn. rewrite A, app_nil_r, insert_length.
  pose proof (lookup_lt_Some _ _ _ Hc) as Hi. split; [done|]. split.
  - intros n Hn. rewrite of_client_app, O, of_client_other by lia. done.
  - intros n q Hq. destruct (I n q Hq) as (x & Hx & Lx). destruct (decide (n = i)) as [->|N].
    + exists (Some c'). rewrite list_lookup_insert by done. split; [done|]. assert (x = Some c) as -> by congruence. destruct q as [[[k tp] mp] cfg].
      destruct Lx as (E1 & E2 & C & v & E & V). split; [congruence|]. split; [congruence|]. split; [by apply R|].
      exists (v ++ u)%list. rewrite of_client_app, of_client_own, E, <- app_assoc. split; [done|]. apply list.Forall_app. subst. done.
    + exists x. rewrite list_lookup_insert_ne by done. split; [done|]. by apply life_other.
Qed.
Lemma inv_do l p a p' es : inv l p -> do fails H rs p a = Some (p', es) -> inv (l ++ [a])%list p'.
Proof.
  intros I E. destruct a as [c|c o|c|i m|i b|i m]; cbn [do] in E.
  - apply (inj Some) in E. pose proof (inv_make l p (MakeMetrics c) _ _ _ _ _ _ I eq_refl (assemble_creation fails _ _ _ _ _ _)) as X.
    rewrite <- surjective_pairing in X. unfold new_otlp_metrics in E. change (if_self) with own in E. by rewrite E in X.
  - apply (inj Some) in E. pose proof (inv_make l p (MakeSpans c o) _ _ _ _ _ _ I eq_refl (assemble_creation fails _ _ _ _ _ _)) as X.
    rewrite <- surjective_pairing in X. rewrite spans_asked in E. by rewrite E in X.
  - apply (inj Some) in E. pose proof (inv_make l p (MakeProm c) _ _ _ _ _ _ I eq_refl (assemble_creation fails _ _ _ _ _ _)) as X.
    rewrite <- surjective_pairing in X. unfold new_prometheus in E. change (if_self) with own in E. by rewrite E in X.
  - destruct (pg_clients p !! i) as [[c|]|] eqn:Hc; [|done|done]. assert (N : cl_kind c <> OTLPSpans) by (by destruct (cl_kind c)).
    assert (E' : done p i (listed (export fails H rs i c m (pg_log p))) = Some (p', es)) by (by destruct (cl_kind c)).
    unfold done, listed in E'. destruct (export fails H rs i c m (pg_log p)) as [[[w c'] e]|] eqn:X; [|done]. injection E' as <- _.
    eapply inv_use; [done|done|done|]. by eapply export_tame.
  - destruct (pg_clients p !! i) as [[c|]|] eqn:Hc; [|done|done]. assert (N : cl_kind c = OTLPSpans) by (by destruct (cl_kind c)).
    rewrite N in E. unfold done, listed in E. destruct (spans fails i c b (pg_log p)) as [[[w c'] e]|] eqn:X; [|done]. injection E as <- _.
    eapply inv_use; [done|done|done|]. by eapply spans_tame.
  - destruct (pg_clients p !! i) as [[c|]|] eqn:Hc; [|done|done]. unfold done in E. destruct (shutdown fails H rs i c m (pg_log p)) as [[[w c'] e]|] eqn:X; [|done]. injection E as <- _.
    eapply inv_use; [done|done|done|]. by eapply shutdown_tame.
Qed.
Lemma inv_run l : forall l0 p p', inv l0 p -> run fails H rs p l = Some p' -> inv (l0 ++ l)%list p'.
Proof.
  induction l as [|a l IH]; intros l0 p p' I E; [injection E as <-; by rewrite app_nil_r|]. cbn in E.
  destruct (do fails H rs p a) as [[p1 es]|] eqn:D; [|done]. replace (l0 ++ a :: l)%list with ((l0 ++ [a]) ++ l)%list by (by rewrite <- app_assoc).
  eapply IH; [by eapply inv_do|done].
Qed.
Lemma inv_init : inv [] p_init.
Proof. split; [done|]. split; [done|]. intros n q E. done. Qed.
Lemma run_inv l p : run fails H rs p_init l = Some p -> inv l p.
Proof. intros E. exact (inv_run l [] _ _ inv_init E). Qed.
Lemma run_cache l p i c : run fails H rs p_init l = Some p -> pg_clients p !! i = Some (Some c) -> cache_ok (cl_rm c).
Proof.
  intros E Hc. destruct (run_inv _ _ E) as (L & O & I). pose proof (lookup_lt_Some _ _ _ Hc) as Hi. rewrite L in Hi. apply lookup_lt_is_Some in Hi as [q Hq].
  destruct (I _ _ Hq) as (x & Hx & Lx). assert (x = Some c) as -> by congruence. destruct q as [[[k tp] mp] cfg]. by destruct Lx as (_ & _ & C & _).
Qed.

(** One call. *)
Lemma export_one useexp m rm consume : cache_ok rm -> data_ok H useexp m -> a_set (rs (mt_res m)) -> with_types (rs (mt_res m)) ->
  exists rm' x t, export_metrics H rs rm m useexp consume = Some (rm', x, [t], consume x) /\ export_says H rs useexp (m, consume) (x, [t], consume x).
Proof.
  intros C D A W. destruct (rm_get_says rm _ C A W) as (rm' & r & E & C' & R). destruct (convert_scopes_says H useexp (vis (mt_scopes m)) D) as (ss & Es & Fs & Cs).
  unfold export_metrics, d2pd. rewrite E. cbn [mbind option_bind]. rewrite Es. cbn [mbind option_bind]. eexists _, _, _. split; [reflexivity|].
  split; [done|]. split; [done|]. split; [done|]. eexists. split; [reflexivity|].
  assert (Q : point_count (PMetrics r ss) = points_given m) by exact Cs. rewrite <- Q. apply report_says.
Qed.
Lemma spans_one b rm consume : cache_ok rm -> batch_ok b ->
  exists rm' x t, export_spans rm b consume = Some (rm', x, [t], consume x) /\ span_export_says (b, consume) (x, [t], consume x).
Proof.
  intros C [B1 B2]. destruct b as [|s b].
  - unfold export_spans, t_d2pd. cbn [mbind option_bind]. eexists _, _, _. split; [reflexivity|]. split; [done|]. split; [done|]. eexists. split; [reflexivity|]. apply report_says.
  - destruct B2 as (N & A & W). destruct (rm_get_says rm _ C A W) as (rm' & r & E & C' & R).
    destruct (C39_runs rm s b rm' r B1 N E) as (xs & Ex & Rx). unfold export_spans. rewrite Ex. cbn [mbind option_bind].
    eexists _, _, _. split; [reflexivity|]. destruct (runs_spans _ _ Rx) as [R1 R2]. split; [by exists r, xs|]. split; [done|].
    eexists. split; [reflexivity|]. assert (Q : span_count [PResSpans r xs] = length (s :: b)). { cbn [span_count map foldr pr_scopes]. rewrite Nat.add_0_r. by symmetry. }
    rewrite <- Q. apply report_says.
Qed.
End use.

(** ** Names *)
Lemma prefix_says p s : String.prefix p s = true <-> exists r, s = p ++ r.
Proof.
  revert s. induction p as [|a p IH]; intros s.
  - split; [intros _; by exists s|by destruct s].
  - destruct s as [|b s]; [split; [done|by intros [r E]]|]. cbn [String.prefix append]. destruct (Ascii.ascii_dec a b) as [<-|N].
    + rewrite IH. split; [intros [r ->]; by exists r|]. intros [r E]. injection E as ->. by exists r.
    + split; [done|]. intros [r E]. injection E as E _. by destruct N.
Qed.
Lemma from_app p r : from (String.length p) (p ++ r) = r.
Proof. induction p as [|a p IH]; [by destruct r|done]. Qed.
Lemma app_same p r r' : p ++ r = p ++ r' -> r = r'.
Proof. induction p as [|a p IH]; [done|]. cbn. intros E. injection E as E. auto. Qed.
Lemma fix_old r : fix_name ("otelcol_" ++ r) = "otelsdk_" ++ r.
Proof. unfold fix_name. rewrite (proj2 (prefix_says _ _)) by (by exists r). done. Qed.
Lemma fix_other s : (forall r, s <> "otelcol_" ++ r) -> fix_name s = s.
Proof. intros N. unfold fix_name. destruct (String.prefix "otelcol_" s) eqn:E; [|done]. apply prefix_says in E as [r E]. by destruct (N r). Qed.
Lemma name_cases s : (exists r, s = "otelcol_" ++ r) \/ (forall r, s <> "otelcol_" ++ r).
Proof.
  destruct (String.prefix "otelcol_" s) eqn:E; [left; by apply prefix_says|right]. intros r ->.
  rewrite (proj2 (prefix_says "otelcol_" _)) in E by (by exists r). done.
Qed.
