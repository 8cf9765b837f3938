(** Properties of the export of metrics: C35 to C38. *)
From Coq Require Import ZArith Bool String SpecFloat Lia.
From stdpp Require Import base list option strings list_numbers.
From Verif Require Import Num Attr View Data DataSpec DataProofs Exp ExpSpec ExpProofs.
Local Open Scope string_scope.
Local Open Scope Z_scope.

(** C35: every scope is kept; every instrument with points becomes one metric of the matching type, in order, with one point for each point;
    instruments without points are left out, and nothing else. *)
Theorem C35_keeps H rs rm m useexp rm' r : data_ok H useexp m -> rm_get rm (rs (mt_res m)) = Some (rm', r) ->
  exists x, d2pd H rs rm m useexp = Some (rm', x) /\ px_resource x = r /\ Forall2 (scope_says H useexp) (vis (mt_scopes m)) (px_scopes x).
Proof.
  intros O E. destruct (convert_scopes_says H useexp (vis (mt_scopes m)) O) as (ss & Es & F & _). unfold d2pd. rewrite E. cbn [mbind option_bind]. rewrite Es.
  cbn [mbind option_bind]. eexists. split; [reflexivity|]. done.
Qed.
(** So for every history of exports of one client: each hands over the resource and the scopes it was given, whatever was exported before,
    returns what the pipeline answers, and reports itself once (C37). *)
Theorem C35_history H rs useexp l :
  Forall (fun i => data_ok H useexp i.1 /\ a_set (rs (mt_res i.1)) /\ with_types (rs (mt_res i.1))) l ->
  exists os, exports H rs rm_zero useexp l = Some os /\ Forall2 (export_says H rs useexp) l os.
Proof. intros F. by apply exports_say. Qed.
(** What a collection outputs has one type and one temporality per instrument. *)
Lemma reports_uniform k sq : typed k -> uniform (reports k sq).
Proof.
  intros T. exists (k_fam k). unfold reports. destruct (k_mode k) eqn:M.
  - exists CumulativeTempo. split; [by left|]. intros p. change (map ?f ?l) with (f <$> l). intros (e & -> & He)%elem_of_list_fmap. cbn. split; [|done].
    destruct (proj1 (list.Forall_forall _ _) T e) as [-> _]; [apply elem_of_app; by left|done].
  - exists DeltaTempo. split; [by right|]. intros p. change (map ?f ?l) with (f <$> l). intros (e & -> & He)%elem_of_list_fmap. cbn. split; [|done].
    apply elem_of_list_filter in He as [_ He].
    destruct (proj1 (list.Forall_forall _ _) T e) as [-> _]; [apply elem_of_app; by left|done].
  - exists CumulativeTempo. split; [by left|]. intros p. change (map ?f ?l) with (f <$> l). intros (e & -> & He)%elem_of_list_fmap. cbn. split; [|done].
    destruct (proj1 (list.Forall_forall _ _) T e) as [-> _]; [apply elem_of_app; by left|done].
  - exists DeltaTempo. split; [by right|]. intros p. change (map ?f ?l) with (f <$> l). intros (e & -> & He)%elem_of_list_fmap. cbn. split; [|done].
    apply elem_of_list_omap in He as (e0 & He0 & De). unfold difference in De.
    destruct (proj1 (list.Forall_forall _ _) T e0) as [T0 C0]; [apply elem_of_app; by left|].
    destruct (prior_of (e_set e0) (k_prior k)) as [q|] eqn:Eq.
    + destruct (has_change _); [|done]. injection De as <-. cbn. f_equal.
      apply list.Forall_app in T as [_ T]. exact (proj1 (subtract_made k _ _ (prior_made k _ q T Eq) (conj T0 C0))).
    + injection De as <-. by rewrite T0.
Qed.
Theorem C35_uniform grow res ms sq inout : typed_meters ms -> (forall o, inout = Some o -> untouched o /\ fits ms o) ->
  forall s i, s ∈ vis (mt_scopes (produce grow res ms sq inout).1) -> i ∈ vis (os_insts s) -> uniform (vis (in_points i)).
Proof.
  intros T Hi s i Hs Hin. destruct (produce_spec grow res ms sq inout T Hi) as [E _].
  assert (X : read_scope s ∈ (outcome res ms sq).2). { rewrite <- E. cbn. change (map ?f ?l) with (f <$> l). by apply elem_of_list_fmap_1. }
  cbn in X. change (map ?f ms) with (f <$> ms) in X. apply elem_of_list_fmap in X as (m & Em & Hm). injection Em as _ Em.
  assert (Y : read_instr i ∈ map read_instr (vis (os_insts s))). { change (map ?f ?l) with (f <$> l). by apply elem_of_list_fmap_1. }
  rewrite Em in Y. change (map ?f (pm_cols m)) with (f <$> pm_cols m) in Y. apply elem_of_list_fmap in Y as (k & Ek & Hk). injection Ek as _ ->.
  apply reports_uniform. pose proof (proj1 (list.Forall_forall _ _) T m Hm) as Tm. exact (proj1 (list.Forall_forall _ _) Tm k Hk).
Qed.

Module Ex35.
  (** A histogram library for the examples: one bucket per power of two from 1 on, numbers below 1 count as zero. *)
  Definition n_of (n : number) : Z := match n with NInt z => z | NFloat _ => 0 end.
  Definition ex_read (n : nkind) (mx : Z) (l : list number) : hist :=
    let zs := map n_of l in
    let tot := foldr Z.add 0 zs in
    let pos := List.filter (fun z => 0 <? z) zs in
    match n with
    | IntKind => Hist (NInt (wrap tot)) (Z.of_nat (length l)) (NInt 0) (NInt 8) (Z.of_nat (length zs - length pos)) 1 (0, [Z.of_nat (length pos); 0]) (0, [])
    | FloatKind => Hist (NFloat (S754_zero false)) (Z.of_nat (length l)) (NFloat (S754_zero false)) (NFloat (S754_zero false)) (Z.of_nat (length l)) 1 (0, []) (0, [])
    end.
  Definition ex_map (s : Z) : option (Z -> spec_float) := if (0 <? s) && (s <=? 20) then Some (fun i => float_of_Z (2 ^ i)) else None.
  Definition H := HLib ex_read ex_map.
  Definition rs (r : string) : list kv := [("service.name", VString r)].
  Definition one : spec_float := Eval vm_compute in float_of_Z 1.
  Definition pt t a := Point [("b", VBool true); ("k", VStrings ["x"; "y"])] t (Some a) 5 9.
  Definition ins nm l := Instr (Descriptor nm SyncCounter IntKind "d" "u") (Slice l []).
  Definition m := Metrics "svc" (Slice [OScope (Scope "lib" "v" "s")
    (Slice [ins "sum" [pt DeltaTempo (StSum true (NInt 7)); pt DeltaTempo (StSum true (NInt (-2)))];
            ins "none" [];
            ins "hist" [pt DeltaTempo (StHist IntKind 160 [NInt 3; NInt 0; NInt 8])];
            ins "gauge" [pt CumulativeTempo (StGauge (NFloat one) 3)];
            ins "mmsc" [pt DeltaTempo (StMMSC (NFloat one) (NFloat one) (NFloat one) 1)]] [])] []).
  Lemma pt_ok t a : storage_ok H a -> point_ok H (pt t a).
  Proof.
    intros O. split; [apply (bool_decide_unpack _); vm_compute; exact I|]. split; [repeat constructor; done|].
    split; [by split|]. split; [by split|]. by exists a.
  Qed.
  Example ok u : data_ok H u m.
  Proof.
    intros s i Hs Hi. apply elem_of_list_singleton in Hs as ->. cbn in Hi.
    repeat (apply elem_of_cons in Hi as [->|Hi]); [..|by apply elem_of_nil in Hi]; cbn.
    - split; [exists (FSum true IntKind), DeltaTempo; split; [by right|]|]; intros p Hp; repeat (apply elem_of_cons in Hp as [->|Hp]); try (by apply elem_of_nil in Hp); try done;
        (split; [by apply pt_ok|]; by intros _ n mx l [=]).
    - split; [exists (FSum true IntKind), DeltaTempo; split; [by right|]|]; intros p Hp; by apply elem_of_nil in Hp.
    - split; [exists (FHist IntKind), DeltaTempo; split; [by right|]|]; intros p Hp; apply elem_of_list_singleton in Hp as ->; [done|].
      split; [by apply pt_ok|]. intros _ n mx l [= <- <- <-] _. vm_compute. by eexists.
    - split; [exists (FGauge FloatKind), CumulativeTempo; split; [by left|]|]; intros p Hp; apply elem_of_list_singleton in Hp as ->; [done|].
      split; [by apply pt_ok|]. by intros _ n mx l [=].
    - split; [exists (FMMSC FloatKind), DeltaTempo; split; [by right|]|]; intros p Hp; apply elem_of_list_singleton in Hp as ->; [done|].
      split; [by apply pt_ok|]. by intros _ n mx l [=].
  Qed.
  Example history : Forall (fun i => data_ok H true i.1 /\ a_set (rs (mt_res i.1)) /\ with_types (rs (mt_res i.1)))
    [(m, fun _ : pmetrics => Some (Error "late" false true)); (m, fun _ => None); (Metrics "other" (mt_scopes m), fun _ => None)].
  Proof. repeat (constructor; [split; [apply ok|split; [apply (bool_decide_unpack _); vm_compute; exact I|by repeat constructor]]|]). constructor. Qed.
  Example exported : (fun r => map (fun s => map (fun q => (pm_name q, data_points (pm_data q))) (ps_metrics s)) (px_scopes r.2)) <$> d2pd H rs rm_zero m false =
    Some [[("sum", 2); ("hist", 1); ("gauge", 1); ("mmsc", 1)]]%nat.
  Proof. vm_compute. reflexivity. Qed.
  Example explicit : (fun q => (ph_count q, ph_counts q, length (ph_bounds q))) <$> explicit_point H (pt DeltaTempo (StHist IntKind 160 [NInt 3; NInt 0; NInt 8])) =
    Some (3, [1; 0; 2; 0; 0], 4%nat).
  Proof. vm_compute. reflexivity. Qed.
End Ex35.

(** The minimum and the maximum of an integer minmaxsumcount are exported as floats made of the bits of the integer. *)
Theorem C35_integer_extremes_refuted : exists H p q, point_ok H p /\ pt_agg p = Some (StMMSC (NInt 5) (NInt 5) (NInt 5) 1) /\ mmsc_point p = Some q /\
  ph_sum q = float_of_Z 5 /\ ph_min q <> Some (float_of_Z 5) /\ ph_max q <> Some (float_of_Z 5).
Proof.
  exists Ex35.H, (Ex35.pt DeltaTempo (StMMSC (NInt 5) (NInt 5) (NInt 5) 1)). eexists. split; [by apply Ex35.pt_ok|]. split; [done|]. split; [reflexivity|].
  split; [reflexivity|]. split; vm_compute; congruence.
Qed.
(** A negative integer sum of a minmaxsumcount (or histogram) is exported as a number near 2^64. *)
Theorem C35_negative_sums_refuted : exists H p q, point_ok H p /\ pt_agg p = Some (StMMSC (NInt (-5)) (NInt (-5)) (NInt (-5)) 1) /\ mmsc_point p = Some q /\
  ph_sum q = float_of_Z (2 ^ 64 - 5).
Proof.
  exists Ex35.H, (Ex35.pt DeltaTempo (StMMSC (NInt (-5)) (NInt (-5)) (NInt (-5)) 1)). eexists. split; [by apply Ex35.pt_ok|]. split; [done|]. split; reflexivity.
Qed.
(** An attribute without a type makes the export panic. *)
Theorem C35_untyped_attribute_refuted : forall H rs rm useexp ps p, p ∈ ps -> ("k", VInvalid) ∈ pt_attrs p -> (forall p', p' ∈ ps -> dyn <$> pt_agg p' = Some (FSum true IntKind)) ->
  forall res lib d, d2pd H rs rm (Metrics res (Slice [OScope lib (Slice [Instr d (Slice ps [])] [])] [])) useexp = None.
Proof.
  intros H rs rm useexp ps p Hp Ha D res lib d. unfold d2pd. cbn [mt_res mt_scopes vis each]. destruct (rm_get rm (rs res)) as [[rm' r]|]; [|done]. cbn [mbind option_bind].
  assert (N : forall s dst, ("k", VInvalid) ∈ s -> copy_attributes dst s = None).
  { intros s. induction s as [|[k v] s IH]; intros dst X; [by apply elem_of_nil in X|]. cbn. apply elem_of_cons in X as [X|X]; [by injection X as <- <-|].
    destruct (convert_value v); cbn; [by apply IH|done]. }
  assert (S : each sum_point ps = None).
  { clear D. induction ps as [|q ps IH]; [by apply elem_of_nil in Hp|]. cbn. apply elem_of_cons in Hp as [<-|Hp].
    - unfold sum_point. by rewrite (N _ [] Ha).
    - destruct (sum_point q); cbn; [|done]. by rewrite IH. }
  unfold convert_scope. cbn [os_insts os_lib vis convert_instrs in_points]. destruct ps as [|q ps]; [by apply elem_of_nil in Hp|].
  unfold convert_data. specialize (D q (elem_of_list_here q ps)). destruct (pt_agg q) as [a|]; [|done]. cbn in D. destruct a; try done. by rewrite S.
Qed.

(** C36: the boundaries and counts of an explicit histogram, one more count than boundaries, adding up to the zero count and the positive
    counts; each positive count sits between the two boundaries of its bucket. *)
Theorem C36_shape H off counts z scale bs cs : explicit_buckets H (off, counts) z scale = Some (bs, cs) ->
  -2147483648 <= off -> off + Z.of_nat (length counts) < 2147483648 ->
  length cs = S (length bs) /\ foldr Z.add 0 cs = z + foldr Z.add 0 counts.
Proof.
  intros E I1 I2. destruct counts as [|c r]; [injection E as <- <-; cbn; split; [done|lia]|]. destruct (hl_mapping H scale) as [lower|] eqn:M.
  - rewrite (explicit_spec H lower) in E by done. injection E as <- <-. split.
    + cbn [length]. rewrite map_length, seq_length. rewrite !app_length. cbn. lia.
    + change ([z; 0] ++ (c :: r) ++ [0])%list with (z :: 0 :: ((c :: r) ++ [0]))%list. assert (X : forall l a, foldr Z.add a l = foldr Z.add 0 l + a) by (induction l as [|x l IH]; intros a; cbn; [lia|rewrite IH; lia]).
      cbn [foldr app]. rewrite foldr_app, X. cbn. lia.
  - cbn in E. unfold explicit_buckets in E. cbn in E. by rewrite M in E.
Qed.
Theorem C36_places H off counts z scale bs cs lower : explicit_buckets H (off, counts) z scale = Some (bs, cs) -> hl_mapping H scale = Some lower ->
  -2147483648 <= off -> off + Z.of_nat (length counts) < 2147483648 ->
  cs !! 0%nat = Some z /\ bs !! 0%nat = Some (S754_zero false) /\
  forall j c, counts !! j = Some c -> cs !! (j + 2)%nat = Some c /\ bs !! (j + 1)%nat = Some (lower (off + Z.of_nat j)) /\
                                      bs !! (j + 2)%nat = Some (lower (off + Z.of_nat j + 1)).
Proof.
  intros E M I1 I2. destruct counts as [|c0 r]; [injection E as <- <-; done|]. rewrite (explicit_spec H lower) in E by done.
  pose proof (f_equal (option_map fst) E) as Eb. pose proof (f_equal (option_map snd) E) as Ec. cbn [option_map fst snd] in Eb, Ec.
  apply Some_inj in Eb, Ec. subst bs cs. clear E.
  split; [done|]. split; [done|]. intros j c Hj. pose proof (lookup_lt_Some _ _ _ Hj) as Lt.
  assert (Q : forall i, (i < S (length (c0 :: r)))%nat -> map (fun j => lower (off + Z.of_nat j)) (seq 0 (S (length (c0 :: r)))) !! i = Some (lower (off + Z.of_nat i))).
  { intros i Hi. change (map ?f ?l) with (f <$> l). rewrite list_lookup_fmap, lookup_seq_lt by done. done. }
  revert Q. generalize (map (fun j => lower (off + Z.of_nat j)) (seq 0 (S (length (c0 :: r))))). intros mm Q.
  split; [|split].
  - replace (j + 2)%nat with (S (S j)) by lia. cbn [app]. change ((z :: 0 :: c0 :: (r ++ [0])%list) !! S (S j)) with ((c0 :: (r ++ [0])%list) !! j).
    change (c0 :: (r ++ [0])%list) with ((c0 :: r) ++ [0])%list. rewrite lookup_app_l by done. done.
  - replace (j + 1)%nat with (S j) by lia. change (mm !! j = Some (lower (off + Z.of_nat j))). apply Q. lia.
  - replace (j + 2)%nat with (S (S j)) by lia. change (mm !! S j = Some (lower (off + Z.of_nat j + 1))). rewrite Q by lia. f_equal. f_equal. lia.
Qed.
(** The boundaries increase when those of the mapping do. *)
Theorem C36_increasing H off counts z scale bs cs lower : explicit_buckets H (off, counts) z scale = Some (bs, cs) -> hl_mapping H scale = Some lower ->
  -2147483648 <= off -> off + Z.of_nat (length counts) < 2147483648 ->
  SFltb (S754_zero false) (lower off) = true ->
  (forall i, off <= i < off + Z.of_nat (length counts) -> SFltb (lower i) (lower (i + 1)) = true) ->
  forall i a b, bs !! i = Some a -> bs !! S i = Some b -> SFltb a b = true.
Proof.
  intros E M I1 I2 P In i a b Ha Hb. destruct counts as [|c0 r]; [injection E as <- <-; destruct i; done|].
  destruct (C36_places _ _ _ _ _ _ _ _ E M I1 I2) as (_ & B0 & B). assert (Le : (length bs = length (c0 :: r) + 2)%nat).
  { rewrite (explicit_spec H lower) in E by done. pose proof (f_equal (option_map fst) E) as Eb. cbn [option_map fst snd] in Eb. apply Some_inj in Eb. subst bs.
    cbn [length]. rewrite map_length, seq_length. cbn [length]. lia. }
  pose proof (lookup_lt_Some _ _ _ Hb) as Lt. destruct i as [|i].
  - rewrite B0 in Ha. injection Ha as <-. destruct (B 0%nat c0 eq_refl) as (_ & B1 & _). cbn in B1. rewrite Hb in B1. injection B1 as ->.
    by rewrite Z.add_0_r.
  - destruct ((c0 :: r) !! i) as [c|] eqn:Ec; [|apply lookup_ge_None_1 in Ec; lia]. destruct (B i c Ec) as (_ & B1 & B2).
    replace (i + 1)%nat with (S i) in B1 by lia. replace (i + 2)%nat with (S (S i)) in B2 by lia. rewrite Ha in B1. rewrite Hb in B2. injection B1 as ->. injection B2 as ->.
    apply lookup_lt_Some in Ec. apply In. lia.
Qed.
(** A scale that the logarithm mapping refuses makes the export panic; buckets of negative numbers are left out. *)
Theorem C36_refused_scale H pos z scale : pos.2 <> [] -> hl_mapping H scale = None -> explicit_buckets H pos z scale = None.
Proof. intros N M. unfold explicit_buckets. destruct pos.2; [done|]. by rewrite M. Qed.
Theorem C36_negative_counts_refuted : exists H p q, point_ok H p /\ scale_ok H p /\ explicit_point H p = Some q /\ ph_count q <> foldr Z.add 0 (ph_counts q).
Proof.
  set (h := Hist (NInt (-3)) 2 (NInt (-2)) (NInt (-1)) 0 1 (0, []) (0, [2])). set (H := HLib (fun n _ _ => h) (fun _ => None)).
  exists H, (Ex35.pt DeltaTempo (StHist IntKind 160 [NInt (-2); NInt (-1)])). eexists. split; [|split; [|split; [reflexivity|]]].
  - split; [apply (bool_decide_unpack _); vm_compute; exact I|]. split; [repeat constructor; done|]. split; [by split|]. split; [by split|].
    eexists. split; [reflexivity|]. cbn. unfold int64, indexes_fit. cbn. repeat split; lia.
  - intros n mx l _ N. done.
  - vm_compute. congruence.
Qed.
Example Ex36 : exists bs cs, explicit_buckets Ex35.H (0, [4; 0; 2]) 3 1 = Some (bs, cs) /\ cs = [3; 0; 4; 0; 2; 0] /\ SFltb (S754_zero false) (float_of_Z (2 ^ 0)) = true /\
  forall i, 0 <= i < 3 -> SFltb (float_of_Z (2 ^ i)) (float_of_Z (2 ^ (i + 1))) = true.
Proof.
  eexists _, _. split; [vm_compute; reflexivity|]. split; [done|]. split; [done|]. intros i Hi. assert (i = 0 \/ i = 1 \/ i = 2) as [-> | [-> | ->]] by lia; vm_compute; reflexivity.
Qed.

(** C37: each export adds the number of points given to the counter, once; the attributes tell the outcome; the error comes back unchanged. *)
Theorem C37_counted H rs rm m useexp consume rm' r : data_ok H useexp m -> rm_get rm (rs (mt_res m)) = Some (rm', r) ->
  exists x t, export_metrics H rs rm m useexp consume = Some (rm', x, [t], consume x) /\ tl_added t = Z.of_nat (points_given m).
Proof.
  intros O E. destruct (convert_scopes_says H useexp (vis (mt_scopes m)) O) as (ss & Es & F & C). unfold export_metrics, d2pd. rewrite E. cbn [mbind option_bind]. rewrite Es.
  cbn [mbind option_bind]. eexists _, _. split; [reflexivity|]. cbn. f_equal. exact C.
Qed.
Theorem C37_outcome H rs rm m useexp consume rm' x ts e : export_metrics H rs rm m useexp consume = Some (rm', x, ts, e) ->
  e = consume x /\ exists t, ts = [t] /\ tl_added t = Z.of_nat (point_count x) /\
  (("success", VBool true) ∈ tl_attrs t <-> e = None) /\
  (("state", VString "ok") ∈ tl_attrs t <-> e = None) /\
  (("state", VString "canceled") ∈ tl_attrs t <-> exists y, e = Some y /\ er_canceled y = true) /\
  (("state", VString "timeout") ∈ tl_attrs t <-> exists y, e = Some y /\ er_canceled y = false /\ er_deadline y = true) /\
  (("state", VString "error") ∈ tl_attrs t <-> exists y, e = Some y /\ er_canceled y = false /\ er_deadline y = false) /\
  (tl_ok t = true <-> e = None) /\ (forall y, e = Some y -> tl_message t = er_text y).
Proof.
  unfold export_metrics. destruct (d2pd H rs rm m useexp) as [[rm1 x1]|]; [|done]. cbn [mbind option_bind]. intros [= <- <- <- <-]. split; [done|].
  eexists. split; [reflexivity|]. split; [done|].
  assert (Q : forall s e, ("state", VString s) ∈ tl_attrs (report "num_points" (point_count x1) e) <-> s = state_of e).
  { intros s e. cbn. rewrite !elem_of_cons, elem_of_nil. split; [intros [X|[X|X]]; try done; by injection X as ->|intros ->; auto]. }
  rewrite !Q. split.
  - cbn. rewrite !elem_of_cons, elem_of_nil. split; [intros [X|[X|X]]; try done; by destruct (consume x1)|intros ->; auto].
  - destruct (consume x1) as [[tx ca de]|]; cbn.
    + split; [destruct ca, de; cbn; split; intros; done|]. split; [|split; [|split; [|split; [done|by intros y [= <-]]]]].
      * destruct ca, de; cbn; (split; [try done; intros _; by eexists|intros (y & [= <-] & ?); done]).
      * destruct ca, de; cbn; (split; [try done; intros _; by eexists|intros (y & [= <-] & ? & ?); done]).
      * destruct ca, de; cbn; (split; [try done; intros _; by eexists|intros (y & [= <-] & ? & ?); done]).
    + repeat split; try done; try (by intros (y & ? & _)).
Qed.
(** The telemetry in full. *)
Theorem C37_told H rs rm m useexp consume rm' x ts e : export_metrics H rs rm m useexp consume = Some (rm', x, ts, e) ->
  exists t, ts = [t] /\ telemetry_says "num_points" (point_count x) e t.
Proof.
  unfold export_metrics. destruct (d2pd H rs rm m useexp) as [[rm1 x1]|]; [|done]. cbn [mbind option_bind]. intros [= <- <- <- <-].
  eexists. split; [reflexivity|]. apply report_says.
Qed.
(** C50: the shutdown of an exporter exports first, shuts every component down, and returns every error. *)
Lemma also_order {S} (fs : list (S -> S * option error)) : forall s s' l l', fold_left (fun a f => also f a) fs (s, l) = (s', l') ->
  exists es, l' = (l ++ es)%list /\ in_order fs s s' es.
Proof.
  induction fs as [|f fs IH]; intros s s' l l' E; cbn in E; [injection E as <- <-; exists []; rewrite app_nil_r; split; [done|constructor]|].
  unfold also at 2 in E. cbn [fst snd] in E. destruct (f s) as [s1 [e|]] eqn:F.
  - destruct (IH _ _ _ _ E) as (es & -> & I). exists (e :: es). rewrite <- app_assoc. split; [done|]. by eapply io_fails.
  - destruct (IH _ _ _ _ E) as (es & -> & I). exists es. rewrite app_nil_r. split; [done|]. by eapply io_well.
Qed.
Theorem C50_metrics {S} (export batcher exporter : S -> S * option error) s :
  in_order [export; batcher; exporter] s (shutdown_metrics export batcher exporter s).1 (shutdown_metrics export batcher exporter s).2.
Proof. destruct (also_order [export; batcher; exporter] s _ [] _ (surjective_pairing _)) as (es & E & I). cbn [app] in E. subst es. exact I. Qed.
Theorem C50_prometheus {S} (export exporter : S -> S * option error) s :
  in_order [export; exporter] s (shutdown_prom export exporter s).1 (shutdown_prom export exporter s).2.
Proof. destruct (also_order [export; exporter] s _ [] _ (surjective_pairing _)) as (es & E & I). cbn [app] in E. subst es. exact I. Qed.
Theorem C50_traces {S} (batcher exporter : S -> S * option error) s :
  in_order [batcher; exporter] s (shutdown_traces batcher exporter s).1 (shutdown_traces batcher exporter s).2.
Proof. destruct (also_order [batcher; exporter] s _ [] _ (surjective_pairing _)) as (es & E & I). cbn [app] in E. subst es. exact I. Qed.
Example Ex50 : let f (n : string) e (l : list string) := (l ++ [n], e)%list in
  shutdown_metrics (f "export" (Some (Error "x" true false))) (f "batcher" None) (f "exporter" (Some (Error "y" false false))) [] =
  (["export"; "batcher"; "exporter"], [Error "x" true false; Error "y" false false]).
Proof. vm_compute. reflexivity. Qed.
Example Ex37 : exists x t, export_metrics Ex35.H Ex35.rs rm_zero Ex35.m true (fun _ => Some (Error "late" false true)) = Some (RMap false (Some (Ex35.rs "svc")) [("service.name", PStr "svc")], x, [t], Some (Error "late" false true)) /\
  tl_added t = 5 /\ tl_attrs t = [("success", VBool false); ("state", VString "timeout")].
Proof. eexists _, _. split; [vm_compute; reflexivity|]. done. Qed.

(** C38: whatever was converted before, the cache gives the conversion of the resource it is asked for, up to the sign of zeros in float
    slices, which Go's comparison of sets does not see. *)
Theorem C38_fresh l : Forall (fun s => a_set s /\ with_types s) l ->
  exists os, rm_gets rm_zero l = Some os /\ Forall2 resource_says l os.
Proof. intros F. apply rm_gets_says; done. Qed.
(** Without float slices it is the conversion itself. *)
Lemma same_exact t s : same_set t s -> Forall (fun a => forall l, a.2 <> VFloats l) s -> t = s.
Proof.
  intros S. induction S as [|a b t s [K V] S IH]; intros F; [done|]. apply list.Forall_cons in F as [F1 F2]. rewrite IH by done. f_equal.
  destruct a as [k v], b as [k' v']; cbn in *. subst k'. destruct V as [->|(l & l' & -> & -> & _)]; [done|]. by destruct (F1 l').
Qed.
Theorem C38_exact l : Forall (fun s => a_set s /\ with_types s /\ Forall (fun a => forall x, a.2 <> VFloats x) s) l ->
  exists os, rm_gets rm_zero l = Some os /\ Forall2 attrs_say l os.
Proof.
  intros F. destruct (C38_fresh l) as (os & E & R); [eapply list.Forall_impl; [exact F|]; intros s0 (A0 & W0 & _); by split|]. exists os. split; [done|].
  clear E. induction R as [|s o l os (t & S & X) R IH]; [constructor|]. apply list.Forall_cons in F as [(A & W & N) F].
  constructor; [|by apply IH]. by rewrite (same_exact _ _ S N) in X.
Qed.
Theorem C38_zero_sign_refuted : exists l os, Forall (fun s => a_set s /\ with_types s) l /\ rm_gets rm_zero l = Some os /\
  ~ Forall2 attrs_say l os.
Proof.
  exists [[("z", VFloats [0])]; [("z", VFloats [2 ^ 63])]]. eexists. split; [|split; [vm_compute; reflexivity|]].
  - repeat constructor; try done; apply (bool_decide_unpack _); vm_compute; exact I.
  - intros F. inversion F as [|? ? ? ? _ F1]. inversion F1 as [|? ? ? ? X _]. inversion X as [|? ? ? ? [_ Y] _]. cbn in Y. inversion Y as [| | | | | |? ? Z|]. inversion Z as [|? ? ? ? W _]. discriminate W.
Qed.
Example Ex38 : rm_gets rm_zero [[("a", VInt 1)]; [("a", VInt 1)]; [("a", VInt 2); ("b", VString "x")]; [("a", VInt 1)]] =
  Some [[("a", PInt 1)]; [("a", PInt 1)]; [("a", PInt 2); ("b", PStr "x")]; [("a", PInt 1)]].
Proof. vm_compute. reflexivity. Qed.

Print Assumptions C35_keeps.
Print Assumptions C35_history.
Print Assumptions C35_uniform.
Print Assumptions C35_integer_extremes_refuted.
Print Assumptions C35_negative_sums_refuted.
Print Assumptions C35_untyped_attribute_refuted.
Print Assumptions C36_shape.
Print Assumptions C36_places.
Print Assumptions C36_increasing.
Print Assumptions C36_refused_scale.
Print Assumptions C36_negative_counts_refuted.
Print Assumptions C37_counted.
Print Assumptions C37_outcome.
Print Assumptions C37_told.
Print Assumptions C50_metrics.
Print Assumptions C50_prometheus.
Print Assumptions C50_traces.
Print Assumptions C38_fresh.
Print Assumptions C38_exact.
Print Assumptions C38_zero_sign_refuted.
