(** Which points a collection outputs: at most one for each series of each of its reader's streams. *)
From Coq Require Import ZArith Lia Bool.
From stdpp Require Import base list option.
From Verif Require Import Base Lib SyncModel SyncInv SyncStep SyncStepB SyncCases SyncRun SyncSpec.
Local Open Scope Z_scope.

Section emit.
Context {c : config}.
Notation st := (state c).
Notation pcT := (pc c).
Notation holdT := (holder c).
Notation key := (c_key c).
Notation pointT := (point c).
Implicit Types (ls : list (label c)) (s : st) (p : pcT) (pt : pointT) (hs : list holdT).

Definition pts s : list pointT := s_out s ++ s_drop s.
Definition sig pt : nat * nat * key := (p_tid pt, p_view pt, p_key pt).

(** Entries [l] have keys different from [k]. *)
Definition fresh hs (l : list nat) (k : key) : Prop :=
  forall h hd, h ∈ l -> hs !! h = Some hd -> h_key hd <> k.
(** What may already have been emitted by a collection at [p]. *)
Definition may hs p pt : Prop :=
  match p with
  | QViews rd vs => p_view pt ∈ views_of c rd /\ p_view pt ∉ vs
  | QColl rd vs v todo => p_view pt ∈ views_of c rd /\ p_view pt ∉ vs /\ (p_view pt = v -> fresh hs todo (p_key pt))
  | QPoint rd vs v todo h _ | QDecide rd vs v todo h _ _ =>
      p_view pt ∈ views_of c rd /\ p_view pt ∉ vs /\ (p_view pt = v -> fresh hs (h :: todo) (p_key pt))
  | QDone => True
  | _ => False
  end.
(** The streams still to do are distinct streams of the reader. *)
Definition plan p : Prop :=
  match p with
  | QViews rd vs => NoDup vs /\ forall v, v ∈ vs -> v ∈ views_of c rd
  | QColl rd vs v _ | QPoint rd vs v _ _ _ | QDecide rd vs v _ _ _ _ =>
      NoDup (v :: vs) /\ forall v', v' ∈ v :: vs -> v' ∈ views_of c rd
  | _ => True
  end.
Definition EI s : Prop :=
  NoDup (map sig (pts s)) /\
  (forall pt, pt ∈ pts s -> exists p, s_thr s !! p_tid pt = Some p /\ may (s_holds s) p pt) /\
  (forall t p, s_thr s !! t = Some p -> plan p).

Lemma views_of_NoDup rd : NoDup (views_of c rd).
Proof. unfold views_of. rewrite NoDup_ListNoDup. apply List.NoDup_filter. apply seq_NoDup. Qed.

Lemma may_holds hs hs' p pt :
  (forall h hd', hs' !! h = Some hd' -> (exists hd, hs !! h = Some hd /\ h_key hd = h_key hd') \/ (length hs <= h)%nat) ->
  (forall todo, match p with QColl _ _ _ l => l = todo | QPoint _ _ _ l h _ | QDecide _ _ _ l h _ _ => h :: l = todo | _ => todo = [] end ->
     forall h, h ∈ todo -> (h < length hs)%nat) ->
  may hs p pt -> may hs' p pt.
Proof.
  intros E L. 
  assert (F : forall l k, (forall h, h ∈ l -> (h < length hs)%nat) -> fresh hs l k -> fresh hs' l k).
  { intros l k Hl HF h hd' Hh Hd. destruct (E _ _ Hd) as [(hd & Hd0 & <-)|G]; [by eapply HF|].
    specialize (Hl _ Hh). lia. }
  destruct p; cbn; try done; intros (H1 & H2 & H3); (split; [done|split; [done|]]); intros Ev; apply F; auto;
    by apply L.
Qed.

Lemma may_other s s' t0 q0 pt : Inv s -> s_thr s !! t0 = Some q0 ->
  (forall h hd', s_holds s' !! h = Some hd' -> (exists hd, s_holds s !! h = Some hd /\ h_key hd = h_key hd') \/ (length (s_holds s) <= h)%nat) ->
  may (s_holds s) q0 pt -> may (s_holds s') q0 pt.
Proof.
  intros I H0 Eh. apply may_holds; [done|]. intros todo Htd h Hh.
  pose proof (I_T _ _ _ _ _ I _ _ H0) as T. destruct q0; subst; try (by apply elem_of_nil in Hh).
  - destruct T as (_ & _ & _ & T). destruct (T _ Hh) as (hd & Hd & _). by eapply lookup_lt_Some.
  - destruct T as ((_ & _ & _ & T) & _). destruct (T _ Hh) as (hd & Hd & _). by eapply lookup_lt_Some.
  - destruct T as ((_ & _ & _ & T) & _). destruct (T _ Hh) as (hd & Hd & _). by eapply lookup_lt_Some.
Qed.

(** A step that emits nothing. *)
Lemma EI_quiet s s' t p p' :
  Inv s -> s_thr s !! t = Some p -> s_thr s' = <[t:=p']> (s_thr s) -> s_out s' = s_out s -> s_drop s' = s_drop s ->
  (forall h hd', s_holds s' !! h = Some hd' -> (exists hd, s_holds s !! h = Some hd /\ h_key hd = h_key hd') \/ (length (s_holds s) <= h)%nat) ->
  (forall pt, may (s_holds s) p pt -> may (s_holds s') p' pt) ->
  (plan p -> plan p') -> EI s -> EI s'.
Proof.
  intros I Ht Et Eo Ed Eh Em Ep (N & M & P). unfold EI, pts. rewrite Eo, Ed. split; [done|]. split.
  - intros pt Hpt. destruct (M _ Hpt) as (q & Hq & Hm). rewrite Et.
    destruct (decide (p_tid pt = t)) as [E|E].
    + exists p'. rewrite E in Hq |- *. rewrite list_lookup_insert by (by eapply lookup_lt_Some). split; [done|].
      apply Em. congruence.
    + exists q. rewrite list_lookup_insert_ne by done. split; [done|]. by eapply may_other.
  - intros t0 q0 H0. rewrite Et in H0. apply lookup_insert_inv in H0 as [(<- & <- & _)|(_ & H0)]; [|by eapply P].
    apply Ep. by eapply P.
Qed.

(** A step that emits one point. *)
Lemma EI_emit s s' t p p' pt0 :
  Inv s -> s_thr s !! t = Some p -> s_thr s' = <[t:=p']> (s_thr s) ->
  (pts s' ≡ₚ pt0 :: pts s) -> p_tid pt0 = t ->
  (forall h hd', s_holds s' !! h = Some hd' -> (exists hd, s_holds s !! h = Some hd /\ h_key hd = h_key hd') \/ (length (s_holds s) <= h)%nat) ->
  (forall pt, may (s_holds s) p pt -> sig pt <> sig pt0 /\ may (s_holds s') p' pt) ->
  may (s_holds s') p' pt0 -> (plan p -> plan p') -> EI s -> EI s'.
Proof.
  intros I Ht Et Ept E0 Eh Em Em0 Ep (N & M & P). unfold EI. split; [|split].
  - change (map sig (pts s')) with (sig <$> pts s'). rewrite Ept. rewrite fmap_cons. apply list.NoDup_cons. split; [|done].
    intros Hin. apply elem_of_list_fmap in Hin as (pt & Es & Hpt). destruct (M _ Hpt) as (q & Hq & Hm).
    assert (p_tid pt = t) as E1 by (inversion Es; congruence). rewrite E1 in Hq. assert (q = p) by congruence. subst q.
    destruct (Em _ Hm) as [G _]. by rewrite Es in G.
  - intros pt Hpt. rewrite Ept in Hpt. rewrite Et. apply elem_of_cons in Hpt as [->|Hpt].
    + exists p'. rewrite E0, list_lookup_insert by (by eapply lookup_lt_Some). done.
    + destruct (M _ Hpt) as (q & Hq & Hm). destruct (decide (p_tid pt = t)) as [E|E].
      * exists p'. rewrite E in Hq |- *. rewrite list_lookup_insert by (by eapply lookup_lt_Some). split; [done|].
        apply Em. congruence.
      * exists q. rewrite list_lookup_insert_ne by done. split; [done|]. by eapply may_other.
  - intros t0 q0 H0. rewrite Et in H0. apply lookup_insert_inv in H0 as [(<- & <- & _)|(_ & H0)]; [|by eapply P].
    apply Ep. by eapply P.
Qed.

Lemma fresh_sub hs l l' k : (forall h, h ∈ l' -> h ∈ l) -> fresh hs l k -> fresh hs l' k.
Proof. intros S F h hd Hh. apply F. by apply S. Qed.
Lemma elem_delete {X} (l : list X) n y : y ∈ delete n l -> y ∈ l.
Proof. intros H. apply elem_of_list_lookup in H as (m & H). destruct (decide (m < n)%nat).
  - rewrite lookup_delete_lt in H by done. by eapply elem_of_list_lookup_2.
  - rewrite lookup_delete_ge in H by lia. by eapply elem_of_list_lookup_2.
Qed.

Ltac acc_split := try match goal with S1 : _ = _ \/ exists _, _ = set_holds _ _ /\ _ |- _ =>
  destruct S1 as [->|(?k0 & -> & -> & ?F)] end.
Ltac hold_same := intros h0 hd0 H0; left; by exists hd0.
Ltac hold_ins hd := intros h0 hd0 H0; left; apply lookup_insert_inv in H0 as [(<- & <- & _)|(_ & H0)]; [by exists hd|by exists hd0].

Lemma fresh_rest s v h todo hd : Inv s -> NoDup (h :: todo) -> (forall h', h' ∈ h :: todo -> liveh (s_holds s) v h') ->
  s_holds s !! h = Some hd -> fresh (s_holds s) todo (h_key hd).
Proof.
  intros I N L Hh h' hd' Hin Hh' Ek. destruct (L h ltac:(left)) as (h1 & Q1 & Q2 & Q3).
  destruct (L h' ltac:(by right)) as (h2 & Q4 & Q5 & Q6). assert (h1 = hd) by congruence. assert (h2 = hd') by congruence. subst.
  assert (h' = h) by (eapply (I_U _ _ _ _ _ I h' h hd' hd); done). subst.
  by apply list.NoDup_cons in N as [N _].
Qed.

Lemma EI_step s t s'
 : Inv s -> stepR s t s' -> EI s -> EI s'.
Proof.
  intros I H E. pose proof E as (_ & _ & P).
  stepR_cases H; acc_split.
  all: try (eapply (EI_quiet s _ t); [exact I|exact Ht|snorm; reflexivity|done|done|snorm; hold_same|snorm; done|done|exact E]; fail).
  all: try (eapply (EI_quiet s _ t); [exact I|exact Ht|snorm; reflexivity|done|done|snorm; hold_ins hd|snorm; done|done|exact E]; fail).

  - eapply (EI_quiet s _ t); [exact I|exact Ht|snorm; reflexivity|done|done|snorm|snorm; done|done|exact E].
    intros h0 hd0 H0. apply lookup_insert_inv in H0 as [(<- & <- & _)|(_ & H0)]; [by right|].
    apply lookup_snoc in H0 as [H0|[-> _]]; [left; by exists hd0|by right].
  - eapply (EI_quiet s _ t); [exact I|exact Ht|snorm; reflexivity|done|done|snorm; hold_same|snorm; done|cbn|exact E].
    intros _. split; [apply views_of_NoDup|done].
  - eapply (EI_quiet s _ t); [exact I|exact Ht|snorm; reflexivity|done|done|snorm; hold_ins hd|snorm; done|cbn|exact E].
    intros _. by destruct ph as [[]|].
  - eapply (EI_quiet s _ t); [exact I|exact Ht|snorm; reflexivity|done|done|snorm; hold_same|snorm|done|exact E].
    cbn. intros pt [M1 M2]. apply not_elem_of_cons in M2 as [M2 M3]. done.
  - eapply (EI_quiet s _ t); [exact I|exact Ht|snorm; reflexivity|done|done|snorm; hold_same|snorm|cbn|exact E].
    + cbn. intros pt (M1 & M2 & _). done.
    + intros [N M]. apply list.NoDup_cons in N as [N1 N2]. split; [done|]. intros v' Hv'. apply M. by right.
  - eapply (EI_quiet s _ t); [exact I|exact Ht|snorm; reflexivity|done|done|snorm; hold_same|snorm|done|exact E].
    cbn. intros pt (M1 & M2 & M3). split; [done|]. split; [done|]. intros Ev. eapply fresh_sub; [|by apply M3].
    intros h' Hh'. apply elem_of_cons in Hh' as [->|Hh']; [by eapply elem_of_list_lookup_2|by eapply elem_delete].
  - pose proof (I_T _ _ _ _ _ I _ _ Ht) as (_ & _ & T3 & T4). destruct (P _ _ Ht) as [P1 P2].
    eapply (EI_emit s _ t _ _ (Point t v (h_key hd) (h_sto hd))); [exact I|exact Ht|snorm; reflexivity|unfold pts; snorm|reflexivity|snorm; hold_same|snorm|snorm|done|exact E].
    + rewrite <- app_assoc. symmetry. apply Permutation_middle.
    + cbn. intros pt (M1 & M2 & M3). split.
      * unfold sig. cbn. intros [= _ Ev Ek]. apply (M3 Ev h hd); [by eapply elem_of_list_lookup_2|done|done].
      * split; [done|]. split; [done|]. intros Ev. eapply fresh_sub; [|by apply M3]. intros h'. apply elem_delete.
    + cbn. apply list.NoDup_cons in P1 as [P1 P1']. split; [apply P2; left|]. split; [done|]. intros _.
      pose proof (delete_Permutation _ _ _ Hc) as Pm.
      eapply (fresh_rest s v h); [done| | |done].
      * by rewrite <- Pm.
      * intros h' Hh'. apply T4. by rewrite Pm.
  - eapply (EI_quiet s _ t); [exact I|exact Ht|snorm; reflexivity|done|done|snorm; hold_ins hd|snorm|done|exact E].
    cbn. intros pt (M1 & M2 & M3). split; [done|]. split; [done|]. intros Ev h0 hd0 Hin H0.
    apply lookup_insert_inv in H0 as [(<- & <- & _)|(_ & H0)]; [by apply (M3 Ev h hd)|by apply (M3 Ev h0 hd0)].
  - pose proof (I_T _ _ _ _ _ I _ _ Ht) as ((_ & _ & T3 & T4) & _). destruct (P _ _ Ht) as [P1 P2].
    eapply (EI_emit s _ t _ _ (Point t v (h_key hd) a)); [exact I|exact Ht|snorm; reflexivity|unfold pts; snorm|reflexivity|snorm; hold_same|snorm|snorm|done|exact E].
    + rewrite <- app_assoc. symmetry. apply Permutation_middle.
    + cbn. intros pt (M1 & M2 & M3). split.
      * unfold sig. cbn. intros [= _ Ev Ek]. apply (M3 Ev h hd); [left|done|done].
      * split; [done|]. split; [done|]. intros Ev. eapply fresh_sub; [|by apply M3]. intros h'. by right.
    + cbn. apply list.NoDup_cons in P1 as [P1 P1']. split; [apply P2; left|]. split; [done|]. intros _.
      by eapply (fresh_rest s v h).
  - pose proof (I_T _ _ _ _ _ I _ _ Ht) as ((_ & _ & T3 & T4) & _). destruct (P _ _ Ht) as [P1 P2].
    assert (FR : forall l k, fresh (s_holds s) l k -> fresh (<[h:=h_setlive false hd]> (s_holds s)) l k).
    { intros l k Fr h0 hd0 Hin H0. apply lookup_insert_inv in H0 as [(<- & <- & _)|(_ & H0)]; [by apply (Fr h hd)|by apply (Fr h0 hd0)]. }
    eapply (EI_emit s _ t _ _ (Point t v (h_key hd) a)); [exact I|exact Ht|snorm; reflexivity|unfold pts; snorm|reflexivity|snorm; hold_ins hd|snorm|snorm|done|exact E].
    + rewrite app_assoc. symmetry. apply Permutation_cons_append.
    + cbn. intros pt (M1 & M2 & M3). split.
      * unfold sig. cbn. intros [= _ Ev Ek]. apply (M3 Ev h hd); [left|done|done].
      * split; [done|]. split; [done|]. intros Ev. apply FR. eapply fresh_sub; [|by apply M3]. intros h'. by right.
    + cbn. apply list.NoDup_cons in P1 as [P1 P1']. split; [apply P2; left|]. split; [done|]. intros _. apply FR.
      by eapply (fresh_rest s v h).
  - pose proof (I_T _ _ _ _ _ I _ _ Ht) as ((_ & _ & T3 & T4) & _). destruct (P _ _ Ht) as [P1 P2].
    eapply (EI_emit s _ t _ _ (Point t v (h_key hd) a)); [exact I|exact Ht|snorm; reflexivity|unfold pts; snorm|reflexivity|snorm; hold_same|snorm|snorm|done|exact E].
    + rewrite app_assoc. symmetry. apply Permutation_cons_append.
    + cbn. intros pt (M1 & M2 & M3). split.
      * unfold sig. cbn. intros [= _ Ev Ek]. apply (M3 Ev h hd); [left|done|done].
      * split; [done|]. split; [done|]. intros Ev. eapply fresh_sub; [|by apply M3]. intros h'. by right.
    + cbn. apply list.NoDup_cons in P1 as [P1 P1']. split; [apply P2; left|]. split; [done|]. intros _.
      by eapply (fresh_rest s v h).
Qed.

Lemma EI_spawn s p : plan p -> EI s -> EI (set_thr (fun l => l ++ [p]) s).
Proof.
  intros Hp (N & M & P). split; [done|]. split.
  - intros pt Hpt. destruct (M pt Hpt) as (q & Hq & Hm). exists q. split; [|done]. by apply lookup_app_l_Some.
  - intros t q Hq. cbn in Hq. apply lookup_snoc in Hq as [Hq|[_ ->]]; [by eapply P|done].
Qed.
Lemma EI_run ls s : run (init c) ls = Some s -> EI s.
Proof.
  revert ls s. apply (run_ind (fun _ s => EI s)).
  - split; [constructor|]. split; [intros pt H; by apply elem_of_nil in H|]. intros t p H. by inversion H.
  - intros ls s o k n R I P _. by apply EI_spawn.
  - intros ls s rd R I P. by apply EI_spawn.
  - intros ls s t ch s' R I I' P S. exact (EI_step s t s' I S P).
Qed.
End emit.
