(** Tagging: run the same program with every aggregate paired with the multiset of the measurements
    it was made from.  Forgetting the tags gives back the original run. *)
From Coq Require Import ZArith Lia Bool.
From stdpp Require Import base list option gmultiset.
From Verif Require Import Base Lib SyncModel.
Local Open Scope Z_scope.

(** The tagged configuration: the aggregate of Update number [x] carries the tag [x]. *)
Definition tag (c : config) : config :=
  Config (Pmon (c_mon c) MSmon) (c_num c) (fun x n => (c_inj c x n, {[+ x +]})) (fun v a => c_change c v a.1)
         (c_K c) (c_fp c) (c_keq c) (c_key c) (c_key_dec c) (c_vkey c) (c_ovk c) (c_ovkey c)
         (c_views c) (c_insts c) (c_periods c) (c_ilimit c) (c_ignore c).

Section erase.
Context (c : config).
Notation tc := (tag c).

Definition e_acc (a : acc tc) : acc c := Acc (c:=c) (a_cur a).1 (a_hold a).
Definition e_rec (r : rec tc) : rec c :=
  Rec (c:=c) (r_inst r) (r_attrs r) (r_live r) (r_val r) (r_upd r) (r_col r) (r_inact r) (r_once r) (e_acc <$> r_accs r).
Definition e_hold (h : holder tc) : holder c := Holder (c:=c) (h_view h) (h_key h) (h_live h) (h_aux h) (h_sto h).1.
Definition e_upd (u : upd tc) : upd c := Upd (c:=c) (u_tid u) (u_view u) (u_key u) (u_num u).
Definition e_point (p : point tc) : point c := Point (c:=c) (p_tid p) (p_view p) (p_key p) (p_agg p).1.
Definition e_pc (p : pc tc) : pc c :=
  match p with
  | PRead o k n => PRead (c:=c) o k n
  | PWrite o k n => PWrite (c:=c) o k n
  | PInit r n => PInit (c:=c) r n
  | PInitV r n j => PInitV (c:=c) r n j
  | PUpd r n j => PUpd (c:=c) r n j
  | PCount r => PCount r
  | PUnref r => PUnref r
  | PDone => PDone
  | QLock rd os => QLock rd os
  | QRecs q => QRecs q
  | QLoad q r => QLoad q r
  | QTry q r => QTry q r
  | QCas q r => QCas q r
  | QScav q r u => QScav q r u
  | QMove q r m ph j => QMove q r m ph j
  | QMerge q r m ph j a => QMerge (c:=c) q r m ph j a.1
  | QRel q r m ph j => QRel q r m ph j
  | QViews rd vs => QViews rd vs
  | QColl rd vs v todo => QColl rd vs v todo
  | QPoint rd vs v todo h refs => QPoint rd vs v todo h refs
  | QDecide rd vs v todo h refs a => QDecide (c:=c) rd vs v todo h refs a.1
  | QDone => QDone
  | PBad => PBad
  end.
Definition erase (s : state tc) : state c :=
  State (e_rec <$> s_recs s) (e_hold <$> s_holds s) (e_pc <$> s_thr s) (s_wl s) (s_il s)
        (e_upd <$> s_log s) (e_point <$> s_out s) (e_point <$> s_drop s).
Definition t_label (l : label c) : label tc :=
  match l with
  | LObserve o k n => LObserve (c:=tc) o k n
  | LCollect rd => LCollect rd
  | LStep t ch => LStep t ch
  end.

Lemma find_last_fmap {X Y} (f : X -> Y) (P : Y -> bool) l : find_last P (f <$> l) = find_last (fun x => P (f x)) l.
Proof. induction l as [|x l IH]; cbn; [done|]. fold (fmap (M:=list) f l). by rewrite IH. Qed.
Lemma find_first_fmap {X Y} (f : X -> Y) (P : Y -> bool) l : find_first P (f <$> l) = find_first (fun x => P (f x)) l.
Proof. induction l as [|x l IH]; cbn; [done|]. fold (fmap (M:=list) f l). by rewrite IH. Qed.
Lemma filter_fmap {X Y} (f : X -> Y) (P : Y -> bool) l :
  List.filter P (f <$> l) = f <$> List.filter (fun x => P (f x)) l.
Proof. induction l as [|x l IH]; cbn; [done|]. fold (fmap (M:=list) f l). rewrite IH. by destruct (P (f x)). Qed.

Lemma e_find_read o k s : find_read (c:=c) o k (erase s) = find_read (c:=tc) o k s.
Proof. unfold find_read. cbn [erase s_recs]. by rewrite find_last_fmap. Qed.
Lemma e_find_write o k s : find_write (c:=c) o k (erase s) = find_write (c:=tc) o k s.
Proof. unfold find_write. cbn [erase s_recs]. by rewrite find_last_fmap. Qed.
Lemma e_find_holder v k s : find_holder (c:=c) v k (erase s) = find_holder (c:=tc) v k s.
Proof. unfold find_holder. cbn [erase s_holds]. by rewrite find_first_fmap. Qed.
Lemma e_nfp o s : nfp (c:=c) o (erase s) = nfp (c:=tc) o s.
Proof.
  unfold nfp, live_fps. cbn [erase s_recs]. rewrite filter_fmap. do 3 f_equal.
  change (map (fun r : rec c => c_fp c (r_attrs r))) with (fmap (M:=list) (fun r : rec c => c_fp c (r_attrs r))).
  rewrite <- list_fmap_compose. done.
Qed.
Lemma filter_seq_ext (P Q : nat -> bool) n : (forall i, P i = Q i) -> List.filter P (seq 0 n) = List.filter Q (seq 0 n).
Proof. intros E. generalize (seq 0 n). intros l. induction l as [|x l IH]; cbn; [done|]. by rewrite E, IH. Qed.
Lemma e_live_holders v s : live_holders (c:=c) v (erase s) = live_holders (c:=tc) v s.
Proof.
  unfold live_holders. cbn [erase s_holds]. rewrite fmap_length. apply filter_seq_ext. intros i.
  rewrite list_lookup_fmap. by destruct (s_holds s !! i).
Qed.
Lemma e_live_recs o s : live_recs (c:=c) o (erase s) = live_recs (c:=tc) o s.
Proof.
  unfold live_recs. cbn [erase s_recs]. rewrite fmap_length. apply filter_seq_ext. intros i.
  rewrite list_lookup_fmap. by destruct (s_recs s !! i).
Qed.
Lemma e_vsize v s : vsize (c:=c) v (erase s) = vsize (c:=tc) v s.
Proof. unfold vsize. by rewrite e_live_holders. Qed.
Lemma e_upd_rec i r s : erase (upd_rec i r s) = upd_rec i (e_rec r) (erase s).
Proof. unfold upd_rec, set_recs, erase. cbn. by rewrite list_fmap_insert. Qed.
Lemma e_upd_hold i r s : erase (upd_hold i r s) = upd_hold i (e_hold r) (erase s).
Proof. unfold upd_hold, set_holds, erase. cbn. by rewrite list_fmap_insert. Qed.
Lemma e_goto t p s : erase (goto t p s) = goto t (e_pc p) (erase s).
Proof. unfold goto, set_thr, erase. cbn. by rewrite list_fmap_insert. Qed.
Lemma e_add_log u s : erase (add_log u s) = add_log (e_upd u) (erase s).
Proof. unfold add_log, erase. cbn. by rewrite fmap_app. Qed.
Lemma e_add_out u s : erase (add_out u s) = add_out (e_point u) (erase s).
Proof. unfold add_out, erase. cbn. by rewrite fmap_app. Qed.
Lemma e_add_drop u s : erase (add_drop u s) = add_drop (e_point u) (erase s).
Proof. unfold add_drop, erase. cbn. by rewrite fmap_app. Qed.
Lemma e_set_wl o w s : erase (set_wl o w s) = set_wl o w (erase s).
Proof. done. Qed.
Lemma e_set_il o w s : erase (set_il o w s) = set_il o w (erase s).
Proof. done. Qed.
Lemma e_new_rec s r : erase (set_recs (fun l => l ++ [r]) s) = set_recs (fun l => l ++ [e_rec r]) (erase s).
Proof. unfold set_recs, erase. cbn. by rewrite fmap_app. Qed.
Lemma e_new_holder s r : erase (set_holds (fun l => l ++ [r]) s) = set_holds (fun l => l ++ [e_hold r]) (erase s).
Proof. unfold set_holds, erase. cbn. by rewrite fmap_app. Qed.

Lemma e_ref i s : ref (c:=c) i (erase s) = (erase (ref (c:=tc) i s).1, (ref (c:=tc) i s).2).
Proof.
  unfold ref. cbn [erase s_recs]. rewrite list_lookup_fmap. destruct (s_recs s !! i); cbn; [|done].
  f_equal. symmetry. apply e_upd_rec.
Qed.
Lemma e_try_read o k s : try_read (c:=c) o k (erase s) = (erase (try_read (c:=tc) o k s).1, (try_read (c:=tc) o k s).2).
Proof.
  unfold try_read. rewrite e_find_read. destruct (find_read (c:=tc) o k s); [|done].
  rewrite e_ref. by destruct (ref n s).
Qed.
Lemma e_get_or_create v k s :
  get_or_create (c:=c) v k (erase s) = (erase (get_or_create (c:=tc) v k s).1, (get_or_create (c:=tc) v k s).2).
Proof.
  assert (E : forall k0, new_holder (c:=c) v k0 (erase s) =
    (erase (new_holder (c:=tc) v k0 s).1, (new_holder (c:=tc) v k0 s).2)).
  { intros k0. unfold new_holder. cbn [fst snd]. rewrite e_new_holder. f_equal. cbn. by rewrite fmap_length. }
  unfold get_or_create. rewrite !e_find_holder, e_vsize.
  destruct (find_holder (c:=tc) v k s); [done|].
  change (vlimit tc v) with (vlimit c v). change (c_ovkey tc) with (c_ovkey c).
  destruct (Nat.eqb (vsize v s) (vlimit c v)).
  { by destruct (find_holder (c:=tc) v (c_ovkey c) s). }
  destruct (Nat.eqb (vsize v s + 1) (vlimit c v)); [|done].
  destruct (find_holder (c:=tc) v (c_ovkey c) s); repeat case_bool_decide; done.
Qed.

Lemma erase_step_pc s t p ch :
  option_map erase (step_pc (c:=tc) s t p ch) = step_pc (c:=c) (erase s) t (e_pc p) ch.
Proof.
  destruct p; cbn [step_pc e_pc].
  - change (s_wl (erase s)) with (s_wl s). destruct (s_wl s !! o) as [[|]|]; try done.
    rewrite e_try_read. destruct (try_read (c:=tc) o k s) as [s1 [i|]]; cbn [fst snd option_map].
    + by rewrite e_goto.
    + change (c_ilimit tc) with (c_ilimit c). rewrite e_nfp. change (c_ovk tc) with (c_ovk c).
      destruct (c_ilimit c - 1 <=? nfp o s1).
      * rewrite e_try_read. destruct (try_read (c:=tc) o (c_ovk c) s1) as [s2 [i|]]; cbn; by rewrite e_goto.
      * cbn. by rewrite e_goto.
  - change (s_wl (erase s)) with (s_wl s). destruct (s_wl s !! o) as [[|]|]; try done.
    rewrite e_find_write. destruct (find_write (c:=tc) o k s) as [i|]; cbn [option_map].
    + rewrite e_ref. destruct (ref i s) as [s1 []]; cbn; by rewrite e_goto.
    + rewrite e_goto, e_new_rec. cbn. by rewrite fmap_length.
  - change (s_recs (erase s)) with (e_rec <$> s_recs s). rewrite list_lookup_fmap. destruct (s_recs s !! r) as [r0|]; cbn [fmap option_fmap option_map].
    + change (r_once (e_rec r0)) with (r_once r0). destruct (r_once r0); cbn; [|done|by rewrite e_goto].
      by rewrite e_goto, e_upd_rec.
    + by rewrite e_goto.
  - change (s_recs (erase s)) with (e_rec <$> s_recs s). rewrite list_lookup_fmap. destruct (s_recs s !! r) as [r0|]; cbn [fmap option_fmap option_map].
    + change (r_inst (e_rec r0)) with (r_inst r0). change (iviews tc) with (iviews c).
      destruct (iviews c (r_inst r0) !! j) as [v|]; cbn [option_map].
      * change (s_il (erase s)) with (s_il s). destruct (s_il s !! v) as [[|]|]; try done.
        change (c_vkey c v (r_attrs (e_rec r0))) with (c_vkey tc v (r_attrs r0)).
        rewrite e_get_or_create. destruct (get_or_create (c:=tc) v (c_vkey tc v (r_attrs r0)) s) as [s1 h]. cbn [fst snd].
        change (s_holds (erase s1)) with (e_hold <$> s_holds s1). rewrite list_lookup_fmap.
        destruct (s_holds s1 !! h) as [hd|]; cbn [fmap option_fmap option_map].
        -- rewrite e_goto, e_upd_rec, e_upd_hold. unfold r_setaccs, e_rec. cbn. by rewrite fmap_app.
        -- by rewrite e_goto.
      * by rewrite e_goto, e_upd_rec.
    + by rewrite e_goto.
  - change (s_recs (erase s)) with (e_rec <$> s_recs s). rewrite list_lookup_fmap. destruct (s_recs s !! r) as [r0|]; cbn [fmap option_fmap option_map].
    + change (r_accs (e_rec r0)) with (e_acc <$> r_accs r0). rewrite list_lookup_fmap.
      destruct (r_accs r0 !! j) as [a|]; cbn [fmap option_fmap option_map].
      * change (a_hold (e_acc a)) with (a_hold a). change (s_holds (erase s)) with (e_hold <$> s_holds s). rewrite list_lookup_fmap.
        destruct (s_holds s !! a_hold a) as [hd|]; cbn [fmap option_fmap option_map].
        -- rewrite e_goto, e_add_log, e_upd_rec. unfold r_setaccs, e_rec. cbn.
           rewrite list_fmap_insert, fmap_length. done.
        -- by rewrite e_goto.
      * by rewrite e_goto.
    + by rewrite e_goto.
  - change (s_recs (erase s)) with (e_rec <$> s_recs s). rewrite list_lookup_fmap. destruct (s_recs s !! r) as [r0|]; cbn [fmap option_fmap option_map].
    + by rewrite e_goto, e_upd_rec.
    + by rewrite e_goto.
  - change (s_recs (erase s)) with (e_rec <$> s_recs s). rewrite list_lookup_fmap. destruct (s_recs s !! r) as [r0|]; cbn [fmap option_fmap option_map].
    + by rewrite e_goto, e_upd_rec.
    + by rewrite e_goto.
  - done.
  - destruct os as [|o os]; cbn [option_map]; [by rewrite e_goto|].
    change (s_wl (erase s)) with (s_wl s). destruct (s_wl s !! o) as [[|]|]; try done. cbn [option_map].
    by rewrite e_goto, e_set_wl, e_live_recs.
  - destruct (j_todo q); cbn [option_map]; [by rewrite e_goto|].
    destruct ((n :: l) !! ch); cbn [option_map]; by rewrite ?e_goto.
  - change (s_recs (erase s)) with (e_rec <$> s_recs s). rewrite list_lookup_fmap. destruct (s_recs s !! r) as [r0|]; cbn [fmap option_fmap option_map].
    + change (r_upd (e_rec r0)) with (r_upd r0). change (r_col (e_rec r0)) with (r_col r0).
      change (r_inact (e_rec r0)) with (r_inact r0).
      destruct (same32 (r_upd r0) (r_col r0)); cbn [option_map]; [|by rewrite e_goto].
      change (c_periods tc) with (c_periods c).
      destruct (r_inact r0 + 1 <? c_periods c); cbn [option_map]; by rewrite e_goto, e_upd_rec.
    + by rewrite e_goto.
  - change (s_recs (erase s)) with (e_rec <$> s_recs s). rewrite list_lookup_fmap. destruct (s_recs s !! r) as [r0|]; cbn [fmap option_fmap option_map].
    + change (r_val (e_rec r0)) with (r_val r0). rewrite e_goto. by destruct (r_val r0 =? 0).
    + by rewrite e_goto.
  - change (s_recs (erase s)) with (e_rec <$> s_recs s). rewrite list_lookup_fmap. destruct (s_recs s !! r) as [r0|]; cbn [fmap option_fmap option_map].
    + change (r_val (e_rec r0)) with (r_val r0). destruct (r_val r0 =? 0); cbn [option_map]; by rewrite e_goto, ?e_upd_rec.
    + by rewrite e_goto.
  - change (s_recs (erase s)) with (e_rec <$> s_recs s). rewrite list_lookup_fmap. destruct (s_recs s !! r) as [r0|]; cbn [fmap option_fmap option_map].
    + change (r_upd (e_rec r0)) with (r_upd r0). change (r_col (e_rec r0)) with (r_col r0).
      destruct (negb unm && same32 (r_upd r0) (r_col r0)); cbn [option_map]; [|by rewrite e_goto].
      unfold finish. rewrite e_goto, e_upd_rec. by destruct unm.
    + by rewrite e_goto.
  - change (s_recs (erase s)) with (e_rec <$> s_recs s). rewrite list_lookup_fmap. destruct (s_recs s !! r) as [r0|]; cbn [fmap option_fmap option_map].
    + change (r_once (e_rec r0)) with (r_once r0). destruct (r_once r0); cbn [option_map]; [by rewrite e_goto..|].
      change (r_accs (e_rec r0)) with (e_acc <$> r_accs r0). rewrite list_lookup_fmap.
      destruct (r_accs r0 !! j) as [a|]; cbn [fmap option_fmap option_map].
      * rewrite e_goto, e_upd_rec. unfold r_setaccs, e_rec. cbn. by rewrite list_fmap_insert.
      * unfold finish. rewrite e_goto, e_upd_rec. by destruct ph as [[]|].
    + by rewrite e_goto.
  - change (s_recs (erase s)) with (e_rec <$> s_recs s). rewrite list_lookup_fmap. destruct (s_recs s !! r) as [r0|]; cbn [fmap option_fmap option_map].
    + change (r_accs (e_rec r0)) with (e_acc <$> r_accs r0). rewrite list_lookup_fmap.
      destruct (r_accs r0 !! j) as [ac|]; cbn [fmap option_fmap option_map]; [|by rewrite e_goto].
      change (a_hold (e_acc ac)) with (a_hold ac). change (s_holds (erase s)) with (e_hold <$> s_holds s). rewrite list_lookup_fmap.
      destruct (s_holds s !! a_hold ac) as [hd|]; cbn [fmap option_fmap option_map]; [|by rewrite e_goto].
      rewrite e_goto, e_upd_hold. by destruct ph as [[]|].
    + by rewrite e_goto.
  - change (s_recs (erase s)) with (e_rec <$> s_recs s). rewrite list_lookup_fmap. destruct (s_recs s !! r) as [r0|]; cbn [fmap option_fmap option_map].
    + change (r_accs (e_rec r0)) with (e_acc <$> r_accs r0). rewrite list_lookup_fmap.
      destruct (r_accs r0 !! j) as [ac|]; cbn [fmap option_fmap option_map]; [|by rewrite e_goto].
      change (a_hold (e_acc ac)) with (a_hold ac). change (s_holds (erase s)) with (e_hold <$> s_holds s). rewrite list_lookup_fmap.
      destruct (s_holds s !! a_hold ac) as [hd|]; cbn [fmap option_fmap option_map]; [|by rewrite e_goto].
      by rewrite e_goto, e_upd_hold.
    + by rewrite e_goto.
  - destruct vs as [|v vs]; cbn [option_map]; [by rewrite e_goto|].
    change (s_il (erase s)) with (s_il s). destruct (s_il s !! v) as [[|]|]; try done. cbn [option_map].
    by rewrite e_goto, e_set_il, e_live_holders.
  - destruct todo as [|h0 todo]; cbn [option_map]; [by rewrite e_goto|].
    destruct ((h0 :: todo) !! ch) as [h|]; [|done].
    change (s_holds (erase s)) with (e_hold <$> s_holds s). rewrite list_lookup_fmap. destruct (s_holds s !! h) as [hd|]; cbn [fmap option_fmap option_map]; [|by rewrite e_goto].
    change (vdelta tc v) with (vdelta c v). destruct (vdelta c v); cbn [option_map]; by rewrite e_goto, ?e_add_out.
  - change (s_holds (erase s)) with (e_hold <$> s_holds s). rewrite list_lookup_fmap. destruct (s_holds s !! h) as [hd|]; cbn [fmap option_fmap option_map]; [|by rewrite e_goto].
    by rewrite e_goto, e_upd_hold.
  - change (s_holds (erase s)) with (e_hold <$> s_holds s). rewrite list_lookup_fmap. destruct (s_holds s !! h) as [hd|]; cbn [fmap option_fmap option_map]; [|by rewrite e_goto].
    change (c_change tc v a) with (c_change c v a.1). destruct (c_change c v a.1); cbn [option_map].
    + by rewrite e_goto, e_add_out.
    + rewrite e_goto, e_add_drop. destruct (refs =? 0); by rewrite ?e_upd_hold.
  - done.
  - done.
Qed.

Lemma erase_step s l : option_map erase (step (c:=tc) s (t_label l)) = step (c:=c) (erase s) l.
Proof.
  destruct l as [o k n|rd|t ch]; cbn [step t_label].
  - change (c_insts tc) with (c_insts c). destruct (Nat.ltb o (length (c_insts c))); [|done].
    cbn. unfold set_thr, erase. cbn. by rewrite fmap_app.
  - cbn. unfold set_thr, erase. cbn. by rewrite fmap_app.
  - change (s_thr (erase s)) with (e_pc <$> s_thr s). rewrite list_lookup_fmap.
    destruct (s_thr s !! t); cbn [fmap option_fmap option_map]; [|done]. apply erase_step_pc.
Qed.
Lemma erase_run s ls : option_map erase (run (c:=tc) s (t_label <$> ls)) = run (c:=c) (erase s) ls.
Proof.
  revert s. induction ls as [|l ls IH]; intros s; cbn [fmap list_fmap run]; [done|].
  rewrite <- erase_step. destruct (step s (t_label l)); cbn; [apply IH|done].
Qed.
(** Every run is the erasure of a tagged run. *)
Lemma tagged_run ls s :
  run (init c) ls = Some s -> exists ts, run (init tc) (t_label <$> ls) = Some ts /\ erase ts = s.
Proof.
  change (init c) with (erase (init tc)). rewrite <- erase_run.
  destruct (run (init tc) (t_label <$> ls)) as [ts|]; cbn; [|done]. intros H. inversion H. by exists ts.
Qed.
End erase.
