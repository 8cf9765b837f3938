(** Proofs about the names of runtime metrics. *)
From Coq Require Import ZArith Bool String Ascii Lia.
From stdpp Require Import base list option strings pretty.
From Verif Require Import Num Attr View Rt RtSpec.
Local Open Scope Z_scope.
Local Open Scope string_scope.

Local Arguments String.append : simpl nomatch.
(** ** Strings *)
Lemma len_app a b : String.length (a ++ b) = (String.length a + String.length b)%nat.
Proof. induction a as [|c a IH]; [done|]. change (S (String.length (a ++ b)) = S (String.length a + String.length b)). by rewrite IH. Qed.
Lemma app_assoc_s (a b c : string) : a ++ (b ++ c) = (a ++ b) ++ c.
Proof. induction a as [|x a IH]; [done|]. cbn. by rewrite IH. Qed.
Lemma app_nil_s a : a ++ "" = a.
Proof. induction a as [|x a IH]; [done|]. cbn. by rewrite IH. Qed.
Lemma app_inj_s a b c : a ++ b = a ++ c -> b = c.
Proof. induction a as [|x a IH]; [done|]. cbn. intros [= E]. by apply IH. Qed.
Lemma drop_app a b : str_drop (String.length a) (a ++ b) = b.
Proof. induction a as [|x a IH]; [by destruct b|]. exact IH. Qed.
Lemma take_app a b : str_take (String.length a) (a ++ b) = a.
Proof. induction a as [|x a IH]; [by destruct b|]. cbn. by rewrite IH. Qed.
Lemma take_drop n s : (n <= String.length s)%nat -> s = str_take n s ++ str_drop n s /\ String.length (str_take n s) = n.
Proof.
  revert s. induction n as [|n IH]; intros s L; [by destruct s|]. destruct s as [|c s]; [cbn in L; lia|]. cbn. cbn in L. destruct (IH s) as [E1 E2]; [lia|]. split; [by rewrite <- E1|by rewrite E2].
Qed.
Lemma prefix_spec p s : String.prefix p s = true <-> exists r, s = p ++ r.
Proof.
  revert s. induction p as [|c p IH]; intros s; [split; [by exists s|intros _; by destruct s]|]. destruct s as [|d s]; [split; [done|by intros (r & ?)]|].
  cbn. destruct (ascii_dec c d) as [->|N].
  - rewrite IH. split; [intros (r & ->); by exists r|intros (r & [= ->]); by exists r].
  - split; [done|intros (r & [= E _]); congruence].
Qed.
Lemma suffix_spec x s : has_suffix x s = true <-> exists r, s = r ++ x.
Proof.
  unfold has_suffix. rewrite andb_true_iff, Nat.leb_le, String.eqb_eq. split.
  - intros [L E]. destruct (take_drop (String.length s - String.length x) s) as [A _]; [lia|]. rewrite E in A. by eexists.
  - intros (r & ->). rewrite len_app. split; [lia|]. replace (String.length r + String.length x - String.length x)%nat with (String.length r) by lia. apply drop_app.
Qed.
Lemma app_eq_s a b c d : a ++ b = c ++ d -> (String.length a <= String.length c)%nat -> exists e, c = a ++ e /\ b = e ++ d.
Proof.
  revert c. induction a as [|x a IH]; intros c E L; [by exists c|]. destruct c as [|y c]; [cbn in L; lia|]. cbn in E. injection E as -> E. cbn in L. destruct (IH c E) as (e & -> & ->); [lia|]. by exists e.
Qed.
Lemma app_eq_len a b c d : a ++ b = c ++ d -> String.length a = String.length c -> a = c /\ b = d.
Proof.
  intros E L. destruct (app_eq_s a b c d E) as (e & -> & ->); [lia|]. rewrite len_app in L. destruct e; [by rewrite app_nil_s|cbn in L; lia].
Qed.
Lemma app_tail_eq a b x : a ++ x = b ++ x -> a = b.
Proof. intros E. apply (app_eq_len a x b x E). apply (f_equal String.length) in E. rewrite !len_app in E. lia. Qed.
Lemma count_app c a b : count_char c (a ++ b) = (count_char c a + count_char c b)%nat.
Proof. induction a as [|x a IH]; [done|]. cbn. rewrite IH. lia. Qed.
Lemma free_count c s : free_of c s <-> count_char c s = 0%nat.
Proof.
  split.
  - induction s as [|d s IH]; intros F; [done|]. cbn. destruct (Ascii.eqb_spec c d) as [->|N]; [by destruct (F "" s)|]. rewrite IH; [done|]. intros a b ->. by apply (F (String d a) b).
  - intros C a b ->. rewrite count_app in C. cbn in C. rewrite Ascii.eqb_refl in C. lia.
Qed.
Lemma cut_first c a b : free_of c a -> cut_at (String c "") (a ++ String c b) = (a, b).
Proof.
  intros F. apply free_count in F. induction a as [|d a IH]; cbn.
  - destruct (ascii_dec c c); [|done]. by destruct b.
  - cbn in F. destruct (Ascii.eqb_spec c d) as [->|N]; [done|]. destruct (ascii_dec c d); [done|]. cbn in IH. rewrite IH by done. done.
Qed.
Lemma cut_none c a : free_of c a -> cut_at (String c "") a = (a, "").
Proof.
  intros F. apply free_count in F. induction a as [|d a IH]; [done|]. cbn in F. cbn. destruct (Ascii.eqb_spec c d) as [->|N]; [done|]. destruct (ascii_dec c d); [done|]. cbn in IH. by rewrite IH.
Qed.
Lemma first_char c s : free_of c s \/ exists a b, s = a ++ String c b /\ free_of c a.
Proof.
  induction s as [|d s [F|(a & b & -> & F)]].
  - left. by intros [|] b.
  - destruct (ascii_dec c d) as [->|N]; [right; exists "", s; split; [done|]; by intros [|] b|]. left. apply free_count. cbn. destruct (Ascii.eqb_spec c d); [done|]. by apply free_count in F.
  - destruct (ascii_dec c d) as [->|N]; [right; exists "", (a ++ String d b); split; [done|]; by intros [|] x|]. right. exists (String d a), b. split; [done|]. apply free_count. cbn.
    destruct (Ascii.eqb_spec c d); [done|]. by apply free_count in F.
Qed.
(** strings.Split. *)
Lemma split_nonempty c s : split_char c s <> [].
Proof. destruct s as [|d s]; [done|]. cbn. destruct (Ascii.eqb d c); [done|]. by destruct (split_char c s). Qed.
Lemma split_joined c cs : cs <> [] -> Forall (free_of c) cs -> split_char c (joined c cs) = cs.
Proof.
  induction cs as [|x cs IH]; intros N F; [done|]. apply list.Forall_cons in F as [F1 F2]. destruct cs as [|y cs].
  - cbn [joined]. clear IH. apply free_count in F1. induction x as [|d x IH]; [done|]. cbn in *. destruct (Ascii.eqb_spec c d) as [->|Nd]; [done|]. rewrite Ascii.eqb_sym. destruct (Ascii.eqb_spec c d); [done|]. by rewrite IH.
  - change (joined c (x :: y :: cs)) with (x ++ String c (joined c (y :: cs))). specialize (IH ltac:(done) F2). revert IH. generalize (joined c (y :: cs)). intros s IH. apply free_count in F1.
    induction x as [|d x IHx]; cbn.
    + by rewrite Ascii.eqb_refl, IH.
    + cbn in F1. rewrite Ascii.eqb_sym. destruct (Ascii.eqb_spec c d) as [->|Nd]; [done|]. by rewrite IHx.
Qed.
Lemma joined_split c s : joined c (split_char c s) = s /\ Forall (free_of c) (split_char c s).
Proof.
  induction s as [|d s [IH1 IH2]]; cbn.
  - split; [done|]. constructor; [by intros [|] b|constructor].
  - pose proof (split_nonempty c s) as N. destruct (Ascii.eqb_spec d c) as [->|Nd].
    + split; [|constructor; [by intros [|] b|done]]. destruct (split_char c s) as [|x l]; [done|]. change (joined c ("" :: x :: l)) with (String c (joined c (x :: l))). by rewrite IH1.
    + destruct (split_char c s) as [|x l]; [done|]. apply list.Forall_cons in IH2 as [F1 F2]. split.
      * destruct l as [|y l]; cbn [joined] in *; [by rewrite <- IH1|]. rewrite <- IH1. done.
      * constructor; [|done]. apply free_count. cbn. apply free_count in F1. destruct (Ascii.eqb_spec c d); [congruence|done].
Qed.
Lemma class_attrs_spec n vals : class_attrs n vals = imap (fun i c => (class_key (n + i), VString c)) vals.
Proof.
  revert n. induction vals as [|v vals IH]; intros n; [done|]. cbn [class_attrs imap]. rewrite IH. f_equal.
  - rewrite Nat.add_0_r. f_equal. unfold attribute_name, class_key. by destruct n.
  - apply imap_ext. intros i x _. cbn. by rewrite Nat.add_succ_r.
Qed.
Lemma pretty_go_length x s : (String.length s <= String.length (pretty.pretty_N_go x s))%nat.
Proof.
  revert s. induction (N.lt_wf_0 x) as [x _ IH]; intros s. destruct (decide (x = 0%N)) as [->|N]; [by rewrite pretty.pretty_N_go_0|].
  rewrite pretty.pretty_N_go_step by lia. etrans; [|apply IH; apply N.div_lt; lia]. cbn. lia.
Qed.
Lemma pretty_nonempty n : pretty (S n) <> "".
Proof.
  unfold pretty, pretty.pretty_nat, pretty, pretty.pretty_N. destruct (decide (N.of_nat (S n) = 0%N)) as [E|N]; [lia|].
  rewrite pretty.pretty_N_go_step by lia. intros E. apply (f_equal String.length) in E.
  pose proof (pretty_go_length (N.of_nat (S n) `div` 10)%N (String (pretty.pretty_N_char (N.of_nat (S n) `mod` 10)%N) "")) as L. rewrite E in L. cbn in L. lia.
Qed.
Lemma class_key_inj i j : class_key i = class_key j -> i = j.
Proof.
  destruct i as [|i], j as [|j]; unfold class_key; intros E; [done| | |].
  - change "class" with ("class" ++ "") in E at 1. apply app_inj_s in E. by destruct (pretty_nonempty (S j)).
  - change "class" with ("class" ++ "") in E at 2. apply app_inj_s in E. by destruct (pretty_nonempty (S i)).
  - apply app_inj_s, (inj pretty) in E. lia.
Qed.

(** ** Patterns *)
Definition matches (pat name : string) : Prop :=
  (free_of "*" pat /\ exists x, name = pat ++ x) \/
  (exists a b mid, pat = a ++ "*" ++ b /\ free_of "*" a /\ (2 <= String.length mid)%nat /\ name = a ++ mid ++ b).
Lemma family_matches_spec f name : family_matches name f = true <-> matches (fa_pattern f) name.
Proof.
  unfold family_matches, matches. destruct f as [pat k]. cbn [fa_pattern]. destruct (first_char "*" pat) as [F|(a & b & -> & F)].
  - pose proof F as F'. apply free_count in F'. rewrite F', Nat.eqb_refl, (cut_none _ _ F). cbn [andb]. destruct (String.eqb_spec name pat) as [->|N].
    + split; [|done]. intros _. left. split; [done|]. exists "". by rewrite app_nil_s.
    + rewrite !andb_true_iff, Nat.ltb_lt, prefix_spec. split.
      * intros [[_ (x & ->)] _]. left. split; [done|]. by exists x.
      * intros [(_ & x & ->)|(a & b & mid & -> & _)]; [|by destruct (F a b)]. rewrite len_app. destruct x as [|d x]; [by rewrite app_nil_s in N|]. cbn [String.length].
        split; [split; [lia|by exists (String d x)]|]. apply suffix_spec. exists (pat ++ String d x). by rewrite app_nil_s.
  - rewrite (cut_first _ _ _ F). assert (C : (count_char "*" (a ++ String "*" b) =? 0)%nat = false). { apply Nat.eqb_neq. rewrite count_app. cbn. lia. }
    rewrite C. cbn [andb]. rewrite !andb_true_iff, Nat.ltb_lt, prefix_spec, suffix_spec, len_app. cbn [String.length]. split.
    + intros [[L (r & ->)] (q & E)]. rewrite len_app in L. destruct (app_eq_s a r q b E) as (e & -> & ->). { apply (f_equal String.length) in E. rewrite !len_app in E. lia. }
      right. exists a, b, e. rewrite len_app in L. split; [done|]. split; [done|]. split; [lia|done].
    + intros [(F2 & _)|(a' & b' & mid & E & F2 & L & ->)]; [by destruct (F2 a b)|].
      assert (a' = a /\ b' = b) as [-> ->].
      { assert (X : cut_at "*" (a' ++ String "*" b') = cut_at "*" (a ++ String "*" b)) by (f_equal; symmetry; exact E). rewrite !cut_first in X by done. by injection X. }
      rewrite !len_app. split; [split; [lia|by eexists]|]. exists (a ++ mid). by rewrite <- app_assoc_s.
Qed.
Definition stem (pat : string) : string := (cut_at "*" pat).1.
Lemma matches_stem pat name : matches pat name -> exists x, name = stem pat ++ x.
Proof.
  unfold stem. intros [(F & x & ->)|(a & b & mid & -> & F & _ & ->)].
  - rewrite (cut_none _ _ F). by exists x.
  - change (a ++ "*" ++ b) with (a ++ String "*" b). rewrite (cut_first _ _ _ F). by exists (mid ++ b).
Qed.
Definition comparable (a b : string) : bool := String.prefix a b || String.prefix b a.
Lemma comparable_spec a b x y : a ++ x = b ++ y -> comparable a b = true.
Proof.
  intros E. unfold comparable. apply orb_true_iff. rewrite !prefix_spec. destruct (Nat.le_ge_cases (String.length a) (String.length b)) as [L|L].
  - left. destruct (app_eq_s _ _ _ _ E L) as (e & -> & _). by exists e.
  - right. symmetry in E. destruct (app_eq_s _ _ _ _ E L) as (e & -> & _). by exists e.
Qed.
Fixpoint apart (fs : list family) : bool :=
  match fs with [] => true | f :: r => forallb (fun g => negb (comparable (stem (fa_pattern f)) (stem (fa_pattern g)))) r && apart r end.
Definition starred_once (f : family) : bool := (count_char "*" (fa_pattern f) <=? 1)%nat.
Lemma scan_spec name fs n last : forallb starred_once fs = true ->
  scan_families name fs n last = let l := List.filter (family_matches name) fs in
    if (n + length l =? 0)%nat then inr "builtin unmatched" else if (1 <? n + length l)%nat then inr "builtin overmatched" else inl (fold_left (fun _ f => Some f) l last).
Proof.
  revert n last. induction fs as [|f fs IH]; intros n last O; cbn [scan_families List.filter]; [cbn [length fold_left]; by rewrite Nat.add_0_r|]. cbn in O. apply andb_true_iff in O as [O1 O2]. unfold starred_once in O1. apply Nat.leb_le in O1.
  destruct (Nat.ltb_spec 1 (count_char "*" (fa_pattern f))); [lia|]. destruct (family_matches name f); rewrite IH by done; [|done]. cbn [length fold_left]. by rewrite <- plus_n_Sm.
Qed.
Lemma find_family_one fs name f : forallb starred_once fs = true -> find_family fs name = inl (Some f) <-> List.filter (family_matches name) fs = [f].
Proof.
  intros O. unfold find_family. rewrite scan_spec by done. cbv zeta. rewrite Nat.add_0_l. destruct (List.filter (family_matches name) fs) as [|g [|h l]]; cbn; [split; intros; discriminate| |split; intros; discriminate].
  split; [by intros [= ->]|by intros [= ->]].
Qed.
Lemma apart_unique fs name f : apart fs = true -> f ∈ fs -> matches (fa_pattern f) name -> List.filter (family_matches name) fs = [f].
Proof.
  induction fs as [|g fs IH]; intros A Hf M; [by apply elem_of_nil in Hf|]. cbn in A. apply andb_true_iff in A as [A1 A2]. rewrite forallb_forall in A1.
  assert (Q : forall h1 h2, matches (fa_pattern h1) name -> matches (fa_pattern h2) name -> comparable (stem (fa_pattern h1)) (stem (fa_pattern h2)) = true).
  { intros h1 h2 M1 M2. apply matches_stem in M1 as (x & E1). apply matches_stem in M2 as (y & E2). apply (comparable_spec _ _ x y). congruence. }
  cbn. apply elem_of_cons in Hf as [->|Hf].
  - rewrite (proj2 (family_matches_spec g name) M). f_equal. clear IH A2. induction fs as [|h fs IH]; [done|]. cbn. destruct (family_matches name h) eqn:E.
    + apply family_matches_spec in E. specialize (A1 h (or_introl eq_refl)). by rewrite (Q g h M E) in A1.
    + apply IH. intros k Hk. apply A1. by right.
  - destruct (family_matches name g) eqn:E; [|by apply IH]. apply family_matches_spec in E. specialize (A1 f (proj1 (elem_of_list_In _ _) Hf)). by rewrite (Q g f E M) in A1.
Qed.

(** ** One family *)
Lemma otel_unit path u : free_of ":" path -> to_otel_unit (path ++ ":" ++ u) = (to_otel path, u).
Proof. intros F. unfold to_otel_unit. change (path ++ ":" ++ u) with (path ++ String ":" u). by rewrite cut_first. Qed.
Lemma match_plain fs path u x f : free_of ":" path -> count_char "*" (fa_pattern f) = 0%nat -> find_family fs (path ++ ":" ++ u ++ x) = inl (Some f) ->
  find_match fs (path ++ ":" ++ u ++ x) = finish (to_otel path) (u ++ x) (path ++ ":" ++ u ++ x) [] (fa_kind f).
Proof. intros F C E. unfold find_match. rewrite E, C. cbn [Nat.eqb]. by rewrite otel_unit. Qed.
Lemma match_pair fs path y f : free_of ":" path -> count_char "*" (fa_pattern f) = 1%nat -> has_suffix ":*" (fa_pattern f) = true -> find_family fs (path ++ ":" ++ y) = inl (Some f) ->
  find_match fs (path ++ ":" ++ y) = if String.eqb y "objects" then finish (to_otel path ++ "." ++ y) "" (path ++ ":" ++ y) [] BCounter else finish (to_otel path) y (path ++ ":" ++ y) [] BCounter.
Proof. intros F C S E. unfold find_match. rewrite E, C, S. cbn [Nat.eqb]. by rewrite otel_unit. Qed.
Lemma match_classes fs path mid u f : cut_at "/*:" (fa_pattern f) = (path, u) -> count_char "*" (fa_pattern f) = 1%nat -> has_suffix ":*" (fa_pattern f) = false ->
  find_family fs (path ++ "/" ++ mid ++ ":" ++ u) = inl (Some f) ->
  find_match fs (path ++ "/" ++ mid ++ ":" ++ u) = match list.last (split_char "/" mid) with
    | None => FPanic
    | Some v => if String.eqb v "total" then FOk (Matched "" "" "" [] BSkip) else finish (to_otel path) u (fa_pattern f) (class_attrs 0 (split_char "/" mid)) (fa_kind f)
    end.
Proof.
  intros Cu C S E. unfold find_match. rewrite E, C, S, Cu. cbn [Nat.eqb]. unfold slice_from. rewrite drop_app, len_app.
  destruct (Nat.leb_spec (String.length path) (String.length path + String.length ("/" ++ mid ++ ":" ++ u))); [|lia].
  assert (L : Z.of_nat (String.length ("/" ++ mid ++ ":" ++ u)) = (2 + Z.of_nat (String.length mid) + Z.of_nat (String.length u))%Z). { rewrite !len_app. cbn [String.length]. lia. }
  unfold slice. rewrite L.
  replace (2 + Z.of_nat (String.length mid) + Z.of_nat (String.length u) - Z.of_nat (String.length u) - 1)%Z with (1 + Z.of_nat (String.length mid))%Z by lia.
  replace ((0 <=? 1) && (1 <=? 1 + Z.of_nat (String.length mid)) && (1 + Z.of_nat (String.length mid) <=? 2 + Z.of_nat (String.length mid) + Z.of_nat (String.length u)))%Z with true.
  2: { symmetry. rewrite !andb_true_iff, !Z.leb_le. lia. }
  replace (Z.to_nat (1 + Z.of_nat (String.length mid) - 1)) with (String.length mid) by lia. change (str_drop (Z.to_nat 1) ("/" ++ mid ++ ":" ++ u)) with (str_drop 0 (mid ++ ":" ++ u)).
  replace (str_drop 0 (mid ++ ":" ++ u)) with (mid ++ ":" ++ u) by (by destruct (mid ++ ":" ++ u)). by rewrite take_app.
Qed.
Lemma ucum_fix u : ucum u (fix_unit u).
Proof.
  unfold ucum, fix_unit. destruct (String.eqb_spec u "bytes"); [auto|]. destruct (String.eqb_spec u "seconds"); [auto|]. destruct (String.eqb_spec u ""); [auto|]. auto 10.
Qed.
Lemma ucum_fun u v : ucum u v -> v = fix_unit u.
Proof.
  unfold ucum, fix_unit. intros [(-> & ->)|[(-> & ->)|[(-> & ->)|(A & B & C & ->)]]]; try done. destruct (String.eqb_spec u "bytes"); [done|]. destruct (String.eqb_spec u "seconds"); [done|]. by destruct (String.eqb_spec u "").
Qed.
