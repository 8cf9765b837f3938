(** Properties of the host and process instrumentation: C53. *)
From Coq Require Import ZArith Bool String Lia.
From stdpp Require Import base list option strings.
From Verif Require Import Num AggProofs Attr View Host HostSpec.
Local Open Scope Z_scope.
Local Open Scope string_scope.

Ltac pick := repeat match goal with H : _ ∈ _ :: _ |- _ => apply elem_of_cons in H as [H|H] | H : _ ∈ [] |- _ => by apply elem_of_nil in H end.
Ltac member := first [left; reflexivity|right; member].
(** Every documented stream of the host is observed once, with its number, when all can be read. *)
Theorem C53_host fl t v io : int64 (v_used v) -> int64 (v_available v) -> int64 (n_sent io) -> int64 (n_recv io) ->
  exists obs, host_callback fl (Got [t]) (Got v) (Got [io]) = (None, obs) /\ NoDup (map (stream fl) obs) /\ forall x, x ∈ map (seen fl) obs <-> host_shows fl t v io x.
Proof.
  intros A B C D. eexists. split; [reflexivity|]. cbn -[wrap]. rewrite !wrap_id by done. split; [apply (bool_decide_unpack _); vm_compute; exact I|].
  intros x. split.
  - intros H. pick; subst; constructor.
  - intros H. destruct H; unfold total; cbn [fold_left]; rewrite !elem_of_cons; tauto.
Qed.
(** Otherwise nothing is: a collection never sees part of the streams. *)
Theorem C53_all_or_nothing fl cpu mem net : (host_callback fl cpu mem net).2 = [] \/ exists t v io, cpu = Got [t] /\ mem = Got v /\ net = Got [io] /\ (host_callback fl cpu mem net).1 = None.
Proof.
  destruct cpu as [[|t [|? ?]]|e]; auto. destruct mem as [v|e]; auto. destruct net as [[|io [|? ?]]|e]; auto. right. by exists t, v, io.
Qed.
(** The error is that of the first reading that fails. *)
Theorem C53_error fl cpu mem net e : (host_callback fl cpu mem net).1 = Some e <->
  cpu = Failed e \/ (exists l, cpu = Got l /\ length l <> 1%nat /\ e = "host CPU usage: incorrect summary count") \/
  (exists t, cpu = Got [t] /\ mem = Failed e) \/ (exists t v, cpu = Got [t] /\ mem = Got v /\ net = Failed e).
Proof.
  split.
  - destruct cpu as [[|t [|t' l]]|x]; cbn.
    + intros [= <-]. right; left. by exists [].
    + destruct mem as [v|x]; cbn; [|intros [= ->]; right; right; left; by exists t]. destruct net as [[|io [|? ?]]|x]; cbn; try done. intros [= ->]. right; right; right. by exists t, v.
    + intros [= <-]. right; left. by exists (t :: t' :: l).
    + intros [= ->]. by left.
  - intros [->|[(l & -> & L & ->)|[(t & -> & ->)|(t & v & -> & -> & ->)]]]; [done| |done|done]. destruct l as [|t [|t' l]]; [done|by destruct L|done].
Qed.
(** What is not so: with no or several network counters nothing is observed, and no error is reported. *)
Theorem C53_silent_refuted fl t v : host_callback fl (Got [t]) (Got v) (Got []) = (None, []).
Proof. reflexivity. Qed.
(** The process: uptime always; the CPU times, or NaN and a report when they cannot be read. *)
Theorem C53_process fl uptime r : 0 <= ru_usec r * 1000000000 + ru_uusec r * 1000 < 2 ^ 63 -> 0 <= ru_ssec r * 1000000000 + ru_susec r * 1000 < 2 ^ 63 ->
  0 <= ru_uusec r -> 0 <= ru_susec r -> 0 <= ru_usec r -> 0 <= ru_ssec r ->
  exists obs, cputime_callback fl uptime (Got r) = ([], None, obs) /\ NoDup (map (stream fl) obs) /\
  forall x, x ∈ map (seen fl) obs <-> process_shows fl (fseconds fl uptime) (fseconds fl (ru_usec r * 1000000000 + ru_uusec r * 1000)) (fseconds fl (ru_ssec r * 1000000000 + ru_susec r * 1000)) x.
Proof.
  intros A B C D E G. change (2 ^ 63) with 9223372036854775808 in *. eexists. split; [reflexivity|]. unfold timeval. rewrite !(wrap_id (_ * _)) by (unfold int64; lia). rewrite !wrap_id by (unfold int64; lia). cbn -[Z.mul Z.add]. split; [apply (bool_decide_unpack _); vm_compute; exact I|].
  intros x. split; [intros H; pick; subst; constructor|]. intros H. destruct H; rewrite !elem_of_cons; tauto.
Qed.
Theorem C53_process_fails fl uptime e : exists obs, cputime_callback fl uptime (Failed e) = ([e], None, obs) /\ forall x, x ∈ map (seen fl) obs <-> process_shows fl (fseconds fl uptime) (fnan fl) (fnan fl) x.
Proof. eexists. split; [reflexivity|]. cbn. intros x. split; [intros H; pick; subst; constructor|]. intros H. destruct H; rewrite !elem_of_cons; tauto. Qed.
(** The callbacks observe only instruments that were created. *)
Theorem C53_created fl cpu mem net uptime ru : Forall (fun o => of_instrument fl o ∈ host_instruments) (host_callback fl cpu mem net).2 /\
  Forall (fun o => of_instrument fl o ∈ cputime_instruments) (cputime_callback fl uptime ru).2.
Proof.
  split.
  - destruct (C53_all_or_nothing fl cpu mem net) as [-> | (t & v & io & -> & -> & -> & _)]; [done|]. cbn -[wrap]. repeat (constructor; [unfold host_instruments; rewrite !elem_of_cons; cbn; tauto|]). constructor.
  - destruct ru; cbn; repeat (constructor; [unfold cputime_instruments; rewrite !elem_of_cons; cbn; tauto|]); constructor.
Qed.
(** Starting either returns the first refusal, and tries nothing after it. *)
Theorem C53_start create callback is e : register_all create callback is = Some e <->
  (exists before i after, is = (before ++ i :: after)%list /\ Forall (fun x => create x = None) before /\ create i = Some e) \/ (Forall (fun x => create x = None) is /\ callback = Some e).
Proof.
  unfold register_all. induction is as [|i is IH]; cbn.
  - split; [intros ->; right; split; [constructor|done]|]. intros [(b & i & a & E & _)|[_ ->]]; [by destruct b|done].
  - destruct (create i) as [x|] eqn:C.
    + split; [intros [= ->]; left; exists [], i, is; split; [done|]; split; [constructor|done]|]. intros [(b & j & a & E & Fb & Cj)|[Fi _]].
      * destruct b as [|y b]; cbn in E; injection E as Ei Ea; subst; [congruence|]. apply list.Forall_cons in Fb as [Fb _]. congruence.
      * apply list.Forall_cons in Fi as [Fi _]. congruence.
    + rewrite IH. clear IH. split.
      * intros [(b & j & a & -> & Fb & Cj)|[Fi Ec]]; [left; exists (i :: b), j, a; split; [done|]; split; [by constructor|done]|right; split; [by constructor|done]].
      * intros [(b & j & a & E & Fb & Cj)|[Fi Ec]]; [|right; apply list.Forall_cons in Fi as [_ Fi]; done]. left. destruct b as [|y b]; cbn in E; injection E as Ei Ea; subst; [congruence|].
        apply list.Forall_cons in Fb as [_ Fb]. by exists b, j, a.
Qed.
Theorem C53_trial trial create callback e : start_cputime trial create callback = Some e <-> trial = Some e \/ (trial = None /\ register_all create callback cputime_instruments = Some e).
Proof. unfold start_cputime. destruct trial as [x|]; split; [auto|intros [?|[? _]]; done|auto|intros [?|[_ ?]]; done]. Qed.

Module Ex53.
  Definition zfl := Floats Z Z.add Z.div (fun z => z) (fun z => z / 1000000000) (-1).
  Definition t := CpuStat zfl 1 2 3 4 5 6 7 8 9 10.
  Example host : (host_callback zfl (Got [t]) (Got (MemStat 100 60 40)) (Got [NetStat 7 8])).1 = None /\ length (host_callback zfl (Got [t]) (Got (MemStat 100 60 40)) (Got [NetStat 7 8])).2 = 10%nat /\
    host_shows zfl t (MemStat 100 60 40) (NetStat 7 8) ("system.cpu.time", AsyncCounter, "s", [("state", VString "other")], inl 49).
  Proof. split; [reflexivity|]. split; [reflexivity|]. exact (hs_other zfl t (MemStat 100 60 40) (NetStat 7 8)). Qed.
  Example process : process_shows zfl 5 3 4 ("process.cpu.time", AsyncCounter, "s", [("state", VString "user")], inl 3) /\ 0 <= ru_usec (Rusage 3 500000 4 0) * 1000000000 + ru_uusec (Rusage 3 500000 4 0) * 1000 < 2 ^ 63.
  Proof. split; [constructor|cbn; lia]. Qed.
  Example refused : register_all (fun i => if String.eqb (i_name i) "system.memory.usage" then Some "no" else None) None host_instruments = Some "no".
  Proof. reflexivity. Qed.
End Ex53.

Print Assumptions C53_host.
Print Assumptions C53_all_or_nothing.
Print Assumptions C53_error.
Print Assumptions C53_silent_refuted.
Print Assumptions C53_process.
Print Assumptions C53_process_fails.
Print Assumptions C53_created.
Print Assumptions C53_start.
Print Assumptions C53_trial.
