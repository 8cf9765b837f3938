(** Model of the instrumentation of the host and of the process: /repo/lightstep/instrumentation/host/host.go (H) and
    /repo/lightstep/instrumentation/cputime (C: cputime.go, U: cputime_unix.go).  cputime_other.go names variables that are not declared
    (gcSeconds, memStats) and is not modelled. *)
From Coq Require Import ZArith Bool String.
From stdpp Require Import base list option.
From Verif Require Import Num Attr View.
Local Open Scope Z_scope.
Local Open Scope string_scope.

(** The numbers of Go: float64 addition, division, conversion from uint64, time.Duration.Seconds and NaN, as parameters. *)
Record floats := Floats { F : Type; fplus : F -> F -> F; fdiv : F -> F -> F; fuint : Z -> F; fseconds : Z -> F; fnan : F }.

Section host.
Context (fl : floats).
(** What the callbacks observe. *)
Inductive sample := SFloat (i : descriptor) (x : F fl) (a : list kv) | SInt (i : descriptor) (z : Z) (a : list kv).

(** Instruments are created in order until one is refused (H:138-181, C:92-113). *)
Fixpoint create_all (create : descriptor -> option string) (is : list descriptor) : option string :=
  match is with [] => None | i :: r => match create i with Some e => Some e | None => create_all create r end end.
(** register: the error returned, or None with the callback registered (H:125-248, C:85-134). *)
Definition register_all (create : descriptor -> option string) (callback : option string) (is : list descriptor) : option string :=
  match create_all create is with Some e => Some e | None => callback end.

(** H:138-178. *)
Definition cpu_time : descriptor := Descriptor "system.cpu.time" AsyncCounter FloatKind "Accumulated CPU time spent by this process host attributed by state (User, System, Other, Idle)" "s".
Definition memory_usage : descriptor := Descriptor "system.memory.usage" AsyncUpDownCounter IntKind "Memory usage of this process host attributed by memory state (Used, Available)" "By".
Definition memory_utilization : descriptor := Descriptor "system.memory.utilization" AsyncGauge FloatKind "Memory utilization of this process host attributed by memory state (Used, Available)" "".
Definition network_io : descriptor := Descriptor "system.network.io" AsyncCounter IntKind "Bytes transferred attributed by direction (Transmit, Receive)" "By".
Definition host_instruments : list descriptor := [cpu_time; memory_usage; memory_utilization; network_io].
(** cpu.TimesStat, mem.VirtualMemoryStat and net.IOCountersStat of gopsutil, as far as they are read. *)
Record cpu_stat := CpuStat { c_user : F fl; c_system : F fl; c_idle : F fl; c_nice : F fl; c_iowait : F fl; c_irq : F fl; c_softirq : F fl; c_steal : F fl; c_guest : F fl; c_guestnice : F fl }.
Record mem_stat := MemStat { v_total : Z; v_available : Z; v_used : Z }.
Record net_stat := NetStat { n_sent : Z; n_recv : Z }.
Inductive res (A : Type) := Got (x : A) | Failed (e : string).
Arguments Got {A}. Arguments Failed {A}.
Definition state_is (s : string) : list kv := [("state", VString s)].
Definition direction_is (s : string) : list kv := [("direction", VString s)].
(** The callback (H:183-238): the error it returns and what it has observed.  len(ioStats) != 1 returns the error of the call before,
    which is nil there (H:207-209). *)
Definition host_callback (cpu : res (list cpu_stat)) (mem : res mem_stat) (net : res (list net_stat)) : option string * list sample :=
  match cpu with
  | Failed e => (Some e, [])
  | Got [t] =>
      match mem with
      | Failed e => (Some e, [])
      | Got v =>
          match net with
          | Failed e => (Some e, [])
          | Got [io] =>
              let other := fplus fl (fplus fl (fplus fl (fplus fl (fplus fl (fplus fl (c_nice t) (c_iowait t)) (c_irq t)) (c_softirq t)) (c_steal t)) (c_guest t)) (c_guestnice t) in
              (None,
               [SFloat cpu_time (c_user t) (state_is "user"); SFloat cpu_time (c_system t) (state_is "system"); SFloat cpu_time other (state_is "other"); SFloat cpu_time (c_idle t) (state_is "idle");
                SInt memory_usage (wrap (v_used v)) (state_is "used"); SInt memory_usage (wrap (v_available v)) (state_is "available");
                SFloat memory_utilization (fdiv fl (fuint fl (v_used v)) (fuint fl (v_total v))) (state_is "used");
                SFloat memory_utilization (fdiv fl (fuint fl (v_available v)) (fuint fl (v_total v))) (state_is "available");
                SInt network_io (wrap (n_sent io)) (direction_is "transmit"); SInt network_io (wrap (n_recv io)) (direction_is "receive")])
          | Got _ => (None, [])
          end
      end
  | Got _ => (Some "host CPU usage: incorrect summary count", [])
  end.

(** C:92-113. *)
Definition process_cpu : descriptor := Descriptor "process.cpu.time" AsyncCounter FloatKind "Accumulated CPU time spent by this process attributed by state (User, System, ...)" "s".
Definition process_uptime : descriptor := Descriptor "process.uptime" AsyncUpDownCounter FloatKind "Seconds since application was initialized" "s".
Definition cputime_instruments : list descriptor := [process_cpu; process_uptime].
(** syscall.Rusage: seconds and microseconds. *)
Record rusage := Rusage { ru_usec : Z; ru_uusec : Z; ru_ssec : Z; ru_susec : Z }.
Definition timeval (sec usec : Z) : Z := wrap (wrap (sec * 1000000000) + wrap (usec * 1000)).
(** newCputime (U:35-44): a trial; then register. *)
Definition start_cputime (trial : option string) (create : descriptor -> option string) (callback : option string) : option string :=
  match trial with Some e => Some e | None => register_all create callback cputime_instruments end.
(** getProcessTimes (U:50-68) and the callback (C:115-128): the errors handed to otel.Handle, the error returned and what is observed. *)
Definition cputime_callback (uptime : Z) (ru : res rusage) : list string * option string * list sample :=
  let '(hs, user, system) := match ru with
    | Failed e => ([e], fnan fl, fnan fl)
    | Got r => ([], fseconds fl (timeval (ru_usec r) (ru_uusec r)), fseconds fl (timeval (ru_ssec r) (ru_susec r)))
    end in
  (hs, None, [SFloat process_uptime (fseconds fl uptime) []; SFloat process_cpu user (state_is "user"); SFloat process_cpu system (state_is "system")]).
End host.
Arguments Got {_}. Arguments Failed {_}.
