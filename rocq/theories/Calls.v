(** Providers and their readers: registration, ForceFlush and Shutdown of a provider, under any number of goroutines.
    M stands for /repo/lightstep/sdk/metric.  Readers can be given to several providers, or twice to one. *)
From Coq Require Import ZArith Bool String.
From stdpp Require Import base list option strings.
From Verif Require Import Per.
Local Open Scope nat_scope.

(** A reader: a ManualReader with its producer and the number of registrations given to otel.Handle (M/manual.go:28-57), or a periodic reader.
    Producers are texts. *)
Inductive xreader := Manual (producer : option string) (refused : nat) | Periodic (r : reader).
(** Register (manual.go:51-57; periodic.go:96-109).  Go does not lock here; one registration is one step. *)
Definition register (x : xreader) (producer : string) : option xreader :=
  match x with
  | Manual None n => Some (Manual (Some producer) n)
  | Manual (Some q) n => Some (Manual (Some q) (S n))
  | Periodic r => Periodic <$> pstep r (ARegister producer)
  end.

(** A provider: its readers, each with the producer made for it (M/provider.go:74-88); how many of them are registered so far; whether
    [meters] is nil. *)
Record provider := Provider { mp_readers : list (nat * string); mp_ready : nat; mp_shut : bool }.
(** Where a goroutine is in ForceFlush (provider.go:145-151) or Shutdown (provider.go:168-191): before its first step; in the loop, before the
    k-th reader; in the method of the k-th reader, a periodic one, as its goroutine t; returned; returned with ErrAlreadyShutdown.  [errs] is what
    multierr.Append has collected, and [ts] are the goroutines of the readers called so far, which the code does not keep. *)
Inductive position :=
  | Start
  | Next (k : nat) (ts : list (option nat)) (errs : list string)
  | Inside (k t : nat) (ts : list (option nat)) (errs : list string)
  | Back (ts : list (option nat)) (errs : list string)
  | Refused.
Record call := Call { c_prov : nat; c_final : bool; c_at : position }.
Record world := World { w_readers : list xreader; w_provs : list provider; w_calls : list call }.
(** The readers, true for the periodic ones, before anything is registered. *)
Definition new_world (kinds : list bool) : world := World (map (fun b : bool => if b then Periodic new_reader else Manual None 0) kinds) [] [].

(** A new provider; registration of its next reader; a call of its ForceFlush or Shutdown (true), which others can make only when NewMeterProvider has
    returned; the next step of that call; a step of a periodic reader, or a call of its own methods, which would panic before it is registered. *)
Inductive xact := ANew (readers : list (nat * string)) | AReg (p : nat) | ACall (p : nat) (final : bool) | AGo (c : nat) | AReader (r : nat) (a : pact).

Definition set_reader (w : world) (r : nat) (x : xreader) : world := World (<[r := x]> (w_readers w)) (w_provs w) (w_calls w).
Definition set_prov (w : world) (p : nat) (x : provider) : world := World (w_readers w) (<[p := x]> (w_provs w)) (w_calls w).
Definition set_at (w : world) (c : nat) (p : nat) (f : bool) (x : position) : world := World (w_readers w) (w_provs w) (<[c := Call p f x]> (w_calls w)).
(** multierr.Append: a nil error adds nothing. *)
Definition append_error (errs : list string) (e : option string) : list string := match e with Some x => errs ++ [x] | None => errs end.

Definition go (w : world) (c : nat) : option world :=
  '(Call p f x) ← w_calls w !! c;
  mp ← w_provs w !! p;
  match x with
  | Start =>
      if f then
        if mp_shut mp then Some (set_at w c p f Refused)
        else Some (set_at (set_prov w p (Provider (mp_readers mp) (mp_ready mp) true)) c p f (Next 0 [] []))
      else Some (set_at w c p f (Next 0 [] []))
  | Next k ts errs =>
      match mp_readers mp !! k with
      | None => Some (set_at w c p f (Back ts errs))
      | Some (r, _) =>
          match w_readers w !! r with
          | Some (Manual _ _) => Some (set_at w c p f (Next (S k) (ts ++ [None]) (append_error errs None)))     (* manual.go:60-67 *)
          | Some (Periodic rd) => rd' ← pstep rd (if f then AShut else AFlush);
                                  Some (set_at (set_reader w r (Periodic rd')) c p f (Inside k (length (rd_threads rd)) ts errs))
          | None => None
          end
      end
  | Inside k t ts errs =>
      '(r, _) ← mp_readers mp !! k;
      match w_readers w !! r with
      | Some (Periodic rd) =>
          match rd_threads rd !! t with
          | Some (CReturned _ e) => Some (set_at w c p f (Next (S k) (ts ++ [Some t]) (append_error errs e)))
          | _ => None
          end
      | _ => None
      end
  | _ => None
  end.
Definition xstep (w : world) (a : xact) : option world :=
  match a with
  | ANew l => if forallb (fun x => Nat.ltb x.1 (length (w_readers w))) l then Some (World (w_readers w) (w_provs w ++ [Provider l 0 false]) (w_calls w)) else None
  | AReg p =>
      mp ← w_provs w !! p;
      '(r, producer) ← mp_readers mp !! mp_ready mp;
      x ← w_readers w !! r;
      x' ← register x producer;
      Some (set_prov (set_reader w r x') p (Provider (mp_readers mp) (S (mp_ready mp)) (mp_shut mp)))
  | ACall p f =>
      mp ← w_provs w !! p;
      if Nat.eqb (mp_ready mp) (length (mp_readers mp)) then Some (World (w_readers w) (w_provs w) (w_calls w ++ [Call p f Start])) else None
  | AGo c => go w c
  | AReader r a =>
      x ← w_readers w !! r;
      match x, a with
      | _, ARegister _ => None
      | Periodic rd, (AFlush | AShut) => match rd_producer rd with Some _ => rd' ← pstep rd a; Some (set_reader w r (Periodic rd')) | None => None end
      | Periodic rd, _ => rd' ← pstep rd a; Some (set_reader w r (Periodic rd'))
      | _, _ => None
      end
  end.
Fixpoint xrun (w : world) (l : list xact) : option world :=
  match l with
  | [] => Some w
  | a :: l' => w' ← xstep w a; xrun w' l'
  end.
