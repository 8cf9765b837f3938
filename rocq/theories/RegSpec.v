(** What a user can observe of the callbacks of a meter. *)
From Coq Require Import Bool.
From stdpp Require Import base list option.
From Verif Require Import Reg.

(** Histories, given how append grows slices. *)
Definition rlived (grow : nat -> nat) (l : list ract) (s : rstate) : Prop := rrun grow rinit l = Some s.
Definition registered (s : rstate) (r : nat) : Prop := ERegister r ∈ s_log s.
Definition unregistered (s : rstate) (r : nat) : Prop := exists t, EUnregistered t r true ∈ s_log s.
(** The callbacks that collection t ran, in order. *)
Definition ran (t : nat) (l : list revent) : list nat := omap (fun e => match e with ERun t' r => if decide (t' = t) then Some r else None | _ => None end) l.

(** A goroutine is in Unregister, past its lock; in the loop of a collection. *)
Definition removing (x : rthread) : bool := match x with URead _ | UScan _ _ _ | UTake _ _ _ | UPut _ _ _ _ | UCut _ _ | UClear _ => true | _ => false end.
Definition looping (x : rthread) : bool := match x with CLoop _ _ => true | _ => false end.
(** Histories in which no Unregister overlaps another one or a registration: it takes its lock when no other is under way, and registrations happen when
    none is.  Collections can overlap anything. *)
Definition solo_step (s : rstate) (a : ract) : bool :=
  let removes := existsb removing (s_threads s) in
  match a with
  | ARegister => negb removes
  | AGo t => match s_threads s !! t with Some (UWant _) => negb removes | _ => true end
  | _ => true
  end.
Fixpoint solo (grow : nat -> nat) (s : rstate) (l : list ract) : bool :=
  match l with
  | [] => true
  | a :: l' => solo_step s a && match rstep grow s a with Some s' => solo grow s' l' | None => true end
  end.
(** While collection t runs callbacks, no Unregister takes its lock. *)
Definition spares_step (t : nat) (s : rstate) (a : ract) : bool :=
  match a with
  | AGo u => match s_threads s !! u, s_threads s !! t with Some (UWant _), Some (CLoop _ _) => false | _, _ => true end
  | _ => true
  end.
Fixpoint spares (grow : nat -> nat) (t : nat) (s : rstate) (l : list ract) : bool :=
  match l with
  | [] => true
  | a :: l' => spares_step t s a && match rstep grow s a with Some s' => spares grow t s' l' | None => true end
  end.
(** A goroutine has returned; all have. *)
Definition finished (x : rthread) : bool := match x with UDone _ _ | CDone => true | _ => false end.
Definition calm (s : rstate) : Prop := Forall (fun x => finished x = true) (s_threads s).
