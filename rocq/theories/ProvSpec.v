(** Words used to state the properties of the provider. *)
From Coq Require Import ZArith Bool String.
From stdpp Require Import base list option strings gmap.
From Verif Require Import Num Attr View Data Prov.
Local Open Scope Z_scope.

(** No reader wants the instrument [d] of the library [lib]. *)
Definition unwanted (L : libs) (vs : list views) (lib : scope) (d : descriptor) : Prop := forall v, v ∈ vs -> (behaviors L v lib d).2 = [].

(** What reader [r] outputs, in order: the scopes and their streams. *)
Definition layout (p : prov) (r : nat) : list (scope * list stream) :=
  map (fun m => (mr_lib m, default [] (collectors <$> mr_comp m !! r))) (pv_ordered p).
(** The same stream, except that its description may have been replaced by a longer one. *)
Definition same_but_description (s t : stream) : Prop :=
  s_from s = s_from t /\ i_name (s_desc s) = i_name (s_desc t) /\ i_kind (s_desc s) = i_kind (s_desc t) /\ i_num (s_desc s) = i_num (s_desc t) /\
  i_unit (s_desc s) = i_unit (s_desc t) /\ s_agg s = s_agg t /\ s_delta s = s_delta t /\ s_cfg s = s_cfg t /\ s_keys s = s_keys t.
(** Everything keeps its place. *)
Definition in_place (a b : list (scope * list stream)) : Prop :=
  forall i lib ss, a !! i = Some (lib, ss) -> exists ss', b !! i = Some (lib, ss') /\
    forall j s, ss !! j = Some s -> exists s', ss' !! j = Some s' /\ same_but_description s s'.

(** A goroutine that goes through the readers. *)
Definition working (c : closing) : Prop := match c with Closing _ _ | Returned _ => True | _ => False end.

(** The sequences that reader [r] was given, in order. *)
Definition sequences (r : nat) (tr : list (act * res)) : list sequence :=
  omap (fun x => match x with (AProduce r' _, RSequence s) => if decide (r' = r) then Some s else None | _ => None end) tr.
(** Each interval starts where the one before it ended, the first at [last]; all have the same start. *)
Fixpoint chained (start last : Z) (l : list sequence) : Prop :=
  match l with
  | [] => True
  | s :: l' => sq_start s = start /\ sq_last s = last /\ chained start (sq_now s) l'
  end.
(** The clock readings of a history, in order. *)
Definition times (l : list act) : list Z := omap (fun a => match a with AProduce _ t => Some t | _ => None end) l.
Fixpoint ascending (t : Z) (l : list Z) : Prop := match l with [] => True | x :: r => t <= x /\ ascending x r end.

(** The instruments created on meter [i], in order. *)
Definition created (i : nat) (l : list act) : list descriptor :=
  omap (fun a => match a with AInst i' d => if decide (i' = i) then Some d else None | _ => None end) l.

(** What the options of a provider say: the resource and the performance settings that were given last, and the readers in order. *)
Definition last_given {A} (f : prov_option -> option A) (os : list prov_option) : option A := last (omap f os).
Definition resource_given (o : prov_option) := match o with WithResource r => Some r | _ => None end.
Definition reader_given (o : prov_option) := match o with WithReader n vs => Some (n, vs) | _ => None end.
Definition performance_given (o : prov_option) := match o with WithPerformance p => Some p | _ => None end.
(** The documented settings for what is left at zero. *)
Definition or_documented (z d : Z) : Z := if decide (z = 0) then d else z.
Definition documented (p : perf) : perf :=
  Perf (p_ignore p) (or_documented (p_periods p) 10) (or_documented (p_instrument p) 3000) (or_documented (p_aggregator p) 2000) (or_documented (p_size p) 8192).
