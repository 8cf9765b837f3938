(** Texts that are compared without regard to case. *)
From Coq Require Import ZArith Bool String Ascii Lia.
From stdpp Require Import base list option strings.
From Verif Require Import View.
Local Open Scope string_scope.

(** Two texts that differ only in the case of ASCII letters. *)
Definition case_pair (a b : ascii) : Prop := exists n, (65 <= n <= 90)%nat /\ a = ascii_of_nat n /\ b = ascii_of_nat (n + 32).
Inductive same_but_case : string -> string -> Prop :=
  | sbc_nil : same_but_case "" ""
  | sbc_cons a b s t : a = b \/ case_pair a b \/ case_pair b a -> same_but_case s t -> same_but_case (String a s) (String b t).

(** ** [lower] and this relation *)
Lemma lower_pair n : (65 <= n <= 90)%nat -> lower_char (ascii_of_nat n) = lower_char (ascii_of_nat (n + 32)).
Proof.
  intros I. assert (X : forallb (fun n => Ascii.eqb (lower_char (ascii_of_nat n)) (lower_char (ascii_of_nat (n + 32)))) (seq 65 26) = true) by (vm_compute; reflexivity).
  rewrite forallb_forall in X. apply Ascii.eqb_eq, X. apply in_seq. lia.
Qed.
Lemma lower_same s t : same_but_case s t -> lower s = lower t.
Proof.
  intros X. induction X as [|a b s t C X IH]; [done|]. cbn. rewrite IH. f_equal. destruct C as [->|[(n & I & -> & ->)|(n & I & -> & ->)]]; [done|by apply lower_pair|].
  symmetry. by apply lower_pair.
Qed.
Lemma lower_char_pair a : a = lower_char a \/ case_pair a (lower_char a).
Proof.
  unfold lower_char. cbv zeta. set (n := nat_of_ascii a). destruct (Nat.leb_spec 65 n) as [L1|]; [|by left]. destruct (Nat.leb_spec n 90) as [L2|]; [|by left]. right.
  exists n. split; [done|]. cbn [andb]. split; [symmetry; apply ascii_nat_embedding|done].
Qed.
Lemma same_lower p : same_but_case p (lower p).
Proof. induction p as [|a p IH]; [constructor|]. cbn. constructor; [|done]. destruct (lower_char_pair a); auto. Qed.
