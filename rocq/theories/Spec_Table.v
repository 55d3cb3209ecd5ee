(** Spec_Table.v -- specification side: primes. *)
From Coq Require Import Znumtheory.
From Verif Require Import Base.

(** [p] is the least prime above [x] ([prime] is the standard library's) *)
Definition least_prime_above (x p : Z) : Prop :=
  x < p /\ prime p /\ forall q, x < q < p -> ~ prime q.
