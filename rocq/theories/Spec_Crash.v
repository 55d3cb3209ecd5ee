(** Spec_Crash.v -- specification side: an unfinished binary. *)
From Verif Require Import Base.

(** [part] is not longer than [whole], and every byte of it is zero or the byte of [whole] at the same place *)
Definition unfinished (whole part : list Z) : Prop :=
  (List.length part <= List.length whole)%nat /\
  forall a b, nth_error part a = Some b -> b = 0 \/ nth_error whole a = Some b.
