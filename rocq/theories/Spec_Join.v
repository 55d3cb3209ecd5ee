(** Spec_Join.v -- specification side: two programs that have no label in common. *)
From Verif Require Import Base Model_Main Spec_Isa Spec_Text Spec_Asm Spec_Prog Spec_Report Spec_Edit.

(** no label is named in both *)
Definition apart (p q : list stmt) : Prop := forall s t n, In s p -> In t q -> mentions s n -> ~ mentions t n.

(** the memory of two binaries: the first one, and the second one from there on *)
Definition joined (a b : list Z) : list Z := a ++ skipn (List.length a) b.

(** two runs and the run of the joined source *)
Definition two_parts (r1 r2 r : M Outcome) : Prop :=
  exists o1 o2 o, r1 = Ret o1 /\ r2 = Ret o2 /\ r = Ret o /\
    (exit_code o = 0 <-> exit_code o1 = 0 /\ exit_code o2 = 0) /\
    (exit_code o = 0 -> binary o = joined (binary o1) (binary o2) /\
       exists b1 s1 b2 s2, SuccessReport b1 s1 (stdout o1) /\ SuccessReport b2 s2 (stdout o2) /\ SuccessReport (b1 + b2) (s1 + s2) (stdout o)).
