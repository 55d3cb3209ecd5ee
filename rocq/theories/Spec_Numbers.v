(** Spec_Numbers.v -- specification side: writing numbers instead of labels. *)
From Verif Require Import Base Spec_Isa Spec_Text Spec_Asm Spec_Diag Spec_Prog.

(** the operand with the number [v] in the place of its label or number *)
Definition with_number (o : operand) (v : Z) : operand :=
  match o with
  | ONone => ONone
  | OAcc => OAcc
  | OImm _ => OImm (Num v)
  | ODir _ => ODir (Num v)
  | ODirX _ => ODirX (Num v)
  | ODirY _ => ODirY (Num v)
  | OInd _ => OInd (Num v)
  | OIndX _ => OIndX (Num v)
  | OIndY _ => OIndY (Num v)
  end.

(** the number the label of an operand stands for, in the instruction at address [a] with the
    labels [e]: its value; for a branch, the distance from the next instruction as a byte *)
Definition stands_for (e : env) (a : Z) (m : string) (o : operand) (v : Z) : Prop :=
  exists n w, operand_expr o = Some (Lab n) /\ lookup e n = Some w /\
    v = if is_branch_name m then (w - (a + 2)) mod 256 else w.

(** [p'] is [p] with some labels in operands written as the numbers they stand for *)
Definition written_out (p p' : list stmt) : Prop :=
  List.length p' = List.length p /\
  forall k s s', nth_error p k = Some s -> nth_error p' k = Some s' ->
    s' = s \/
    exists lab m o v e a, s = SInstr lab m o /\ s' = SInstr lab m (with_number o v) /\
      labels AsBuilt p = Some e /\ address AsBuilt p k = Some a /\ stands_for e a m o v.
