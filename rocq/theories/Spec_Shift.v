(** Spec_Shift.v -- specification side: words to speak about code that moves because a part of the program in front of it
    has become longer or shorter. *)
From Verif Require Import Base Spec_Isa Spec_Text Spec_Asm Spec_Diag Spec_Prog.

(** the labels that move with the code: those defined by their place, in front of the first .ORG and of .END *)
Fixpoint moving (p : list stmt) : list text :=
  match p with
  | [] => []
  | SOrg _ :: _ => []
  | SEnd :: _ => []
  | SLabel n :: p' => n :: moving p'
  | SInstr (Some n) _ _ :: p' => n :: moving p'
  | _ :: p' => moving p'
  end.

Definition is_org (s : stmt) : bool := match s with SOrg _ => true | _ => false end.

(** the distance by which the statement of index [k] of [p] moves, if the place of the first one moves by [d] *)
Definition place_shift (p : list stmt) (d : Z) (k : nat) : Z := if existsb is_org (firstn k (body p)) then 0 else d.

(** the change of the value of a label *)
Definition label_shift (p : list stmt) (d : Z) (n : text) : Z := if existsb (text_eqb n) (moving p) then d else 0.

(** the change of an operand of an instruction that moves by [s]: a branch to a label holds a distance *)
Definition operand_shift (p : list stmt) (d s : Z) (m : string) (o : operand) : Z :=
  match operand_expr o with
  | Some (Lab n) => label_shift p d n - (if is_branch_name m then s else 0)
  | _ => 0
  end.

(** the value of bytes in little-endian order *)
Fixpoint little (bs : list Z) : Z := match bs with [] => 0 | b :: bs' => b + 256 * little bs' end.

(** an instruction in the two programs: the same opcode, and the operand is changed by [t] *)
Definition operand_moved (t : Z) (bs bs' : list Z) : Prop :=
  List.length bs' = List.length bs /\ Forall (fun b => 0 <= b < 256) bs /\ Forall (fun b => 0 <= b < 256) bs' /\
  little bs' = (little bs + t) mod 256 ^ Z.of_nat (List.length bs).

(** an instruction of [p] refers to the label [n] *)
Definition uses (p : list stmt) (n : text) : Prop :=
  exists lab m o, In (SInstr lab m o) (body p) /\ operand_expr o = Some (Lab n).

(** no operand crosses the boundary between one byte and two, if the labels of [p] that move move by [d] *)
Definition keeps_size (p : list stmt) (e : env) (d : Z) : Prop :=
  forall lab m o n v, In (SInstr lab m o) (body p) -> operand_expr o = Some (Lab n) ->
    is_branch_name m = false -> is_jump_name m = false -> In n (moving p) -> lookup e n = Some v ->
    (v <= 0xFF <-> v + d <= 0xFF).

(** the instructions of index [i] of the program [p] and of index [i'] of the program [p'], and the binaries: the second one
    lies at an address larger by [s], has the same opcode, and an operand larger by [t] *)
Definition twin (p p' : list stmt) (bin bin' : list Z) (i i' : nat) (s t : Z) : Prop :=
  exists code code' a opc bs bs',
    reference AsBuilt p = Some code /\ reference AsBuilt p' = Some code' /\
    address AsBuilt p i = Some a /\ address AsBuilt p' i' = Some (a + s) /\
    nth_error code (instr_number p i) = Some (a, opc :: bs) /\ nth_error code' (instr_number p' i') = Some (a + s, opc :: bs') /\
    operand_moved t bs bs' /\
    (monotone AsBuilt p -> holds_at bin a (opc :: bs)) /\ (monotone AsBuilt p' -> holds_at bin' (a + s) (opc :: bs')).

(** a label that counts outside of a replaced part: one that an instruction of [pre] or [post] refers to, or one of [post] *)
Definition seen_outside (pre post : list stmt) (n : text) : Prop :=
  uses pre n \/ uses post n \/ exists s, In s (body post) /\ defines s = Some n.

(** the operand is the label [n] *)
Definition is_operand_of (o : operand) (n : text) : bool :=
  match operand_expr o with Some (Lab k) => text_eqb n k | _ => false end.

(** the size of an operand does not depend on which of the two values the constant [n] has: it is that of a branch or a jump,
    or both values are of one byte, or both of two *)
Definition same_sizes (p : list stmt) (n : text) (v v' : Z) : Prop :=
  forall lab m o, In (SInstr lab m o) (body p) -> is_operand_of o n = true ->
    is_branch_name m = true \/ is_jump_name m = true \/ (v <= 0xFF <-> v' <= 0xFF).
