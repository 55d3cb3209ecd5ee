(** Spec_Edit.v -- specification side: edits of a program that should not matter for its code. *)
From Verif Require Import Base Model_Main Spec_Isa Spec_Text Spec_Asm Spec_Report Spec_Prog.

(** a statement mentions a label: it defines it, or its operand is the label *)
Definition mentions (s : stmt) (n : text) : Prop :=
  defines s = Some n \/ exists lab m o, s = SInstr lab m o /\ operand_expr o = Some (Lab n).

(** two runs with the same exit status; after a success the same binary and a report of the same number of
    bytes, with [more] labels more in the second; after a failure two reports with the same message *)
Definition same_code (file : text) (more : Z) (r r' : M Outcome) : Prop :=
  exists o o', r = Ret o /\ r' = Ret o' /\ exit_code o = exit_code o' /\
    (exit_code o = 0 -> binary o = binary o' /\
       exists bytes symbols, SuccessReport bytes symbols (stdout o) /\ SuccessReport bytes (symbols + more) (stdout o')) /\
    (exit_code o <> 0 -> exists n m line pos n' line' pos',
       Report file n m line pos (stdout o) /\ Report file n' m line' pos' (stdout o')).

(** ** Moving a program to another address *)
(** a name of a constant of the program *)
Definition constant (p : list stmt) (n : text) : Prop := exists v, In (SConst n v) (body p).

(** the program does not set the origin, its branches go to labels, and the labels used by other instructions than
    jumps are outside of the zero page at both origins *)
Definition movable (p : list stmt) (a b : Z) : Prop :=
  (forall v, ~ In (SOrg v) p) /\
  (forall lab m o n, In (SInstr lab m o) (body p) -> operand_expr o = Some (Lab n) ->
     if is_branch_name m then ~ constant p n
     else is_jump_name m = true \/ constant p n \/ (256 <= a /\ 256 <= b)).

(** the instructions of a program: mnemonic and operand expression *)
Definition instructions (p : list stmt) : list (string * option expr) :=
  List.concat (map (fun s => match s with SInstr _ m o => [(m, operand_expr o)] | _ => [] end) (body p)).

(** the code [c'] is the code [c] at addresses that are larger by [d]: an instruction that refers to a label that is
    no constant ([fixed]) refers to the address of the label, which is larger by [d], too; a branch and
    all other instructions are unchanged.  [e] are the labels of the first program. *)
Inductive relocated (e : env) (fixed : text -> Prop) (d : Z) :
  list (string * option expr) -> list (Z * list Z) -> list (Z * list Z) -> Prop :=
| rel_nil : relocated e fixed d [] [] []
| rel_same m x a bs is c c' : (is_branch_name m = true \/ forall n, x = Some (Lab n) -> fixed n) ->
    relocated e fixed d is c c' -> relocated e fixed d ((m, x) :: is) ((a, bs) :: c) ((a + d, bs) :: c')
| rel_label m n v a op is c c' : is_branch_name m = false -> ~ fixed n -> lookup e n = Some v ->
    relocated e fixed d is c c' ->
    relocated e fixed d ((m, Some (Lab n)) :: is) ((a, [op; lo v; hi v]) :: c) ((a + d, [op; lo (v + d); hi (v + d)]) :: c').
