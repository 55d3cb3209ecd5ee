(** Spec_Change.v -- specification side: edits of a source file that should not matter. *)
From Verif Require Import Base Model_Main Spec_Isa Spec_Text Spec_Asm Spec_Report Spec_Alike.

(** ** Renaming labels *)
Definition rename_tok (rho : text -> text) (t : tok) : tok := match t with TLabel n => TLabel (rho n) | _ => t end.

Definition injective (rho : text -> text) : Prop := forall a b, rho a = rho b -> a = b.

(** [l'] is [l] with every label [n] replaced by [rho n]; a line without tokens that make sense
    (or with more than eight) is unchanged *)
Definition renamed (rho : text -> text) (l l' : text) : Prop :=
  (exists toks toks', Lexes literal_wrapping true 0 l toks /\ (List.length toks <= 8)%nat /\
     Lexes literal_wrapping true 0 l' toks' /\ map fst toks' = map (rename_tok rho) (map fst toks)) \/
  (l = l' /\ forall toks, Lexes literal_wrapping true 0 l toks -> (8 < List.length toks)%nat).

(** ** Lines that hold nothing but blanks and a comment *)
Definition idle (l : text) : Prop := exists b c, l = b ++ c /\ blanks b /\ comment c.

(** the number a line gets when [d] lines are inserted behind line [k] *)
Definition moved (k d n : Z) : Z := if n <=? k then n else n + d.

(** two runs with the same exit status, binary and success output; a failure is reported
    with the same message, line text and arrow, at the line number moved by the insertion *)
Definition same_but_moved (file : text) (k d : Z) (r r' : M Outcome) : Prop :=
  match r, r' with
  | Ret o, Ret o' =>
      exit_code o = exit_code o' /\ binary o = binary o' /\
      (exit_code o = 0 -> stdout o = stdout o') /\
      (exit_code o <> 0 ->
         (stdout o = [] /\ stdout o' = []) \/
         exists n m line pos, Report file n m line pos (stdout o) /\ Report file (moved k d n) m line pos (stdout o'))
  | Undef _, Undef _ => True
  | _, _ => False
  end.

(** ** Writing the value of a constant instead of its name.  [known] lists the constants
    defined so far with their values. *)
Inductive inlined_expr (known : list (text * Z)) : expr -> expr -> Prop :=
| inlined_same e : inlined_expr known e e
| inlined_value n v : In (n, v) known -> inlined_expr known (Lab n) (Num v).

Inductive inlined_operand (known : list (text * Z)) : operand -> operand -> Prop :=
| inlined_none : inlined_operand known ONone ONone
| inlined_acc : inlined_operand known OAcc OAcc
| inlined_imm e e' : inlined_expr known e e' -> inlined_operand known (OImm e) (OImm e')
| inlined_dir e e' : inlined_expr known e e' -> inlined_operand known (ODir e) (ODir e')
| inlined_dirx e e' : inlined_expr known e e' -> inlined_operand known (ODirX e) (ODirX e')
| inlined_diry e e' : inlined_expr known e e' -> inlined_operand known (ODirY e) (ODirY e')
| inlined_ind e e' : inlined_expr known e e' -> inlined_operand known (OInd e) (OInd e')
| inlined_indx e e' : inlined_expr known e e' -> inlined_operand known (OIndX e) (OIndX e')
| inlined_indy e e' : inlined_expr known e e' -> inlined_operand known (OIndY e) (OIndY e').

(** the operand of a branch is left alone: a number there is the offset itself *)
Inductive inlined_stmt (known : list (text * Z)) : stmt -> stmt -> Prop :=
| inlined_itself s : inlined_stmt known s s
| inlined_instr lab m o o' : is_branch_name m = false -> inlined_operand known o o' ->
    inlined_stmt known (SInstr lab m o) (SInstr lab m o').

(** the constants known behind a statement *)
Definition and_known (known : list (text * Z)) (s : stmt) : list (text * Z) :=
  match s with SConst n v => (n, v) :: known | _ => known end.

(** line by line; a line that is no statement of the grammar is kept (up to letter case,
    blanks and comment) *)
Inductive inlines : list (text * Z) -> list text -> list text -> Prop :=
| inlined_nil known : inlines known [] []
| inlined_line known l l' s s' ls ls' : line_means l s -> line_means l' s' -> inlined_stmt known s s' ->
    inlines (and_known known s) ls ls' -> inlines known (l :: ls) (l' :: ls')
| inlined_other known l l' ls ls' : alike_line l l' -> inlines known ls ls' -> inlines known (l :: ls) (l' :: ls').
