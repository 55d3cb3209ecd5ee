(** Spec_Left.v -- specification side: what a run, failed or not, leaves in the output file. *)
From Verif Require Import Base Spec_Isa Spec_Text Spec_Asm Spec_Diag.

(** the state of the assembler when it stops reading: at the first statement that is in error ([false]), or at the end of
    the program ([true]) *)
Fixpoint reading (r : rules) (n : Z) (st : dstate) (p : list stmt) : dstate * bool :=
  match p with
  | [] => (st, true)
  | SEnd :: _ => (st, true)
  | s :: p' =>
    match diag_stmt r n st s with
    | inl st' => reading r (n + 1) st' p'
    | inr _ => (st, false)
    end
  end.

(** the open operands that are completed: those in front of the first one that cannot be *)
Fixpoint completed (r : rules) (e : env) (l : list placed) : list (Z * list Z) :=
  match l with
  | [] => []
  | p :: l' =>
    match pl_bytes p with
    | Some _ => completed r e l'
    | None =>
      match encode_operand r e (pl_item p) with
      | Some bs => (it_addr (pl_item p), it_opcode (pl_item p) :: bs) :: completed r e l'
      | None => []
      end
    end
  end.

(** the writes of a run: those made while reading, and the completed operands if the program was read to its end *)
Definition left_behind (r : rules) (p : list stmt) : list (Z * list Z) :=
  let '(st, whole) := reading r 1 (mkD 0 [] []) p in
  first_writes 0 (d_done st) ++ if whole then completed r (d_env st) (d_done st) else [].

(** the writes of a run that stops in the line after these statements, because that line cannot be read *)
Definition left_before (r : rules) (p : list stmt) : list (Z * list Z) :=
  first_writes 0 (d_done (fst (reading r 1 (mkD 0 [] []) p))).
