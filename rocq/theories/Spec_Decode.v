(** Spec_Decode.v -- specification side: the instructions in machine code, one after the other.  It uses the table of
    Spec_Isa.v only. *)
From Verif Require Import Base Spec_Isa Spec_Text Spec_Asm Spec_Prog.

(** an instruction as the processor sees it: mnemonic, mode, operand bytes *)
Definition machine : Type := (string * mode * list Z)%type.

Definition cons_machine (x : machine) (rest : option (list machine)) : option (list machine) :=
  match rest with Some l => Some (x :: l) | None => None end.

(** [None] if an opcode is unknown or the last instruction is cut *)
Fixpoint decoded (bytes : list Z) : option (list machine) :=
  match bytes with
  | [] => Some []
  | op :: rest =>
    match decode op with
    | Some (m, md, 1) => cons_machine (m, md, []) (decoded rest)
    | Some (m, md, 2) => match rest with b :: rest' => cons_machine (m, md, [b]) (decoded rest') | [] => None end
    | Some (m, md, 3) => match rest with l :: h :: rest' => cons_machine (m, md, [l; h]) (decoded rest') | _ => None end
    | _ => None
    end
  end.

Example decoded_example : decoded [0xA9; 0x2A; 0x6C; 0x00; 0x03; 0x60] =
  Some [("LDA"%string, IMM, [0x2A]); ("JMP"%string, IND, [0; 3]); ("RTS"%string, IMP, [])].
Proof. vm_compute. reflexivity. Qed.

(** the program has no origin but possibly one in front, and its code begins at [a] *)
Definition one_block (p : list stmt) (a : Z) : Prop :=
  (a = 0 /\ forall v, ~ In (SOrg v) (body p)) \/
  exists q, body p = SOrg a :: q /\ forall v, ~ In (SOrg v) q.

(** JMP with an index register, the one form for which the program writes no opcode of the instruction set *)
Definition indexed_jump (s : stmt) : Prop :=
  match s with SInstr _ m (ODirX _ | ODirY _) => m = "JMP"%string | _ => False end.
