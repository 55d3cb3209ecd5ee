(** Spec_Asm.v -- specification side: what a program means.  A two-pass reference
    assembler over the statements of Spec_Text.v: the first pass gives every
    instruction its address, mode and size and every label its value, the second
    one encodes the instructions with the final label values. *)
From Verif Require Import Base Spec_Isa Spec_Text.

(** the documented rules, or the rules the program follows: it departs from the
    documented ones in two operand forms (see [has_mode] and [encode_operand]) *)
Inductive rules := Documented | AsBuilt.

Definition is_branch_name (m : string) : bool :=
  existsb (String.eqb m) ["BCC"; "BCS"; "BEQ"; "BMI"; "BNE"; "BPL"; "BVC"; "BVS"]%string.
Definition is_jump_name (m : string) : bool :=
  existsb (String.eqb m) ["JMP"; "JSR"]%string.

(** ** The addressing mode an operand denotes, given the value of its expression
    when it is known *)
Definition by_size (v : Z) (small large : mode) : mode := if v <=? 0xFF then small else large.

Definition denoted_mode (m : string) (o : operand) (value : option Z) : option mode :=
  if is_branch_name m then
    match o with ODir _ => Some REL | _ => None end
  else if is_jump_name m then
    match o with
    | ODir _ => Some ABS
    | OInd _ => Some IND
    | ODirX _ => Some ABSX
    | ODirY _ => Some ABSY
    | _ => None
    end
  else
    match o, value with
    | ONone, _ => Some (if existsb (String.eqb m) ["ASL"; "LSR"; "ROL"; "ROR"]%string
                        then ACC else IMP)
    | OAcc, _ => Some ACC
    | OImm _, Some v => if v <=? 0xFF then Some IMM else None
    | ODir _, Some v => Some (by_size v ZP ABS)
    | ODirX _, Some v => Some (by_size v ZPX ABSX)
    | ODirY _, Some v => Some (by_size v ZPY ABSY)
    | OInd _, Some v => if 0xFF <? v then Some IND else None
    | OIndX _, Some v => if v <=? 0xFF then Some INDX else None
    | OIndY _, Some v => if v <=? 0xFF then Some INDY else None
    | _, None => None
    end.

Definition operand_expr (o : operand) : option expr :=
  match o with
  | ONone | OAcc => None
  | OImm e | ODir e | ODirX e | ODirY e | OInd e | OIndX e | OIndY e => Some e
  end.

(** ** Labels: a finite map *)
Definition env := list (text * Z).
Fixpoint lookup (e : env) (name : text) : option Z :=
  match e with
  | [] => None
  | (n, v) :: e' => if text_eqb n name then Some v else lookup e' name
  end.

Definition eval (e : env) (x : expr) : option Z :=
  match x with Num v => Some v | Lab n => lookup e n end.

(** the opcode and the size of the mnemonic [m] in mode [md].  The program gives JMP an
    indexed mode when its operand is a label not yet defined; the opcode is then $F3,
    which is no opcode of the instruction set *)
Definition has_mode (r : rules) (m : string) (md : mode) (known : bool) : option (Z * Z) :=
  match listed m md, r, md with
  | Some x, _, _ => Some x
  | None, AsBuilt, (ABSX | ABSY) =>
      if String.eqb m "JMP" && negb known then Some (0xF3, 3) else None
  | None, _, _ => None
  end.

(** ** First pass *)
Record item := mkItem {
  it_addr : Z;
  it_name : string;
  it_mode : mode;
  it_opcode : Z;
  it_size : Z;
  it_expr : option expr }.

Record pass1_state := mkP1 { p1_addr : Z; p1_env : env; p1_items : list item }.

(** a label is defined once *)
Definition define (st : pass1_state) (name : text) (v : Z) : option pass1_state :=
  match lookup (p1_env st) name with
  | Some _ => None
  | None => Some (mkP1 (p1_addr st) ((name, v) :: p1_env st) (p1_items st))
  end.

(** an instruction: its operand must be known already unless it is a branch or a
    jump; the mode its operand denotes must be one the mnemonic has *)
Definition pass1_instr (r : rules) (st : pass1_state) (m : string) (o : operand) : option pass1_state :=
  let value := match operand_expr o with Some x => eval (p1_env st) x | None => None end in
  match denoted_mode m o value with
  | None => None
  | Some md =>
    match has_mode r m md (match value with Some _ => true | None => false end) with
    | None => None
    | Some (op, size) =>
      Some (mkP1 (p1_addr st + size) (p1_env st)
                 (p1_items st ++ [mkItem (p1_addr st) m md op size (operand_expr o)]))
    end
  end.

Definition pass1_stmt (r : rules) (st : pass1_state) (s : stmt) : option pass1_state :=
  match s with
  | SEmpty | SEnd => Some st
  | SLabel n => define st n (p1_addr st)
  | SConst n v => define st n v
  | SOrg v => Some (mkP1 v (p1_env st) (p1_items st))
  | SInstr None m o => pass1_instr r st m o
  | SInstr (Some n) m o =>
    match define st n (p1_addr st) with
    | Some st' => pass1_instr r st' m o
    | None => None
    end
  end.

(** nothing counts from .END on *)
Fixpoint pass1 (r : rules) (st : pass1_state) (p : list stmt) : option pass1_state :=
  match p with
  | [] => Some st
  | SEnd :: _ => Some st
  | s :: p' => match pass1_stmt r st s with Some st' => pass1 r st' p' | None => None end
  end.

Definition pass1_program (r : rules) (p : list stmt) : option pass1_state := pass1 r (mkP1 0 [] []) p.

(** ** Second pass *)
Definition lo (v : Z) : Z := v mod 256.
Definition hi (v : Z) : Z := (v / 256) mod 256.

(** the operand bytes of an instruction at address [addr].  A branch to a label
    holds the distance from the next instruction, which must be in [-128, 127]; a
    branch with a number holds that byte, which must be one byte (the program keeps the low
    byte of a larger one). *)
Definition encode_operand (r : rules) (e : env) (it : item) : option (list Z) :=
  match it_expr it with
  | None => Some []
  | Some x =>
    match eval e x with
    | None => None
    | Some v =>
      match it_mode it, x with
      | REL, Lab _ =>
        let d := v - (it_addr it + 2) in
        if (-128 <=? d) && (d <=? 127) then Some [d mod 256] else None
      | REL, Num _ => if v <=? 0xFF then Some [v]
                      else match r with Documented => None | AsBuilt => Some [lo v] end
      | (ABS | ABSX | ABSY | IND), _ => Some [lo v; hi v]
      | _, _ => Some [lo v]
      end
    end
  end.

Fixpoint pass2 (r : rules) (e : env) (items : list item) : option (list (Z * list Z)) :=
  match items with
  | [] => Some []
  | it :: items' =>
    match encode_operand r e it, pass2 r e items' with
    | Some bs, Some l => Some ((it_addr it, it_opcode it :: bs) :: l)
    | _, _ => None
    end
  end.

(** the code of a program: byte strings with their addresses, in source order *)
Definition reference (r : rules) (p : list stmt) : option (list (Z * list Z)) :=
  match pass1_program r p with
  | None => None
  | Some st => pass2 r (p1_env st) (p1_items st)
  end.

(** ** Memory images *)
(** the byte the last of the pieces [l] puts at address [a], if any *)
Fixpoint byte_at (l : list (Z * list Z)) (a : Z) : option Z :=
  match l with
  | [] => None
  | (p, bs) :: l' =>
    match byte_at l' a with
    | Some b => Some b
    | None => if (p <=? a) && (a <? p + Z.of_nat (List.length bs))
              then nth_error bs (Z.to_nat (a - p)) else None
    end
  end.

(** the first address beyond all the pieces *)
Fixpoint image_end (l : list (Z * list Z)) : Z :=
  match l with
  | [] => 0
  | (p, bs) :: l' => Z.max (p + Z.of_nat (List.length bs)) (image_end l')
  end.

(** a file holds exactly the pieces [l], with zeros in the gaps *)
Definition is_image (l : list (Z * list Z)) (file : list Z) : Prop :=
  Z.of_nat (List.length file) = image_end l /\
  forall a, 0 <= a < image_end l ->
    nth_error file (Z.to_nat a) = Some (match byte_at l a with Some b => b | None => 0 end).

(** ** Side conditions of the equivalence *)
(** origins never move backwards *)
Fixpoint monotone_from (r : rules) (st : pass1_state) (p : list stmt) : Prop :=
  match p with
  | [] => True
  | SEnd :: _ => True
  | s :: p' =>
    match s with SOrg v => p1_addr st <= v | _ => True end /\
    match pass1_stmt r st s with Some st' => monotone_from r st' p' | None => True end
  end.
Definition monotone (r : rules) (p : list stmt) : Prop := monotone_from r (mkP1 0 [] []) p.

(** operand forms for which the program departs from the reference: a branch with a
    number above $FF, and JMP to a label with an index register *)
Definition regular_operand (m : string) (o : operand) : Prop :=
  match o with
  | ODir (Num v) => is_branch_name m = true -> v <= 0xFF
  | ODirX (Lab _) | ODirY (Lab _) => m <> "JMP"%string
  | _ => True
  end.
Definition regular (s : stmt) : Prop :=
  match s with SInstr _ m o => regular_operand m o | _ => True end.
