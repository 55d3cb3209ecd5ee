(** Spec_Diag.v -- specification side: the assembler seen line by line, with its error
    reports.  [diagnose] reads the statements once, in order; a branch or jump to a label
    not yet defined is left open and completed at the end. *)
From Verif Require Import Base Spec_Isa Spec_Text Spec_Asm.

(** where the arrow of a report points: at the label being defined, at the operand, or
    no arrow *)
Inductive place := AtLabel | AtOperand | Nowhere.

(** an instruction of the program: its line number, what it is, and its operand bytes
    if they were known on reading it *)
Record placed := mkPlaced { pl_line : Z; pl_item : item; pl_bytes : option (list Z) }.

Record dstate := mkD { d_addr : Z; d_env : env; d_done : list placed }.

Definition d_define (st : dstate) (name : text) (v : Z) : dstate :=
  mkD (d_addr st) ((name, v) :: d_env st) (d_done st).

Definition unresolved (e : env) (o : operand) : bool :=
  match operand_expr o with
  | Some (Lab n) => match lookup e n with None => true | Some _ => false end
  | _ => false
  end.

Definition value_of (e : env) (o : operand) : option Z :=
  match operand_expr o with Some x => eval e x | None => None end.

(** an instruction in line [n] *)
Definition diag_instr (r : rules) (n : Z) (st : dstate) (m : string) (o : operand)
  : dstate + (string * place) :=
  if unresolved (d_env st) o && negb (is_branch_name m || is_jump_name m)
  then inr ("illegal forward reference"%string, AtOperand)
  else
    match denoted_mode m o (value_of (d_env st) o) with
    | None => inr ("illegal addressing mode"%string, Nowhere)
    | Some md =>
      match has_mode r m md (match value_of (d_env st) o with Some _ => true | None => false end) with
      | None => inr ("illegal addressing mode"%string, Nowhere)
      | Some (op, size) =>
        let it := mkItem (d_addr st) m md op size (operand_expr o) in
        let next bytes := mkD (d_addr st + size) (d_env st) (d_done st ++ [mkPlaced n it bytes]) in
        if unresolved (d_env st) o then inl (next None)
        else match encode_operand r (d_env st) it with
             | Some bs => inl (next (Some bs))
             | None => inr ("branch offset too far away"%string, AtOperand)
             end
      end
    end.

Definition diag_stmt (r : rules) (n : Z) (st : dstate) (s : stmt) : dstate + (string * place) :=
  let redefined := inr ("no redefinition of labels"%string, AtLabel) in
  match s with
  | SEmpty | SEnd => inl st
  | SLabel l => match lookup (d_env st) l with
                | Some _ => redefined
                | None => inl (d_define st l (d_addr st))
                end
  | SConst l v => match lookup (d_env st) l with
                  | Some _ => redefined
                  | None => inl (d_define st l v)
                  end
  | SOrg v => inl (mkD v (d_env st) (d_done st))
  | SInstr None m o => diag_instr r n st m o
  | SInstr (Some l) m o => match lookup (d_env st) l with
                           | Some _ => redefined
                           | None => diag_instr r n (d_define st l (d_addr st)) m o
                           end
  end.

(** the end of the program: the open operands, in source order *)
Fixpoint complete (r : rules) (e : env) (l : list placed) : list (Z * list Z) + (Z * string) :=
  match l with
  | [] => inl []
  | p :: l' =>
    let it := pl_item p in
    match (match pl_bytes p with
           | Some bs => inl bs
           | None =>
             match encode_operand r e it with
             | Some bs => inl bs
             | None =>
               inr (match (match it_expr it with Some x => eval e x | None => None end) with
                    | None => "label definition was not found"%string
                    | Some _ => "branch offset too far away"%string
                    end)
             end
           end) with
    | inr m => inr (pl_line p, m)
    | inl bs =>
      match complete r e l' with
      | inl code => inl ((it_addr it, it_opcode it :: bs) :: code)
      | inr err => inr err
      end
    end
  end.

Inductive diagnosis :=
| DOk (st : dstate) (code : list (Z * list Z))       (* the code, in source order *)
| DError (n : Z) (message : string) (where_ : place).

Definition d_close (r : rules) (st : dstate) : diagnosis :=
  match complete r (d_env st) (d_done st) with
  | inl code => DOk st code
  | inr (n, m) => DError n m AtOperand
  end.

(** from line [n] on *)
Fixpoint diag_from (r : rules) (n : Z) (st : dstate) (p : list stmt) : diagnosis :=
  match p with
  | [] => d_close r st
  | SEnd :: _ => d_close r st
  | s :: p' =>
    match diag_stmt r n st s with
    | inl st' => diag_from r (n + 1) st' p'
    | inr (m, w) => DError n m w
    end
  end.

(** the state after the statements [p], if they are all accepted and none is .END *)
Fixpoint accepts (r : rules) (n : Z) (st : dstate) (p : list stmt) : option dstate :=
  match p with
  | [] => Some st
  | SEnd :: _ => None
  | s :: p' => match diag_stmt r n st s with inl st' => accepts r (n + 1) st' p' | inr _ => None end
  end.
Definition state_after (r : rules) (p : list stmt) : option dstate := accepts r 1 (mkD 0 [] []) p.

Definition diagnose (r : rules) (p : list stmt) : diagnosis := diag_from r 1 (mkD 0 [] []) p.

(** number of bytes of the instructions *)
Definition total_size (l : list placed) : Z := fold_right (fun p n => it_size (pl_item p) + n) 0 l.

(** the offset the arrow points at, in a line of tokens [toks]: the label a line
    defines is its first label, the operand its last label *)
Definition is_label (t : tok * nat) : bool := match fst t with TLabel _ => true | _ => false end.
Definition place_offset (toks : list (tok * nat)) (w : place) : option nat :=
  match w with
  | Nowhere => None
  | AtLabel => option_map snd (hd_error (filter is_label toks))
  | AtOperand => option_map snd (hd_error (rev (filter is_label toks)))
  end.

(** ** The output file as it really is.  The program completes the open operands at the
    end, after all other code, and for each of them it first writes zero bytes at the
    place where the previous instruction ended. *)
Definition zeros (n : Z) : list Z := repeat 0 (Z.to_nat n).
Definition is_open (p : placed) : bool := match pl_bytes p with None => true | Some _ => false end.
Definition pl_end (p : placed) : Z := it_addr (pl_item p) + it_size (pl_item p).

(** the writes made while reading the source; the previous instruction ended at [pos] *)
Fixpoint first_writes (pos : Z) (l : list placed) : list (Z * list Z) :=
  match l with
  | [] => []
  | p :: l' =>
    let it := pl_item p in
    match pl_bytes p with
    | Some bs => [(it_addr it, it_opcode it :: bs)]
    | None => [(pos, zeros (it_size it)); (it_addr it, it_opcode it :: zeros (it_size it - 1))]
    end ++ first_writes (pl_end p) l'
  end.

(** the writes made at the end, [e] being the final labels *)
Fixpoint last_writes (r : rules) (e : env) (l : list placed) : list (Z * list Z) :=
  match l with
  | [] => []
  | p :: l' =>
    match pl_bytes p, encode_operand r e (pl_item p) with
    | None, Some bs => [(it_addr (pl_item p), it_opcode (pl_item p) :: bs)]
    | _, _ => []
    end ++ last_writes r e l'
  end.

Definition writes (r : rules) (st : dstate) : list (Z * list Z) :=
  first_writes 0 (d_done st) ++ last_writes r (d_env st) (d_done st).
