(** Proof_Core.v -- an intermediate machine, between the model and the specification:
    it works on the tokens of Spec_Text and on a finite map, without lexer structs,
    hash table or arrays.  Proof_Sim shows that the model simulates it. *)
From Verif Require Import Base Proof_Base Model_Opcode Model_Error Model_Lexer Model_SymbolTable
  Model_Parser Model_ForwardRef Model_Generator Spec_Isa Spec_Text Spec_Asm Proof_Lex1.

(** ** Lines as the parser sees them *)
Record flags := mkFlags { f_x : bool; f_y : bool; f_open : bool; f_imm : bool; f_acc : bool }.

Definition is_ty (ty : TokenType) (t : tok) : bool := ty_eqb (type_of t) ty.

Definition flags_of (ts : list tok) : flags :=
  mkFlags (existsb (is_ty TOKEN_X_REGISTER) ts) (existsb (is_ty TOKEN_Y_REGISTER) ts)
          (existsb (is_ty TOKEN_OPEN_PARENTHESIS) ts) (existsb (is_ty TOKEN_IMMEDIATE) ts)
          (existsb (is_ty TOKEN_ACCUMULATOR) ts).

Definition operand_tok (t : tok) : bool :=
  match t with TLabel _ | TNumber _ | TA => true | _ => false end.

(** the first operand token, with its index *)
Fixpoint find_op (i : nat) (ts : list tok) : option (nat * tok) :=
  match ts with
  | [] => None
  | t :: ts' => if operand_tok t then Some (i, t) else find_op (S i) ts'
  end.

Fixpoint last_mnemonic (m : Mnemonic) (ts : list tok) : Mnemonic :=
  match ts with
  | [] => m
  | TMnemonic n :: ts' => last_mnemonic (str_to_mnemonic (T n)) ts'
  | _ :: ts' => last_mnemonic m ts'
  end.

Inductive cstmt :=
| CEmpty
| CLabel (n : text)
| CConst (n : text) (index : nat) (v : Z)
| COrg (v : Z)
| CEnd
| CInstr (lab : option text) (m : Mnemonic) (op : option (nat * tok)) (fl : flags).

Definition cinstr (lab : option text) (ts : list tok) : cstmt :=
  CInstr lab (last_mnemonic NULL_MNEMONIC ts) (find_op 1 (tl ts)) (flags_of ts).

(** a line is understood or rejected at a token index; [true]: "illegal base" *)
Definition comp := (cstmt + (bool * nat))%type.
Definition bad (i : nat) : comp := inr (false, i).

Definition expr_tok (t : tok) : bool :=
  match t with TLabel _ | TNumber _ => true | _ => false end.

(** the operand part, from index [i] on *)
Definition comp_operand (i : nat) (ts : list tok) (ok : cstmt) : comp :=
  match ts with
  | [] => inl ok
  | TOpen :: r =>
    match r with
    | [] => bad (i + 1)
    | e :: r1 =>
      if expr_tok e then
        match r1 with
        | TComma :: r2 =>
          match r2 with
          | TX :: r3 =>
            match r3 with
            | TClose :: r4 => match r4 with [] => inl ok | _ => bad (i + 5) end
            | _ => bad (i + 4)
            end
          | _ => bad (i + 3)
          end
        | TClose :: r2 =>
          match r2 with
          | [] => inl ok
          | TComma :: r3 =>
            match r3 with
            | TY :: r4 => match r4 with [] => inl ok | _ => bad (i + 5) end
            | _ => bad (i + 4)
            end
          | _ => bad (i + 3)
          end
        | _ => bad (i + 2)
        end
      else bad (i + 1)
    end
  | THash :: r =>
    match r with
    | e :: r1 => if expr_tok e then match r1 with [] => inl ok | _ => bad (i + 2) end
                 else bad (i + 1)
    | [] => bad (i + 1)
    end
  | TA :: r => match r with [] => inl ok | _ => bad (i + 1) end
  | t :: r =>
    if expr_tok t then
      match r with
      | [] => inl ok
      | TComma :: r1 =>
        match r1 with
        | (TX | TY) :: _ => inl ok
        | _ => bad (i + 2)
        end
      | _ => bad (i + 1)
      end
    else bad i
  end.

Definition compile (ts : list tok) : comp :=
  match ts with
  | [] => inl CEmpty
  | TMnemonic _ :: r => comp_operand 1 r (cinstr None ts)
  | TLabel n :: r =>
    match r with
    | [] => inl (CLabel n)
    | TEqual :: r1 | TDirective DEqu :: r1 =>
      match r1 with
      | TNumber v :: r2 => match r2 with [] => inl (CConst n 0 v) | _ => bad 3 end
      | _ => bad 2
      end
    | TMnemonic _ :: r1 => comp_operand 2 r1 (cinstr (Some n) ts)
    | _ => bad 1
    end
  | TDirective DDefine :: r =>
    match r with
    | TLabel n :: r1 =>
      match r1 with
      | TNumber v :: r2 => match r2 with [] => inl (CConst n 1 v) | _ => bad 3 end
      | _ => bad 2
      end
    | _ => bad 1
    end
  | TDirective DOrg :: r =>
    match r with
    | TNumber v :: r1 => match r1 with [] => inl (COrg v) | _ => bad 2 end
    | _ => bad 1
    end
  | TDirective DEnd :: r => match r with [] => inl CEnd | _ => bad 1 end
  | TStar :: r =>
    match r with
    | TEqual :: r1 =>
      match r1 with
      | TNumber v :: r2 => match r2 with [] => inl (COrg v) | _ => inr (true, 3%nat) end
      | _ => inr (true, 2%nat)
      end
    | _ => inr (true, 1%nat)
    end
  | _ => bad 0
  end.

(** ** The machine *)
Record core := mkCore {
  c_env : env;
  c_refs : list ForwardRef;
  c_pc : Z;
  c_line : Z;
  c_total : Z;
  c_file : OFile }.

Inductive cres :=
| CNext (c : core)
| CFinish (c : core)
| CErr (message : string) (pos : option nat).

(** the masks of apply_masks *)
Definition masks (fl : flags) (field : Z) : Z :=
  let f1 := if f_x fl then Z.land field X_REGISTER_FIELD
            else if f_y fl then Z.land field Y_REGISTER_FIELD
            else Z.land field NOT_REGISTER_FIELD in
  let f2 := if f_open fl then Z.land f1 INDIRECT_FIELD else Z.land f1 NOT_INDIRECT_FIELD in
  let f3 := if f_imm fl then Z.land f2 ADDR_MODE_IMMEDIATE
            else Z.land f2 (Z.lnot ADDR_MODE_IMMEDIATE) in
  if f_acc fl then Z.land f3 ADDR_MODE_ACCUMULATOR
  else Z.land f3 (Z.lnot ADDR_MODE_ACCUMULATOR).

Definition flag_none (m : Mnemonic) : Z :=
  match m with
  | ASL | LSR | ROL | ROR => Z.land (get_addr_bitfield m) ADDR_MODE_ACCUMULATOR
  | _ => Z.land (get_addr_bitfield m) ADDR_MODE_IMPLIED
  end.

Definition flag_start (m : Mnemonic) (acc big : bool) : Z :=
  let m0 := if acc then Z.land 0x1FFF ADDR_MODE_ACCUMULATOR
            else if big then if negb (is_branch m) then ABSOLUTE_FIELD else ZERO_PAGE_FIELD
            else if negb (is_jump m) then ZERO_PAGE_FIELD else ABSOLUTE_FIELD in
  if is_branch m then Z.land m0 ADDR_MODE_RELATIVE else Z.land m0 (Z.lnot ADDR_MODE_RELATIVE).

(** [acc]: the operand is A; [big]: its value is above $FF *)
Definition flag_known (m : Mnemonic) (acc big : bool) (fl : flags) : Z :=
  Z.land (masks fl (flag_start m acc big)) (get_addr_bitfield m).

Definition flag_forward (m : Mnemonic) (fl : flags) : Z :=
  if is_branch m then Z.land (masks fl 0x1FFF) ADDR_MODE_RELATIVE
  else match m with
       | JMP => Z.land (masks fl 0x1FFF) ABSOLUTE_FIELD
       | JSR => Z.land (masks fl 0x1FFF) ADDR_MODE_ABSOLUTE
       | _ => 0
       end.

Definition opcode_of (m : Mnemonic) (flag : Z) : Z := get_opcode (mkInstr m 0 flag 0).
Definition absolute_flag (flag : Z) : bool := negb (Z.land flag ABSOLUTE_FIELD =? 0).

(** the bytes of an instruction *)
Definition code_bytes (m : Mnemonic) (flag : Z) (v : option Z) : list Z :=
  opcode_of m flag ::
  match v with
  | None => []
  | Some x => Z.land x 0xFF :: if absolute_flag flag then [Z.shiftr x 8] else []
  end.

Definition write_at (f : OFile) (pc : Z) (bs : list Z) : OFile :=
  fold_left (fun f b => fputc b f) bs (fseek f pc).

Definition zlen {A} (l : list A) : Z := Z.of_nat (List.length l).

Definition c_emit (c : core) (bs : list Z) : core :=
  mkCore (c_env c) (c_refs c) (c_pc c + zlen bs) (c_line c + 1) (c_total c + zlen bs)
         (write_at (c_file c) (c_pc c) bs).

(** the text of the line kept with a forward reference *)
Definition stripped (line : text) : text :=
  match strip_source_line line with Ret s => s | _ => [] end.

Definition branch_offset (pc dest : Z) : option Z :=
  let d := dest - pc - 2 in
  if (d <? -128) || (127 <? d) then None else Some (Z.land 0xFF d).

Definition tok_pos (toks : list (tok * nat)) (i : nat) : option nat :=
  option_map snd (nth_error toks i).

Definition instr_step (line : text) (toks : list (tok * nat)) (m : Mnemonic)
    (op : option (nat * tok)) (fl : flags) (c : core) : cres :=
  let illegal := CErr "illegal addressing mode" None in
  match op with
  | None =>
    let flag := flag_none m in
    if flag =? 0 then illegal else CNext (c_emit c (code_bytes m flag None))
  | Some (i, TLabel n) =>
    match lookup (c_env c) n with
    | Some v =>
      let flag := flag_known m false (0xFF <? v) fl in
      if flag =? 0 then illegal
      else if is_branch m then
        match branch_offset (c_pc c) v with
        | None => CErr "branch offset too far away" (tok_pos toks i)
        | Some d => CNext (c_emit c (code_bytes m flag (Some d)))
        end
      else CNext (c_emit c (code_bytes m flag (Some v)))
    | None =>
      if is_branch m || is_jump m then
        let flag := flag_forward m fl in
        if flag =? 0 then illegal
        else
          let ref := mkRef n (stripped line) (mkInstr m (get_addr_bitfield m) flag 0)
                           (c_pc c) (c_line c)
                           (if is_branch m then BRANCH_FORWARD_REFERENCE else JUMP_FORWARD_REFERENCE)
                           (match tok_pos toks i with Some p => p | None => O end) in
          let f1 := fputc 0 (fputc 0 (c_file c)) in
          let f2 := if is_branch m then f1 else fputc 0 f1 in
          CNext (c_emit (mkCore (c_env c) (c_refs c ++ [ref]) (c_pc c) (c_line c) (c_total c) f2)
                        (code_bytes m flag (Some 0)))
      else CErr "illegal forward reference" (tok_pos toks i)
    end
  | Some (_, TNumber v) =>
    let flag := flag_known m false (0xFF <? v) fl in
    if flag =? 0 then illegal else CNext (c_emit c (code_bytes m flag (Some v)))
  | Some (_, _) =>
    let flag := flag_known m true false fl in
    if flag =? 0 then illegal else CNext (c_emit c (code_bytes m flag None))
  end.

Definition c_next_line (c : core) : core :=
  mkCore (c_env c) (c_refs c) (c_pc c) (c_line c + 1) (c_total c) (c_file c).

Definition c_define (c : core) (n : text) (v : Z) : core :=
  mkCore ((n, v) :: c_env c) (c_refs c) (c_pc c) (c_line c) (c_total c) (c_file c).

Definition line_step (line : text) (toks : list (tok * nat)) (c : core) : cres :=
  match compile (map fst toks) with
  | inr (base, i) => CErr (if base then "illegal base" else "illegal syntax") (tok_pos toks i)
  | inl CEmpty => CNext (c_next_line c)
  | inl CEnd => CFinish c
  | inl (COrg v) =>
    CNext (c_next_line (mkCore (c_env c) (c_refs c) v (c_line c) (c_total c) (c_file c)))
  | inl (CLabel n) =>
    match lookup (c_env c) n with
    | Some _ => CErr "no redefinition of labels" (tok_pos toks 0)
    | None => CNext (c_next_line (c_define c n (c_pc c)))
    end
  | inl (CConst n i v) =>
    match lookup (c_env c) n with
    | Some _ => CErr "no redefinition of labels" (tok_pos toks i)
    | None => CNext (c_next_line (c_define c n v))
    end
  | inl (CInstr None m op fl) => instr_step line toks m op fl c
  | inl (CInstr (Some n) m op fl) =>
    match lookup (c_env c) n with
    | Some _ => CErr "no redefinition of labels" (tok_pos toks 0)
    | None => instr_step line toks m op fl (c_define c n (c_pc c))
    end
  end.

(** resolving the pending references at the end *)
Inductive fres := FDone (f : OFile) | FErr (message : string) (ref : ForwardRef) (f : OFile).

Fixpoint finish (e : env) (refs : list ForwardRef) (f : OFile) : fres :=
  match refs with
  | [] => FDone f
  | r :: refs' =>
    match lookup e (fr_label r) with
    | None => FErr "label definition was not found" r f
    | Some v =>
      let m := i_mnemonic (fr_instr r) in
      let flag := i_bitflag (fr_instr r) in
      if is_branch m then
        match branch_offset (fr_pc r) v with
        | None => FErr "branch offset too far away" r f
        | Some d => finish e refs' (write_at f (fr_pc r) [opcode_of m flag; d])
        end
      else finish e refs' (write_at f (fr_pc r) [opcode_of m flag; Z.land v 0xFF; Z.shiftr v 8])
    end
  end.

Definition core_init : core := mkCore [] [] 0 1 0 (mkOFile [] 0).
