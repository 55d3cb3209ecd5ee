(** Model_Generator.v -- model of src/generator.c and of the output FILE. *)
From Verif Require Import Base Model_Opcode Model_Error Model_Lexer Model_SymbolTable
  Model_Parser Model_ForwardRef.

(** A FILE opened with "wb": its bytes and the file position.  Write errors are not
    modelled (src/main.c:171; the code does not check them). *)
Record OFile := mkOFile { of_data : list Z; of_pos : Z }.

(** fseek(f, pos, SEEK_SET), pos >= 0 (src/generator.c:39, 166, 179) *)
Definition fseek (f : OFile) (pos : Z) : OFile := mkOFile (of_data f) pos.

(** the effect of a write on the bytes of a file (C library and operating system):
    overwrite or append one byte at index [pos]; a gap is filled with zeros *)
Fixpoint write_byte (data : list Z) (pos : nat) (b : Z) : list Z :=
  match pos, data with
  | O, [] => [b]
  | O, _ :: rest => b :: rest
  | S p, [] => 0 :: write_byte [] p b
  | S p, x :: rest => x :: write_byte rest p b
  end.

(** fputc(c, f) (src/generator.c:40, 53, 55, 167, 168, 180-182; src/main.c:237-240): the int is converted to unsigned char *)
Definition fputc (c : Z) (f : OFile) : OFile :=
  mkOFile (write_byte (of_data f) (Z.to_nat (of_pos f)) (c mod 256)) (of_pos f + 1).

(** src/generator.c:20-22 *)
Definition ONE_BYTE : Z := 1.
(** src/generator.c:21 *)
Definition TWO_BYTES : Z := 2.
(** src/generator.c:22 *)
Definition THREE_BYTES : Z := 3.

(** "instr->opcode = op", src/generator.c:37 *)
Definition set_opcode (i : Instruction) (op : Z) : Instruction :=
  mkInstr (i_mnemonic i) (i_bitfield i) (i_bitflag i) op.

(** src/generator.c:34-59 generate_code *)
Definition generate_code (f : OFile) (instr : Instruction) (operand : option Token)
    (curr_pc : Z) : Z * OFile * Instruction :=
  let instr1 := set_opcode instr (get_opcode instr) in
  let f1 := fputc (i_opcode instr1) (fseek f curr_pc) in
  match operand with
  | None => (ONE_BYTE, f1, instr1)
  | Some t =>
    if ty_eqb (tk_type t) TOKEN_ACCUMULATOR then (ONE_BYTE, f1, instr1)
    else
      let operand_bytes := tk_value t in
      let f2 := fputc (Z.land operand_bytes 0xFF) f1 in
      if negb (Z.land (i_bitflag instr1) ABSOLUTE_FIELD =? 0) then
        (THREE_BYTES, fputc (Z.shiftr operand_bytes 8) f2, instr1)
      else (TWO_BYTES, f2, instr1)
  end.

(** src/generator.c:69-85 calc_branch_offset *)
Definition calc_branch_offset (curr_pc dest_pc : Z) : M Z :=
  d <- int_of (dest_pc - curr_pc) ;;
  offset <- int_of (d - 2) ;;
  if dest_pc <=? curr_pc then
    if offset <? -128 then Ret ERROR_TOO_BIG_OFFSET else Ret (Z.land 0xFF offset)
  else
    if 127 <? offset then Ret ERROR_TOO_BIG_OFFSET else Ret (Z.land 0xFF offset).

(** src/generator.c:102: the code, the file, Lexer and Instruction after the call, the output *)
Definition GenResult : Type := (Z * OFile * Lexer * Instruction * text)%type.

(** src/generator.c:102-132 resolve_label_ref; [label] is the index of the operand
    token, [None] is NULL *)
Definition resolve_label_ref (f : OFile) (lexer : Lexer) (instr : Instruction)
    (label : option Z) (operand_status : Z) (symtab : SymbolTable) (curr_pc : Z)
  : M GenResult :=
  match label with
  | None =>
    '(c, lexer1, out) <- plain_error lexer ERROR_UNKNOWN ;;
    Ret (c, f, lexer1, instr, out)
  | Some i =>
    tok <- get (lx_seq lexer) i ;;
    dest_pc <- search_symbol symtab (tk_str tok) ;;
    if operand_status =? BRANCH_OPERAND then
      offset <- calc_branch_offset curr_pc dest_pc ;;
      if offset =? ERROR_TOO_BIG_OFFSET then
        out <- print_error (lx_line lexer) ERROR_TOO_BIG_OFFSET (tk_loc tok) (lx_file lexer)
                           (lx_line_num lexer) ;;
        Ret (ERROR_TOO_BIG_OFFSET, f, lexer, instr, out)
      else
        lexer1 <- set_value_at lexer i offset ;;
        tok1 <- get (lx_seq lexer1) i ;;
        let '(n, f1, instr1) := generate_code f instr (Some tok1) curr_pc in
        Ret (n, f1, lexer1, instr1, [])
    else if operand_status =? JUMP_OPERAND then
      lexer1 <- set_value_at lexer i dest_pc ;;
      tok1 <- get (lx_seq lexer1) i ;;
      let '(n, f1, instr1) := generate_code f instr (Some tok1) curr_pc in
      Ret (n, f1, lexer1, instr1, [])
    else
      '(c, lexer1, out) <- plain_error lexer ERROR_UNKNOWN ;;
      Ret (c, f, lexer1, instr, out)
  end.

(** src/generator.c:148-194 resolve_forward_ref (the opcode stored in the ForwardRef
    is not read again and is left out of the result) *)
Definition resolve_forward_ref (f : OFile) (ref : ForwardRef) (lexer : Lexer) (dest_pc : Z)
  : M (Z * OFile * text) :=
  let instr := fr_instr ref in
  if fr_operand_status ref =? BRANCH_FORWARD_REFERENCE then
    offset <- calc_branch_offset (fr_pc ref) dest_pc ;;
    if offset =? ERROR_TOO_BIG_OFFSET then
      out <- print_error (Some (fr_source_line ref)) ERROR_TOO_BIG_OFFSET
                         (Some (fr_operand_location ref)) (lx_file lexer) (fr_line_num ref) ;;
      Ret (ERROR_TOO_BIG_OFFSET, f, out)
    else if negb (i_bitflag instr =? 0) then
      let f1 := fputc (get_opcode instr) (fseek f (fr_pc ref)) in
      Ret (TWO_BYTES, fputc (Z.land offset 0xFF) f1, [])
    else
      '(c, _, out) <- plain_error lexer ERROR_ILLEGAL_ADDRESSING_MODE ;;
      Ret (c, f, out)
  else if fr_operand_status ref =? JUMP_FORWARD_REFERENCE then
    if negb (i_bitflag instr =? 0) then
      let f1 := fputc (get_opcode instr) (fseek f (fr_pc ref)) in
      let f2 := fputc (Z.land dest_pc 0xFF) f1 in
      Ret (THREE_BYTES, fputc (Z.shiftr dest_pc 8) f2, [])
    else
      '(c, _, out) <- plain_error lexer ERROR_ILLEGAL_ADDRESSING_MODE ;;
      Ret (c, f, out)
  else
    '(c, _, out) <- plain_error lexer ERROR_UNKNOWN ;;
    Ret (c, f, out).
