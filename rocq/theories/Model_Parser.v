(** Model_Parser.v -- model of src/parser.h and src/parser.c.

    The functions take the Lexer struct and return the code, the Lexer struct
    after the call (error_tk and token values may change) and what was printed. *)
From Verif Require Import Base Model_Opcode Model_Error Model_Lexer Model_SymbolTable.

(** src/parser.h:69-74 *)
Definition PARSER_SUCCESS : Z := 1.
(** src/parser.h:70 *)
Definition BRANCH_OPERAND : Z := 2.
(** src/parser.h:71 *)
Definition JUMP_OPERAND : Z := 3.
(** src/parser.h:72 *)
Definition BRANCH_FORWARD_REFERENCE : Z := 4.
(** src/parser.h:73 *)
Definition JUMP_FORWARD_REFERENCE : Z := 5.
(** src/parser.h:74 *)
Definition FORWARD_REFERENCE : Z := 0xFFFF.

(** what the parse functions of src/parser.c return, the Lexer they leave, their output *)
Definition ParseResult : Type := (Z * Lexer * text)%type.

(** src/parser.c:25-27 IS_DIRECTIVE *)
Definition is_directive (t : TokenType) : bool :=
  match t with
  | TOKEN_DEFINE_DIRECTIVE | TOKEN_ORG_DIRECTIVE | TOKEN_END_DIRECTIVE => true
  | _ => false
  end.

(** src/parser.c:29-30 IS_OPERAND *)
Definition is_operand (t : TokenType) : bool :=
  match t with TOKEN_LABEL | TOKEN_LITERAL => true | _ => false end.

(** [seq[index]->type], throughout src/parser.c *)
Definition type_at (lexer : Lexer) (index : Z) : M TokenType :=
  t <- get (lx_seq lexer) index ;; Ret (tk_type t).

(** [seq[index]->value], src/parser.c:213, 249, 340, 354 *)
Definition value_at (lexer : Lexer) (index : Z) : M Z :=
  t <- get (lx_seq lexer) index ;; Ret (tk_value t).

(** [seq[index]->value = v], src/parser.c:213, 249, 325, 340, 354, 387 and
    src/generator.c:123, 126 *)
Definition set_value_at (lexer : Lexer) (index : Z) (v : Z) : M Lexer :=
  t <- get (lx_seq lexer) index ;;
  seq <- put (lx_seq lexer) index (tk_set_value t v) ;;
  Ret (lx_set_seq lexer seq).

(** "lexer->error_tk = lexer->sequence[index]; print_error(..., code,
    lexer->error_tk->buffer_location, ...); return code;", the common end of the
    parse functions (e.g. src/parser.c:76-80) *)
Definition syntax_error (lexer : Lexer) (code : Z) (index : Z) : M ParseResult :=
  t <- get (lx_seq lexer) index ;;
  out <- print_error (lx_line lexer) code (tk_loc t) (lx_file lexer) (lx_line_num lexer) ;;
  Ret (code, lx_set_error_tk lexer index, out).

(** "print_error(lexer->line, code, NULL, ...); return code;", e.g. src/parser.c:360-362 *)
Definition plain_error (lexer : Lexer) (code : Z) : M ParseResult :=
  out <- print_error (lx_line lexer) code None (lx_file lexer) (lx_line_num lexer) ;;
  Ret (code, lexer, out).

(** "return PARSER_SUCCESS;", e.g. src/parser.c:54 *)
Definition accept (lexer : Lexer) : M ParseResult := Ret (PARSER_SUCCESS, lexer, []).

(** src/parser.c:40-81 parse_indirect_operand_tree *)
Definition parse_indirect_operand_tree (lexer : Lexer) (index0 : Z) : M ParseResult :=
  let index := index0 + 1 in
  t <- type_at lexer index ;;
  if ty_eqb t TOKEN_COMMA then
    t1 <- type_at lexer (index + 1) ;;
    if ty_eqb t1 TOKEN_X_REGISTER then
      t2 <- type_at lexer (index + 2) ;;
      if ty_eqb t2 TOKEN_CLOSE_PARENTHESIS then
        t3 <- type_at lexer (index + 3) ;;
        if ty_eqb t3 TOKEN_NULL then accept lexer
        else syntax_error lexer ERROR_ILLEGAL_SEQUENCE (index + 3)
      else syntax_error lexer ERROR_ILLEGAL_SEQUENCE (index + 2)
    else syntax_error lexer ERROR_ILLEGAL_SEQUENCE (index + 1)
  else if ty_eqb t TOKEN_CLOSE_PARENTHESIS then
    t1 <- type_at lexer (index + 1) ;;
    if ty_eqb t1 TOKEN_COMMA then
      t2 <- type_at lexer (index + 2) ;;
      if ty_eqb t2 TOKEN_Y_REGISTER then
        t3 <- type_at lexer (index + 3) ;;
        if ty_eqb t3 TOKEN_NULL then accept lexer
        else syntax_error lexer ERROR_ILLEGAL_SEQUENCE (index + 3)
      else syntax_error lexer ERROR_ILLEGAL_SEQUENCE (index + 2)
    else if ty_eqb t1 TOKEN_NULL then accept lexer
    else syntax_error lexer ERROR_ILLEGAL_SEQUENCE (index + 1)
  else syntax_error lexer ERROR_ILLEGAL_SEQUENCE index.

(** src/parser.c:91-144 parse_instr_tree *)
Definition parse_instr_tree (lexer : Lexer) (index0 : Z) : M ParseResult :=
  let index := index0 + 1 in
  t <- type_at lexer index ;;
  if ty_eqb t TOKEN_OPEN_PARENTHESIS then
    t1 <- type_at lexer (index + 1) ;;
    if is_operand t1 then parse_indirect_operand_tree lexer (index + 1)
    else syntax_error lexer ERROR_ILLEGAL_SEQUENCE (index + 1)
  else if is_operand t then
    t1 <- type_at lexer (index + 1) ;;
    if ty_eqb t1 TOKEN_NULL then accept lexer
    else if ty_eqb t1 TOKEN_COMMA then
      t2 <- type_at lexer (index + 2) ;;
      if ty_eqb t2 TOKEN_X_REGISTER || ty_eqb t2 TOKEN_Y_REGISTER then accept lexer
      else syntax_error lexer ERROR_ILLEGAL_SEQUENCE (index + 2)
    else syntax_error lexer ERROR_ILLEGAL_SEQUENCE (index + 1)
  else if ty_eqb t TOKEN_IMMEDIATE then
    t1 <- type_at lexer (index + 1) ;;
    if is_operand t1 then
      t2 <- type_at lexer (index + 2) ;;
      if ty_eqb t2 TOKEN_NULL then accept lexer
      else syntax_error lexer ERROR_ILLEGAL_SEQUENCE (index + 2)
    else syntax_error lexer ERROR_ILLEGAL_SEQUENCE (index + 1)
  else if ty_eqb t TOKEN_ACCUMULATOR then
    t1 <- type_at lexer (index + 1) ;;
    if ty_eqb t1 TOKEN_NULL then accept lexer
    else syntax_error lexer ERROR_ILLEGAL_SEQUENCE (index + 1)
  else if ty_eqb t TOKEN_NULL then accept lexer
  else syntax_error lexer ERROR_ILLEGAL_SEQUENCE index.

(** src/parser.c:154-183 parse_label_tree *)
Definition parse_label_tree (lexer : Lexer) (index0 : Z) : M ParseResult :=
  let index := index0 + 1 in
  t <- type_at lexer index ;;
  if ty_eqb t TOKEN_EQUAL_SIGN || ty_eqb t TOKEN_EQU_DIRECTIVE then
    t1 <- type_at lexer (index + 1) ;;
    if ty_eqb t1 TOKEN_LITERAL then
      t2 <- type_at lexer (index + 2) ;;
      if ty_eqb t2 TOKEN_NULL then accept lexer
      else syntax_error lexer ERROR_ILLEGAL_SEQUENCE (index + 2)
    else syntax_error lexer ERROR_ILLEGAL_SEQUENCE (index + 1)
  else if ty_eqb t TOKEN_INSTRUCTION then parse_instr_tree lexer index
  else if ty_eqb t TOKEN_NULL then accept lexer
  else syntax_error lexer ERROR_ILLEGAL_SEQUENCE index.

(** src/parser.c:193-228 parse_directive_tree *)
Definition parse_directive_tree (lexer : Lexer) (index : Z) : M ParseResult :=
  t <- type_at lexer index ;;
  if ty_eqb t TOKEN_DEFINE_DIRECTIVE then
    t1 <- type_at lexer (index + 1) ;;
    if ty_eqb t1 TOKEN_LABEL then
      t2 <- type_at lexer (index + 2) ;;
      if ty_eqb t2 TOKEN_LITERAL then
        t3 <- type_at lexer (index + 3) ;;
        if ty_eqb t3 TOKEN_NULL then accept lexer
        else syntax_error lexer ERROR_ILLEGAL_SEQUENCE (index + 3)
      else syntax_error lexer ERROR_ILLEGAL_SEQUENCE (index + 2)
    else syntax_error lexer ERROR_ILLEGAL_SEQUENCE (index + 1)
  else if ty_eqb t TOKEN_ORG_DIRECTIVE then
    t1 <- type_at lexer (index + 1) ;;
    if ty_eqb t1 TOKEN_LITERAL then
      t2 <- type_at lexer (index + 2) ;;
      if ty_eqb t2 TOKEN_NULL then
        (* seq[index-2]->value = seq[index-1]->value *)
        v <- value_at lexer (index + 1) ;;
        lexer1 <- set_value_at lexer index v ;;
        accept lexer1
      else syntax_error lexer ERROR_ILLEGAL_SEQUENCE (index + 2)
    else syntax_error lexer ERROR_ILLEGAL_SEQUENCE (index + 1)
  else if ty_eqb t TOKEN_END_DIRECTIVE then
    t1 <- type_at lexer (index + 1) ;;
    if ty_eqb t1 TOKEN_NULL then accept lexer
    else syntax_error lexer ERROR_ILLEGAL_SEQUENCE (index + 1)
  else syntax_error lexer ERROR_ILLEGAL_SEQUENCE index.

(** src/parser.c:238-260 parse_base_tree *)
Definition parse_base_tree (lexer : Lexer) (index0 : Z) : M ParseResult :=
  let index := index0 + 1 in
  t <- type_at lexer index ;;
  if ty_eqb t TOKEN_EQUAL_SIGN then
    t1 <- type_at lexer (index + 1) ;;
    if ty_eqb t1 TOKEN_LITERAL then
      t2 <- type_at lexer (index + 2) ;;
      if ty_eqb t2 TOKEN_NULL then
        (* seq[index-3]->value = seq[index-1]->value *)
        v <- value_at lexer (index + 1) ;;
        lexer1 <- set_value_at lexer (index - 1) v ;;
        accept lexer1
      else syntax_error lexer ERROR_ILLEGAL_BASE (index + 2)
    else syntax_error lexer ERROR_ILLEGAL_BASE (index + 1)
  else syntax_error lexer ERROR_ILLEGAL_BASE index.

(** src/parser.c:269-290 parse_line *)
Definition parse_line (lexer : Lexer) : M ParseResult :=
  t <- type_at lexer 0 ;;
  if ty_eqb t TOKEN_INSTRUCTION then parse_instr_tree lexer 0
  else if ty_eqb t TOKEN_LABEL then parse_label_tree lexer 0
  else if is_directive t then parse_directive_tree lexer 0
  else if ty_eqb t TOKEN_BASE then parse_base_tree lexer 0
  else if ty_eqb t TOKEN_NULL then accept lexer
  else syntax_error lexer ERROR_ILLEGAL_SEQUENCE 0.

(** "if (found != ERROR_SYMBOL_NOT_FOUND) {redefinition error} else {label->value = v;
    return insert_symbol(symtab, label->str, label->value);}" with [label = seq[index]],
    the three times it is written in parse_label_declaration (src/parser.c:318-327,
    331-342, 347-357).  Storing an [int]
    that is not negative in the [unsigned] value and back does not change it. *)
Definition declare (resize_ok sym_ok : bool) (lexer : Lexer) (symtab : SymbolTable)
    (index : Z) (found : Z) (v : Z) : M (Z * Lexer * SymbolTable * text) :=
  if negb (found =? ERROR_SYMBOL_NOT_FOUND) then
    '(code, lexer1, out) <- syntax_error lexer ERROR_LABEL_REDEFINITION index ;;
    Ret (code, lexer1, symtab, out)
  else
    lexer1 <- set_value_at lexer index v ;;
    label <- get (lx_seq lexer1) index ;;
    '(code, symtab1) <- insert_symbol resize_ok sym_ok symtab (tk_str label) (tk_value label) ;;
    Ret (code, lexer1, symtab1, []).

(** src/parser.c:306-363 parse_label_declaration *)
Definition parse_label_declaration (resize_ok sym_ok : bool) (lexer : Lexer)
    (symtab : SymbolTable) (pc : Z) : M (Z * Lexer * SymbolTable * text) :=
  label <- get (lx_seq lexer) 0 ;;
  define_label <- get (lx_seq lexer) 1 ;;
  found <- search_symbol symtab (tk_str label) ;;
  found_define <- search_symbol symtab (tk_str define_label) ;;
  let t1 := tk_type define_label in
  if ty_eqb t1 TOKEN_NULL || ty_eqb t1 TOKEN_INSTRUCTION then
    declare resize_ok sym_ok lexer symtab 0 found pc
  else if ty_eqb t1 TOKEN_EQUAL_SIGN || ty_eqb t1 TOKEN_EQU_DIRECTIVE then
    v <- value_at lexer 2 ;;
    declare resize_ok sym_ok lexer symtab 0 found v
  else if ty_eqb (tk_type label) TOKEN_DEFINE_DIRECTIVE then
    v <- value_at lexer 2 ;;
    declare resize_ok sym_ok lexer symtab 1 found_define v
  else
    '(code, lexer1, out) <- plain_error lexer ERROR_UNKNOWN ;;
    Ret (code, lexer1, symtab, out).

(** src/parser.c:377-417 parse_label_operand; [operand] is an index in the sequence *)
Definition parse_label_operand (lexer : Lexer) (instr : Instruction) (operand : Z)
    (symtab : SymbolTable) : M ParseResult :=
  tok <- get (lx_seq lexer) operand ;;
  label_value <- search_symbol symtab (tk_str tok) ;;
  let branch := is_branch (i_mnemonic instr) in
  let jump := is_jump (i_mnemonic instr) in
  if negb (label_value =? ERROR_SYMBOL_NOT_FOUND) then
    lexer1 <- set_value_at lexer operand label_value ;;
    if branch then Ret (BRANCH_OPERAND, lexer1, [])
    else if jump then Ret (JUMP_OPERAND, lexer1, [])
    else Ret (PARSER_SUCCESS, lexer1, [])
  else if branch then Ret (BRANCH_FORWARD_REFERENCE, lexer, [])
  else if jump then Ret (JUMP_FORWARD_REFERENCE, lexer, [])
  else syntax_error lexer ERROR_ILLEGAL_FORWARD_REFERENCE operand.

(** src/parser.c:438-456 parse_operand; [None] is the NULL operand *)
Definition parse_operand (lexer : Lexer) (instr : Instruction) (operand : option Z)
    (symtab : SymbolTable) : M ParseResult :=
  match operand with
  | None => Ret (PARSER_SUCCESS, lexer, [])
  | Some i =>
    t <- type_at lexer i ;;
    if ty_eqb t TOKEN_LABEL then parse_label_operand lexer instr i symtab
    else if ty_eqb t TOKEN_LITERAL || ty_eqb t TOKEN_ACCUMULATOR then
      Ret (PARSER_SUCCESS, lexer, [])
    else plain_error lexer ERROR_UNKNOWN
  end.

(** src/parser.c:471-480: the loop of find_operand; reading beyond the sequence is
    [Undef], so the loop makes at most 8 turns *)
Fixpoint find_operand_loop (fuel : nat) (seq : list Token) (curr : TokenType) (i : Z)
  : M (option Z) :=
  match fuel with
  | O => Diverge
  | S fuel' =>
    if ty_eqb curr TOKEN_NULL then Ret None
    else
      t <- get seq i ;;
      if is_operand (tk_type t) || ty_eqb (tk_type t) TOKEN_ACCUMULATOR then Ret (Some i)
      else find_operand_loop fuel' seq (tk_type t) (i + 1)
  end.

(** src/parser.c:466-482 find_operand: the index of the operand token, if any *)
Definition find_operand (lexer : Lexer) : M (option Z) :=
  curr <- type_at lexer 1 ;;
  find_operand_loop 16 (lx_seq lexer) curr 1.

(** whether one of the MAX_TOKENS tokens has type [ty] (src/parser.c:505-517) *)
Definition has_type (ty : TokenType) (seq : list Token) : bool :=
  existsb (fun t => ty_eqb (tk_type t) ty) seq.

(** src/parser.c:496-541 apply_masks *)
Definition apply_masks (lexer : Lexer) (curr_field : Z) : M Z :=
  if Z.of_nat (List.length (lx_seq lexer)) <? MAX_TOKENS then Undef UbIndex
  else
    let seq := firstn (Z.to_nat MAX_TOKENS) (lx_seq lexer) in
    let f1 := if has_type TOKEN_X_REGISTER seq then Z.land curr_field X_REGISTER_FIELD
              else if has_type TOKEN_Y_REGISTER seq then Z.land curr_field Y_REGISTER_FIELD
              else Z.land curr_field NOT_REGISTER_FIELD in
    let f2 := if has_type TOKEN_OPEN_PARENTHESIS seq then Z.land f1 INDIRECT_FIELD
              else Z.land f1 NOT_INDIRECT_FIELD in
    let f3 := if has_type TOKEN_IMMEDIATE seq then Z.land f2 ADDR_MODE_IMMEDIATE
              else Z.land f2 (Z.lnot ADDR_MODE_IMMEDIATE) in
    let f4 := if has_type TOKEN_ACCUMULATOR seq then Z.land f3 ADDR_MODE_ACCUMULATOR
              else Z.land f3 (Z.lnot ADDR_MODE_ACCUMULATOR) in
    Ret f4.

(** "instr->addr_bitflag = flag", src/parser.c:561-567, 609-614, 658 *)
Definition set_bitflag (i : Instruction) (flag : Z) : Instruction :=
  mkInstr (i_mnemonic i) (i_bitfield i) flag (i_opcode i).

(** src/parser.c:555, 596: the code, the Instruction struct after the call, the output
    (the Lexer struct is not changed) *)
Definition ModeResult : Type := (Z * Instruction * text)%type.

(** "if (!instr->addr_bitflag) { print_error(... NULL ...); return
    ERROR_ILLEGAL_ADDRESSING_MODE; } return code;", src/parser.c:570-575, 617-622, 659-664 *)
Definition finish_mode (lexer : Lexer) (instr : Instruction) (code : Z) : M ModeResult :=
  if i_bitflag instr =? 0 then
    '(c, _, out) <- plain_error lexer ERROR_ILLEGAL_ADDRESSING_MODE ;;
    Ret (c, instr, out)
  else Ret (code, instr, []).

(** src/parser.c:555-576 parse_forward_ref_addr_mode *)
Definition parse_forward_ref_addr_mode (lexer : Lexer) (instr : Instruction) : M ModeResult :=
  addr_mode <- apply_masks lexer 0x1FFF ;;
  let instr1 :=
    if is_branch (i_mnemonic instr) then set_bitflag instr (Z.land addr_mode ADDR_MODE_RELATIVE)
    else match i_mnemonic instr with
         | JMP => set_bitflag instr (Z.land addr_mode ABSOLUTE_FIELD)
         | JSR => set_bitflag instr (Z.land addr_mode ADDR_MODE_ABSOLUTE)
         | _ => instr
         end in
  finish_mode lexer instr1 FORWARD_REFERENCE.

(** src/parser.c:596-665 parse_addr_mode *)
Definition parse_addr_mode (lexer : Lexer) (instr : Instruction) (operand : option Z)
    (operand_status : Z) : M ModeResult :=
  if (operand_status =? BRANCH_FORWARD_REFERENCE) || (operand_status =? JUMP_FORWARD_REFERENCE)
  then parse_forward_ref_addr_mode lexer instr
  else
    match operand with
    | None =>
      let instr1 :=
        match i_mnemonic instr with
        | ASL | LSR | ROL | ROR =>
          set_bitflag instr (Z.land (i_bitfield instr) ADDR_MODE_ACCUMULATOR)
        | _ => set_bitflag instr (Z.land (i_bitfield instr) ADDR_MODE_IMPLIED)
        end in
      finish_mode lexer instr1 (i_bitflag instr1)
    | Some i =>
      tok <- get (lx_seq lexer) i ;;
      let m0 :=
        if ty_eqb (tk_type tok) TOKEN_ACCUMULATOR then Z.land 0x1FFF ADDR_MODE_ACCUMULATOR
        else if 0xFF <? tk_value tok then
          if negb (is_branch (i_mnemonic instr)) then ABSOLUTE_FIELD else ZERO_PAGE_FIELD
        else
          if negb (is_jump (i_mnemonic instr)) then ZERO_PAGE_FIELD else ABSOLUTE_FIELD in
      let m1 :=
        if is_branch (i_mnemonic instr) then Z.land m0 ADDR_MODE_RELATIVE
        else Z.land m0 (Z.lnot ADDR_MODE_RELATIVE) in
      m2 <- apply_masks lexer m1 ;;
      let instr1 := set_bitflag instr (Z.land m2 (i_bitfield instr)) in
      finish_mode lexer instr1 (i_bitflag instr1)
    end.
