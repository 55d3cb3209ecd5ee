(** Check_error.v -- generated by tools/tests.py: the unit tests of /repo/tests/error/test_error.c run on the model.
    These are tests of the model against the expectations of the authors of the program, not
    proofs of properties: 27 assertions in 1 test functions; 4 assertions and statements without
    counterpart in the model are left out (pointers that are not NULL, the int returned by
    token_strcpy, enum values out of range).  Each computation returns the lines of the test file
    whose assertions fail. *)
From Verif Require Import Base Model_Opcode Model_Error Model_Lexer Model_SymbolTable Model_Parser
  Model_ForwardRef Model_Generator Check_Base.

(** test_print_error: 27 assertions *)
Definition test_print_error : M (list Z) :=
  let bad := @nil Z in
  let lexer := init_lexer (C "test_print_error.asm") in
  let tk := init_token in
  let instr := init_instruction in
  let symtab := init_symbol_table in
  let line_num := (1) in
  _ <- print_error None ERROR_MEMORY_ALLOCATION_FAIL None (lx_file lexer) (-1) ;;
  '(res, lexer, tk, instr, _) <- lex_line (C "\tLDA\t$800!!!!!!SDJGHJSDHFSDKVNSFULM\n") lexer tk instr line_num ;;
  let bad := chk 27 (res =? ERROR_ILLEGAL_CHAR) bad in
  let line_num := line_num + 1 in
  '(res, lexer, tk, instr, _) <- lex_line (C "LDX\t%10021010\n") lexer tk instr line_num ;;
  let bad := chk 31 (res =? ERROR_ILLEGAL_CHAR) bad in
  let line_num := line_num + 1 in
  '(res, lexer, tk, instr, _) <- lex_line (C "TEST = $FFFF0001\n") lexer tk instr line_num ;;
  let bad := chk 35 (res =? ERROR_TOO_BIG_LITERAL) bad in
  let line_num := line_num + 1 in
  '(res, lexer, tk, instr, _) <- lex_line (C "\t\tJMP\ta2345678b2345678c2345678d2345678e2345678f2345678g2345678h2345678\n") lexer tk instr line_num ;;
  let bad := chk 40 (res =? ERROR_TOO_LONG_LABEL) bad in
  let line_num := line_num + 1 in
  '(res, lexer, tk, instr, _) <- lex_line (C "LABEL:\t\tADC\t((PLACE,X),Y)\t;lolwtf\n") lexer tk instr line_num ;;
  let bad := chk 44 (res =? ERROR_TOO_MANY_TOKENS) bad in
  '(res, lexer, _) <- parse_line lexer ;;
  let bad := chk 45 (res =? ERROR_ILLEGAL_SEQUENCE) bad in
  let line_num := line_num + 1 in
  _ <- print_error (Some (C "LABEL:\t\tADC\t((PLACE,X),Y)\t;lolwtf\n")) ERROR_UNKNOWN None (lx_file lexer) line_num ;;
  let line_num := line_num + 1 in
  '(res, lexer, tk, instr, _) <- lex_line (C "INC     (LOL,),\n") lexer tk instr line_num ;;
  let bad := chk 53 (res =? LEXER_SUCCESS) bad in
  '(res, lexer, _) <- parse_line lexer ;;
  let bad := chk 54 (res =? ERROR_ILLEGAL_SEQUENCE) bad in
  let line_num := line_num + 1 in
  '(res, lexer, tk, instr, _) <- lex_line (C "SYMBOL = $1234\n") lexer tk instr line_num ;;
  let bad := chk 58 (res =? LEXER_SUCCESS) bad in
  '(res, lexer, _) <- parse_line lexer ;;
  let bad := chk 59 (res =? PARSER_SUCCESS) bad in
  '(res, lexer, symtab, _) <- parse_label_declaration true true lexer symtab (0) ;;
  let bad := chk 60 (res =? SYMBOL_INSERTION_SUCCESS) bad in
  '(res, lexer, tk, instr, _) <- lex_line (C "SYMBOL = $0\n") lexer tk instr line_num ;;
  let bad := chk 62 (res =? LEXER_SUCCESS) bad in
  '(res, lexer, _) <- parse_line lexer ;;
  let bad := chk 63 (res =? PARSER_SUCCESS) bad in
  '(res, lexer, symtab, _) <- parse_label_declaration true true lexer symtab (0) ;;
  let bad := chk 64 (res =? ERROR_LABEL_REDEFINITION) bad in
  let line_num := line_num + 1 in
  '(res, lexer, tk, instr, _) <- lex_line (C "\t\tLOOP:\tADC\t$01\n") lexer tk instr line_num ;;
  let bad := chk 68 (res =? LEXER_SUCCESS) bad in
  '(res, lexer, _) <- parse_line lexer ;;
  let bad := chk 69 (res =? PARSER_SUCCESS) bad in
  '(res, lexer, symtab, _) <- parse_label_declaration true true lexer symtab (0) ;;
  let bad := chk 70 (res =? SYMBOL_INSERTION_SUCCESS) bad in
  '(res, lexer, tk, instr, _) <- lex_line (C "\t\tLOOP:\tJMP\tBYE\n") lexer tk instr line_num ;;
  let bad := chk 72 (res =? LEXER_SUCCESS) bad in
  '(res, lexer, _) <- parse_line lexer ;;
  let bad := chk 73 (res =? PARSER_SUCCESS) bad in
  '(res, lexer, symtab, _) <- parse_label_declaration true true lexer symtab (2) ;;
  let bad := chk 74 (res =? ERROR_LABEL_REDEFINITION) bad in
  let line_num := line_num + 1 in
  '(res, lexer, tk, instr, _) <- lex_line (C "\t\tCPY\tADDRESS\n") lexer tk instr line_num ;;
  let bad := chk 78 (res =? LEXER_SUCCESS) bad in
  '(res, lexer, _) <- parse_line lexer ;;
  let bad := chk 79 (res =? PARSER_SUCCESS) bad in
  res <- find_operand lexer ;;
  '(res, lexer, _) <- parse_operand lexer instr res symtab ;;
  let bad := chk 80 (res =? ERROR_ILLEGAL_FORWARD_REFERENCE) bad in
  let line_num := line_num + 1 in
  '(res, lexer, tk, instr, _) <- lex_line (C "SBC ($ABCD)\n") lexer tk instr line_num ;;
  let bad := chk 84 (res =? LEXER_SUCCESS) bad in
  '(res, lexer, _) <- parse_line lexer ;;
  let bad := chk 85 (res =? PARSER_SUCCESS) bad in
  res <- find_operand lexer ;;
  '(res, lexer, _) <- parse_operand lexer instr res symtab ;;
  let bad := chk 86 (res =? PARSER_SUCCESS) bad in
  res <- find_operand lexer ;;
  '(res, instr, _) <- parse_addr_mode lexer instr res PARSER_SUCCESS ;;
  let bad := chk 88 ((i_bitflag instr) =? (0)) bad in
  let line_num := line_num + 1 in
  _ <- print_error (Some (C "BCC BACK\n")) ERROR_TOO_BIG_OFFSET (Some 4%nat) (lx_file lexer) line_num ;;
  let line_num := line_num + 1 in
  _ <- print_error None ERROR_FILE_OPEN_FAIL None (lx_file lexer) (-1) ;;
  _ <- print_error None ERROR_BINARY_FILE_CREATION_FAIL None (lx_file lexer) (-1) ;;
  Ret (rev bad).
Example test_print_error_passes : test_print_error = Ret [].
Proof. vm_compute. reflexivity. Qed.

