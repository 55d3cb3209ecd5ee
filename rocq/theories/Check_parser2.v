(** Check_parser2.v -- generated by tools/tests.py: the unit tests of /repo/tests/parser/test_parser2.c run on the model.
    These are tests of the model against the expectations of the authors of the program, not
    proofs of properties: 410 assertions in 4 test functions; 15 assertions and statements without
    counterpart in the model are left out (pointers that are not NULL, the int returned by
    token_strcpy, enum values out of range).  Each computation returns the lines of the test file
    whose assertions fail. *)
From Verif Require Import Base Model_Opcode Model_Error Model_Lexer Model_SymbolTable Model_Parser
  Model_ForwardRef Model_Generator Check_Base.

(** test_parse_operand: 180 assertions *)
Definition test_parse_operand : M (list Z) :=
  let bad := @nil Z in
  let lexer := init_lexer (C "test_parse_operand.asm") in
  let tk := init_token in
  let instr := init_instruction in
  let symtab := init_symbol_table in
  let line_num := (1) in
  '(res, lexer, tk, instr, _) <- lex_line (C "ADDRESS\t\t=\t$ABCD\n") lexer tk instr line_num ;;
  let bad := chk 42 (res =? LEXER_SUCCESS) bad in
  '(res, lexer, _) <- parse_line lexer ;;
  let bad := chk 42 (res =? PARSER_SUCCESS) bad in
  let line_num := line_num + 1 in
  '(res, lexer, symtab, _) <- parse_label_declaration true true lexer symtab 0 ;;
  let bad := chk 43 (res =? PARSER_SUCCESS) bad in
  '(res, lexer, tk, instr, _) <- lex_line (C "CONSTANT8\t=\t$7F\n") lexer tk instr line_num ;;
  let bad := chk 44 (res =? LEXER_SUCCESS) bad in
  '(res, lexer, _) <- parse_line lexer ;;
  let bad := chk 44 (res =? PARSER_SUCCESS) bad in
  let line_num := line_num + 1 in
  '(res, lexer, symtab, _) <- parse_label_declaration true true lexer symtab 0 ;;
  let bad := chk 45 (res =? PARSER_SUCCESS) bad in
  '(res, lexer, tk, instr, _) <- lex_line (C "CONSTANT16\t=\t$1111\n") lexer tk instr line_num ;;
  let bad := chk 46 (res =? LEXER_SUCCESS) bad in
  '(res, lexer, _) <- parse_line lexer ;;
  let bad := chk 46 (res =? PARSER_SUCCESS) bad in
  let line_num := line_num + 1 in
  '(res, lexer, symtab, _) <- parse_label_declaration true true lexer symtab 0 ;;
  let bad := chk 47 (res =? PARSER_SUCCESS) bad in
  '(res, lexer, tk, instr, _) <- lex_line (C "\t\tINX\n") lexer tk instr line_num ;;
  let bad := chk 49 (res =? LEXER_SUCCESS) bad in
  '(res, lexer, _) <- parse_line lexer ;;
  let bad := chk 49 (res =? PARSER_SUCCESS) bad in
  let line_num := line_num + 1 in
  res <- find_operand lexer ;;
  let operand := res in
  '(res, lexer, _) <- parse_operand lexer instr operand symtab ;;
  let bad := chk 49 (res =? PARSER_SUCCESS) bad in
  '(res, lexer, tk, instr, _) <- lex_line (C "\t\tROL\tA\n") lexer tk instr line_num ;;
  let bad := chk 50 (res =? LEXER_SUCCESS) bad in
  '(res, lexer, _) <- parse_line lexer ;;
  let bad := chk 50 (res =? PARSER_SUCCESS) bad in
  let line_num := line_num + 1 in
  res <- find_operand lexer ;;
  let operand := res in
  '(res, lexer, _) <- parse_operand lexer instr operand symtab ;;
  let bad := chk 50 (res =? PARSER_SUCCESS) bad in
  '(res, lexer, tk, instr, _) <- lex_line (C "\t\tORA\t$AA\n") lexer tk instr line_num ;;
  let bad := chk 51 (res =? LEXER_SUCCESS) bad in
  '(res, lexer, _) <- parse_line lexer ;;
  let bad := chk 51 (res =? PARSER_SUCCESS) bad in
  let line_num := line_num + 1 in
  res <- find_operand lexer ;;
  let operand := res in
  '(res, lexer, _) <- parse_operand lexer instr operand symtab ;;
  let bad := chk 51 (res =? PARSER_SUCCESS) bad in
  '(res, lexer, tk, instr, _) <- lex_line (C "\t\tASL\tCONSTANT8\n") lexer tk instr line_num ;;
  let bad := chk 52 (res =? LEXER_SUCCESS) bad in
  '(res, lexer, _) <- parse_line lexer ;;
  let bad := chk 52 (res =? PARSER_SUCCESS) bad in
  let line_num := line_num + 1 in
  res <- find_operand lexer ;;
  let operand := res in
  '(res, lexer, _) <- parse_operand lexer instr operand symtab ;;
  let bad := chk 52 (res =? PARSER_SUCCESS) bad in
  '(res, lexer, tk, instr, _) <- lex_line (C "\t\tLDA\t$1234\n") lexer tk instr line_num ;;
  let bad := chk 53 (res =? LEXER_SUCCESS) bad in
  '(res, lexer, _) <- parse_line lexer ;;
  let bad := chk 53 (res =? PARSER_SUCCESS) bad in
  let line_num := line_num + 1 in
  res <- find_operand lexer ;;
  let operand := res in
  '(res, lexer, _) <- parse_operand lexer instr operand symtab ;;
  let bad := chk 53 (res =? PARSER_SUCCESS) bad in
  '(res, lexer, tk, instr, _) <- lex_line (C "\t\tCPY\tADDRESS\n") lexer tk instr line_num ;;
  let bad := chk 54 (res =? LEXER_SUCCESS) bad in
  '(res, lexer, _) <- parse_line lexer ;;
  let bad := chk 54 (res =? PARSER_SUCCESS) bad in
  let line_num := line_num + 1 in
  res <- find_operand lexer ;;
  let operand := res in
  '(res, lexer, _) <- parse_operand lexer instr operand symtab ;;
  let bad := chk 54 (res =? PARSER_SUCCESS) bad in
  '(res, lexer, tk, instr, _) <- lex_line (C "\t\tSBC\t$BB,X\n") lexer tk instr line_num ;;
  let bad := chk 55 (res =? LEXER_SUCCESS) bad in
  '(res, lexer, _) <- parse_line lexer ;;
  let bad := chk 55 (res =? PARSER_SUCCESS) bad in
  let line_num := line_num + 1 in
  res <- find_operand lexer ;;
  let operand := res in
  '(res, lexer, _) <- parse_operand lexer instr operand symtab ;;
  let bad := chk 55 (res =? PARSER_SUCCESS) bad in
  '(res, lexer, tk, instr, _) <- lex_line (C "\t\tROR\tCONSTANT8,X\n") lexer tk instr line_num ;;
  let bad := chk 56 (res =? LEXER_SUCCESS) bad in
  '(res, lexer, _) <- parse_line lexer ;;
  let bad := chk 56 (res =? PARSER_SUCCESS) bad in
  let line_num := line_num + 1 in
  res <- find_operand lexer ;;
  let operand := res in
  '(res, lexer, _) <- parse_operand lexer instr operand symtab ;;
  let bad := chk 56 (res =? PARSER_SUCCESS) bad in
  '(res, lexer, tk, instr, _) <- lex_line (C "\t\tINC\t$1000,X\n") lexer tk instr line_num ;;
  let bad := chk 57 (res =? LEXER_SUCCESS) bad in
  '(res, lexer, _) <- parse_line lexer ;;
  let bad := chk 57 (res =? PARSER_SUCCESS) bad in
  let line_num := line_num + 1 in
  res <- find_operand lexer ;;
  let operand := res in
  '(res, lexer, _) <- parse_operand lexer instr operand symtab ;;
  let bad := chk 57 (res =? PARSER_SUCCESS) bad in
  '(res, lexer, tk, instr, _) <- lex_line (C "\t\tCMP\tCONSTANT16,X\n") lexer tk instr line_num ;;
  let bad := chk 58 (res =? LEXER_SUCCESS) bad in
  '(res, lexer, _) <- parse_line lexer ;;
  let bad := chk 58 (res =? PARSER_SUCCESS) bad in
  let line_num := line_num + 1 in
  res <- find_operand lexer ;;
  let operand := res in
  '(res, lexer, _) <- parse_operand lexer instr operand symtab ;;
  let bad := chk 58 (res =? PARSER_SUCCESS) bad in
  '(res, lexer, tk, instr, _) <- lex_line (C "\t\tSTX\t$CC,Y\n") lexer tk instr line_num ;;
  let bad := chk 59 (res =? LEXER_SUCCESS) bad in
  '(res, lexer, _) <- parse_line lexer ;;
  let bad := chk 59 (res =? PARSER_SUCCESS) bad in
  let line_num := line_num + 1 in
  res <- find_operand lexer ;;
  let operand := res in
  '(res, lexer, _) <- parse_operand lexer instr operand symtab ;;
  let bad := chk 59 (res =? PARSER_SUCCESS) bad in
  '(res, lexer, tk, instr, _) <- lex_line (C "\t\tLDX\tCONSTANT8,Y\n") lexer tk instr line_num ;;
  let bad := chk 60 (res =? LEXER_SUCCESS) bad in
  '(res, lexer, _) <- parse_line lexer ;;
  let bad := chk 60 (res =? PARSER_SUCCESS) bad in
  let line_num := line_num + 1 in
  res <- find_operand lexer ;;
  let operand := res in
  '(res, lexer, _) <- parse_operand lexer instr operand symtab ;;
  let bad := chk 60 (res =? PARSER_SUCCESS) bad in
  '(res, lexer, tk, instr, _) <- lex_line (C "\t\tSTA\t$DEAD,Y\n") lexer tk instr line_num ;;
  let bad := chk 61 (res =? LEXER_SUCCESS) bad in
  '(res, lexer, _) <- parse_line lexer ;;
  let bad := chk 61 (res =? PARSER_SUCCESS) bad in
  let line_num := line_num + 1 in
  res <- find_operand lexer ;;
  let operand := res in
  '(res, lexer, _) <- parse_operand lexer instr operand symtab ;;
  let bad := chk 61 (res =? PARSER_SUCCESS) bad in
  '(res, lexer, tk, instr, _) <- lex_line (C "\t\tAND\tADDRESS,Y\n") lexer tk instr line_num ;;
  let bad := chk 62 (res =? LEXER_SUCCESS) bad in
  '(res, lexer, _) <- parse_line lexer ;;
  let bad := chk 62 (res =? PARSER_SUCCESS) bad in
  let line_num := line_num + 1 in
  res <- find_operand lexer ;;
  let operand := res in
  '(res, lexer, _) <- parse_operand lexer instr operand symtab ;;
  let bad := chk 62 (res =? PARSER_SUCCESS) bad in
  '(res, lexer, tk, instr, _) <- lex_line (C "\t\tJMP\t($FACE)\n") lexer tk instr line_num ;;
  let bad := chk 63 (res =? LEXER_SUCCESS) bad in
  '(res, lexer, _) <- parse_line lexer ;;
  let bad := chk 63 (res =? PARSER_SUCCESS) bad in
  let line_num := line_num + 1 in
  res <- find_operand lexer ;;
  let operand := res in
  '(res, lexer, _) <- parse_operand lexer instr operand symtab ;;
  let bad := chk 63 (res =? PARSER_SUCCESS) bad in
  '(res, lexer, tk, instr, _) <- lex_line (C "\t\tJMP\t(ADDRESS)\n") lexer tk instr line_num ;;
  let bad := chk 64 (res =? LEXER_SUCCESS) bad in
  '(res, lexer, _) <- parse_line lexer ;;
  let bad := chk 64 (res =? PARSER_SUCCESS) bad in
  let line_num := line_num + 1 in
  res <- find_operand lexer ;;
  let operand := res in
  '(res, lexer, _) <- parse_operand lexer instr operand symtab ;;
  let bad := chk 64 (res =? JUMP_OPERAND) bad in
  '(res, lexer, tk, instr, _) <- lex_line (C "\t\tEOR\t#$DD\n") lexer tk instr line_num ;;
  let bad := chk 65 (res =? LEXER_SUCCESS) bad in
  '(res, lexer, _) <- parse_line lexer ;;
  let bad := chk 65 (res =? PARSER_SUCCESS) bad in
  let line_num := line_num + 1 in
  res <- find_operand lexer ;;
  let operand := res in
  '(res, lexer, _) <- parse_operand lexer instr operand symtab ;;
  let bad := chk 65 (res =? PARSER_SUCCESS) bad in
  '(res, lexer, tk, instr, _) <- lex_line (C "\t\tLDY\t#CONSTANT8\n") lexer tk instr line_num ;;
  let bad := chk 66 (res =? LEXER_SUCCESS) bad in
  '(res, lexer, _) <- parse_line lexer ;;
  let bad := chk 66 (res =? PARSER_SUCCESS) bad in
  let line_num := line_num + 1 in
  res <- find_operand lexer ;;
  let operand := res in
  '(res, lexer, _) <- parse_operand lexer instr operand symtab ;;
  let bad := chk 66 (res =? PARSER_SUCCESS) bad in
  '(res, lexer, tk, instr, _) <- lex_line (C "\t\tADC\t($EE,X)\n") lexer tk instr line_num ;;
  let bad := chk 67 (res =? LEXER_SUCCESS) bad in
  '(res, lexer, _) <- parse_line lexer ;;
  let bad := chk 67 (res =? PARSER_SUCCESS) bad in
  let line_num := line_num + 1 in
  res <- find_operand lexer ;;
  let operand := res in
  '(res, lexer, _) <- parse_operand lexer instr operand symtab ;;
  let bad := chk 67 (res =? PARSER_SUCCESS) bad in
  '(res, lexer, tk, instr, _) <- lex_line (C "\t\tLDA\t(CONSTANT8,X)\n") lexer tk instr line_num ;;
  let bad := chk 68 (res =? LEXER_SUCCESS) bad in
  '(res, lexer, _) <- parse_line lexer ;;
  let bad := chk 68 (res =? PARSER_SUCCESS) bad in
  let line_num := line_num + 1 in
  res <- find_operand lexer ;;
  let operand := res in
  '(res, lexer, _) <- parse_operand lexer instr operand symtab ;;
  let bad := chk 68 (res =? PARSER_SUCCESS) bad in
  '(res, lexer, tk, instr, _) <- lex_line (C "\t\tSTA\t($FF),Y\n") lexer tk instr line_num ;;
  let bad := chk 69 (res =? LEXER_SUCCESS) bad in
  '(res, lexer, _) <- parse_line lexer ;;
  let bad := chk 69 (res =? PARSER_SUCCESS) bad in
  let line_num := line_num + 1 in
  res <- find_operand lexer ;;
  let operand := res in
  '(res, lexer, _) <- parse_operand lexer instr operand symtab ;;
  let bad := chk 69 (res =? PARSER_SUCCESS) bad in
  '(res, lexer, tk, instr, _) <- lex_line (C "\t\tSBC\t(CONSTANT8),Y\n") lexer tk instr line_num ;;
  let bad := chk 70 (res =? LEXER_SUCCESS) bad in
  '(res, lexer, _) <- parse_line lexer ;;
  let bad := chk 70 (res =? PARSER_SUCCESS) bad in
  let line_num := line_num + 1 in
  res <- find_operand lexer ;;
  let operand := res in
  '(res, lexer, _) <- parse_operand lexer instr operand symtab ;;
  let bad := chk 70 (res =? PARSER_SUCCESS) bad in
  '(res, lexer, tk, instr, _) <- lex_line (C "L1\t\tDEY\n") lexer tk instr line_num ;;
  let bad := chk 71 (res =? LEXER_SUCCESS) bad in
  '(res, lexer, _) <- parse_line lexer ;;
  let bad := chk 71 (res =? PARSER_SUCCESS) bad in
  let line_num := line_num + 1 in
  res <- find_operand lexer ;;
  let operand := res in
  '(res, lexer, _) <- parse_operand lexer instr operand symtab ;;
  let bad := chk 71 (res =? PARSER_SUCCESS) bad in
  '(res, lexer, tk, instr, _) <- lex_line (C "L2\t\tASL\tA\n") lexer tk instr line_num ;;
  let bad := chk 72 (res =? LEXER_SUCCESS) bad in
  '(res, lexer, _) <- parse_line lexer ;;
  let bad := chk 72 (res =? PARSER_SUCCESS) bad in
  let line_num := line_num + 1 in
  res <- find_operand lexer ;;
  let operand := res in
  '(res, lexer, _) <- parse_operand lexer instr operand symtab ;;
  let bad := chk 72 (res =? PARSER_SUCCESS) bad in
  '(res, lexer, tk, instr, _) <- lex_line (C "L3:\t\tSTY\t$AA\n") lexer tk instr line_num ;;
  let bad := chk 73 (res =? LEXER_SUCCESS) bad in
  '(res, lexer, _) <- parse_line lexer ;;
  let bad := chk 73 (res =? PARSER_SUCCESS) bad in
  let line_num := line_num + 1 in
  res <- find_operand lexer ;;
  let operand := res in
  '(res, lexer, _) <- parse_operand lexer instr operand symtab ;;
  let bad := chk 73 (res =? PARSER_SUCCESS) bad in
  '(res, lexer, tk, instr, _) <- lex_line (C "L4\t\tROL\tCONSTANT8\n") lexer tk instr line_num ;;
  let bad := chk 74 (res =? LEXER_SUCCESS) bad in
  '(res, lexer, _) <- parse_line lexer ;;
  let bad := chk 74 (res =? PARSER_SUCCESS) bad in
  let line_num := line_num + 1 in
  res <- find_operand lexer ;;
  let operand := res in
  '(res, lexer, _) <- parse_operand lexer instr operand symtab ;;
  let bad := chk 74 (res =? PARSER_SUCCESS) bad in
  '(res, lexer, tk, instr, _) <- lex_line (C "L5:\t\tLSR\t$1234\n") lexer tk instr line_num ;;
  let bad := chk 75 (res =? LEXER_SUCCESS) bad in
  '(res, lexer, _) <- parse_line lexer ;;
  let bad := chk 75 (res =? PARSER_SUCCESS) bad in
  let line_num := line_num + 1 in
  res <- find_operand lexer ;;
  let operand := res in
  '(res, lexer, _) <- parse_operand lexer instr operand symtab ;;
  let bad := chk 75 (res =? PARSER_SUCCESS) bad in
  '(res, lexer, tk, instr, _) <- lex_line (C "L6\t\tROR\tADDRESS\n") lexer tk instr line_num ;;
  let bad := chk 76 (res =? LEXER_SUCCESS) bad in
  '(res, lexer, _) <- parse_line lexer ;;
  let bad := chk 76 (res =? PARSER_SUCCESS) bad in
  let line_num := line_num + 1 in
  res <- find_operand lexer ;;
  let operand := res in
  '(res, lexer, _) <- parse_operand lexer instr operand symtab ;;
  let bad := chk 76 (res =? PARSER_SUCCESS) bad in
  '(res, lexer, tk, instr, _) <- lex_line (C "L7:\t\tLDY\t$BB,X\n") lexer tk instr line_num ;;
  let bad := chk 77 (res =? LEXER_SUCCESS) bad in
  '(res, lexer, _) <- parse_line lexer ;;
  let bad := chk 77 (res =? PARSER_SUCCESS) bad in
  let line_num := line_num + 1 in
  res <- find_operand lexer ;;
  let operand := res in
  '(res, lexer, _) <- parse_operand lexer instr operand symtab ;;
  let bad := chk 77 (res =? PARSER_SUCCESS) bad in
  '(res, lexer, tk, instr, _) <- lex_line (C "L8\t\tDEC\tCONSTANT8,X\n") lexer tk instr line_num ;;
  let bad := chk 78 (res =? LEXER_SUCCESS) bad in
  '(res, lexer, _) <- parse_line lexer ;;
  let bad := chk 78 (res =? PARSER_SUCCESS) bad in
  let line_num := line_num + 1 in
  res <- find_operand lexer ;;
  let operand := res in
  '(res, lexer, _) <- parse_operand lexer instr operand symtab ;;
  let bad := chk 78 (res =? PARSER_SUCCESS) bad in
  '(res, lexer, tk, instr, _) <- lex_line (C "L9:\t\tINC\t$1000,X\n") lexer tk instr line_num ;;
  let bad := chk 79 (res =? LEXER_SUCCESS) bad in
  '(res, lexer, _) <- parse_line lexer ;;
  let bad := chk 79 (res =? PARSER_SUCCESS) bad in
  let line_num := line_num + 1 in
  res <- find_operand lexer ;;
  let operand := res in
  '(res, lexer, _) <- parse_operand lexer instr operand symtab ;;
  let bad := chk 79 (res =? PARSER_SUCCESS) bad in
  '(res, lexer, tk, instr, _) <- lex_line (C "L10\t\tCMP\tCONSTANT16,X\n") lexer tk instr line_num ;;
  let bad := chk 80 (res =? LEXER_SUCCESS) bad in
  '(res, lexer, _) <- parse_line lexer ;;
  let bad := chk 80 (res =? PARSER_SUCCESS) bad in
  let line_num := line_num + 1 in
  res <- find_operand lexer ;;
  let operand := res in
  '(res, lexer, _) <- parse_operand lexer instr operand symtab ;;
  let bad := chk 80 (res =? PARSER_SUCCESS) bad in
  '(res, lexer, tk, instr, _) <- lex_line (C "L11:\t\tSTX\t$CC,Y\n") lexer tk instr line_num ;;
  let bad := chk 81 (res =? LEXER_SUCCESS) bad in
  '(res, lexer, _) <- parse_line lexer ;;
  let bad := chk 81 (res =? PARSER_SUCCESS) bad in
  let line_num := line_num + 1 in
  res <- find_operand lexer ;;
  let operand := res in
  '(res, lexer, _) <- parse_operand lexer instr operand symtab ;;
  let bad := chk 81 (res =? PARSER_SUCCESS) bad in
  '(res, lexer, tk, instr, _) <- lex_line (C "L12\t\tLDX\tCONSTANT8,Y\n") lexer tk instr line_num ;;
  let bad := chk 82 (res =? LEXER_SUCCESS) bad in
  '(res, lexer, _) <- parse_line lexer ;;
  let bad := chk 82 (res =? PARSER_SUCCESS) bad in
  let line_num := line_num + 1 in
  res <- find_operand lexer ;;
  let operand := res in
  '(res, lexer, _) <- parse_operand lexer instr operand symtab ;;
  let bad := chk 82 (res =? PARSER_SUCCESS) bad in
  '(res, lexer, tk, instr, _) <- lex_line (C "L13:\t\tSTA\t$B00B,Y\n") lexer tk instr line_num ;;
  let bad := chk 83 (res =? LEXER_SUCCESS) bad in
  '(res, lexer, _) <- parse_line lexer ;;
  let bad := chk 83 (res =? PARSER_SUCCESS) bad in
  let line_num := line_num + 1 in
  res <- find_operand lexer ;;
  let operand := res in
  '(res, lexer, _) <- parse_operand lexer instr operand symtab ;;
  let bad := chk 83 (res =? PARSER_SUCCESS) bad in
  '(res, lexer, tk, instr, _) <- lex_line (C "L14\t\tAND\tADDRESS,Y\n") lexer tk instr line_num ;;
  let bad := chk 84 (res =? LEXER_SUCCESS) bad in
  '(res, lexer, _) <- parse_line lexer ;;
  let bad := chk 84 (res =? PARSER_SUCCESS) bad in
  let line_num := line_num + 1 in
  res <- find_operand lexer ;;
  let operand := res in
  '(res, lexer, _) <- parse_operand lexer instr operand symtab ;;
  let bad := chk 84 (res =? PARSER_SUCCESS) bad in
  '(res, lexer, tk, instr, _) <- lex_line (C "L15:\t\tJMP\t($CAFE)\n") lexer tk instr line_num ;;
  let bad := chk 85 (res =? LEXER_SUCCESS) bad in
  '(res, lexer, _) <- parse_line lexer ;;
  let bad := chk 85 (res =? PARSER_SUCCESS) bad in
  let line_num := line_num + 1 in
  res <- find_operand lexer ;;
  let operand := res in
  '(res, lexer, _) <- parse_operand lexer instr operand symtab ;;
  let bad := chk 85 (res =? PARSER_SUCCESS) bad in
  '(res, lexer, tk, instr, _) <- lex_line (C "L16\t\tJMP\t(CONSTANT16)\n") lexer tk instr line_num ;;
  let bad := chk 86 (res =? LEXER_SUCCESS) bad in
  '(res, lexer, _) <- parse_line lexer ;;
  let bad := chk 86 (res =? PARSER_SUCCESS) bad in
  let line_num := line_num + 1 in
  res <- find_operand lexer ;;
  let operand := res in
  '(res, lexer, _) <- parse_operand lexer instr operand symtab ;;
  let bad := chk 86 (res =? JUMP_OPERAND) bad in
  '(res, lexer, tk, instr, _) <- lex_line (C "L17:\t\tCPX\t#$DD\n") lexer tk instr line_num ;;
  let bad := chk 87 (res =? LEXER_SUCCESS) bad in
  '(res, lexer, _) <- parse_line lexer ;;
  let bad := chk 87 (res =? PARSER_SUCCESS) bad in
  let line_num := line_num + 1 in
  res <- find_operand lexer ;;
  let operand := res in
  '(res, lexer, _) <- parse_operand lexer instr operand symtab ;;
  let bad := chk 87 (res =? PARSER_SUCCESS) bad in
  '(res, lexer, tk, instr, _) <- lex_line (C "L18\t\tLDY\t#CONSTANT8\n") lexer tk instr line_num ;;
  let bad := chk 88 (res =? LEXER_SUCCESS) bad in
  '(res, lexer, _) <- parse_line lexer ;;
  let bad := chk 88 (res =? PARSER_SUCCESS) bad in
  let line_num := line_num + 1 in
  res <- find_operand lexer ;;
  let operand := res in
  '(res, lexer, _) <- parse_operand lexer instr operand symtab ;;
  let bad := chk 88 (res =? PARSER_SUCCESS) bad in
  '(res, lexer, tk, instr, _) <- lex_line (C "L19:\t\tADC\t($EE,X)\n") lexer tk instr line_num ;;
  let bad := chk 89 (res =? LEXER_SUCCESS) bad in
  '(res, lexer, _) <- parse_line lexer ;;
  let bad := chk 89 (res =? PARSER_SUCCESS) bad in
  let line_num := line_num + 1 in
  res <- find_operand lexer ;;
  let operand := res in
  '(res, lexer, _) <- parse_operand lexer instr operand symtab ;;
  let bad := chk 89 (res =? PARSER_SUCCESS) bad in
  '(res, lexer, tk, instr, _) <- lex_line (C "L20\t\tLDA\t(CONSTANT8,X)\n") lexer tk instr line_num ;;
  let bad := chk 90 (res =? LEXER_SUCCESS) bad in
  '(res, lexer, _) <- parse_line lexer ;;
  let bad := chk 90 (res =? PARSER_SUCCESS) bad in
  let line_num := line_num + 1 in
  res <- find_operand lexer ;;
  let operand := res in
  '(res, lexer, _) <- parse_operand lexer instr operand symtab ;;
  let bad := chk 90 (res =? PARSER_SUCCESS) bad in
  '(res, lexer, tk, instr, _) <- lex_line (C "L21:\t\tSTA\t($FF),Y\n") lexer tk instr line_num ;;
  let bad := chk 91 (res =? LEXER_SUCCESS) bad in
  '(res, lexer, _) <- parse_line lexer ;;
  let bad := chk 91 (res =? PARSER_SUCCESS) bad in
  let line_num := line_num + 1 in
  res <- find_operand lexer ;;
  let operand := res in
  '(res, lexer, _) <- parse_operand lexer instr operand symtab ;;
  let bad := chk 91 (res =? PARSER_SUCCESS) bad in
  '(res, lexer, tk, instr, _) <- lex_line (C "L22\t\tSBC\t(CONSTANT8),Y\n") lexer tk instr line_num ;;
  let bad := chk 92 (res =? LEXER_SUCCESS) bad in
  '(res, lexer, _) <- parse_line lexer ;;
  let bad := chk 92 (res =? PARSER_SUCCESS) bad in
  let line_num := line_num + 1 in
  res <- find_operand lexer ;;
  let operand := res in
  '(res, lexer, _) <- parse_operand lexer instr operand symtab ;;
  let bad := chk 92 (res =? PARSER_SUCCESS) bad in
  let symtab := init_symbol_table in
  '(res, lexer, tk, instr, _) <- lex_line (C "LABEL1:\n") lexer tk instr line_num ;;
  let bad := chk 101 (res =? LEXER_SUCCESS) bad in
  '(res, lexer, _) <- parse_line lexer ;;
  let bad := chk 101 (res =? PARSER_SUCCESS) bad in
  let line_num := line_num + 1 in
  res <- find_operand lexer ;;
  let operand := res in
  '(res, lexer, _) <- parse_operand lexer instr operand symtab ;;
  let bad := chk 101 (res =? PARSER_SUCCESS) bad in
  '(res, lexer, symtab, _) <- parse_label_declaration true true lexer symtab (0) ;;
  let bad := chk 102 (res =? SYMBOL_INSERTION_SUCCESS) bad in
  let bad := chk 103 (mn_eqb (i_mnemonic instr) NULL_MNEMONIC) bad in
  '(res, lexer, tk, instr, _) <- lex_line (C "\t\tINX\n") lexer tk instr line_num ;;
  let bad := chk 105 (res =? LEXER_SUCCESS) bad in
  '(res, lexer, _) <- parse_line lexer ;;
  let bad := chk 105 (res =? PARSER_SUCCESS) bad in
  let line_num := line_num + 1 in
  res <- find_operand lexer ;;
  let operand := res in
  '(res, lexer, _) <- parse_operand lexer instr operand symtab ;;
  let bad := chk 105 (res =? PARSER_SUCCESS) bad in
  '(res, lexer, tk, instr, _) <- lex_line (C "RANDOM_LABEL\t\tDEY\n") lexer tk instr line_num ;;
  let bad := chk 108 (res =? LEXER_SUCCESS) bad in
  '(res, lexer, _) <- parse_line lexer ;;
  let bad := chk 108 (res =? PARSER_SUCCESS) bad in
  let line_num := line_num + 1 in
  res <- find_operand lexer ;;
  let operand := res in
  '(res, lexer, _) <- parse_operand lexer instr operand symtab ;;
  let bad := chk 108 (res =? PARSER_SUCCESS) bad in
  '(res, lexer, tk, instr, _) <- lex_line (C "\t\tBMI\tLABEL1\n") lexer tk instr line_num ;;
  let bad := chk 110 (res =? LEXER_SUCCESS) bad in
  '(res, lexer, _) <- parse_line lexer ;;
  let bad := chk 110 (res =? PARSER_SUCCESS) bad in
  let line_num := line_num + 1 in
  res <- find_operand lexer ;;
  let operand := res in
  '(res, lexer, _) <- parse_operand lexer instr operand symtab ;;
  let bad := chk 110 (res =? BRANCH_OPERAND) bad in
  '(res, lexer, tk, instr, _) <- lex_line (C "\t\tBVS\tL1\n") lexer tk instr line_num ;;
  let bad := chk 111 (res =? LEXER_SUCCESS) bad in
  '(res, lexer, _) <- parse_line lexer ;;
  let bad := chk 111 (res =? PARSER_SUCCESS) bad in
  let line_num := line_num + 1 in
  res <- find_operand lexer ;;
  let operand := res in
  '(res, lexer, _) <- parse_operand lexer instr operand symtab ;;
  let bad := chk 111 (res =? BRANCH_FORWARD_REFERENCE) bad in
  '(res, lexer, tk, instr, _) <- lex_line (C "\t\tJMP\tLABEL1\n") lexer tk instr line_num ;;
  let bad := chk 112 (res =? LEXER_SUCCESS) bad in
  '(res, lexer, _) <- parse_line lexer ;;
  let bad := chk 112 (res =? PARSER_SUCCESS) bad in
  let line_num := line_num + 1 in
  res <- find_operand lexer ;;
  let operand := res in
  '(res, lexer, _) <- parse_operand lexer instr operand symtab ;;
  let bad := chk 112 (res =? JUMP_OPERAND) bad in
  '(res, lexer, tk, instr, _) <- lex_line (C "\t\tJSR\tL3\n") lexer tk instr line_num ;;
  let bad := chk 113 (res =? LEXER_SUCCESS) bad in
  '(res, lexer, _) <- parse_line lexer ;;
  let bad := chk 113 (res =? PARSER_SUCCESS) bad in
  let line_num := line_num + 1 in
  res <- find_operand lexer ;;
  let operand := res in
  '(res, lexer, _) <- parse_operand lexer instr operand symtab ;;
  let bad := chk 113 (res =? JUMP_FORWARD_REFERENCE) bad in
  '(res, lexer, tk, instr, _) <- lex_line (C "LABEL2\t\tBCC\tLABEL1\n") lexer tk instr line_num ;;
  let bad := chk 115 (res =? LEXER_SUCCESS) bad in
  '(res, lexer, _) <- parse_line lexer ;;
  let bad := chk 115 (res =? PARSER_SUCCESS) bad in
  let line_num := line_num + 1 in
  '(res, lexer, symtab, _) <- parse_label_declaration true true lexer symtab (0) ;;
  let bad := chk 118 (res =? SYMBOL_INSERTION_SUCCESS) bad in
  res <- find_operand lexer ;;
  let operand := res in
  '(res, lexer, _) <- parse_operand lexer instr operand symtab ;;
  let bad := chk 120 (res =? BRANCH_OPERAND) bad in
  '(res, lexer, tk, instr, _) <- lex_line (C "FORREF1\t\tBVC\tL19\n") lexer tk instr line_num ;;
  let bad := chk 122 (res =? LEXER_SUCCESS) bad in
  '(res, lexer, _) <- parse_line lexer ;;
  let bad := chk 122 (res =? PARSER_SUCCESS) bad in
  let line_num := line_num + 1 in
  '(res, lexer, symtab, _) <- parse_label_declaration true true lexer symtab (0) ;;
  let bad := chk 123 (res =? SYMBOL_INSERTION_SUCCESS) bad in
  res <- find_operand lexer ;;
  let operand := res in
  '(res, lexer, _) <- parse_operand lexer instr operand symtab ;;
  let bad := chk 125 (res =? BRANCH_FORWARD_REFERENCE) bad in
  '(res, lexer, tk, instr, _) <- lex_line (C "LABEL3\t\tJSR\tLABEL2\n") lexer tk instr line_num ;;
  let bad := chk 127 (res =? LEXER_SUCCESS) bad in
  '(res, lexer, _) <- parse_line lexer ;;
  let bad := chk 127 (res =? PARSER_SUCCESS) bad in
  let line_num := line_num + 1 in
  '(res, lexer, symtab, _) <- parse_label_declaration true true lexer symtab (0) ;;
  let bad := chk 128 (res =? SYMBOL_INSERTION_SUCCESS) bad in
  res <- find_operand lexer ;;
  let operand := res in
  '(res, lexer, _) <- parse_operand lexer instr operand symtab ;;
  let bad := chk 130 (res =? JUMP_OPERAND) bad in
  '(res, lexer, tk, instr, _) <- lex_line (C "FORREF2\t\tJMP\tL21\n") lexer tk instr line_num ;;
  let bad := chk 132 (res =? LEXER_SUCCESS) bad in
  '(res, lexer, _) <- parse_line lexer ;;
  let bad := chk 132 (res =? PARSER_SUCCESS) bad in
  let line_num := line_num + 1 in
  '(res, lexer, symtab, _) <- parse_label_declaration true true lexer symtab (0) ;;
  let bad := chk 133 (res =? SYMBOL_INSERTION_SUCCESS) bad in
  res <- find_operand lexer ;;
  let operand := res in
  '(res, lexer, _) <- parse_operand lexer instr operand symtab ;;
  let bad := chk 135 (res =? JUMP_FORWARD_REFERENCE) bad in
  Ret (rev bad).
Example test_parse_operand_passes : test_parse_operand = Ret [].
Proof. vm_compute. reflexivity. Qed.

(** test_apply_masks: 44 assertions *)
Definition test_apply_masks : M (list Z) :=
  let bad := @nil Z in
  let lexer := init_lexer (C "test_apply_masks.asm") in
  let tk := init_token in
  let instr := init_instruction in
  let expected := (0) in
  let line_num := (1) in
  let expected := (Z.land (Z.land (Z.land NOT_REGISTER_FIELD NOT_INDIRECT_FIELD) (Z.lnot ADDR_MODE_IMMEDIATE)) (Z.lnot ADDR_MODE_ACCUMULATOR)) in
  '(res, lexer, tk, instr, _) <- lex_line (C "\t\tINX\n") lexer tk instr line_num ;;
  let bad := chk 162 (res =? LEXER_SUCCESS) bad in
  res <- apply_masks lexer 8191 ;;
  let bad := chk 162 (res =? expected) bad in
  let line_num := line_num + 1 in
  '(res, lexer, tk, instr, _) <- lex_line (C "\t\tROL\tA\n") lexer tk instr line_num ;;
  let bad := chk 163 (res =? LEXER_SUCCESS) bad in
  res <- apply_masks lexer 8191 ;;
  let bad := chk 163 (res =? ADDR_MODE_ACCUMULATOR) bad in
  let line_num := line_num + 1 in
  '(res, lexer, tk, instr, _) <- lex_line (C "\t\tORA\t$AA\n") lexer tk instr line_num ;;
  let bad := chk 164 (res =? LEXER_SUCCESS) bad in
  res <- apply_masks lexer 8191 ;;
  let bad := chk 164 (res =? expected) bad in
  let line_num := line_num + 1 in
  '(res, lexer, tk, instr, _) <- lex_line (C "\t\tASL\tCONSTANT8\n") lexer tk instr line_num ;;
  let bad := chk 167 (res =? LEXER_SUCCESS) bad in
  res <- apply_masks lexer 8191 ;;
  let bad := chk 167 (res =? expected) bad in
  let line_num := line_num + 1 in
  '(res, lexer, tk, instr, _) <- lex_line (C "\t\tLDA\t$1234\n") lexer tk instr line_num ;;
  let bad := chk 168 (res =? LEXER_SUCCESS) bad in
  res <- apply_masks lexer 8191 ;;
  let bad := chk 168 (res =? expected) bad in
  let line_num := line_num + 1 in
  '(res, lexer, tk, instr, _) <- lex_line (C "\t\tCPY\tADDRESS\n") lexer tk instr line_num ;;
  let bad := chk 169 (res =? LEXER_SUCCESS) bad in
  res <- apply_masks lexer 8191 ;;
  let bad := chk 169 (res =? expected) bad in
  let line_num := line_num + 1 in
  let expected := (Z.land (Z.land (Z.land X_REGISTER_FIELD NOT_INDIRECT_FIELD) (Z.lnot ADDR_MODE_IMMEDIATE)) (Z.lnot ADDR_MODE_ACCUMULATOR)) in
  '(res, lexer, tk, instr, _) <- lex_line (C "\t\tSBC\t$BB,X\n") lexer tk instr line_num ;;
  let bad := chk 172 (res =? LEXER_SUCCESS) bad in
  res <- apply_masks lexer 8191 ;;
  let bad := chk 172 (res =? expected) bad in
  let line_num := line_num + 1 in
  '(res, lexer, tk, instr, _) <- lex_line (C "\t\tROR\tCONSTANT8,X\n") lexer tk instr line_num ;;
  let bad := chk 173 (res =? LEXER_SUCCESS) bad in
  res <- apply_masks lexer 8191 ;;
  let bad := chk 173 (res =? expected) bad in
  let line_num := line_num + 1 in
  '(res, lexer, tk, instr, _) <- lex_line (C "\t\tINC\t$1000,X\n") lexer tk instr line_num ;;
  let bad := chk 174 (res =? LEXER_SUCCESS) bad in
  res <- apply_masks lexer 8191 ;;
  let bad := chk 174 (res =? expected) bad in
  let line_num := line_num + 1 in
  '(res, lexer, tk, instr, _) <- lex_line (C "\t\tCMP\tCONSTANT16,X\n") lexer tk instr line_num ;;
  let bad := chk 175 (res =? LEXER_SUCCESS) bad in
  res <- apply_masks lexer 8191 ;;
  let bad := chk 175 (res =? expected) bad in
  let line_num := line_num + 1 in
  let expected := (Z.land (Z.land (Z.land Y_REGISTER_FIELD NOT_INDIRECT_FIELD) (Z.lnot ADDR_MODE_IMMEDIATE)) (Z.lnot ADDR_MODE_ACCUMULATOR)) in
  '(res, lexer, tk, instr, _) <- lex_line (C "\t\tSTX\t$CC,Y\n") lexer tk instr line_num ;;
  let bad := chk 178 (res =? LEXER_SUCCESS) bad in
  res <- apply_masks lexer 8191 ;;
  let bad := chk 178 (res =? expected) bad in
  let line_num := line_num + 1 in
  '(res, lexer, tk, instr, _) <- lex_line (C "\t\tLDX\tCONSTANT8,Y\n") lexer tk instr line_num ;;
  let bad := chk 179 (res =? LEXER_SUCCESS) bad in
  res <- apply_masks lexer 8191 ;;
  let bad := chk 179 (res =? expected) bad in
  let line_num := line_num + 1 in
  '(res, lexer, tk, instr, _) <- lex_line (C "\t\tSTA\t$DEAD,Y\n") lexer tk instr line_num ;;
  let bad := chk 180 (res =? LEXER_SUCCESS) bad in
  res <- apply_masks lexer 8191 ;;
  let bad := chk 180 (res =? expected) bad in
  let line_num := line_num + 1 in
  '(res, lexer, tk, instr, _) <- lex_line (C "\t\tAND\tADDRESS,Y\n") lexer tk instr line_num ;;
  let bad := chk 181 (res =? LEXER_SUCCESS) bad in
  res <- apply_masks lexer 8191 ;;
  let bad := chk 181 (res =? expected) bad in
  let line_num := line_num + 1 in
  let expected := (Z.land (Z.land (Z.land NOT_REGISTER_FIELD INDIRECT_FIELD) (Z.lnot ADDR_MODE_IMMEDIATE)) (Z.lnot ADDR_MODE_ACCUMULATOR)) in
  '(res, lexer, tk, instr, _) <- lex_line (C "\t\tJMP\t($FACE)\n") lexer tk instr line_num ;;
  let bad := chk 184 (res =? LEXER_SUCCESS) bad in
  res <- apply_masks lexer 8191 ;;
  let bad := chk 184 (res =? expected) bad in
  let line_num := line_num + 1 in
  '(res, lexer, tk, instr, _) <- lex_line (C "\t\tJMP\t(ADDRESS)\n") lexer tk instr line_num ;;
  let bad := chk 185 (res =? LEXER_SUCCESS) bad in
  res <- apply_masks lexer 8191 ;;
  let bad := chk 185 (res =? expected) bad in
  let line_num := line_num + 1 in
  let expected := (Z.land (Z.land (Z.land NOT_REGISTER_FIELD NOT_INDIRECT_FIELD) ADDR_MODE_IMMEDIATE) (Z.lnot ADDR_MODE_ACCUMULATOR)) in
  '(res, lexer, tk, instr, _) <- lex_line (C "\t\tEOR\t#$DD\n") lexer tk instr line_num ;;
  let bad := chk 188 (res =? LEXER_SUCCESS) bad in
  res <- apply_masks lexer 8191 ;;
  let bad := chk 188 (res =? expected) bad in
  let line_num := line_num + 1 in
  '(res, lexer, tk, instr, _) <- lex_line (C "\t\tLDY\t#CONSTANT8\n") lexer tk instr line_num ;;
  let bad := chk 189 (res =? LEXER_SUCCESS) bad in
  res <- apply_masks lexer 8191 ;;
  let bad := chk 189 (res =? expected) bad in
  let line_num := line_num + 1 in
  let expected := (Z.land (Z.land (Z.land X_REGISTER_FIELD INDIRECT_FIELD) (Z.lnot ADDR_MODE_IMMEDIATE)) (Z.lnot ADDR_MODE_ACCUMULATOR)) in
  '(res, lexer, tk, instr, _) <- lex_line (C "\t\tADC\t($EE,X)\n") lexer tk instr line_num ;;
  let bad := chk 192 (res =? LEXER_SUCCESS) bad in
  res <- apply_masks lexer 8191 ;;
  let bad := chk 192 (res =? expected) bad in
  let line_num := line_num + 1 in
  '(res, lexer, tk, instr, _) <- lex_line (C "\t\tLDA\t(CONSTANT8,X)\n") lexer tk instr line_num ;;
  let bad := chk 193 (res =? LEXER_SUCCESS) bad in
  res <- apply_masks lexer 8191 ;;
  let bad := chk 193 (res =? expected) bad in
  let line_num := line_num + 1 in
  let expected := (Z.land (Z.land (Z.land Y_REGISTER_FIELD INDIRECT_FIELD) (Z.lnot ADDR_MODE_IMMEDIATE)) (Z.lnot ADDR_MODE_ACCUMULATOR)) in
  '(res, lexer, tk, instr, _) <- lex_line (C "\t\tSTA\t($FF),Y\n") lexer tk instr line_num ;;
  let bad := chk 196 (res =? LEXER_SUCCESS) bad in
  res <- apply_masks lexer 8191 ;;
  let bad := chk 196 (res =? expected) bad in
  let line_num := line_num + 1 in
  '(res, lexer, tk, instr, _) <- lex_line (C "\t\tSBC\t(CONSTANT8),Y\n") lexer tk instr line_num ;;
  let bad := chk 197 (res =? LEXER_SUCCESS) bad in
  res <- apply_masks lexer 8191 ;;
  let bad := chk 197 (res =? expected) bad in
  let line_num := line_num + 1 in
  Ret (rev bad).
Example test_apply_masks_passes : test_apply_masks = Ret [].
Proof. vm_compute. reflexivity. Qed.

(** test_parse_forward_ref_addr_mode: 28 assertions *)
Definition test_parse_forward_ref_addr_mode : M (list Z) :=
  let bad := @nil Z in
  let lexer := init_lexer (C "test_parse_forward_ref_addr_mode.asm") in
  let tk := init_token in
  let instr := init_instruction in
  let expected := (0) in
  let line_num := (1) in
  let expected := (Z.land (Z.land ADDR_MODE_RELATIVE NOT_INDIRECT_FIELD) NOT_REGISTER_FIELD) in
  '(res, lexer, tk, instr, _) <- lex_line (C "FORREF1\t\tBVC\tL19\n") lexer tk instr line_num ;;
  let bad := chk 233 (res =? LEXER_SUCCESS) bad in
  '(res, instr, _) <- parse_forward_ref_addr_mode lexer instr ;;
  let bad := chk 233 (res =? FORWARD_REFERENCE) bad in
  let bad := chk 233 ((i_bitflag instr) =? expected) bad in
  let line_num := line_num + 1 in
  let bad := chk 234 ((i_bitflag instr) =? ADDR_MODE_RELATIVE) bad in
  let expected := (Z.land (Z.land ABSOLUTE_FIELD NOT_INDIRECT_FIELD) NOT_REGISTER_FIELD) in
  '(res, lexer, tk, instr, _) <- lex_line (C "FORREF2\t\tJMP\tL21\n") lexer tk instr line_num ;;
  let bad := chk 237 (res =? LEXER_SUCCESS) bad in
  '(res, instr, _) <- parse_forward_ref_addr_mode lexer instr ;;
  let bad := chk 237 (res =? FORWARD_REFERENCE) bad in
  let bad := chk 237 ((i_bitflag instr) =? expected) bad in
  let line_num := line_num + 1 in
  let bad := chk 238 ((i_bitflag instr) =? ADDR_MODE_ABSOLUTE) bad in
  let expected := (Z.land (Z.land ABSOLUTE_FIELD INDIRECT_FIELD) NOT_REGISTER_FIELD) in
  '(res, lexer, tk, instr, _) <- lex_line (C "\t\tJMP\t(WHERE)\n") lexer tk instr line_num ;;
  let bad := chk 241 (res =? LEXER_SUCCESS) bad in
  '(res, instr, _) <- parse_forward_ref_addr_mode lexer instr ;;
  let bad := chk 241 (res =? FORWARD_REFERENCE) bad in
  let bad := chk 241 ((i_bitflag instr) =? expected) bad in
  let line_num := line_num + 1 in
  let bad := chk 242 ((i_bitflag instr) =? ADDR_MODE_INDIRECT) bad in
  '(res, lexer, tk, instr, _) <- lex_line (C "FORREF3\t\tJMP\t(THERE)\n") lexer tk instr line_num ;;
  let bad := chk 245 (res =? LEXER_SUCCESS) bad in
  '(res, instr, _) <- parse_forward_ref_addr_mode lexer instr ;;
  let bad := chk 245 (res =? FORWARD_REFERENCE) bad in
  let bad := chk 245 ((i_bitflag instr) =? expected) bad in
  let line_num := line_num + 1 in
  let bad := chk 246 ((i_bitflag instr) =? ADDR_MODE_INDIRECT) bad in
  let expected := (0) in
  '(res, lexer, tk, instr, _) <- lex_line (C "BCC (LABEL)\n") lexer tk instr line_num ;;
  let bad := chk 251 (res =? LEXER_SUCCESS) bad in
  '(res, instr, _) <- parse_forward_ref_addr_mode lexer instr ;;
  let bad := chk 251 (res =? ERROR_ILLEGAL_ADDRESSING_MODE) bad in
  let bad := chk 251 ((i_bitflag instr) =? expected) bad in
  let line_num := line_num + 1 in
  '(res, lexer, tk, instr, _) <- lex_line (C "BVS (LABEL),Y\n") lexer tk instr line_num ;;
  let bad := chk 253 (res =? LEXER_SUCCESS) bad in
  '(res, instr, _) <- parse_forward_ref_addr_mode lexer instr ;;
  let bad := chk 253 (res =? ERROR_ILLEGAL_ADDRESSING_MODE) bad in
  let bad := chk 253 ((i_bitflag instr) =? expected) bad in
  let line_num := line_num + 1 in
  '(res, lexer, tk, instr, _) <- lex_line (C "JMP #LABEL\n") lexer tk instr line_num ;;
  let bad := chk 255 (res =? LEXER_SUCCESS) bad in
  '(res, instr, _) <- parse_forward_ref_addr_mode lexer instr ;;
  let bad := chk 255 (res =? ERROR_ILLEGAL_ADDRESSING_MODE) bad in
  let bad := chk 255 ((i_bitflag instr) =? expected) bad in
  let line_num := line_num + 1 in
  '(res, lexer, tk, instr, _) <- lex_line (C "JSR (LABEL)\n") lexer tk instr line_num ;;
  let bad := chk 257 (res =? LEXER_SUCCESS) bad in
  '(res, instr, _) <- parse_forward_ref_addr_mode lexer instr ;;
  let bad := chk 257 (res =? ERROR_ILLEGAL_ADDRESSING_MODE) bad in
  let bad := chk 257 ((i_bitflag instr) =? expected) bad in
  let line_num := line_num + 1 in
  Ret (rev bad).
Example test_parse_forward_ref_addr_mode_passes : test_parse_forward_ref_addr_mode = Ret [].
Proof. vm_compute. reflexivity. Qed.

(** test_parse_addr_mode: 158 assertions *)
Definition test_parse_addr_mode : M (list Z) :=
  let bad := @nil Z in
  let lexer := init_lexer (C "test_parse_addr_mode.asm") in
  let tk := init_token in
  let instr := init_instruction in
  let symtab := init_symbol_table in
  let line_num := (1) in
  '(res, lexer, tk, instr, _) <- lex_line (C "ADDRESS\t\t=\t$ABCD\n") lexer tk instr line_num ;;
  let line_num := line_num + 1 in
  let bad := chk 288 (res =? LEXER_SUCCESS) bad in
  '(res, lexer, _) <- parse_line lexer ;;
  let bad := chk 289 (res =? PARSER_SUCCESS) bad in
  '(res, lexer, symtab, _) <- parse_label_declaration true true lexer symtab 0 ;;
  let bad := chk 290 (res =? PARSER_SUCCESS) bad in
  '(res, lexer, tk, instr, _) <- lex_line (C "CONSTANT8\t=\t$7F\n") lexer tk instr line_num ;;
  let line_num := line_num + 1 in
  let bad := chk 292 (res =? LEXER_SUCCESS) bad in
  '(res, lexer, _) <- parse_line lexer ;;
  let bad := chk 293 (res =? PARSER_SUCCESS) bad in
  '(res, lexer, symtab, _) <- parse_label_declaration true true lexer symtab 0 ;;
  let bad := chk 294 (res =? PARSER_SUCCESS) bad in
  '(res, lexer, tk, instr, _) <- lex_line (C "CONSTANT16\t=\t$1111\n") lexer tk instr line_num ;;
  let line_num := line_num + 1 in
  let bad := chk 296 (res =? LEXER_SUCCESS) bad in
  '(res, lexer, _) <- parse_line lexer ;;
  let bad := chk 297 (res =? PARSER_SUCCESS) bad in
  '(res, lexer, symtab, _) <- parse_label_declaration true true lexer symtab 0 ;;
  let bad := chk 298 (res =? PARSER_SUCCESS) bad in
  '(res, lexer, tk, instr, _) <- lex_line (C "LABEL1:\n") lexer tk instr line_num ;;
  let line_num := line_num + 1 in
  let bad := chk 300 (res =? LEXER_SUCCESS) bad in
  '(res, lexer, _) <- parse_line lexer ;;
  let bad := chk 301 (res =? PARSER_SUCCESS) bad in
  '(res, lexer, symtab, _) <- parse_label_declaration true true lexer symtab 0 ;;
  let bad := chk 302 (res =? PARSER_SUCCESS) bad in
  '(res, lexer, tk, instr, _) <- lex_line (C "\t\tINX\n") lexer tk instr line_num ;;
  let bad := chk 304 (res =? LEXER_SUCCESS) bad in
  '(res, lexer, _) <- parse_line lexer ;;
  let bad := chk 304 (res =? PARSER_SUCCESS) bad in
  let line_num := line_num + 1 in
  res <- find_operand lexer ;;
  let operand := res in
  '(res, lexer, _) <- parse_operand lexer instr operand symtab ;;
  let operand_status := res in
  '(res, instr, _) <- parse_addr_mode lexer instr operand operand_status ;;
  let bad := chk 304 (res =? ADDR_MODE_IMPLIED) bad in
  '(res, lexer, tk, instr, _) <- lex_line (C "\t\tROL\tA\n") lexer tk instr line_num ;;
  let bad := chk 305 (res =? LEXER_SUCCESS) bad in
  '(res, lexer, _) <- parse_line lexer ;;
  let bad := chk 305 (res =? PARSER_SUCCESS) bad in
  let line_num := line_num + 1 in
  res <- find_operand lexer ;;
  let operand := res in
  '(res, lexer, _) <- parse_operand lexer instr operand symtab ;;
  let operand_status := res in
  '(res, instr, _) <- parse_addr_mode lexer instr operand operand_status ;;
  let bad := chk 305 (res =? ADDR_MODE_ACCUMULATOR) bad in
  '(res, lexer, tk, instr, _) <- lex_line (C "\t\tASL\n") lexer tk instr line_num ;;
  let bad := chk 308 (res =? LEXER_SUCCESS) bad in
  '(res, lexer, _) <- parse_line lexer ;;
  let bad := chk 308 (res =? PARSER_SUCCESS) bad in
  let line_num := line_num + 1 in
  res <- find_operand lexer ;;
  let operand := res in
  '(res, lexer, _) <- parse_operand lexer instr operand symtab ;;
  let operand_status := res in
  '(res, instr, _) <- parse_addr_mode lexer instr operand operand_status ;;
  let bad := chk 308 (res =? ADDR_MODE_ACCUMULATOR) bad in
  '(res, lexer, tk, instr, _) <- lex_line (C "\t\tLSR\n") lexer tk instr line_num ;;
  let bad := chk 311 (res =? LEXER_SUCCESS) bad in
  '(res, lexer, _) <- parse_line lexer ;;
  let bad := chk 311 (res =? PARSER_SUCCESS) bad in
  let line_num := line_num + 1 in
  res <- find_operand lexer ;;
  let operand := res in
  '(res, lexer, _) <- parse_operand lexer instr operand symtab ;;
  let operand_status := res in
  '(res, instr, _) <- parse_addr_mode lexer instr operand operand_status ;;
  let bad := chk 311 (res =? ADDR_MODE_ACCUMULATOR) bad in
  '(res, lexer, tk, instr, _) <- lex_line (C "\t\tROL\n") lexer tk instr line_num ;;
  let bad := chk 314 (res =? LEXER_SUCCESS) bad in
  '(res, lexer, _) <- parse_line lexer ;;
  let bad := chk 314 (res =? PARSER_SUCCESS) bad in
  let line_num := line_num + 1 in
  res <- find_operand lexer ;;
  let operand := res in
  '(res, lexer, _) <- parse_operand lexer instr operand symtab ;;
  let operand_status := res in
  '(res, instr, _) <- parse_addr_mode lexer instr operand operand_status ;;
  let bad := chk 314 (res =? ADDR_MODE_ACCUMULATOR) bad in
  '(res, lexer, tk, instr, _) <- lex_line (C "\t\tROR\n") lexer tk instr line_num ;;
  let bad := chk 317 (res =? LEXER_SUCCESS) bad in
  '(res, lexer, _) <- parse_line lexer ;;
  let bad := chk 317 (res =? PARSER_SUCCESS) bad in
  let line_num := line_num + 1 in
  res <- find_operand lexer ;;
  let operand := res in
  '(res, lexer, _) <- parse_operand lexer instr operand symtab ;;
  let operand_status := res in
  '(res, instr, _) <- parse_addr_mode lexer instr operand operand_status ;;
  let bad := chk 317 (res =? ADDR_MODE_ACCUMULATOR) bad in
  '(res, lexer, tk, instr, _) <- lex_line (C "\t\tORA\t$AA\n") lexer tk instr line_num ;;
  let bad := chk 319 (res =? LEXER_SUCCESS) bad in
  '(res, lexer, _) <- parse_line lexer ;;
  let bad := chk 319 (res =? PARSER_SUCCESS) bad in
  let line_num := line_num + 1 in
  res <- find_operand lexer ;;
  let operand := res in
  '(res, lexer, _) <- parse_operand lexer instr operand symtab ;;
  let operand_status := res in
  '(res, instr, _) <- parse_addr_mode lexer instr operand operand_status ;;
  let bad := chk 319 (res =? ADDR_MODE_ZERO_PAGE) bad in
  '(res, lexer, tk, instr, _) <- lex_line (C "\t\tASL\tCONSTANT8\n") lexer tk instr line_num ;;
  let bad := chk 320 (res =? LEXER_SUCCESS) bad in
  '(res, lexer, _) <- parse_line lexer ;;
  let bad := chk 320 (res =? PARSER_SUCCESS) bad in
  let line_num := line_num + 1 in
  res <- find_operand lexer ;;
  let operand := res in
  '(res, lexer, _) <- parse_operand lexer instr operand symtab ;;
  let operand_status := res in
  '(res, instr, _) <- parse_addr_mode lexer instr operand operand_status ;;
  let bad := chk 320 (res =? ADDR_MODE_ZERO_PAGE) bad in
  '(res, lexer, tk, instr, _) <- lex_line (C "\t\tLDA\t$1234\n") lexer tk instr line_num ;;
  let bad := chk 321 (res =? LEXER_SUCCESS) bad in
  '(res, lexer, _) <- parse_line lexer ;;
  let bad := chk 321 (res =? PARSER_SUCCESS) bad in
  let line_num := line_num + 1 in
  res <- find_operand lexer ;;
  let operand := res in
  '(res, lexer, _) <- parse_operand lexer instr operand symtab ;;
  let operand_status := res in
  '(res, instr, _) <- parse_addr_mode lexer instr operand operand_status ;;
  let bad := chk 321 (res =? ADDR_MODE_ABSOLUTE) bad in
  '(res, lexer, tk, instr, _) <- lex_line (C "\t\tCPY\tADDRESS\n") lexer tk instr line_num ;;
  let bad := chk 322 (res =? LEXER_SUCCESS) bad in
  '(res, lexer, _) <- parse_line lexer ;;
  let bad := chk 322 (res =? PARSER_SUCCESS) bad in
  let line_num := line_num + 1 in
  res <- find_operand lexer ;;
  let operand := res in
  '(res, lexer, _) <- parse_operand lexer instr operand symtab ;;
  let operand_status := res in
  '(res, instr, _) <- parse_addr_mode lexer instr operand operand_status ;;
  let bad := chk 322 (res =? ADDR_MODE_ABSOLUTE) bad in
  '(res, lexer, tk, instr, _) <- lex_line (C "\t\tSBC\t$BB,X\n") lexer tk instr line_num ;;
  let bad := chk 323 (res =? LEXER_SUCCESS) bad in
  '(res, lexer, _) <- parse_line lexer ;;
  let bad := chk 323 (res =? PARSER_SUCCESS) bad in
  let line_num := line_num + 1 in
  res <- find_operand lexer ;;
  let operand := res in
  '(res, lexer, _) <- parse_operand lexer instr operand symtab ;;
  let operand_status := res in
  '(res, instr, _) <- parse_addr_mode lexer instr operand operand_status ;;
  let bad := chk 323 (res =? ADDR_MODE_ZERO_PAGE_X) bad in
  '(res, lexer, tk, instr, _) <- lex_line (C "\t\tROR\tCONSTANT8,X\n") lexer tk instr line_num ;;
  let bad := chk 324 (res =? LEXER_SUCCESS) bad in
  '(res, lexer, _) <- parse_line lexer ;;
  let bad := chk 324 (res =? PARSER_SUCCESS) bad in
  let line_num := line_num + 1 in
  res <- find_operand lexer ;;
  let operand := res in
  '(res, lexer, _) <- parse_operand lexer instr operand symtab ;;
  let operand_status := res in
  '(res, instr, _) <- parse_addr_mode lexer instr operand operand_status ;;
  let bad := chk 324 (res =? ADDR_MODE_ZERO_PAGE_X) bad in
  '(res, lexer, tk, instr, _) <- lex_line (C "\t\tINC\t$1000,X\n") lexer tk instr line_num ;;
  let bad := chk 325 (res =? LEXER_SUCCESS) bad in
  '(res, lexer, _) <- parse_line lexer ;;
  let bad := chk 325 (res =? PARSER_SUCCESS) bad in
  let line_num := line_num + 1 in
  res <- find_operand lexer ;;
  let operand := res in
  '(res, lexer, _) <- parse_operand lexer instr operand symtab ;;
  let operand_status := res in
  '(res, instr, _) <- parse_addr_mode lexer instr operand operand_status ;;
  let bad := chk 325 (res =? ADDR_MODE_ABSOLUTE_X) bad in
  '(res, lexer, tk, instr, _) <- lex_line (C "\t\tCMP\tCONSTANT16,X\n") lexer tk instr line_num ;;
  let bad := chk 326 (res =? LEXER_SUCCESS) bad in
  '(res, lexer, _) <- parse_line lexer ;;
  let bad := chk 326 (res =? PARSER_SUCCESS) bad in
  let line_num := line_num + 1 in
  res <- find_operand lexer ;;
  let operand := res in
  '(res, lexer, _) <- parse_operand lexer instr operand symtab ;;
  let operand_status := res in
  '(res, instr, _) <- parse_addr_mode lexer instr operand operand_status ;;
  let bad := chk 326 (res =? ADDR_MODE_ABSOLUTE_X) bad in
  '(res, lexer, tk, instr, _) <- lex_line (C "\t\tSTX\t$CC,Y\n") lexer tk instr line_num ;;
  let bad := chk 327 (res =? LEXER_SUCCESS) bad in
  '(res, lexer, _) <- parse_line lexer ;;
  let bad := chk 327 (res =? PARSER_SUCCESS) bad in
  let line_num := line_num + 1 in
  res <- find_operand lexer ;;
  let operand := res in
  '(res, lexer, _) <- parse_operand lexer instr operand symtab ;;
  let operand_status := res in
  '(res, instr, _) <- parse_addr_mode lexer instr operand operand_status ;;
  let bad := chk 327 (res =? ADDR_MODE_ZERO_PAGE_Y) bad in
  '(res, lexer, tk, instr, _) <- lex_line (C "\t\tLDX\tCONSTANT8,Y\n") lexer tk instr line_num ;;
  let bad := chk 328 (res =? LEXER_SUCCESS) bad in
  '(res, lexer, _) <- parse_line lexer ;;
  let bad := chk 328 (res =? PARSER_SUCCESS) bad in
  let line_num := line_num + 1 in
  res <- find_operand lexer ;;
  let operand := res in
  '(res, lexer, _) <- parse_operand lexer instr operand symtab ;;
  let operand_status := res in
  '(res, instr, _) <- parse_addr_mode lexer instr operand operand_status ;;
  let bad := chk 328 (res =? ADDR_MODE_ZERO_PAGE_Y) bad in
  '(res, lexer, tk, instr, _) <- lex_line (C "\t\tSTA\t$DEAD,Y\n") lexer tk instr line_num ;;
  let bad := chk 329 (res =? LEXER_SUCCESS) bad in
  '(res, lexer, _) <- parse_line lexer ;;
  let bad := chk 329 (res =? PARSER_SUCCESS) bad in
  let line_num := line_num + 1 in
  res <- find_operand lexer ;;
  let operand := res in
  '(res, lexer, _) <- parse_operand lexer instr operand symtab ;;
  let operand_status := res in
  '(res, instr, _) <- parse_addr_mode lexer instr operand operand_status ;;
  let bad := chk 329 (res =? ADDR_MODE_ABSOLUTE_Y) bad in
  '(res, lexer, tk, instr, _) <- lex_line (C "\t\tAND\tADDRESS,Y\n") lexer tk instr line_num ;;
  let bad := chk 330 (res =? LEXER_SUCCESS) bad in
  '(res, lexer, _) <- parse_line lexer ;;
  let bad := chk 330 (res =? PARSER_SUCCESS) bad in
  let line_num := line_num + 1 in
  res <- find_operand lexer ;;
  let operand := res in
  '(res, lexer, _) <- parse_operand lexer instr operand symtab ;;
  let operand_status := res in
  '(res, instr, _) <- parse_addr_mode lexer instr operand operand_status ;;
  let bad := chk 330 (res =? ADDR_MODE_ABSOLUTE_Y) bad in
  '(res, lexer, tk, instr, _) <- lex_line (C "\t\tJMP\t($FACE)\n") lexer tk instr line_num ;;
  let bad := chk 331 (res =? LEXER_SUCCESS) bad in
  '(res, lexer, _) <- parse_line lexer ;;
  let bad := chk 331 (res =? PARSER_SUCCESS) bad in
  let line_num := line_num + 1 in
  res <- find_operand lexer ;;
  let operand := res in
  '(res, lexer, _) <- parse_operand lexer instr operand symtab ;;
  let operand_status := res in
  '(res, instr, _) <- parse_addr_mode lexer instr operand operand_status ;;
  let bad := chk 331 (res =? ADDR_MODE_INDIRECT) bad in
  '(res, lexer, tk, instr, _) <- lex_line (C "\t\tJMP\t(ADDRESS)\n") lexer tk instr line_num ;;
  let bad := chk 332 (res =? LEXER_SUCCESS) bad in
  '(res, lexer, _) <- parse_line lexer ;;
  let bad := chk 332 (res =? PARSER_SUCCESS) bad in
  let line_num := line_num + 1 in
  res <- find_operand lexer ;;
  let operand := res in
  '(res, lexer, _) <- parse_operand lexer instr operand symtab ;;
  let operand_status := res in
  '(res, instr, _) <- parse_addr_mode lexer instr operand operand_status ;;
  let bad := chk 332 (res =? ADDR_MODE_INDIRECT) bad in
  '(res, lexer, tk, instr, _) <- lex_line (C "\t\tEOR\t#$DD\n") lexer tk instr line_num ;;
  let bad := chk 333 (res =? LEXER_SUCCESS) bad in
  '(res, lexer, _) <- parse_line lexer ;;
  let bad := chk 333 (res =? PARSER_SUCCESS) bad in
  let line_num := line_num + 1 in
  res <- find_operand lexer ;;
  let operand := res in
  '(res, lexer, _) <- parse_operand lexer instr operand symtab ;;
  let operand_status := res in
  '(res, instr, _) <- parse_addr_mode lexer instr operand operand_status ;;
  let bad := chk 333 (res =? ADDR_MODE_IMMEDIATE) bad in
  '(res, lexer, tk, instr, _) <- lex_line (C "\t\tLDY\t#CONSTANT8\n") lexer tk instr line_num ;;
  let bad := chk 334 (res =? LEXER_SUCCESS) bad in
  '(res, lexer, _) <- parse_line lexer ;;
  let bad := chk 334 (res =? PARSER_SUCCESS) bad in
  let line_num := line_num + 1 in
  res <- find_operand lexer ;;
  let operand := res in
  '(res, lexer, _) <- parse_operand lexer instr operand symtab ;;
  let operand_status := res in
  '(res, instr, _) <- parse_addr_mode lexer instr operand operand_status ;;
  let bad := chk 334 (res =? ADDR_MODE_IMMEDIATE) bad in
  '(res, lexer, tk, instr, _) <- lex_line (C "\t\tADC\t($EE,X)\n") lexer tk instr line_num ;;
  let bad := chk 335 (res =? LEXER_SUCCESS) bad in
  '(res, lexer, _) <- parse_line lexer ;;
  let bad := chk 335 (res =? PARSER_SUCCESS) bad in
  let line_num := line_num + 1 in
  res <- find_operand lexer ;;
  let operand := res in
  '(res, lexer, _) <- parse_operand lexer instr operand symtab ;;
  let operand_status := res in
  '(res, instr, _) <- parse_addr_mode lexer instr operand operand_status ;;
  let bad := chk 335 (res =? ADDR_MODE_X_INDEXED_INDIRECT) bad in
  '(res, lexer, tk, instr, _) <- lex_line (C "\t\tLDA\t(CONSTANT8,X)\n") lexer tk instr line_num ;;
  let bad := chk 336 (res =? LEXER_SUCCESS) bad in
  '(res, lexer, _) <- parse_line lexer ;;
  let bad := chk 336 (res =? PARSER_SUCCESS) bad in
  let line_num := line_num + 1 in
  res <- find_operand lexer ;;
  let operand := res in
  '(res, lexer, _) <- parse_operand lexer instr operand symtab ;;
  let operand_status := res in
  '(res, instr, _) <- parse_addr_mode lexer instr operand operand_status ;;
  let bad := chk 336 (res =? ADDR_MODE_X_INDEXED_INDIRECT) bad in
  '(res, lexer, tk, instr, _) <- lex_line (C "\t\tSTA\t($FF),Y\n") lexer tk instr line_num ;;
  let bad := chk 337 (res =? LEXER_SUCCESS) bad in
  '(res, lexer, _) <- parse_line lexer ;;
  let bad := chk 337 (res =? PARSER_SUCCESS) bad in
  let line_num := line_num + 1 in
  res <- find_operand lexer ;;
  let operand := res in
  '(res, lexer, _) <- parse_operand lexer instr operand symtab ;;
  let operand_status := res in
  '(res, instr, _) <- parse_addr_mode lexer instr operand operand_status ;;
  let bad := chk 337 (res =? ADDR_MODE_INDIRECT_Y_INDEXED) bad in
  '(res, lexer, tk, instr, _) <- lex_line (C "\t\tSBC\t(CONSTANT8),Y\n") lexer tk instr line_num ;;
  let bad := chk 338 (res =? LEXER_SUCCESS) bad in
  '(res, lexer, _) <- parse_line lexer ;;
  let bad := chk 338 (res =? PARSER_SUCCESS) bad in
  let line_num := line_num + 1 in
  res <- find_operand lexer ;;
  let operand := res in
  '(res, lexer, _) <- parse_operand lexer instr operand symtab ;;
  let operand_status := res in
  '(res, instr, _) <- parse_addr_mode lexer instr operand operand_status ;;
  let bad := chk 338 (res =? ADDR_MODE_INDIRECT_Y_INDEXED) bad in
  '(res, lexer, tk, instr, _) <- lex_line (C "\t\tBMI\tLABEL1\n") lexer tk instr line_num ;;
  let bad := chk 339 (res =? LEXER_SUCCESS) bad in
  '(res, lexer, _) <- parse_line lexer ;;
  let bad := chk 339 (res =? PARSER_SUCCESS) bad in
  let line_num := line_num + 1 in
  res <- find_operand lexer ;;
  let operand := res in
  '(res, lexer, _) <- parse_operand lexer instr operand symtab ;;
  let operand_status := res in
  '(res, instr, _) <- parse_addr_mode lexer instr operand operand_status ;;
  let bad := chk 339 (res =? ADDR_MODE_RELATIVE) bad in
  '(res, lexer, tk, instr, _) <- lex_line (C "\t\tBVS\tL1\n") lexer tk instr line_num ;;
  let bad := chk 340 (res =? LEXER_SUCCESS) bad in
  '(res, lexer, _) <- parse_line lexer ;;
  let bad := chk 340 (res =? PARSER_SUCCESS) bad in
  let line_num := line_num + 1 in
  res <- find_operand lexer ;;
  let operand := res in
  '(res, lexer, _) <- parse_operand lexer instr operand symtab ;;
  let operand_status := res in
  '(res, instr, _) <- parse_addr_mode lexer instr operand operand_status ;;
  let bad := chk 340 (res =? FORWARD_REFERENCE) bad in
  '(res, lexer, tk, instr, _) <- lex_line (C "\t\tJMP\tLABEL1\n") lexer tk instr line_num ;;
  let bad := chk 343 (res =? LEXER_SUCCESS) bad in
  '(res, lexer, _) <- parse_line lexer ;;
  let bad := chk 343 (res =? PARSER_SUCCESS) bad in
  let line_num := line_num + 1 in
  res <- find_operand lexer ;;
  let operand := res in
  '(res, lexer, _) <- parse_operand lexer instr operand symtab ;;
  let operand_status := res in
  '(res, instr, _) <- parse_addr_mode lexer instr operand operand_status ;;
  let bad := chk 343 (res =? ADDR_MODE_ABSOLUTE) bad in
  '(res, lexer, tk, instr, _) <- lex_line (C "\t\tJSR\tL3\n") lexer tk instr line_num ;;
  let bad := chk 344 (res =? LEXER_SUCCESS) bad in
  '(res, lexer, _) <- parse_line lexer ;;
  let bad := chk 344 (res =? PARSER_SUCCESS) bad in
  let line_num := line_num + 1 in
  res <- find_operand lexer ;;
  let operand := res in
  '(res, lexer, _) <- parse_operand lexer instr operand symtab ;;
  let operand_status := res in
  '(res, instr, _) <- parse_addr_mode lexer instr operand operand_status ;;
  let bad := chk 344 (res =? FORWARD_REFERENCE) bad in
  '(res, lexer, tk, instr, _) <- lex_line (C "LABEL2\t\tBCC\tLABEL1\n") lexer tk instr line_num ;;
  let line_num := line_num + 1 in
  let bad := chk 347 (res =? LEXER_SUCCESS) bad in
  '(res, lexer, _) <- parse_line lexer ;;
  let bad := chk 348 (res =? PARSER_SUCCESS) bad in
  '(res, lexer, symtab, _) <- parse_label_declaration true true lexer symtab (0) ;;
  let bad := chk 350 (res =? SYMBOL_INSERTION_SUCCESS) bad in
  res <- find_operand lexer ;;
  let operand := res in
  '(res, lexer, _) <- parse_operand lexer instr operand symtab ;;
  let operand_status := res in
  '(res, instr, _) <- parse_addr_mode lexer instr operand operand_status ;;
  let bad := chk 353 (res =? ADDR_MODE_RELATIVE) bad in
  '(res, lexer, tk, instr, _) <- lex_line (C "FORREF1\t\tBVC\tL19\n") lexer tk instr line_num ;;
  let line_num := line_num + 1 in
  let bad := chk 356 (res =? LEXER_SUCCESS) bad in
  '(res, lexer, _) <- parse_line lexer ;;
  let bad := chk 357 (res =? PARSER_SUCCESS) bad in
  '(res, lexer, symtab, _) <- parse_label_declaration true true lexer symtab (0) ;;
  let bad := chk 358 (res =? SYMBOL_INSERTION_SUCCESS) bad in
  res <- find_operand lexer ;;
  let operand := res in
  '(res, lexer, _) <- parse_operand lexer instr operand symtab ;;
  let operand_status := res in
  '(res, instr, _) <- parse_addr_mode lexer instr operand operand_status ;;
  let bad := chk 361 (res =? FORWARD_REFERENCE) bad in
  '(res, lexer, tk, instr, _) <- lex_line (C "LABEL3\t\tJSR\tLABEL2\n") lexer tk instr line_num ;;
  let line_num := line_num + 1 in
  let bad := chk 364 (res =? LEXER_SUCCESS) bad in
  '(res, lexer, _) <- parse_line lexer ;;
  let bad := chk 365 (res =? PARSER_SUCCESS) bad in
  '(res, lexer, symtab, _) <- parse_label_declaration true true lexer symtab (0) ;;
  let bad := chk 366 (res =? SYMBOL_INSERTION_SUCCESS) bad in
  res <- find_operand lexer ;;
  let operand := res in
  '(res, lexer, _) <- parse_operand lexer instr operand symtab ;;
  let operand_status := res in
  '(res, instr, _) <- parse_addr_mode lexer instr operand operand_status ;;
  let bad := chk 369 (res =? ADDR_MODE_ABSOLUTE) bad in
  '(res, lexer, tk, instr, _) <- lex_line (C "FORREF2\t\tJMP\tL21\n") lexer tk instr line_num ;;
  let line_num := line_num + 1 in
  let bad := chk 372 (res =? LEXER_SUCCESS) bad in
  '(res, lexer, _) <- parse_line lexer ;;
  let bad := chk 373 (res =? PARSER_SUCCESS) bad in
  '(res, lexer, symtab, _) <- parse_label_declaration true true lexer symtab (0) ;;
  let bad := chk 374 (res =? SYMBOL_INSERTION_SUCCESS) bad in
  res <- find_operand lexer ;;
  let operand := res in
  '(res, lexer, _) <- parse_operand lexer instr operand symtab ;;
  let operand_status := res in
  '(res, instr, _) <- parse_addr_mode lexer instr operand operand_status ;;
  let bad := chk 377 (res =? FORWARD_REFERENCE) bad in
  '(res, lexer, tk, instr, _) <- lex_line (C "\t\tJMP\t(WHERE)\n") lexer tk instr line_num ;;
  let bad := chk 379 (res =? LEXER_SUCCESS) bad in
  '(res, lexer, _) <- parse_line lexer ;;
  let bad := chk 379 (res =? PARSER_SUCCESS) bad in
  let line_num := line_num + 1 in
  res <- find_operand lexer ;;
  let operand := res in
  '(res, lexer, _) <- parse_operand lexer instr operand symtab ;;
  let operand_status := res in
  '(res, instr, _) <- parse_addr_mode lexer instr operand operand_status ;;
  let bad := chk 379 (res =? FORWARD_REFERENCE) bad in
  '(res, lexer, tk, instr, _) <- lex_line (C "FORREF3\t\tJMP\t(THERE)\n") lexer tk instr line_num ;;
  let line_num := line_num + 1 in
  let bad := chk 382 (res =? LEXER_SUCCESS) bad in
  '(res, lexer, _) <- parse_line lexer ;;
  let bad := chk 383 (res =? PARSER_SUCCESS) bad in
  '(res, lexer, symtab, _) <- parse_label_declaration true true lexer symtab (0) ;;
  let bad := chk 384 (res =? SYMBOL_INSERTION_SUCCESS) bad in
  res <- find_operand lexer ;;
  let operand := res in
  '(res, lexer, _) <- parse_operand lexer instr operand symtab ;;
  let operand_status := res in
  '(res, instr, _) <- parse_addr_mode lexer instr operand operand_status ;;
  let bad := chk 387 (res =? FORWARD_REFERENCE) bad in
  '(res, lexer, tk, instr, _) <- lex_line (C "BCC (ADDRESS)\n") lexer tk instr line_num ;;
  let bad := chk 391 (res =? LEXER_SUCCESS) bad in
  '(res, lexer, _) <- parse_line lexer ;;
  let bad := chk 391 (res =? PARSER_SUCCESS) bad in
  let line_num := line_num + 1 in
  res <- find_operand lexer ;;
  let operand := res in
  '(res, lexer, _) <- parse_operand lexer instr operand symtab ;;
  let operand_status := res in
  '(res, instr, _) <- parse_addr_mode lexer instr operand operand_status ;;
  let bad := chk 391 (res =? ERROR_ILLEGAL_ADDRESSING_MODE) bad in
  '(res, lexer, tk, instr, _) <- lex_line (C "BCS (CONSTANT8,X)\n") lexer tk instr line_num ;;
  let bad := chk 394 (res =? LEXER_SUCCESS) bad in
  '(res, lexer, _) <- parse_line lexer ;;
  let bad := chk 394 (res =? PARSER_SUCCESS) bad in
  let line_num := line_num + 1 in
  res <- find_operand lexer ;;
  let operand := res in
  '(res, lexer, _) <- parse_operand lexer instr operand symtab ;;
  let operand_status := res in
  '(res, instr, _) <- parse_addr_mode lexer instr operand operand_status ;;
  let bad := chk 394 (res =? ERROR_ILLEGAL_ADDRESSING_MODE) bad in
  '(res, lexer, tk, instr, _) <- lex_line (C "BVS (CONSTANT16),Y\n") lexer tk instr line_num ;;
  let bad := chk 397 (res =? LEXER_SUCCESS) bad in
  '(res, lexer, _) <- parse_line lexer ;;
  let bad := chk 397 (res =? PARSER_SUCCESS) bad in
  let line_num := line_num + 1 in
  res <- find_operand lexer ;;
  let operand := res in
  '(res, lexer, _) <- parse_operand lexer instr operand symtab ;;
  let operand_status := res in
  '(res, instr, _) <- parse_addr_mode lexer instr operand operand_status ;;
  let bad := chk 397 (res =? ERROR_ILLEGAL_ADDRESSING_MODE) bad in
  '(res, lexer, tk, instr, _) <- lex_line (C "BNE A\n") lexer tk instr line_num ;;
  let bad := chk 400 (res =? LEXER_SUCCESS) bad in
  '(res, lexer, _) <- parse_line lexer ;;
  let bad := chk 400 (res =? PARSER_SUCCESS) bad in
  let line_num := line_num + 1 in
  res <- find_operand lexer ;;
  let operand := res in
  '(res, lexer, _) <- parse_operand lexer instr operand symtab ;;
  let operand_status := res in
  '(res, instr, _) <- parse_addr_mode lexer instr operand operand_status ;;
  let bad := chk 400 (res =? ERROR_ILLEGAL_ADDRESSING_MODE) bad in
  '(res, lexer, tk, instr, _) <- lex_line (C "ROL\t#000\n") lexer tk instr line_num ;;
  let bad := chk 404 (res =? LEXER_SUCCESS) bad in
  '(res, lexer, _) <- parse_line lexer ;;
  let bad := chk 404 (res =? PARSER_SUCCESS) bad in
  let line_num := line_num + 1 in
  res <- find_operand lexer ;;
  let operand := res in
  '(res, lexer, _) <- parse_operand lexer instr operand symtab ;;
  let operand_status := res in
  '(res, instr, _) <- parse_addr_mode lexer instr operand operand_status ;;
  let bad := chk 404 (res =? ERROR_ILLEGAL_ADDRESSING_MODE) bad in
  '(res, lexer, tk, instr, _) <- lex_line (C "NOP #CONSTANT16\n") lexer tk instr line_num ;;
  let bad := chk 407 (res =? LEXER_SUCCESS) bad in
  '(res, lexer, _) <- parse_line lexer ;;
  let bad := chk 407 (res =? PARSER_SUCCESS) bad in
  let line_num := line_num + 1 in
  res <- find_operand lexer ;;
  let operand := res in
  '(res, lexer, _) <- parse_operand lexer instr operand symtab ;;
  let operand_status := res in
  '(res, instr, _) <- parse_addr_mode lexer instr operand operand_status ;;
  let bad := chk 407 (res =? ERROR_ILLEGAL_ADDRESSING_MODE) bad in
  '(res, lexer, tk, instr, _) <- lex_line (C "\tJMP    (LABEL1),Y\n") lexer tk instr line_num ;;
  let bad := chk 411 (res =? LEXER_SUCCESS) bad in
  '(res, lexer, _) <- parse_line lexer ;;
  let bad := chk 411 (res =? PARSER_SUCCESS) bad in
  let line_num := line_num + 1 in
  res <- find_operand lexer ;;
  let operand := res in
  '(res, lexer, _) <- parse_operand lexer instr operand symtab ;;
  let operand_status := res in
  '(res, instr, _) <- parse_addr_mode lexer instr operand operand_status ;;
  let bad := chk 411 (res =? ERROR_ILLEGAL_ADDRESSING_MODE) bad in
  '(res, lexer, tk, instr, _) <- lex_line (C "\t\tJSR\t(ADDRESS,X)\n") lexer tk instr line_num ;;
  let bad := chk 414 (res =? LEXER_SUCCESS) bad in
  '(res, lexer, _) <- parse_line lexer ;;
  let bad := chk 414 (res =? PARSER_SUCCESS) bad in
  let line_num := line_num + 1 in
  res <- find_operand lexer ;;
  let operand := res in
  '(res, lexer, _) <- parse_operand lexer instr operand symtab ;;
  let operand_status := res in
  '(res, instr, _) <- parse_addr_mode lexer instr operand operand_status ;;
  let bad := chk 414 (res =? ERROR_ILLEGAL_ADDRESSING_MODE) bad in
  '(res, lexer, tk, instr, _) <- lex_line (C "JSR (ADDRESS)\n") lexer tk instr line_num ;;
  let bad := chk 417 (res =? LEXER_SUCCESS) bad in
  '(res, lexer, _) <- parse_line lexer ;;
  let bad := chk 417 (res =? PARSER_SUCCESS) bad in
  let line_num := line_num + 1 in
  res <- find_operand lexer ;;
  let operand := res in
  '(res, lexer, _) <- parse_operand lexer instr operand symtab ;;
  let operand_status := res in
  '(res, instr, _) <- parse_addr_mode lexer instr operand operand_status ;;
  let bad := chk 417 (res =? ERROR_ILLEGAL_ADDRESSING_MODE) bad in
  '(res, lexer, tk, instr, _) <- lex_line (C "\t\tSTA\t;lol\n") lexer tk instr line_num ;;
  let bad := chk 422 (res =? LEXER_SUCCESS) bad in
  '(res, lexer, _) <- parse_line lexer ;;
  let bad := chk 422 (res =? PARSER_SUCCESS) bad in
  let line_num := line_num + 1 in
  res <- find_operand lexer ;;
  let operand := res in
  '(res, lexer, _) <- parse_operand lexer instr operand symtab ;;
  let operand_status := res in
  '(res, instr, _) <- parse_addr_mode lexer instr operand operand_status ;;
  let bad := chk 422 (res =? ERROR_ILLEGAL_ADDRESSING_MODE) bad in
  '(res, lexer, tk, instr, _) <- lex_line (C "\tLDY\t($AB),Y\n") lexer tk instr line_num ;;
  let bad := chk 425 (res =? LEXER_SUCCESS) bad in
  '(res, lexer, _) <- parse_line lexer ;;
  let bad := chk 425 (res =? PARSER_SUCCESS) bad in
  let line_num := line_num + 1 in
  res <- find_operand lexer ;;
  let operand := res in
  '(res, lexer, _) <- parse_operand lexer instr operand symtab ;;
  let operand_status := res in
  '(res, instr, _) <- parse_addr_mode lexer instr operand operand_status ;;
  let bad := chk 425 (res =? ERROR_ILLEGAL_ADDRESSING_MODE) bad in
  Ret (rev bad).
Example test_parse_addr_mode_passes : test_parse_addr_mode = Ret [].
Proof. vm_compute. reflexivity. Qed.

