(** Check_parser1.v -- generated by tools/tests.py: the unit tests of /repo/tests/parser/test_parser1.c run on the model.
    These are tests of the model against the expectations of the authors of the program, not
    proofs of properties: 616 assertions in 8 test functions; 28 assertions and statements without
    counterpart in the model are left out (pointers that are not NULL, the int returned by
    token_strcpy, enum values out of range).  Each computation returns the lines of the test file
    whose assertions fail. *)
From Verif Require Import Base Model_Opcode Model_Error Model_Lexer Model_SymbolTable Model_Parser
  Model_ForwardRef Model_Generator Check_Base.

(** test_parse_instr_tree: 58 assertions *)
Definition test_parse_instr_tree : M (list Z) :=
  let bad := @nil Z in
  let lexer := init_lexer (C "test_parse_instr_tree.asm") in
  let tk := init_token in
  let instr := init_instruction in
  let line_num := (1) in
  '(res, lexer, tk, instr, _) <- lex_line (C "\t\tINX\n") lexer tk instr line_num ;;
  let bad := chk 29 (res =? LEXER_SUCCESS) bad in
  '(res, lexer, _) <- parse_instr_tree lexer (0) ;;
  let bad := chk 29 (res =? PARSER_SUCCESS) bad in
  let line_num := line_num + 1 in
  '(res, lexer, tk, instr, _) <- lex_line (C "\t\tROL\tA\n") lexer tk instr line_num ;;
  let bad := chk 30 (res =? LEXER_SUCCESS) bad in
  '(res, lexer, _) <- parse_instr_tree lexer (0) ;;
  let bad := chk 30 (res =? PARSER_SUCCESS) bad in
  let line_num := line_num + 1 in
  '(res, lexer, tk, instr, _) <- lex_line (C "\t\tORA\t$AA\n") lexer tk instr line_num ;;
  let bad := chk 31 (res =? LEXER_SUCCESS) bad in
  '(res, lexer, _) <- parse_instr_tree lexer (0) ;;
  let bad := chk 31 (res =? PARSER_SUCCESS) bad in
  let line_num := line_num + 1 in
  '(res, lexer, tk, instr, _) <- lex_line (C "\t\tASL\tCONSTANT8\n") lexer tk instr line_num ;;
  let bad := chk 32 (res =? LEXER_SUCCESS) bad in
  '(res, lexer, _) <- parse_instr_tree lexer (0) ;;
  let bad := chk 32 (res =? PARSER_SUCCESS) bad in
  let line_num := line_num + 1 in
  '(res, lexer, tk, instr, _) <- lex_line (C "\t\tLDA\t$1234\n") lexer tk instr line_num ;;
  let bad := chk 33 (res =? LEXER_SUCCESS) bad in
  '(res, lexer, _) <- parse_instr_tree lexer (0) ;;
  let bad := chk 33 (res =? PARSER_SUCCESS) bad in
  let line_num := line_num + 1 in
  '(res, lexer, tk, instr, _) <- lex_line (C "\t\tCPY\tADDRESS\n") lexer tk instr line_num ;;
  let bad := chk 34 (res =? LEXER_SUCCESS) bad in
  '(res, lexer, _) <- parse_instr_tree lexer (0) ;;
  let bad := chk 34 (res =? PARSER_SUCCESS) bad in
  let line_num := line_num + 1 in
  '(res, lexer, tk, instr, _) <- lex_line (C "\t\tSBC\t$BB,X\n") lexer tk instr line_num ;;
  let bad := chk 35 (res =? LEXER_SUCCESS) bad in
  '(res, lexer, _) <- parse_instr_tree lexer (0) ;;
  let bad := chk 35 (res =? PARSER_SUCCESS) bad in
  let line_num := line_num + 1 in
  '(res, lexer, tk, instr, _) <- lex_line (C "\t\tROR\tCONSTANT8,X\n") lexer tk instr line_num ;;
  let bad := chk 36 (res =? LEXER_SUCCESS) bad in
  '(res, lexer, _) <- parse_instr_tree lexer (0) ;;
  let bad := chk 36 (res =? PARSER_SUCCESS) bad in
  let line_num := line_num + 1 in
  '(res, lexer, tk, instr, _) <- lex_line (C "\t\tINC\t$1000,X\n") lexer tk instr line_num ;;
  let bad := chk 37 (res =? LEXER_SUCCESS) bad in
  '(res, lexer, _) <- parse_instr_tree lexer (0) ;;
  let bad := chk 37 (res =? PARSER_SUCCESS) bad in
  let line_num := line_num + 1 in
  '(res, lexer, tk, instr, _) <- lex_line (C "\t\tCMP\tCONSTANT16,X\n") lexer tk instr line_num ;;
  let bad := chk 38 (res =? LEXER_SUCCESS) bad in
  '(res, lexer, _) <- parse_instr_tree lexer (0) ;;
  let bad := chk 38 (res =? PARSER_SUCCESS) bad in
  let line_num := line_num + 1 in
  '(res, lexer, tk, instr, _) <- lex_line (C "\t\tSTX\t$CC,Y\n") lexer tk instr line_num ;;
  let bad := chk 39 (res =? LEXER_SUCCESS) bad in
  '(res, lexer, _) <- parse_instr_tree lexer (0) ;;
  let bad := chk 39 (res =? PARSER_SUCCESS) bad in
  let line_num := line_num + 1 in
  '(res, lexer, tk, instr, _) <- lex_line (C "\t\tLDX\tCONSTANT8,Y\n") lexer tk instr line_num ;;
  let bad := chk 40 (res =? LEXER_SUCCESS) bad in
  '(res, lexer, _) <- parse_instr_tree lexer (0) ;;
  let bad := chk 40 (res =? PARSER_SUCCESS) bad in
  let line_num := line_num + 1 in
  '(res, lexer, tk, instr, _) <- lex_line (C "\t\tSTA\t$DEAD,Y\n") lexer tk instr line_num ;;
  let bad := chk 41 (res =? LEXER_SUCCESS) bad in
  '(res, lexer, _) <- parse_instr_tree lexer (0) ;;
  let bad := chk 41 (res =? PARSER_SUCCESS) bad in
  let line_num := line_num + 1 in
  '(res, lexer, tk, instr, _) <- lex_line (C "\t\tAND\tADDRESS,Y\n") lexer tk instr line_num ;;
  let bad := chk 42 (res =? LEXER_SUCCESS) bad in
  '(res, lexer, _) <- parse_instr_tree lexer (0) ;;
  let bad := chk 42 (res =? PARSER_SUCCESS) bad in
  let line_num := line_num + 1 in
  '(res, lexer, tk, instr, _) <- lex_line (C "\t\tJMP\t($FACE)\n") lexer tk instr line_num ;;
  let bad := chk 43 (res =? LEXER_SUCCESS) bad in
  '(res, lexer, _) <- parse_instr_tree lexer (0) ;;
  let bad := chk 43 (res =? PARSER_SUCCESS) bad in
  let line_num := line_num + 1 in
  '(res, lexer, tk, instr, _) <- lex_line (C "\t\tJMP\t(ADDRESS)\n") lexer tk instr line_num ;;
  let bad := chk 44 (res =? LEXER_SUCCESS) bad in
  '(res, lexer, _) <- parse_instr_tree lexer (0) ;;
  let bad := chk 44 (res =? PARSER_SUCCESS) bad in
  let line_num := line_num + 1 in
  '(res, lexer, tk, instr, _) <- lex_line (C "\t\tEOR\t#$DD\n") lexer tk instr line_num ;;
  let bad := chk 45 (res =? LEXER_SUCCESS) bad in
  '(res, lexer, _) <- parse_instr_tree lexer (0) ;;
  let bad := chk 45 (res =? PARSER_SUCCESS) bad in
  let line_num := line_num + 1 in
  '(res, lexer, tk, instr, _) <- lex_line (C "\t\tLDY\t#CONSTANT8\n") lexer tk instr line_num ;;
  let bad := chk 46 (res =? LEXER_SUCCESS) bad in
  '(res, lexer, _) <- parse_instr_tree lexer (0) ;;
  let bad := chk 46 (res =? PARSER_SUCCESS) bad in
  let line_num := line_num + 1 in
  '(res, lexer, tk, instr, _) <- lex_line (C "\t\tADC\t($EE,X)\n") lexer tk instr line_num ;;
  let bad := chk 47 (res =? LEXER_SUCCESS) bad in
  '(res, lexer, _) <- parse_instr_tree lexer (0) ;;
  let bad := chk 47 (res =? PARSER_SUCCESS) bad in
  let line_num := line_num + 1 in
  '(res, lexer, tk, instr, _) <- lex_line (C "\t\tLDA\t(CONSTANT8,X)\n") lexer tk instr line_num ;;
  let bad := chk 48 (res =? LEXER_SUCCESS) bad in
  '(res, lexer, _) <- parse_instr_tree lexer (0) ;;
  let bad := chk 48 (res =? PARSER_SUCCESS) bad in
  let line_num := line_num + 1 in
  '(res, lexer, tk, instr, _) <- lex_line (C "\t\tSTA\t($FF),Y\n") lexer tk instr line_num ;;
  let bad := chk 49 (res =? LEXER_SUCCESS) bad in
  '(res, lexer, _) <- parse_instr_tree lexer (0) ;;
  let bad := chk 49 (res =? PARSER_SUCCESS) bad in
  let line_num := line_num + 1 in
  '(res, lexer, tk, instr, _) <- lex_line (C "\t\tSBC\t(CONSTANT8),Y\n") lexer tk instr line_num ;;
  let bad := chk 50 (res =? LEXER_SUCCESS) bad in
  '(res, lexer, _) <- parse_instr_tree lexer (0) ;;
  let bad := chk 50 (res =? PARSER_SUCCESS) bad in
  let line_num := line_num + 1 in
  '(res, lexer, tk, instr, _) <- lex_line (C "\t\tBMI\tLABEL1\n") lexer tk instr line_num ;;
  let bad := chk 51 (res =? LEXER_SUCCESS) bad in
  '(res, lexer, _) <- parse_instr_tree lexer (0) ;;
  let bad := chk 51 (res =? PARSER_SUCCESS) bad in
  let line_num := line_num + 1 in
  '(res, lexer, tk, instr, _) <- lex_line (C "\t\tBVS\tL1\n") lexer tk instr line_num ;;
  let bad := chk 52 (res =? LEXER_SUCCESS) bad in
  '(res, lexer, _) <- parse_instr_tree lexer (0) ;;
  let bad := chk 52 (res =? PARSER_SUCCESS) bad in
  let line_num := line_num + 1 in
  '(res, lexer, tk, instr, _) <- lex_line (C "\t\tJMP\tLABEL1\n") lexer tk instr line_num ;;
  let bad := chk 53 (res =? LEXER_SUCCESS) bad in
  '(res, lexer, _) <- parse_instr_tree lexer (0) ;;
  let bad := chk 53 (res =? PARSER_SUCCESS) bad in
  let line_num := line_num + 1 in
  '(res, lexer, tk, instr, _) <- lex_line (C "\t\tJSR\tL3\n") lexer tk instr line_num ;;
  let bad := chk 54 (res =? LEXER_SUCCESS) bad in
  '(res, lexer, _) <- parse_instr_tree lexer (0) ;;
  let bad := chk 54 (res =? PARSER_SUCCESS) bad in
  let line_num := line_num + 1 in
  '(res, lexer, tk, instr, _) <- lex_line (C "LDA LDX LDY LOLOL\n") lexer tk instr line_num ;;
  let bad := chk 57 (res =? LEXER_SUCCESS) bad in
  '(res, lexer, _) <- parse_instr_tree lexer (0) ;;
  let bad := chk 57 (res =? ERROR_ILLEGAL_SEQUENCE) bad in
  let line_num := line_num + 1 in
  let bad := chk 58 (opt_z_eqb (lx_error_tk lexer) (Some 1)) bad in
  '(res, lexer, tk, instr, _) <- lex_line (C "LDX (),\tX LABEL\n") lexer tk instr line_num ;;
  let bad := chk 61 (res =? LEXER_SUCCESS) bad in
  '(res, lexer, _) <- parse_instr_tree lexer (0) ;;
  let bad := chk 61 (res =? ERROR_ILLEGAL_SEQUENCE) bad in
  let line_num := line_num + 1 in
  let bad := chk 62 (opt_z_eqb (lx_error_tk lexer) (Some 2)) bad in
  Ret (rev bad).
Example test_parse_instr_tree_passes : test_parse_instr_tree = Ret [].
Proof. vm_compute. reflexivity. Qed.

(** test_parse_label_tree: 68 assertions *)
Definition test_parse_label_tree : M (list Z) :=
  let bad := @nil Z in
  let lexer := init_lexer (C "test_parse_label_tree.asm") in
  let tk := init_token in
  let instr := init_instruction in
  let line_num := (1) in
  '(res, lexer, tk, instr, _) <- lex_line (C "ADDRESS\t\t=\t$ABCD\n") lexer tk instr line_num ;;
  let bad := chk 85 (res =? LEXER_SUCCESS) bad in
  '(res, lexer, _) <- parse_label_tree lexer (0) ;;
  let bad := chk 85 (res =? PARSER_SUCCESS) bad in
  let line_num := line_num + 1 in
  '(res, lexer, tk, instr, _) <- lex_line (C "CONSTANT8\t=\t$7F\n") lexer tk instr line_num ;;
  let bad := chk 86 (res =? LEXER_SUCCESS) bad in
  '(res, lexer, _) <- parse_label_tree lexer (0) ;;
  let bad := chk 86 (res =? PARSER_SUCCESS) bad in
  let line_num := line_num + 1 in
  '(res, lexer, tk, instr, _) <- lex_line (C "CONSTANT16\t=\t$1111\n") lexer tk instr line_num ;;
  let bad := chk 87 (res =? LEXER_SUCCESS) bad in
  '(res, lexer, _) <- parse_label_tree lexer (0) ;;
  let bad := chk 87 (res =? PARSER_SUCCESS) bad in
  let line_num := line_num + 1 in
  '(res, lexer, tk, instr, _) <- lex_line (C "DIRECTIVE1\t.EQU\t$4000\n") lexer tk instr line_num ;;
  let bad := chk 88 (res =? LEXER_SUCCESS) bad in
  '(res, lexer, _) <- parse_label_tree lexer (0) ;;
  let bad := chk 88 (res =? PARSER_SUCCESS) bad in
  let line_num := line_num + 1 in
  '(res, lexer, tk, instr, _) <- lex_line (C "LABEL1:\n") lexer tk instr line_num ;;
  let bad := chk 89 (res =? LEXER_SUCCESS) bad in
  '(res, lexer, _) <- parse_label_tree lexer (0) ;;
  let bad := chk 89 (res =? PARSER_SUCCESS) bad in
  let line_num := line_num + 1 in
  '(res, lexer, tk, instr, _) <- lex_line (C "LABEL2\t\tBCC\tLABEL1\n") lexer tk instr line_num ;;
  let bad := chk 90 (res =? LEXER_SUCCESS) bad in
  '(res, lexer, _) <- parse_label_tree lexer (0) ;;
  let bad := chk 90 (res =? PARSER_SUCCESS) bad in
  let line_num := line_num + 1 in
  '(res, lexer, tk, instr, _) <- lex_line (C "FORREF1\t\tBVC\tL19\n") lexer tk instr line_num ;;
  let bad := chk 91 (res =? LEXER_SUCCESS) bad in
  '(res, lexer, _) <- parse_label_tree lexer (0) ;;
  let bad := chk 91 (res =? PARSER_SUCCESS) bad in
  let line_num := line_num + 1 in
  '(res, lexer, tk, instr, _) <- lex_line (C "LABEL3\t\tJSR\tLABEL2\n") lexer tk instr line_num ;;
  let bad := chk 92 (res =? LEXER_SUCCESS) bad in
  '(res, lexer, _) <- parse_label_tree lexer (0) ;;
  let bad := chk 92 (res =? PARSER_SUCCESS) bad in
  let line_num := line_num + 1 in
  '(res, lexer, tk, instr, _) <- lex_line (C "FORREF2\t\tJMP\tL21\n") lexer tk instr line_num ;;
  let bad := chk 93 (res =? LEXER_SUCCESS) bad in
  '(res, lexer, _) <- parse_label_tree lexer (0) ;;
  let bad := chk 93 (res =? PARSER_SUCCESS) bad in
  let line_num := line_num + 1 in
  '(res, lexer, tk, instr, _) <- lex_line (C "L1\t\tDEY\n") lexer tk instr line_num ;;
  let bad := chk 94 (res =? LEXER_SUCCESS) bad in
  '(res, lexer, _) <- parse_label_tree lexer (0) ;;
  let bad := chk 94 (res =? PARSER_SUCCESS) bad in
  let line_num := line_num + 1 in
  '(res, lexer, tk, instr, _) <- lex_line (C "L2\t\tASL\tA\n") lexer tk instr line_num ;;
  let bad := chk 95 (res =? LEXER_SUCCESS) bad in
  '(res, lexer, _) <- parse_label_tree lexer (0) ;;
  let bad := chk 95 (res =? PARSER_SUCCESS) bad in
  let line_num := line_num + 1 in
  '(res, lexer, tk, instr, _) <- lex_line (C "L3:\t\tSTY\t$AA\n") lexer tk instr line_num ;;
  let bad := chk 96 (res =? LEXER_SUCCESS) bad in
  '(res, lexer, _) <- parse_label_tree lexer (0) ;;
  let bad := chk 96 (res =? PARSER_SUCCESS) bad in
  let line_num := line_num + 1 in
  '(res, lexer, tk, instr, _) <- lex_line (C "L4\t\tROL\tCONSTANT8\n") lexer tk instr line_num ;;
  let bad := chk 97 (res =? LEXER_SUCCESS) bad in
  '(res, lexer, _) <- parse_label_tree lexer (0) ;;
  let bad := chk 97 (res =? PARSER_SUCCESS) bad in
  let line_num := line_num + 1 in
  '(res, lexer, tk, instr, _) <- lex_line (C "L5:\t\tLSR\t$1234\n") lexer tk instr line_num ;;
  let bad := chk 98 (res =? LEXER_SUCCESS) bad in
  '(res, lexer, _) <- parse_label_tree lexer (0) ;;
  let bad := chk 98 (res =? PARSER_SUCCESS) bad in
  let line_num := line_num + 1 in
  '(res, lexer, tk, instr, _) <- lex_line (C "L6\t\tROR\tADDRESS\n") lexer tk instr line_num ;;
  let bad := chk 99 (res =? LEXER_SUCCESS) bad in
  '(res, lexer, _) <- parse_label_tree lexer (0) ;;
  let bad := chk 99 (res =? PARSER_SUCCESS) bad in
  let line_num := line_num + 1 in
  '(res, lexer, tk, instr, _) <- lex_line (C "L7:\t\tLDY\t$BB,X\n") lexer tk instr line_num ;;
  let bad := chk 100 (res =? LEXER_SUCCESS) bad in
  '(res, lexer, _) <- parse_label_tree lexer (0) ;;
  let bad := chk 100 (res =? PARSER_SUCCESS) bad in
  let line_num := line_num + 1 in
  '(res, lexer, tk, instr, _) <- lex_line (C "L8\t\tDEC\tCONSTANT8,X\n") lexer tk instr line_num ;;
  let bad := chk 101 (res =? LEXER_SUCCESS) bad in
  '(res, lexer, _) <- parse_label_tree lexer (0) ;;
  let bad := chk 101 (res =? PARSER_SUCCESS) bad in
  let line_num := line_num + 1 in
  '(res, lexer, tk, instr, _) <- lex_line (C "L9:\t\tINC\t$1000,X\n") lexer tk instr line_num ;;
  let bad := chk 102 (res =? LEXER_SUCCESS) bad in
  '(res, lexer, _) <- parse_label_tree lexer (0) ;;
  let bad := chk 102 (res =? PARSER_SUCCESS) bad in
  let line_num := line_num + 1 in
  '(res, lexer, tk, instr, _) <- lex_line (C "L10\t\tCMP\tCONSTANT16,X\n") lexer tk instr line_num ;;
  let bad := chk 103 (res =? LEXER_SUCCESS) bad in
  '(res, lexer, _) <- parse_label_tree lexer (0) ;;
  let bad := chk 103 (res =? PARSER_SUCCESS) bad in
  let line_num := line_num + 1 in
  '(res, lexer, tk, instr, _) <- lex_line (C "L11:\t\tSTX\t$CC,Y\n") lexer tk instr line_num ;;
  let bad := chk 104 (res =? LEXER_SUCCESS) bad in
  '(res, lexer, _) <- parse_label_tree lexer (0) ;;
  let bad := chk 104 (res =? PARSER_SUCCESS) bad in
  let line_num := line_num + 1 in
  '(res, lexer, tk, instr, _) <- lex_line (C "L12\t\tLDX\tCONSTANT8,Y\n") lexer tk instr line_num ;;
  let bad := chk 105 (res =? LEXER_SUCCESS) bad in
  '(res, lexer, _) <- parse_label_tree lexer (0) ;;
  let bad := chk 105 (res =? PARSER_SUCCESS) bad in
  let line_num := line_num + 1 in
  '(res, lexer, tk, instr, _) <- lex_line (C "L13:\t\tSTA\t$B00B,Y\n") lexer tk instr line_num ;;
  let bad := chk 106 (res =? LEXER_SUCCESS) bad in
  '(res, lexer, _) <- parse_label_tree lexer (0) ;;
  let bad := chk 106 (res =? PARSER_SUCCESS) bad in
  let line_num := line_num + 1 in
  '(res, lexer, tk, instr, _) <- lex_line (C "L14\t\tAND\tADDRESS,Y\n") lexer tk instr line_num ;;
  let bad := chk 107 (res =? LEXER_SUCCESS) bad in
  '(res, lexer, _) <- parse_label_tree lexer (0) ;;
  let bad := chk 107 (res =? PARSER_SUCCESS) bad in
  let line_num := line_num + 1 in
  '(res, lexer, tk, instr, _) <- lex_line (C "L15:\t\tJMP\t($CAFE)\n") lexer tk instr line_num ;;
  let bad := chk 108 (res =? LEXER_SUCCESS) bad in
  '(res, lexer, _) <- parse_label_tree lexer (0) ;;
  let bad := chk 108 (res =? PARSER_SUCCESS) bad in
  let line_num := line_num + 1 in
  '(res, lexer, tk, instr, _) <- lex_line (C "L16\t\tJMP\t(CONSTANT16)\n") lexer tk instr line_num ;;
  let bad := chk 109 (res =? LEXER_SUCCESS) bad in
  '(res, lexer, _) <- parse_label_tree lexer (0) ;;
  let bad := chk 109 (res =? PARSER_SUCCESS) bad in
  let line_num := line_num + 1 in
  '(res, lexer, tk, instr, _) <- lex_line (C "L17:\t\tCPX\t#$DD\n") lexer tk instr line_num ;;
  let bad := chk 110 (res =? LEXER_SUCCESS) bad in
  '(res, lexer, _) <- parse_label_tree lexer (0) ;;
  let bad := chk 110 (res =? PARSER_SUCCESS) bad in
  let line_num := line_num + 1 in
  '(res, lexer, tk, instr, _) <- lex_line (C "L18\t\tLDY\t#CONSTANT8\n") lexer tk instr line_num ;;
  let bad := chk 111 (res =? LEXER_SUCCESS) bad in
  '(res, lexer, _) <- parse_label_tree lexer (0) ;;
  let bad := chk 111 (res =? PARSER_SUCCESS) bad in
  let line_num := line_num + 1 in
  '(res, lexer, tk, instr, _) <- lex_line (C "L19:\t\tADC\t($EE,X)\n") lexer tk instr line_num ;;
  let bad := chk 112 (res =? LEXER_SUCCESS) bad in
  '(res, lexer, _) <- parse_label_tree lexer (0) ;;
  let bad := chk 112 (res =? PARSER_SUCCESS) bad in
  let line_num := line_num + 1 in
  '(res, lexer, tk, instr, _) <- lex_line (C "L20\t\tLDA\t(CONSTANT8,X)\n") lexer tk instr line_num ;;
  let bad := chk 113 (res =? LEXER_SUCCESS) bad in
  '(res, lexer, _) <- parse_label_tree lexer (0) ;;
  let bad := chk 113 (res =? PARSER_SUCCESS) bad in
  let line_num := line_num + 1 in
  '(res, lexer, tk, instr, _) <- lex_line (C "L21:\t\tSTA\t($FF),Y\n") lexer tk instr line_num ;;
  let bad := chk 114 (res =? LEXER_SUCCESS) bad in
  '(res, lexer, _) <- parse_label_tree lexer (0) ;;
  let bad := chk 114 (res =? PARSER_SUCCESS) bad in
  let line_num := line_num + 1 in
  '(res, lexer, tk, instr, _) <- lex_line (C "L22\t\tSBC\t(CONSTANT8),Y\n") lexer tk instr line_num ;;
  let bad := chk 115 (res =? LEXER_SUCCESS) bad in
  '(res, lexer, _) <- parse_label_tree lexer (0) ;;
  let bad := chk 115 (res =? PARSER_SUCCESS) bad in
  let line_num := line_num + 1 in
  '(res, lexer, tk, instr, _) <- lex_line (C "LABEL1 LABEL2 STLOOP JANUS YOYOYOEOYEOYOEYO\n") lexer tk instr line_num ;;
  let bad := chk 118 (res =? LEXER_SUCCESS) bad in
  '(res, lexer, _) <- parse_label_tree lexer (0) ;;
  let bad := chk 118 (res =? ERROR_ILLEGAL_SEQUENCE) bad in
  let line_num := line_num + 1 in
  let bad := chk 119 (opt_z_eqb (lx_error_tk lexer) (Some 1)) bad in
  '(res, lexer, tk, instr, _) <- lex_line (C "sexy === $ffff\n") lexer tk instr line_num ;;
  let bad := chk 122 (res =? LEXER_SUCCESS) bad in
  '(res, lexer, _) <- parse_label_tree lexer (0) ;;
  let bad := chk 122 (res =? ERROR_ILLEGAL_SEQUENCE) bad in
  let line_num := line_num + 1 in
  let bad := chk 123 (opt_z_eqb (lx_error_tk lexer) (Some 2)) bad in
  Ret (rev bad).
Example test_parse_label_tree_passes : test_parse_label_tree = Ret [].
Proof. vm_compute. reflexivity. Qed.

(** test_parse_directive_tree: 9 assertions *)
Definition test_parse_directive_tree : M (list Z) :=
  let bad := @nil Z in
  let lexer := init_lexer (C "test_parse_directive_tree.asm") in
  let tk := init_token in
  let instr := init_instruction in
  let line_num := (1) in
  '(res, lexer, tk, instr, _) <- lex_line (C ".DEFINE\tDIRECTIVE2\t$8000\n") lexer tk instr line_num ;;
  let bad := chk 146 (res =? LEXER_SUCCESS) bad in
  '(res, lexer, _) <- parse_directive_tree lexer (0) ;;
  let bad := chk 146 (res =? PARSER_SUCCESS) bad in
  let line_num := line_num + 1 in
  '(res, lexer, tk, instr, _) <- lex_line (C "\t\t.ORG\t$1000\n") lexer tk instr line_num ;;
  let bad := chk 147 (res =? LEXER_SUCCESS) bad in
  '(res, lexer, _) <- parse_directive_tree lexer (0) ;;
  let bad := chk 147 (res =? PARSER_SUCCESS) bad in
  let line_num := line_num + 1 in
  t <- get (lx_seq lexer) (0) ;;
  let bad := chk 148 ((tk_value t) =? 4096) bad in
  '(res, lexer, tk, instr, _) <- lex_line (C "\t\t.END\n") lexer tk instr line_num ;;
  let bad := chk 149 (res =? LEXER_SUCCESS) bad in
  '(res, lexer, _) <- parse_directive_tree lexer (0) ;;
  let bad := chk 149 (res =? PARSER_SUCCESS) bad in
  let line_num := line_num + 1 in
  '(res, lexer, tk, instr, _) <- lex_line (C ".DEFINE NUMBER CONSTANT8\n") lexer tk instr line_num ;;
  let bad := chk 152 (res =? LEXER_SUCCESS) bad in
  '(res, lexer, _) <- parse_directive_tree lexer (0) ;;
  let bad := chk 153 (res =? ERROR_ILLEGAL_SEQUENCE) bad in
  let line_num := line_num + 1 in
  Ret (rev bad).
Example test_parse_directive_tree_passes : test_parse_directive_tree = Ret [].
Proof. vm_compute. reflexivity. Qed.

(** test_parse_base_tree: 5 assertions *)
Definition test_parse_base_tree : M (list Z) :=
  let bad := @nil Z in
  let lexer := init_lexer (C "test_parse_base_tree.asm") in
  let tk := init_token in
  let instr := init_instruction in
  let line_num := (1) in
  '(res, lexer, tk, instr, _) <- lex_line (C "\t\t*=$800\n") lexer tk instr line_num ;;
  let bad := chk 171 (res =? LEXER_SUCCESS) bad in
  '(res, lexer, _) <- parse_base_tree lexer (0) ;;
  let bad := chk 172 (res =? PARSER_SUCCESS) bad in
  t <- get (lx_seq lexer) (0) ;;
  let bad := chk 173 ((tk_value t) =? 2048) bad in
  let line_num := line_num + 1 in
  '(res, lexer, tk, instr, _) <- lex_line (C "\t\t*=bad") lexer tk instr line_num ;;
  let bad := chk 177 (res =? LEXER_SUCCESS) bad in
  '(res, lexer, _) <- parse_base_tree lexer (0) ;;
  let bad := chk 178 (res =? ERROR_ILLEGAL_BASE) bad in
  let line_num := line_num + 1 in
  Ret (rev bad).
Example test_parse_base_tree_passes : test_parse_base_tree = Ret [].
Proof. vm_compute. reflexivity. Qed.

(** test_parse_line: 165 assertions *)
Definition test_parse_line : M (list Z) :=
  let bad := @nil Z in
  let lexer := init_lexer (C "test_parse_line.asm") in
  let tk := init_token in
  let instr := init_instruction in
  let line_num := (1) in
  '(res, lexer, tk, instr, _) <- lex_line (C "ADDRESS\t\t=\t$ABCD\n") lexer tk instr line_num ;;
  let bad := chk 203 (res =? LEXER_SUCCESS) bad in
  '(res, lexer, _) <- parse_line lexer ;;
  let bad := chk 203 (res =? PARSER_SUCCESS) bad in
  let line_num := line_num + 1 in
  '(res, lexer, tk, instr, _) <- lex_line (C "CONSTANT8\t=\t$7F\n") lexer tk instr line_num ;;
  let bad := chk 204 (res =? LEXER_SUCCESS) bad in
  '(res, lexer, _) <- parse_line lexer ;;
  let bad := chk 204 (res =? PARSER_SUCCESS) bad in
  let line_num := line_num + 1 in
  '(res, lexer, tk, instr, _) <- lex_line (C "CONSTANT16\t=\t$1111\n") lexer tk instr line_num ;;
  let bad := chk 205 (res =? LEXER_SUCCESS) bad in
  '(res, lexer, _) <- parse_line lexer ;;
  let bad := chk 205 (res =? PARSER_SUCCESS) bad in
  let line_num := line_num + 1 in
  '(res, lexer, tk, instr, _) <- lex_line (C "DIRECTIVE1\t.EQU\t$4000\n") lexer tk instr line_num ;;
  let bad := chk 206 (res =? LEXER_SUCCESS) bad in
  '(res, lexer, _) <- parse_line lexer ;;
  let bad := chk 206 (res =? PARSER_SUCCESS) bad in
  let line_num := line_num + 1 in
  '(res, lexer, tk, instr, _) <- lex_line (C ".DEFINE\tDIRECTIVE2\t$8000\n") lexer tk instr line_num ;;
  let bad := chk 207 (res =? LEXER_SUCCESS) bad in
  '(res, lexer, _) <- parse_line lexer ;;
  let bad := chk 207 (res =? PARSER_SUCCESS) bad in
  let line_num := line_num + 1 in
  '(res, lexer, tk, instr, _) <- lex_line (C "\t\t.ORG\t$1000\n") lexer tk instr line_num ;;
  let bad := chk 208 (res =? LEXER_SUCCESS) bad in
  '(res, lexer, _) <- parse_line lexer ;;
  let bad := chk 208 (res =? PARSER_SUCCESS) bad in
  let line_num := line_num + 1 in
  t <- get (lx_seq lexer) (0) ;;
  let bad := chk 209 ((tk_value t) =? 4096) bad in
  '(res, lexer, tk, instr, _) <- lex_line (C "\t\t*=$800\n") lexer tk instr line_num ;;
  let bad := chk 210 (res =? LEXER_SUCCESS) bad in
  '(res, lexer, _) <- parse_line lexer ;;
  let bad := chk 210 (res =? PARSER_SUCCESS) bad in
  let line_num := line_num + 1 in
  '(res, lexer, tk, instr, _) <- lex_line (C "LABEL1:\n") lexer tk instr line_num ;;
  let bad := chk 211 (res =? LEXER_SUCCESS) bad in
  '(res, lexer, _) <- parse_line lexer ;;
  let bad := chk 211 (res =? PARSER_SUCCESS) bad in
  let line_num := line_num + 1 in
  '(res, lexer, tk, instr, _) <- lex_line (C "\t\tINX\n") lexer tk instr line_num ;;
  let bad := chk 212 (res =? LEXER_SUCCESS) bad in
  '(res, lexer, _) <- parse_line lexer ;;
  let bad := chk 212 (res =? PARSER_SUCCESS) bad in
  let line_num := line_num + 1 in
  '(res, lexer, tk, instr, _) <- lex_line (C "\t\tROL\tA\n") lexer tk instr line_num ;;
  let bad := chk 213 (res =? LEXER_SUCCESS) bad in
  '(res, lexer, _) <- parse_line lexer ;;
  let bad := chk 213 (res =? PARSER_SUCCESS) bad in
  let line_num := line_num + 1 in
  '(res, lexer, tk, instr, _) <- lex_line (C "\t\tORA\t$AA\n") lexer tk instr line_num ;;
  let bad := chk 214 (res =? LEXER_SUCCESS) bad in
  '(res, lexer, _) <- parse_line lexer ;;
  let bad := chk 214 (res =? PARSER_SUCCESS) bad in
  let line_num := line_num + 1 in
  '(res, lexer, tk, instr, _) <- lex_line (C "\t\tASL\tCONSTANT8\n") lexer tk instr line_num ;;
  let bad := chk 215 (res =? LEXER_SUCCESS) bad in
  '(res, lexer, _) <- parse_line lexer ;;
  let bad := chk 215 (res =? PARSER_SUCCESS) bad in
  let line_num := line_num + 1 in
  '(res, lexer, tk, instr, _) <- lex_line (C "\t\tLDA\t$1234\n") lexer tk instr line_num ;;
  let bad := chk 216 (res =? LEXER_SUCCESS) bad in
  '(res, lexer, _) <- parse_line lexer ;;
  let bad := chk 216 (res =? PARSER_SUCCESS) bad in
  let line_num := line_num + 1 in
  '(res, lexer, tk, instr, _) <- lex_line (C "\t\tCPY\tADDRESS\n") lexer tk instr line_num ;;
  let bad := chk 217 (res =? LEXER_SUCCESS) bad in
  '(res, lexer, _) <- parse_line lexer ;;
  let bad := chk 217 (res =? PARSER_SUCCESS) bad in
  let line_num := line_num + 1 in
  '(res, lexer, tk, instr, _) <- lex_line (C "\t\tSBC\t$BB,X\n") lexer tk instr line_num ;;
  let bad := chk 218 (res =? LEXER_SUCCESS) bad in
  '(res, lexer, _) <- parse_line lexer ;;
  let bad := chk 218 (res =? PARSER_SUCCESS) bad in
  let line_num := line_num + 1 in
  '(res, lexer, tk, instr, _) <- lex_line (C "\t\tROR\tCONSTANT8,X\n") lexer tk instr line_num ;;
  let bad := chk 219 (res =? LEXER_SUCCESS) bad in
  '(res, lexer, _) <- parse_line lexer ;;
  let bad := chk 219 (res =? PARSER_SUCCESS) bad in
  let line_num := line_num + 1 in
  '(res, lexer, tk, instr, _) <- lex_line (C "\t\tINC\t$1000,X\n") lexer tk instr line_num ;;
  let bad := chk 220 (res =? LEXER_SUCCESS) bad in
  '(res, lexer, _) <- parse_line lexer ;;
  let bad := chk 220 (res =? PARSER_SUCCESS) bad in
  let line_num := line_num + 1 in
  '(res, lexer, tk, instr, _) <- lex_line (C "\t\tCMP\tCONSTANT16,X\n") lexer tk instr line_num ;;
  let bad := chk 221 (res =? LEXER_SUCCESS) bad in
  '(res, lexer, _) <- parse_line lexer ;;
  let bad := chk 221 (res =? PARSER_SUCCESS) bad in
  let line_num := line_num + 1 in
  '(res, lexer, tk, instr, _) <- lex_line (C "\t\tSTX\t$CC,Y\n") lexer tk instr line_num ;;
  let bad := chk 222 (res =? LEXER_SUCCESS) bad in
  '(res, lexer, _) <- parse_line lexer ;;
  let bad := chk 222 (res =? PARSER_SUCCESS) bad in
  let line_num := line_num + 1 in
  '(res, lexer, tk, instr, _) <- lex_line (C "\t\tLDX\tCONSTANT8,Y\n") lexer tk instr line_num ;;
  let bad := chk 223 (res =? LEXER_SUCCESS) bad in
  '(res, lexer, _) <- parse_line lexer ;;
  let bad := chk 223 (res =? PARSER_SUCCESS) bad in
  let line_num := line_num + 1 in
  '(res, lexer, tk, instr, _) <- lex_line (C "\t\tSTA\t$DEAD,Y\n") lexer tk instr line_num ;;
  let bad := chk 224 (res =? LEXER_SUCCESS) bad in
  '(res, lexer, _) <- parse_line lexer ;;
  let bad := chk 224 (res =? PARSER_SUCCESS) bad in
  let line_num := line_num + 1 in
  '(res, lexer, tk, instr, _) <- lex_line (C "\t\tAND\tADDRESS,Y\n") lexer tk instr line_num ;;
  let bad := chk 225 (res =? LEXER_SUCCESS) bad in
  '(res, lexer, _) <- parse_line lexer ;;
  let bad := chk 225 (res =? PARSER_SUCCESS) bad in
  let line_num := line_num + 1 in
  '(res, lexer, tk, instr, _) <- lex_line (C "\t\tJMP\t($FACE)\n") lexer tk instr line_num ;;
  let bad := chk 226 (res =? LEXER_SUCCESS) bad in
  '(res, lexer, _) <- parse_line lexer ;;
  let bad := chk 226 (res =? PARSER_SUCCESS) bad in
  let line_num := line_num + 1 in
  '(res, lexer, tk, instr, _) <- lex_line (C "\t\tJMP\t(ADDRESS)\n") lexer tk instr line_num ;;
  let bad := chk 227 (res =? LEXER_SUCCESS) bad in
  '(res, lexer, _) <- parse_line lexer ;;
  let bad := chk 227 (res =? PARSER_SUCCESS) bad in
  let line_num := line_num + 1 in
  '(res, lexer, tk, instr, _) <- lex_line (C "\t\tEOR\t#$DD\n") lexer tk instr line_num ;;
  let bad := chk 228 (res =? LEXER_SUCCESS) bad in
  '(res, lexer, _) <- parse_line lexer ;;
  let bad := chk 228 (res =? PARSER_SUCCESS) bad in
  let line_num := line_num + 1 in
  '(res, lexer, tk, instr, _) <- lex_line (C "\t\tLDY\t#CONSTANT8\n") lexer tk instr line_num ;;
  let bad := chk 229 (res =? LEXER_SUCCESS) bad in
  '(res, lexer, _) <- parse_line lexer ;;
  let bad := chk 229 (res =? PARSER_SUCCESS) bad in
  let line_num := line_num + 1 in
  '(res, lexer, tk, instr, _) <- lex_line (C "\t\tADC\t($EE,X)\n") lexer tk instr line_num ;;
  let bad := chk 230 (res =? LEXER_SUCCESS) bad in
  '(res, lexer, _) <- parse_line lexer ;;
  let bad := chk 230 (res =? PARSER_SUCCESS) bad in
  let line_num := line_num + 1 in
  '(res, lexer, tk, instr, _) <- lex_line (C "\t\tLDA\t(CONSTANT8,X)\n") lexer tk instr line_num ;;
  let bad := chk 231 (res =? LEXER_SUCCESS) bad in
  '(res, lexer, _) <- parse_line lexer ;;
  let bad := chk 231 (res =? PARSER_SUCCESS) bad in
  let line_num := line_num + 1 in
  '(res, lexer, tk, instr, _) <- lex_line (C "\t\tSTA\t($FF),Y\n") lexer tk instr line_num ;;
  let bad := chk 232 (res =? LEXER_SUCCESS) bad in
  '(res, lexer, _) <- parse_line lexer ;;
  let bad := chk 232 (res =? PARSER_SUCCESS) bad in
  let line_num := line_num + 1 in
  '(res, lexer, tk, instr, _) <- lex_line (C "\t\tSBC\t(CONSTANT8),Y\n") lexer tk instr line_num ;;
  let bad := chk 233 (res =? LEXER_SUCCESS) bad in
  '(res, lexer, _) <- parse_line lexer ;;
  let bad := chk 233 (res =? PARSER_SUCCESS) bad in
  let line_num := line_num + 1 in
  '(res, lexer, tk, instr, _) <- lex_line (C "\t\tBMI\tLABEL1\n") lexer tk instr line_num ;;
  let bad := chk 234 (res =? LEXER_SUCCESS) bad in
  '(res, lexer, _) <- parse_line lexer ;;
  let bad := chk 234 (res =? PARSER_SUCCESS) bad in
  let line_num := line_num + 1 in
  '(res, lexer, tk, instr, _) <- lex_line (C "\t\tBVS\tL1\n") lexer tk instr line_num ;;
  let bad := chk 235 (res =? LEXER_SUCCESS) bad in
  '(res, lexer, _) <- parse_line lexer ;;
  let bad := chk 235 (res =? PARSER_SUCCESS) bad in
  let line_num := line_num + 1 in
  '(res, lexer, tk, instr, _) <- lex_line (C "\t\tJMP\tLABEL1\n") lexer tk instr line_num ;;
  let bad := chk 236 (res =? LEXER_SUCCESS) bad in
  '(res, lexer, _) <- parse_line lexer ;;
  let bad := chk 236 (res =? PARSER_SUCCESS) bad in
  let line_num := line_num + 1 in
  '(res, lexer, tk, instr, _) <- lex_line (C "\t\tJSR\tL3\n") lexer tk instr line_num ;;
  let bad := chk 237 (res =? LEXER_SUCCESS) bad in
  '(res, lexer, _) <- parse_line lexer ;;
  let bad := chk 237 (res =? PARSER_SUCCESS) bad in
  let line_num := line_num + 1 in
  '(res, lexer, tk, instr, _) <- lex_line (C "LABEL2\t\tBCC\tLABEL1\n") lexer tk instr line_num ;;
  let bad := chk 238 (res =? LEXER_SUCCESS) bad in
  '(res, lexer, _) <- parse_line lexer ;;
  let bad := chk 238 (res =? PARSER_SUCCESS) bad in
  let line_num := line_num + 1 in
  '(res, lexer, tk, instr, _) <- lex_line (C "FORREF1\t\tBVC\tL19\n") lexer tk instr line_num ;;
  let bad := chk 239 (res =? LEXER_SUCCESS) bad in
  '(res, lexer, _) <- parse_line lexer ;;
  let bad := chk 239 (res =? PARSER_SUCCESS) bad in
  let line_num := line_num + 1 in
  '(res, lexer, tk, instr, _) <- lex_line (C "LABEL3\t\tJSR\tLABEL2\n") lexer tk instr line_num ;;
  let bad := chk 240 (res =? LEXER_SUCCESS) bad in
  '(res, lexer, _) <- parse_line lexer ;;
  let bad := chk 240 (res =? PARSER_SUCCESS) bad in
  let line_num := line_num + 1 in
  '(res, lexer, tk, instr, _) <- lex_line (C "FORREF2\t\tJMP\tL21\n") lexer tk instr line_num ;;
  let bad := chk 241 (res =? LEXER_SUCCESS) bad in
  '(res, lexer, _) <- parse_line lexer ;;
  let bad := chk 241 (res =? PARSER_SUCCESS) bad in
  let line_num := line_num + 1 in
  '(res, lexer, tk, instr, _) <- lex_line (C "L1\t\tDEY\n") lexer tk instr line_num ;;
  let bad := chk 242 (res =? LEXER_SUCCESS) bad in
  '(res, lexer, _) <- parse_line lexer ;;
  let bad := chk 242 (res =? PARSER_SUCCESS) bad in
  let line_num := line_num + 1 in
  '(res, lexer, tk, instr, _) <- lex_line (C "L2\t\tASL\tA\n") lexer tk instr line_num ;;
  let bad := chk 243 (res =? LEXER_SUCCESS) bad in
  '(res, lexer, _) <- parse_line lexer ;;
  let bad := chk 243 (res =? PARSER_SUCCESS) bad in
  let line_num := line_num + 1 in
  '(res, lexer, tk, instr, _) <- lex_line (C "L3:\t\tSTY\t$AA\n") lexer tk instr line_num ;;
  let bad := chk 244 (res =? LEXER_SUCCESS) bad in
  '(res, lexer, _) <- parse_line lexer ;;
  let bad := chk 244 (res =? PARSER_SUCCESS) bad in
  let line_num := line_num + 1 in
  '(res, lexer, tk, instr, _) <- lex_line (C "L4\t\tROL\tCONSTANT8\n") lexer tk instr line_num ;;
  let bad := chk 245 (res =? LEXER_SUCCESS) bad in
  '(res, lexer, _) <- parse_line lexer ;;
  let bad := chk 245 (res =? PARSER_SUCCESS) bad in
  let line_num := line_num + 1 in
  '(res, lexer, tk, instr, _) <- lex_line (C "L5:\t\tLSR\t$1234\n") lexer tk instr line_num ;;
  let bad := chk 246 (res =? LEXER_SUCCESS) bad in
  '(res, lexer, _) <- parse_line lexer ;;
  let bad := chk 246 (res =? PARSER_SUCCESS) bad in
  let line_num := line_num + 1 in
  '(res, lexer, tk, instr, _) <- lex_line (C "L6\t\tROR\tADDRESS\n") lexer tk instr line_num ;;
  let bad := chk 247 (res =? LEXER_SUCCESS) bad in
  '(res, lexer, _) <- parse_line lexer ;;
  let bad := chk 247 (res =? PARSER_SUCCESS) bad in
  let line_num := line_num + 1 in
  '(res, lexer, tk, instr, _) <- lex_line (C "L7:\t\tLDY\t$BB,X\n") lexer tk instr line_num ;;
  let bad := chk 248 (res =? LEXER_SUCCESS) bad in
  '(res, lexer, _) <- parse_line lexer ;;
  let bad := chk 248 (res =? PARSER_SUCCESS) bad in
  let line_num := line_num + 1 in
  '(res, lexer, tk, instr, _) <- lex_line (C "L8\t\tDEC\tCONSTANT8,X\n") lexer tk instr line_num ;;
  let bad := chk 249 (res =? LEXER_SUCCESS) bad in
  '(res, lexer, _) <- parse_line lexer ;;
  let bad := chk 249 (res =? PARSER_SUCCESS) bad in
  let line_num := line_num + 1 in
  '(res, lexer, tk, instr, _) <- lex_line (C "L9:\t\tINC\t$1000,X\n") lexer tk instr line_num ;;
  let bad := chk 250 (res =? LEXER_SUCCESS) bad in
  '(res, lexer, _) <- parse_line lexer ;;
  let bad := chk 250 (res =? PARSER_SUCCESS) bad in
  let line_num := line_num + 1 in
  '(res, lexer, tk, instr, _) <- lex_line (C "L10\t\tCMP\tCONSTANT16,X\n") lexer tk instr line_num ;;
  let bad := chk 251 (res =? LEXER_SUCCESS) bad in
  '(res, lexer, _) <- parse_line lexer ;;
  let bad := chk 251 (res =? PARSER_SUCCESS) bad in
  let line_num := line_num + 1 in
  '(res, lexer, tk, instr, _) <- lex_line (C "L11:\t\tSTX\t$CC,Y\n") lexer tk instr line_num ;;
  let bad := chk 252 (res =? LEXER_SUCCESS) bad in
  '(res, lexer, _) <- parse_line lexer ;;
  let bad := chk 252 (res =? PARSER_SUCCESS) bad in
  let line_num := line_num + 1 in
  '(res, lexer, tk, instr, _) <- lex_line (C "L12\t\tLDX\tCONSTANT8,Y\n") lexer tk instr line_num ;;
  let bad := chk 253 (res =? LEXER_SUCCESS) bad in
  '(res, lexer, _) <- parse_line lexer ;;
  let bad := chk 253 (res =? PARSER_SUCCESS) bad in
  let line_num := line_num + 1 in
  '(res, lexer, tk, instr, _) <- lex_line (C "L13:\t\tSTA\t$B00B,Y\n") lexer tk instr line_num ;;
  let bad := chk 254 (res =? LEXER_SUCCESS) bad in
  '(res, lexer, _) <- parse_line lexer ;;
  let bad := chk 254 (res =? PARSER_SUCCESS) bad in
  let line_num := line_num + 1 in
  '(res, lexer, tk, instr, _) <- lex_line (C "L14\t\tAND\tADDRESS,Y\n") lexer tk instr line_num ;;
  let bad := chk 255 (res =? LEXER_SUCCESS) bad in
  '(res, lexer, _) <- parse_line lexer ;;
  let bad := chk 255 (res =? PARSER_SUCCESS) bad in
  let line_num := line_num + 1 in
  '(res, lexer, tk, instr, _) <- lex_line (C "L15:\t\tJMP\t($CAFE)\n") lexer tk instr line_num ;;
  let bad := chk 256 (res =? LEXER_SUCCESS) bad in
  '(res, lexer, _) <- parse_line lexer ;;
  let bad := chk 256 (res =? PARSER_SUCCESS) bad in
  let line_num := line_num + 1 in
  '(res, lexer, tk, instr, _) <- lex_line (C "L16\t\tJMP\t(CONSTANT16)\n") lexer tk instr line_num ;;
  let bad := chk 257 (res =? LEXER_SUCCESS) bad in
  '(res, lexer, _) <- parse_line lexer ;;
  let bad := chk 257 (res =? PARSER_SUCCESS) bad in
  let line_num := line_num + 1 in
  '(res, lexer, tk, instr, _) <- lex_line (C "L17:\t\tCPX\t#$DD\n") lexer tk instr line_num ;;
  let bad := chk 258 (res =? LEXER_SUCCESS) bad in
  '(res, lexer, _) <- parse_line lexer ;;
  let bad := chk 258 (res =? PARSER_SUCCESS) bad in
  let line_num := line_num + 1 in
  '(res, lexer, tk, instr, _) <- lex_line (C "L18\t\tLDY\t#CONSTANT8\n") lexer tk instr line_num ;;
  let bad := chk 259 (res =? LEXER_SUCCESS) bad in
  '(res, lexer, _) <- parse_line lexer ;;
  let bad := chk 259 (res =? PARSER_SUCCESS) bad in
  let line_num := line_num + 1 in
  '(res, lexer, tk, instr, _) <- lex_line (C "L19:\t\tADC\t($EE,X)\n") lexer tk instr line_num ;;
  let bad := chk 260 (res =? LEXER_SUCCESS) bad in
  '(res, lexer, _) <- parse_line lexer ;;
  let bad := chk 260 (res =? PARSER_SUCCESS) bad in
  let line_num := line_num + 1 in
  '(res, lexer, tk, instr, _) <- lex_line (C "L20\t\tLDA\t(CONSTANT8,X)\n") lexer tk instr line_num ;;
  let bad := chk 261 (res =? LEXER_SUCCESS) bad in
  '(res, lexer, _) <- parse_line lexer ;;
  let bad := chk 261 (res =? PARSER_SUCCESS) bad in
  let line_num := line_num + 1 in
  '(res, lexer, tk, instr, _) <- lex_line (C "L21:\t\tSTA\t($FF),Y\n") lexer tk instr line_num ;;
  let bad := chk 262 (res =? LEXER_SUCCESS) bad in
  '(res, lexer, _) <- parse_line lexer ;;
  let bad := chk 262 (res =? PARSER_SUCCESS) bad in
  let line_num := line_num + 1 in
  '(res, lexer, tk, instr, _) <- lex_line (C "L22\t\tSBC\t(CONSTANT8),Y\n") lexer tk instr line_num ;;
  let bad := chk 263 (res =? LEXER_SUCCESS) bad in
  '(res, lexer, _) <- parse_line lexer ;;
  let bad := chk 263 (res =? PARSER_SUCCESS) bad in
  let line_num := line_num + 1 in
  '(res, lexer, tk, instr, _) <- lex_line (C "\t\t.END\n") lexer tk instr line_num ;;
  let bad := chk 264 (res =? LEXER_SUCCESS) bad in
  '(res, lexer, _) <- parse_line lexer ;;
  let bad := chk 264 (res =? PARSER_SUCCESS) bad in
  let line_num := line_num + 1 in
  '(res, lexer, tk, instr, _) <- lex_line (C "LDA LDX LDY LOLOL\n") lexer tk instr line_num ;;
  let bad := chk 267 (res =? LEXER_SUCCESS) bad in
  '(res, lexer, _) <- parse_line lexer ;;
  let bad := chk 267 (res =? ERROR_ILLEGAL_SEQUENCE) bad in
  let line_num := line_num + 1 in
  let bad := chk 268 (opt_z_eqb (lx_error_tk lexer) (Some 1)) bad in
  '(res, lexer, tk, instr, _) <- lex_line (C "LDX (),\tX LABEL\n") lexer tk instr line_num ;;
  let bad := chk 270 (res =? LEXER_SUCCESS) bad in
  '(res, lexer, _) <- parse_line lexer ;;
  let bad := chk 270 (res =? ERROR_ILLEGAL_SEQUENCE) bad in
  let line_num := line_num + 1 in
  let bad := chk 271 (opt_z_eqb (lx_error_tk lexer) (Some 2)) bad in
  '(res, lexer, tk, instr, _) <- lex_line (C "LABEL1 LABEL2 STLOOP JANUS YOYOYOEOYEOYOEYO\n") lexer tk instr line_num ;;
  let bad := chk 273 (res =? LEXER_SUCCESS) bad in
  '(res, lexer, _) <- parse_line lexer ;;
  let bad := chk 273 (res =? ERROR_ILLEGAL_SEQUENCE) bad in
  let line_num := line_num + 1 in
  let bad := chk 274 (opt_z_eqb (lx_error_tk lexer) (Some 1)) bad in
  '(res, lexer, tk, instr, _) <- lex_line (C "sexy === $ffff\n") lexer tk instr line_num ;;
  let bad := chk 276 (res =? LEXER_SUCCESS) bad in
  '(res, lexer, _) <- parse_line lexer ;;
  let bad := chk 276 (res =? ERROR_ILLEGAL_SEQUENCE) bad in
  let line_num := line_num + 1 in
  let bad := chk 277 (opt_z_eqb (lx_error_tk lexer) (Some 2)) bad in
  '(res, lexer, tk, instr, _) <- lex_line (C "LDA X\n") lexer tk instr line_num ;;
  let bad := chk 279 (res =? LEXER_SUCCESS) bad in
  '(res, lexer, _) <- parse_line lexer ;;
  let bad := chk 279 (res =? ERROR_ILLEGAL_SEQUENCE) bad in
  let line_num := line_num + 1 in
  let bad := chk 280 (opt_z_eqb (lx_error_tk lexer) (Some 1)) bad in
  '(res, lexer, tk, instr, _) <- lex_line (C "number .define $9999") lexer tk instr line_num ;;
  let bad := chk 282 (res =? LEXER_SUCCESS) bad in
  '(res, lexer, _) <- parse_line lexer ;;
  let bad := chk 282 (res =? ERROR_ILLEGAL_SEQUENCE) bad in
  let line_num := line_num + 1 in
  let bad := chk 283 (opt_z_eqb (lx_error_tk lexer) (Some 1)) bad in
  '(res, lexer, tk, instr, _) <- lex_line (C ".equ wow $666") lexer tk instr line_num ;;
  let bad := chk 285 (res =? LEXER_SUCCESS) bad in
  '(res, lexer, _) <- parse_line lexer ;;
  let bad := chk 285 (res =? ERROR_ILLEGAL_SEQUENCE) bad in
  let line_num := line_num + 1 in
  let bad := chk 286 (opt_z_eqb (lx_error_tk lexer) (Some 0)) bad in
  '(res, lexer, tk, instr, _) <- lex_line (C ".END ZP,X") lexer tk instr line_num ;;
  let bad := chk 288 (res =? LEXER_SUCCESS) bad in
  '(res, lexer, _) <- parse_line lexer ;;
  let bad := chk 288 (res =? ERROR_ILLEGAL_SEQUENCE) bad in
  let line_num := line_num + 1 in
  let bad := chk 289 (opt_z_eqb (lx_error_tk lexer) (Some 1)) bad in
  '(res, lexer, tk, instr, _) <- lex_line (C ".ORG CONSTANT16") lexer tk instr line_num ;;
  let bad := chk 291 (res =? LEXER_SUCCESS) bad in
  '(res, lexer, _) <- parse_line lexer ;;
  let bad := chk 291 (res =? ERROR_ILLEGAL_SEQUENCE) bad in
  let line_num := line_num + 1 in
  let bad := chk 292 (opt_z_eqb (lx_error_tk lexer) (Some 1)) bad in
  '(res, lexer, tk, instr, _) <- lex_line (C "LSR A,X\n") lexer tk instr line_num ;;
  let bad := chk 294 (res =? LEXER_SUCCESS) bad in
  '(res, lexer, _) <- parse_line lexer ;;
  let bad := chk 294 (res =? ERROR_ILLEGAL_SEQUENCE) bad in
  let line_num := line_num + 1 in
  let bad := chk 295 (opt_z_eqb (lx_error_tk lexer) (Some 2)) bad in
  '(res, lexer, tk, instr, _) <- lex_line (C "\n") lexer tk instr line_num ;;
  let bad := chk 298 (res =? LEXER_SUCCESS) bad in
  '(res, lexer, _) <- parse_line lexer ;;
  let bad := chk 298 (res =? PARSER_SUCCESS) bad in
  let line_num := line_num + 1 in
  let bad := chk 299 (opt_z_eqb (lx_error_tk lexer) None) bad in
  '(res, lexer, tk, instr, _) <- lex_line (C "\r\n") lexer tk instr line_num ;;
  let bad := chk 301 (res =? LEXER_SUCCESS) bad in
  '(res, lexer, _) <- parse_line lexer ;;
  let bad := chk 301 (res =? PARSER_SUCCESS) bad in
  let line_num := line_num + 1 in
  let bad := chk 302 (opt_z_eqb (lx_error_tk lexer) None) bad in
  '(res, lexer, tk, instr, _) <- lex_line (C "   \t\t  \t  \n") lexer tk instr line_num ;;
  let bad := chk 304 (res =? LEXER_SUCCESS) bad in
  '(res, lexer, _) <- parse_line lexer ;;
  let bad := chk 304 (res =? PARSER_SUCCESS) bad in
  let line_num := line_num + 1 in
  let bad := chk 305 (opt_z_eqb (lx_error_tk lexer) None) bad in
  '(res, lexer, tk, instr, _) <- lex_line (C ";lolololol\r\n") lexer tk instr line_num ;;
  let bad := chk 307 (res =? LEXER_SUCCESS) bad in
  '(res, lexer, _) <- parse_line lexer ;;
  let bad := chk 307 (res =? PARSER_SUCCESS) bad in
  let line_num := line_num + 1 in
  let bad := chk 308 (opt_z_eqb (lx_error_tk lexer) None) bad in
  Ret (rev bad).
Example test_parse_line_passes : test_parse_line = Ret [].
Proof. vm_compute. reflexivity. Qed.

(** test_parse_label_declaration: 120 assertions *)
Definition test_parse_label_declaration : M (list Z) :=
  let bad := @nil Z in
  let lexer := init_lexer (C "test_parse_label_declaration.asm") in
  let tk := init_token in
  let instr := init_instruction in
  let symtab := init_symbol_table in
  let line_num := (1) in
  '(res, lexer, tk, instr, _) <- lex_line (C "ADDRESS\t\t=\t$ABCD\n") lexer tk instr line_num ;;
  let bad := chk 336 (res =? LEXER_SUCCESS) bad in
  '(res, lexer, symtab, _) <- parse_label_declaration true true lexer symtab 0 ;;
  let bad := chk 336 (res =? SYMBOL_INSERTION_SUCCESS) bad in
  t <- get (lx_seq lexer) (0) ;;
  res <- search_symbol symtab (tk_str t) ;;
  let bad := chk 336 (res =? 43981) bad in
  t <- get (lx_seq lexer) (0) ;;
  let bad := chk 336 ((tk_value t) =? 43981) bad in
  let line_num := line_num + 1 in
  '(res, lexer, tk, instr, _) <- lex_line (C "CONSTANT8\t=\t$7F\n") lexer tk instr line_num ;;
  let bad := chk 337 (res =? LEXER_SUCCESS) bad in
  '(res, lexer, symtab, _) <- parse_label_declaration true true lexer symtab 0 ;;
  let bad := chk 337 (res =? SYMBOL_INSERTION_SUCCESS) bad in
  t <- get (lx_seq lexer) (0) ;;
  res <- search_symbol symtab (tk_str t) ;;
  let bad := chk 337 (res =? 127) bad in
  t <- get (lx_seq lexer) (0) ;;
  let bad := chk 337 ((tk_value t) =? 127) bad in
  let line_num := line_num + 1 in
  '(res, lexer, tk, instr, _) <- lex_line (C "CONSTANT16\t=\t$1111\n") lexer tk instr line_num ;;
  let bad := chk 338 (res =? LEXER_SUCCESS) bad in
  '(res, lexer, symtab, _) <- parse_label_declaration true true lexer symtab 0 ;;
  let bad := chk 338 (res =? SYMBOL_INSERTION_SUCCESS) bad in
  t <- get (lx_seq lexer) (0) ;;
  res <- search_symbol symtab (tk_str t) ;;
  let bad := chk 338 (res =? 4369) bad in
  t <- get (lx_seq lexer) (0) ;;
  let bad := chk 338 ((tk_value t) =? 4369) bad in
  let line_num := line_num + 1 in
  '(res, lexer, tk, instr, _) <- lex_line (C "LABEL1:\n") lexer tk instr line_num ;;
  let bad := chk 340 (res =? LEXER_SUCCESS) bad in
  '(res, lexer, symtab, _) <- parse_label_declaration true true lexer symtab 2 ;;
  let bad := chk 340 (res =? SYMBOL_INSERTION_SUCCESS) bad in
  t <- get (lx_seq lexer) (0) ;;
  res <- search_symbol symtab (tk_str t) ;;
  let bad := chk 340 (res =? 2) bad in
  t <- get (lx_seq lexer) (0) ;;
  let bad := chk 340 ((tk_value t) =? 2) bad in
  let line_num := line_num + 1 in
  '(res, lexer, tk, instr, _) <- lex_line (C "DIRECTIVE1\t.EQU\t$4000\n") lexer tk instr line_num ;;
  let bad := chk 341 (res =? LEXER_SUCCESS) bad in
  '(res, lexer, symtab, _) <- parse_label_declaration true true lexer symtab 2 ;;
  let bad := chk 341 (res =? SYMBOL_INSERTION_SUCCESS) bad in
  t <- get (lx_seq lexer) (0) ;;
  res <- search_symbol symtab (tk_str t) ;;
  let bad := chk 341 (res =? 16384) bad in
  t <- get (lx_seq lexer) (0) ;;
  let bad := chk 341 ((tk_value t) =? 16384) bad in
  let line_num := line_num + 1 in
  '(res, lexer, tk, instr, _) <- lex_line (C ".DEFINE\tDIRECTIVE2\t$8000\n") lexer tk instr line_num ;;
  let bad := chk 342 (res =? LEXER_SUCCESS) bad in
  '(res, lexer, symtab, _) <- parse_label_declaration true true lexer symtab 2 ;;
  let bad := chk 342 (res =? SYMBOL_INSERTION_SUCCESS) bad in
  t <- get (lx_seq lexer) (1) ;;
  res <- search_symbol symtab (tk_str t) ;;
  let bad := chk 342 (res =? 32768) bad in
  t <- get (lx_seq lexer) (1) ;;
  let bad := chk 342 ((tk_value t) =? 32768) bad in
  let line_num := line_num + 1 in
  '(res, lexer, tk, instr, _) <- lex_line (C "L1\t\tDEY\n") lexer tk instr line_num ;;
  let bad := chk 345 (res =? LEXER_SUCCESS) bad in
  '(res, lexer, symtab, _) <- parse_label_declaration true true lexer symtab 2 ;;
  let bad := chk 345 (res =? SYMBOL_INSERTION_SUCCESS) bad in
  t <- get (lx_seq lexer) (0) ;;
  res <- search_symbol symtab (tk_str t) ;;
  let bad := chk 345 (res =? 2) bad in
  t <- get (lx_seq lexer) (0) ;;
  let bad := chk 345 ((tk_value t) =? 2) bad in
  let line_num := line_num + 1 in
  '(res, lexer, tk, instr, _) <- lex_line (C "L2\t\tASL\tA\n") lexer tk instr line_num ;;
  let bad := chk 346 (res =? LEXER_SUCCESS) bad in
  '(res, lexer, symtab, _) <- parse_label_declaration true true lexer symtab 2 ;;
  let bad := chk 346 (res =? SYMBOL_INSERTION_SUCCESS) bad in
  t <- get (lx_seq lexer) (0) ;;
  res <- search_symbol symtab (tk_str t) ;;
  let bad := chk 346 (res =? 2) bad in
  t <- get (lx_seq lexer) (0) ;;
  let bad := chk 346 ((tk_value t) =? 2) bad in
  let line_num := line_num + 1 in
  '(res, lexer, tk, instr, _) <- lex_line (C "L3:\t\tSTY\t$AA\n") lexer tk instr line_num ;;
  let bad := chk 347 (res =? LEXER_SUCCESS) bad in
  '(res, lexer, symtab, _) <- parse_label_declaration true true lexer symtab 2 ;;
  let bad := chk 347 (res =? SYMBOL_INSERTION_SUCCESS) bad in
  t <- get (lx_seq lexer) (0) ;;
  res <- search_symbol symtab (tk_str t) ;;
  let bad := chk 347 (res =? 2) bad in
  t <- get (lx_seq lexer) (0) ;;
  let bad := chk 347 ((tk_value t) =? 2) bad in
  let line_num := line_num + 1 in
  '(res, lexer, tk, instr, _) <- lex_line (C "L4\t\tROL\tCONSTANT8\n") lexer tk instr line_num ;;
  let bad := chk 348 (res =? LEXER_SUCCESS) bad in
  '(res, lexer, symtab, _) <- parse_label_declaration true true lexer symtab 2 ;;
  let bad := chk 348 (res =? SYMBOL_INSERTION_SUCCESS) bad in
  t <- get (lx_seq lexer) (0) ;;
  res <- search_symbol symtab (tk_str t) ;;
  let bad := chk 348 (res =? 2) bad in
  t <- get (lx_seq lexer) (0) ;;
  let bad := chk 348 ((tk_value t) =? 2) bad in
  let line_num := line_num + 1 in
  '(res, lexer, tk, instr, _) <- lex_line (C "L5:\t\tLSR\t$1234\n") lexer tk instr line_num ;;
  let bad := chk 349 (res =? LEXER_SUCCESS) bad in
  '(res, lexer, symtab, _) <- parse_label_declaration true true lexer symtab 2 ;;
  let bad := chk 349 (res =? SYMBOL_INSERTION_SUCCESS) bad in
  t <- get (lx_seq lexer) (0) ;;
  res <- search_symbol symtab (tk_str t) ;;
  let bad := chk 349 (res =? 2) bad in
  t <- get (lx_seq lexer) (0) ;;
  let bad := chk 349 ((tk_value t) =? 2) bad in
  let line_num := line_num + 1 in
  '(res, lexer, tk, instr, _) <- lex_line (C "L6\t\tROR\tADDRESS\n") lexer tk instr line_num ;;
  let bad := chk 350 (res =? LEXER_SUCCESS) bad in
  '(res, lexer, symtab, _) <- parse_label_declaration true true lexer symtab 2 ;;
  let bad := chk 350 (res =? SYMBOL_INSERTION_SUCCESS) bad in
  t <- get (lx_seq lexer) (0) ;;
  res <- search_symbol symtab (tk_str t) ;;
  let bad := chk 350 (res =? 2) bad in
  t <- get (lx_seq lexer) (0) ;;
  let bad := chk 350 ((tk_value t) =? 2) bad in
  let line_num := line_num + 1 in
  '(res, lexer, tk, instr, _) <- lex_line (C "L7:\t\tLDY\t$BB,X\n") lexer tk instr line_num ;;
  let bad := chk 351 (res =? LEXER_SUCCESS) bad in
  '(res, lexer, symtab, _) <- parse_label_declaration true true lexer symtab 2 ;;
  let bad := chk 351 (res =? SYMBOL_INSERTION_SUCCESS) bad in
  t <- get (lx_seq lexer) (0) ;;
  res <- search_symbol symtab (tk_str t) ;;
  let bad := chk 351 (res =? 2) bad in
  t <- get (lx_seq lexer) (0) ;;
  let bad := chk 351 ((tk_value t) =? 2) bad in
  let line_num := line_num + 1 in
  '(res, lexer, tk, instr, _) <- lex_line (C "L8\t\tDEC\tCONSTANT8,X\n") lexer tk instr line_num ;;
  let bad := chk 352 (res =? LEXER_SUCCESS) bad in
  '(res, lexer, symtab, _) <- parse_label_declaration true true lexer symtab 2 ;;
  let bad := chk 352 (res =? SYMBOL_INSERTION_SUCCESS) bad in
  t <- get (lx_seq lexer) (0) ;;
  res <- search_symbol symtab (tk_str t) ;;
  let bad := chk 352 (res =? 2) bad in
  t <- get (lx_seq lexer) (0) ;;
  let bad := chk 352 ((tk_value t) =? 2) bad in
  let line_num := line_num + 1 in
  '(res, lexer, tk, instr, _) <- lex_line (C "L9:\t\tINC\t$1000,X\n") lexer tk instr line_num ;;
  let bad := chk 353 (res =? LEXER_SUCCESS) bad in
  '(res, lexer, symtab, _) <- parse_label_declaration true true lexer symtab 2 ;;
  let bad := chk 353 (res =? SYMBOL_INSERTION_SUCCESS) bad in
  t <- get (lx_seq lexer) (0) ;;
  res <- search_symbol symtab (tk_str t) ;;
  let bad := chk 353 (res =? 2) bad in
  t <- get (lx_seq lexer) (0) ;;
  let bad := chk 353 ((tk_value t) =? 2) bad in
  let line_num := line_num + 1 in
  '(res, lexer, tk, instr, _) <- lex_line (C "L10\t\tCMP\tCONSTANT16,X\n") lexer tk instr line_num ;;
  let bad := chk 354 (res =? LEXER_SUCCESS) bad in
  '(res, lexer, symtab, _) <- parse_label_declaration true true lexer symtab 2 ;;
  let bad := chk 354 (res =? SYMBOL_INSERTION_SUCCESS) bad in
  t <- get (lx_seq lexer) (0) ;;
  res <- search_symbol symtab (tk_str t) ;;
  let bad := chk 354 (res =? 2) bad in
  t <- get (lx_seq lexer) (0) ;;
  let bad := chk 354 ((tk_value t) =? 2) bad in
  let line_num := line_num + 1 in
  '(res, lexer, tk, instr, _) <- lex_line (C "L11:\t\tSTX\t$CC,Y\n") lexer tk instr line_num ;;
  let bad := chk 355 (res =? LEXER_SUCCESS) bad in
  '(res, lexer, symtab, _) <- parse_label_declaration true true lexer symtab 2 ;;
  let bad := chk 355 (res =? SYMBOL_INSERTION_SUCCESS) bad in
  t <- get (lx_seq lexer) (0) ;;
  res <- search_symbol symtab (tk_str t) ;;
  let bad := chk 355 (res =? 2) bad in
  t <- get (lx_seq lexer) (0) ;;
  let bad := chk 355 ((tk_value t) =? 2) bad in
  let line_num := line_num + 1 in
  '(res, lexer, tk, instr, _) <- lex_line (C "L12\t\tLDX\tCONSTANT8,Y\n") lexer tk instr line_num ;;
  let bad := chk 356 (res =? LEXER_SUCCESS) bad in
  '(res, lexer, symtab, _) <- parse_label_declaration true true lexer symtab 2 ;;
  let bad := chk 356 (res =? SYMBOL_INSERTION_SUCCESS) bad in
  t <- get (lx_seq lexer) (0) ;;
  res <- search_symbol symtab (tk_str t) ;;
  let bad := chk 356 (res =? 2) bad in
  t <- get (lx_seq lexer) (0) ;;
  let bad := chk 356 ((tk_value t) =? 2) bad in
  let line_num := line_num + 1 in
  '(res, lexer, tk, instr, _) <- lex_line (C "L13:\t\tSTA\t$B00B,Y\n") lexer tk instr line_num ;;
  let bad := chk 357 (res =? LEXER_SUCCESS) bad in
  '(res, lexer, symtab, _) <- parse_label_declaration true true lexer symtab 2 ;;
  let bad := chk 357 (res =? SYMBOL_INSERTION_SUCCESS) bad in
  t <- get (lx_seq lexer) (0) ;;
  res <- search_symbol symtab (tk_str t) ;;
  let bad := chk 357 (res =? 2) bad in
  t <- get (lx_seq lexer) (0) ;;
  let bad := chk 357 ((tk_value t) =? 2) bad in
  let line_num := line_num + 1 in
  '(res, lexer, tk, instr, _) <- lex_line (C "L14\t\tAND\tADDRESS,Y\n") lexer tk instr line_num ;;
  let bad := chk 358 (res =? LEXER_SUCCESS) bad in
  '(res, lexer, symtab, _) <- parse_label_declaration true true lexer symtab 2 ;;
  let bad := chk 358 (res =? SYMBOL_INSERTION_SUCCESS) bad in
  t <- get (lx_seq lexer) (0) ;;
  res <- search_symbol symtab (tk_str t) ;;
  let bad := chk 358 (res =? 2) bad in
  t <- get (lx_seq lexer) (0) ;;
  let bad := chk 358 ((tk_value t) =? 2) bad in
  let line_num := line_num + 1 in
  '(res, lexer, tk, instr, _) <- lex_line (C "L15:\t\tJMP\t($CAFE)\n") lexer tk instr line_num ;;
  let bad := chk 359 (res =? LEXER_SUCCESS) bad in
  '(res, lexer, symtab, _) <- parse_label_declaration true true lexer symtab 2 ;;
  let bad := chk 359 (res =? SYMBOL_INSERTION_SUCCESS) bad in
  t <- get (lx_seq lexer) (0) ;;
  res <- search_symbol symtab (tk_str t) ;;
  let bad := chk 359 (res =? 2) bad in
  t <- get (lx_seq lexer) (0) ;;
  let bad := chk 359 ((tk_value t) =? 2) bad in
  let line_num := line_num + 1 in
  '(res, lexer, tk, instr, _) <- lex_line (C "L16\t\tJMP\t(CONSTANT16)\n") lexer tk instr line_num ;;
  let bad := chk 360 (res =? LEXER_SUCCESS) bad in
  '(res, lexer, symtab, _) <- parse_label_declaration true true lexer symtab 2 ;;
  let bad := chk 360 (res =? SYMBOL_INSERTION_SUCCESS) bad in
  t <- get (lx_seq lexer) (0) ;;
  res <- search_symbol symtab (tk_str t) ;;
  let bad := chk 360 (res =? 2) bad in
  t <- get (lx_seq lexer) (0) ;;
  let bad := chk 360 ((tk_value t) =? 2) bad in
  let line_num := line_num + 1 in
  '(res, lexer, tk, instr, _) <- lex_line (C "L17:\t\tCPX\t#$DD\n") lexer tk instr line_num ;;
  let bad := chk 361 (res =? LEXER_SUCCESS) bad in
  '(res, lexer, symtab, _) <- parse_label_declaration true true lexer symtab 2 ;;
  let bad := chk 361 (res =? SYMBOL_INSERTION_SUCCESS) bad in
  t <- get (lx_seq lexer) (0) ;;
  res <- search_symbol symtab (tk_str t) ;;
  let bad := chk 361 (res =? 2) bad in
  t <- get (lx_seq lexer) (0) ;;
  let bad := chk 361 ((tk_value t) =? 2) bad in
  let line_num := line_num + 1 in
  '(res, lexer, tk, instr, _) <- lex_line (C "L18\t\tLDY\t#CONSTANT8\n") lexer tk instr line_num ;;
  let bad := chk 362 (res =? LEXER_SUCCESS) bad in
  '(res, lexer, symtab, _) <- parse_label_declaration true true lexer symtab 2 ;;
  let bad := chk 362 (res =? SYMBOL_INSERTION_SUCCESS) bad in
  t <- get (lx_seq lexer) (0) ;;
  res <- search_symbol symtab (tk_str t) ;;
  let bad := chk 362 (res =? 2) bad in
  t <- get (lx_seq lexer) (0) ;;
  let bad := chk 362 ((tk_value t) =? 2) bad in
  let line_num := line_num + 1 in
  '(res, lexer, tk, instr, _) <- lex_line (C "L19:\t\tADC\t($EE,X)\n") lexer tk instr line_num ;;
  let bad := chk 363 (res =? LEXER_SUCCESS) bad in
  '(res, lexer, symtab, _) <- parse_label_declaration true true lexer symtab 2 ;;
  let bad := chk 363 (res =? SYMBOL_INSERTION_SUCCESS) bad in
  t <- get (lx_seq lexer) (0) ;;
  res <- search_symbol symtab (tk_str t) ;;
  let bad := chk 363 (res =? 2) bad in
  t <- get (lx_seq lexer) (0) ;;
  let bad := chk 363 ((tk_value t) =? 2) bad in
  let line_num := line_num + 1 in
  '(res, lexer, tk, instr, _) <- lex_line (C "L20\t\tLDA\t(CONSTANT8,X)\n") lexer tk instr line_num ;;
  let bad := chk 364 (res =? LEXER_SUCCESS) bad in
  '(res, lexer, symtab, _) <- parse_label_declaration true true lexer symtab 2 ;;
  let bad := chk 364 (res =? SYMBOL_INSERTION_SUCCESS) bad in
  t <- get (lx_seq lexer) (0) ;;
  res <- search_symbol symtab (tk_str t) ;;
  let bad := chk 364 (res =? 2) bad in
  t <- get (lx_seq lexer) (0) ;;
  let bad := chk 364 ((tk_value t) =? 2) bad in
  let line_num := line_num + 1 in
  '(res, lexer, tk, instr, _) <- lex_line (C "L21:\t\tSTA\t($FF),Y\n") lexer tk instr line_num ;;
  let bad := chk 365 (res =? LEXER_SUCCESS) bad in
  '(res, lexer, symtab, _) <- parse_label_declaration true true lexer symtab 2 ;;
  let bad := chk 365 (res =? SYMBOL_INSERTION_SUCCESS) bad in
  t <- get (lx_seq lexer) (0) ;;
  res <- search_symbol symtab (tk_str t) ;;
  let bad := chk 365 (res =? 2) bad in
  t <- get (lx_seq lexer) (0) ;;
  let bad := chk 365 ((tk_value t) =? 2) bad in
  let line_num := line_num + 1 in
  '(res, lexer, tk, instr, _) <- lex_line (C "L22\t\tSBC\t(CONSTANT8),Y\n") lexer tk instr line_num ;;
  let bad := chk 366 (res =? LEXER_SUCCESS) bad in
  '(res, lexer, symtab, _) <- parse_label_declaration true true lexer symtab 2 ;;
  let bad := chk 366 (res =? SYMBOL_INSERTION_SUCCESS) bad in
  t <- get (lx_seq lexer) (0) ;;
  res <- search_symbol symtab (tk_str t) ;;
  let bad := chk 366 (res =? 2) bad in
  t <- get (lx_seq lexer) (0) ;;
  let bad := chk 366 ((tk_value t) =? 2) bad in
  let line_num := line_num + 1 in
  '(res, lexer, tk, instr, _) <- lex_line (C "CONSTANT16\t\t=\t$1234\n") lexer tk instr line_num ;;
  let line_num := line_num + 1 in
  let bad := chk 370 (res =? LEXER_SUCCESS) bad in
  '(res, lexer, symtab, _) <- parse_label_declaration true true lexer symtab 2 ;;
  let bad := chk 371 (res =? ERROR_LABEL_REDEFINITION) bad in
  let bad := chk 372 (opt_z_eqb (lx_error_tk lexer) (Some 0)) bad in
  t <- get (lx_seq lexer) (0) ;;
  res <- search_symbol symtab (tk_str t) ;;
  let bad := chk 374 (res =? 4369) bad in
  '(res, lexer, tk, instr, _) <- lex_line (C "LABEL1          TXA\n") lexer tk instr line_num ;;
  let line_num := line_num + 1 in
  let bad := chk 378 (res =? LEXER_SUCCESS) bad in
  '(res, lexer, symtab, _) <- parse_label_declaration true true lexer symtab 2 ;;
  let bad := chk 379 (res =? ERROR_LABEL_REDEFINITION) bad in
  t <- get (lx_seq lexer) (0) ;;
  res <- search_symbol symtab (tk_str t) ;;
  let bad := chk 380 (res =? 2) bad in
  let bad := chk 381 (opt_z_eqb (lx_error_tk lexer) (Some 0)) bad in
  Ret (rev bad).
Example test_parse_label_declaration_passes : test_parse_label_declaration = Ret [].
Proof. vm_compute. reflexivity. Qed.

(** test_find_operand: 88 assertions *)
Definition test_find_operand : M (list Z) :=
  let bad := @nil Z in
  let lexer := init_lexer (C "test_find_operand.asm") in
  let tk := init_token in
  let instr := init_instruction in
  let line_num := (1) in
  '(res, lexer, tk, instr, _) <- lex_line (C "\t\tINX\n") lexer tk instr line_num ;;
  let bad := chk 408 (res =? LEXER_SUCCESS) bad in
  res <- find_operand lexer ;;
  let bad := chk 408 (opt_z_eqb res None) bad in
  let line_num := line_num + 1 in
  '(res, lexer, tk, instr, _) <- lex_line (C "\t\tROL\tA\n") lexer tk instr line_num ;;
  let bad := chk 409 (res =? LEXER_SUCCESS) bad in
  res <- find_operand lexer ;;
  let bad := chk 409 (opt_z_eqb res (Some 1)) bad in
  let line_num := line_num + 1 in
  '(res, lexer, tk, instr, _) <- lex_line (C "\t\tORA\t$AA\n") lexer tk instr line_num ;;
  let bad := chk 410 (res =? LEXER_SUCCESS) bad in
  res <- find_operand lexer ;;
  let bad := chk 410 (opt_z_eqb res (Some 1)) bad in
  let line_num := line_num + 1 in
  '(res, lexer, tk, instr, _) <- lex_line (C "\t\tASL\tCONSTANT8\n") lexer tk instr line_num ;;
  let bad := chk 411 (res =? LEXER_SUCCESS) bad in
  res <- find_operand lexer ;;
  let bad := chk 411 (opt_z_eqb res (Some 1)) bad in
  let line_num := line_num + 1 in
  '(res, lexer, tk, instr, _) <- lex_line (C "\t\tLDA\t$1234\n") lexer tk instr line_num ;;
  let bad := chk 412 (res =? LEXER_SUCCESS) bad in
  res <- find_operand lexer ;;
  let bad := chk 412 (opt_z_eqb res (Some 1)) bad in
  let line_num := line_num + 1 in
  '(res, lexer, tk, instr, _) <- lex_line (C "\t\tCPY\tADDRESS\n") lexer tk instr line_num ;;
  let bad := chk 413 (res =? LEXER_SUCCESS) bad in
  res <- find_operand lexer ;;
  let bad := chk 413 (opt_z_eqb res (Some 1)) bad in
  let line_num := line_num + 1 in
  '(res, lexer, tk, instr, _) <- lex_line (C "\t\tSBC\t$BB,X\n") lexer tk instr line_num ;;
  let bad := chk 414 (res =? LEXER_SUCCESS) bad in
  res <- find_operand lexer ;;
  let bad := chk 414 (opt_z_eqb res (Some 1)) bad in
  let line_num := line_num + 1 in
  '(res, lexer, tk, instr, _) <- lex_line (C "\t\tROR\tCONSTANT8,X\n") lexer tk instr line_num ;;
  let bad := chk 415 (res =? LEXER_SUCCESS) bad in
  res <- find_operand lexer ;;
  let bad := chk 415 (opt_z_eqb res (Some 1)) bad in
  let line_num := line_num + 1 in
  '(res, lexer, tk, instr, _) <- lex_line (C "\t\tINC\t$1000,X\n") lexer tk instr line_num ;;
  let bad := chk 416 (res =? LEXER_SUCCESS) bad in
  res <- find_operand lexer ;;
  let bad := chk 416 (opt_z_eqb res (Some 1)) bad in
  let line_num := line_num + 1 in
  '(res, lexer, tk, instr, _) <- lex_line (C "\t\tCMP\tCONSTANT16,X\n") lexer tk instr line_num ;;
  let bad := chk 417 (res =? LEXER_SUCCESS) bad in
  res <- find_operand lexer ;;
  let bad := chk 417 (opt_z_eqb res (Some 1)) bad in
  let line_num := line_num + 1 in
  '(res, lexer, tk, instr, _) <- lex_line (C "\t\tSTX\t$CC,Y\n") lexer tk instr line_num ;;
  let bad := chk 418 (res =? LEXER_SUCCESS) bad in
  res <- find_operand lexer ;;
  let bad := chk 418 (opt_z_eqb res (Some 1)) bad in
  let line_num := line_num + 1 in
  '(res, lexer, tk, instr, _) <- lex_line (C "\t\tLDX\tCONSTANT8,Y\n") lexer tk instr line_num ;;
  let bad := chk 419 (res =? LEXER_SUCCESS) bad in
  res <- find_operand lexer ;;
  let bad := chk 419 (opt_z_eqb res (Some 1)) bad in
  let line_num := line_num + 1 in
  '(res, lexer, tk, instr, _) <- lex_line (C "\t\tSTA\t$DEAD,Y\n") lexer tk instr line_num ;;
  let bad := chk 420 (res =? LEXER_SUCCESS) bad in
  res <- find_operand lexer ;;
  let bad := chk 420 (opt_z_eqb res (Some 1)) bad in
  let line_num := line_num + 1 in
  '(res, lexer, tk, instr, _) <- lex_line (C "\t\tAND\tADDRESS,Y\n") lexer tk instr line_num ;;
  let bad := chk 421 (res =? LEXER_SUCCESS) bad in
  res <- find_operand lexer ;;
  let bad := chk 421 (opt_z_eqb res (Some 1)) bad in
  let line_num := line_num + 1 in
  '(res, lexer, tk, instr, _) <- lex_line (C "\t\tJMP\t($FACE)\n") lexer tk instr line_num ;;
  let bad := chk 422 (res =? LEXER_SUCCESS) bad in
  res <- find_operand lexer ;;
  let bad := chk 422 (opt_z_eqb res (Some 2)) bad in
  let line_num := line_num + 1 in
  '(res, lexer, tk, instr, _) <- lex_line (C "\t\tJMP\t(ADDRESS)\n") lexer tk instr line_num ;;
  let bad := chk 423 (res =? LEXER_SUCCESS) bad in
  res <- find_operand lexer ;;
  let bad := chk 423 (opt_z_eqb res (Some 2)) bad in
  let line_num := line_num + 1 in
  '(res, lexer, tk, instr, _) <- lex_line (C "\t\tEOR\t#$DD\n") lexer tk instr line_num ;;
  let bad := chk 424 (res =? LEXER_SUCCESS) bad in
  res <- find_operand lexer ;;
  let bad := chk 424 (opt_z_eqb res (Some 2)) bad in
  let line_num := line_num + 1 in
  '(res, lexer, tk, instr, _) <- lex_line (C "\t\tLDY\t#CONSTANT8\n") lexer tk instr line_num ;;
  let bad := chk 425 (res =? LEXER_SUCCESS) bad in
  res <- find_operand lexer ;;
  let bad := chk 425 (opt_z_eqb res (Some 2)) bad in
  let line_num := line_num + 1 in
  '(res, lexer, tk, instr, _) <- lex_line (C "\t\tADC\t($EE,X)\n") lexer tk instr line_num ;;
  let bad := chk 426 (res =? LEXER_SUCCESS) bad in
  res <- find_operand lexer ;;
  let bad := chk 426 (opt_z_eqb res (Some 2)) bad in
  let line_num := line_num + 1 in
  '(res, lexer, tk, instr, _) <- lex_line (C "\t\tLDA\t(CONSTANT8,X)\n") lexer tk instr line_num ;;
  let bad := chk 427 (res =? LEXER_SUCCESS) bad in
  res <- find_operand lexer ;;
  let bad := chk 427 (opt_z_eqb res (Some 2)) bad in
  let line_num := line_num + 1 in
  '(res, lexer, tk, instr, _) <- lex_line (C "\t\tSTA\t($FF),Y\n") lexer tk instr line_num ;;
  let bad := chk 428 (res =? LEXER_SUCCESS) bad in
  res <- find_operand lexer ;;
  let bad := chk 428 (opt_z_eqb res (Some 2)) bad in
  let line_num := line_num + 1 in
  '(res, lexer, tk, instr, _) <- lex_line (C "\t\tSBC\t(CONSTANT8),Y\n") lexer tk instr line_num ;;
  let bad := chk 429 (res =? LEXER_SUCCESS) bad in
  res <- find_operand lexer ;;
  let bad := chk 429 (opt_z_eqb res (Some 2)) bad in
  let line_num := line_num + 1 in
  '(res, lexer, tk, instr, _) <- lex_line (C "L1\t\tDEY\n") lexer tk instr line_num ;;
  let bad := chk 430 (res =? LEXER_SUCCESS) bad in
  res <- find_operand lexer ;;
  let bad := chk 430 (opt_z_eqb res None) bad in
  let line_num := line_num + 1 in
  '(res, lexer, tk, instr, _) <- lex_line (C "L2\t\tASL\tA\n") lexer tk instr line_num ;;
  let bad := chk 431 (res =? LEXER_SUCCESS) bad in
  res <- find_operand lexer ;;
  let bad := chk 431 (opt_z_eqb res (Some 2)) bad in
  let line_num := line_num + 1 in
  '(res, lexer, tk, instr, _) <- lex_line (C "L3:\t\tSTY\t$AA\n") lexer tk instr line_num ;;
  let bad := chk 432 (res =? LEXER_SUCCESS) bad in
  res <- find_operand lexer ;;
  let bad := chk 432 (opt_z_eqb res (Some 2)) bad in
  let line_num := line_num + 1 in
  '(res, lexer, tk, instr, _) <- lex_line (C "L4\t\tROL\tCONSTANT8\n") lexer tk instr line_num ;;
  let bad := chk 433 (res =? LEXER_SUCCESS) bad in
  res <- find_operand lexer ;;
  let bad := chk 433 (opt_z_eqb res (Some 2)) bad in
  let line_num := line_num + 1 in
  '(res, lexer, tk, instr, _) <- lex_line (C "L5:\t\tLSR\t$1234\n") lexer tk instr line_num ;;
  let bad := chk 434 (res =? LEXER_SUCCESS) bad in
  res <- find_operand lexer ;;
  let bad := chk 434 (opt_z_eqb res (Some 2)) bad in
  let line_num := line_num + 1 in
  '(res, lexer, tk, instr, _) <- lex_line (C "L6\t\tROR\tADDRESS\n") lexer tk instr line_num ;;
  let bad := chk 435 (res =? LEXER_SUCCESS) bad in
  res <- find_operand lexer ;;
  let bad := chk 435 (opt_z_eqb res (Some 2)) bad in
  let line_num := line_num + 1 in
  '(res, lexer, tk, instr, _) <- lex_line (C "L7:\t\tLDY\t$BB,X\n") lexer tk instr line_num ;;
  let bad := chk 436 (res =? LEXER_SUCCESS) bad in
  res <- find_operand lexer ;;
  let bad := chk 436 (opt_z_eqb res (Some 2)) bad in
  let line_num := line_num + 1 in
  '(res, lexer, tk, instr, _) <- lex_line (C "L8\t\tDEC\tCONSTANT8,X\n") lexer tk instr line_num ;;
  let bad := chk 437 (res =? LEXER_SUCCESS) bad in
  res <- find_operand lexer ;;
  let bad := chk 437 (opt_z_eqb res (Some 2)) bad in
  let line_num := line_num + 1 in
  '(res, lexer, tk, instr, _) <- lex_line (C "L9:\t\tINC\t$1000,X\n") lexer tk instr line_num ;;
  let bad := chk 438 (res =? LEXER_SUCCESS) bad in
  res <- find_operand lexer ;;
  let bad := chk 438 (opt_z_eqb res (Some 2)) bad in
  let line_num := line_num + 1 in
  '(res, lexer, tk, instr, _) <- lex_line (C "L10\t\tCMP\tCONSTANT16,X\n") lexer tk instr line_num ;;
  let bad := chk 439 (res =? LEXER_SUCCESS) bad in
  res <- find_operand lexer ;;
  let bad := chk 439 (opt_z_eqb res (Some 2)) bad in
  let line_num := line_num + 1 in
  '(res, lexer, tk, instr, _) <- lex_line (C "L11:\t\tSTX\t$CC,Y\n") lexer tk instr line_num ;;
  let bad := chk 440 (res =? LEXER_SUCCESS) bad in
  res <- find_operand lexer ;;
  let bad := chk 440 (opt_z_eqb res (Some 2)) bad in
  let line_num := line_num + 1 in
  '(res, lexer, tk, instr, _) <- lex_line (C "L12\t\tLDX\tCONSTANT8,Y\n") lexer tk instr line_num ;;
  let bad := chk 441 (res =? LEXER_SUCCESS) bad in
  res <- find_operand lexer ;;
  let bad := chk 441 (opt_z_eqb res (Some 2)) bad in
  let line_num := line_num + 1 in
  '(res, lexer, tk, instr, _) <- lex_line (C "L13:\t\tSTA\t$B00B,Y\n") lexer tk instr line_num ;;
  let bad := chk 442 (res =? LEXER_SUCCESS) bad in
  res <- find_operand lexer ;;
  let bad := chk 442 (opt_z_eqb res (Some 2)) bad in
  let line_num := line_num + 1 in
  '(res, lexer, tk, instr, _) <- lex_line (C "L14\t\tAND\tADDRESS,Y\n") lexer tk instr line_num ;;
  let bad := chk 443 (res =? LEXER_SUCCESS) bad in
  res <- find_operand lexer ;;
  let bad := chk 443 (opt_z_eqb res (Some 2)) bad in
  let line_num := line_num + 1 in
  '(res, lexer, tk, instr, _) <- lex_line (C "L15:\t\tJMP\t($CAFE)\n") lexer tk instr line_num ;;
  let bad := chk 444 (res =? LEXER_SUCCESS) bad in
  res <- find_operand lexer ;;
  let bad := chk 444 (opt_z_eqb res (Some 3)) bad in
  let line_num := line_num + 1 in
  '(res, lexer, tk, instr, _) <- lex_line (C "L16\t\tJMP\t(CONSTANT16)\n") lexer tk instr line_num ;;
  let bad := chk 445 (res =? LEXER_SUCCESS) bad in
  res <- find_operand lexer ;;
  let bad := chk 445 (opt_z_eqb res (Some 3)) bad in
  let line_num := line_num + 1 in
  '(res, lexer, tk, instr, _) <- lex_line (C "L17:\t\tCPX\t#$DD\n") lexer tk instr line_num ;;
  let bad := chk 446 (res =? LEXER_SUCCESS) bad in
  res <- find_operand lexer ;;
  let bad := chk 446 (opt_z_eqb res (Some 3)) bad in
  let line_num := line_num + 1 in
  '(res, lexer, tk, instr, _) <- lex_line (C "L18\t\tLDY\t#CONSTANT8\n") lexer tk instr line_num ;;
  let bad := chk 447 (res =? LEXER_SUCCESS) bad in
  res <- find_operand lexer ;;
  let bad := chk 447 (opt_z_eqb res (Some 3)) bad in
  let line_num := line_num + 1 in
  '(res, lexer, tk, instr, _) <- lex_line (C "L19:\t\tADC\t($EE,X)\n") lexer tk instr line_num ;;
  let bad := chk 448 (res =? LEXER_SUCCESS) bad in
  res <- find_operand lexer ;;
  let bad := chk 448 (opt_z_eqb res (Some 3)) bad in
  let line_num := line_num + 1 in
  '(res, lexer, tk, instr, _) <- lex_line (C "L20\t\tLDA\t(CONSTANT8,X)\n") lexer tk instr line_num ;;
  let bad := chk 449 (res =? LEXER_SUCCESS) bad in
  res <- find_operand lexer ;;
  let bad := chk 449 (opt_z_eqb res (Some 3)) bad in
  let line_num := line_num + 1 in
  '(res, lexer, tk, instr, _) <- lex_line (C "L21:\t\tSTA\t($FF),Y\n") lexer tk instr line_num ;;
  let bad := chk 450 (res =? LEXER_SUCCESS) bad in
  res <- find_operand lexer ;;
  let bad := chk 450 (opt_z_eqb res (Some 3)) bad in
  let line_num := line_num + 1 in
  '(res, lexer, tk, instr, _) <- lex_line (C "L22\t\tSBC\t(CONSTANT8),Y\n") lexer tk instr line_num ;;
  let bad := chk 451 (res =? LEXER_SUCCESS) bad in
  res <- find_operand lexer ;;
  let bad := chk 451 (opt_z_eqb res (Some 3)) bad in
  let line_num := line_num + 1 in
  Ret (rev bad).
Example test_find_operand_passes : test_find_operand = Ret [].
Proof. vm_compute. reflexivity. Qed.

(** test_parse_label_operand: 103 assertions *)
Definition test_parse_label_operand : M (list Z) :=
  let bad := @nil Z in
  let lexer := init_lexer (C "test_parse_label_operand.asm") in
  let tk := init_token in
  let instr := init_instruction in
  let symtab := init_symbol_table in
  let line_num := (1) in
  '(res, lexer, tk, instr, _) <- lex_line (C "ADDRESS\t\t=\t$ABCD\n") lexer tk instr line_num ;;
  let bad := chk 474 (res =? LEXER_SUCCESS) bad in
  '(res, lexer, _) <- parse_line lexer ;;
  let bad := chk 474 (res =? PARSER_SUCCESS) bad in
  let line_num := line_num + 1 in
  '(res, lexer, symtab, _) <- parse_label_declaration true true lexer symtab 0 ;;
  let bad := chk 475 (res =? PARSER_SUCCESS) bad in
  '(res, lexer, tk, instr, _) <- lex_line (C "CONSTANT8\t=\t$7F\n") lexer tk instr line_num ;;
  let bad := chk 476 (res =? LEXER_SUCCESS) bad in
  '(res, lexer, _) <- parse_line lexer ;;
  let bad := chk 476 (res =? PARSER_SUCCESS) bad in
  let line_num := line_num + 1 in
  '(res, lexer, symtab, _) <- parse_label_declaration true true lexer symtab 0 ;;
  let bad := chk 477 (res =? PARSER_SUCCESS) bad in
  '(res, lexer, tk, instr, _) <- lex_line (C "CONSTANT16\t=\t$1111\n") lexer tk instr line_num ;;
  let bad := chk 478 (res =? LEXER_SUCCESS) bad in
  '(res, lexer, _) <- parse_line lexer ;;
  let bad := chk 478 (res =? PARSER_SUCCESS) bad in
  let line_num := line_num + 1 in
  '(res, lexer, symtab, _) <- parse_label_declaration true true lexer symtab 0 ;;
  let bad := chk 479 (res =? PARSER_SUCCESS) bad in
  '(res, lexer, tk, instr, _) <- lex_line (C "\t\tASL\tCONSTANT8\n") lexer tk instr line_num ;;
  let bad := chk 482 (res =? LEXER_SUCCESS) bad in
  '(res, lexer, _) <- parse_line lexer ;;
  let bad := chk 482 (res =? PARSER_SUCCESS) bad in
  let line_num := line_num + 1 in
  res <- find_operand lexer ;;
  i <- some res ;;
  '(res, lexer, _) <- parse_label_operand lexer instr i symtab ;;
  let bad := chk 483 (res =? PARSER_SUCCESS) bad in
  '(res, lexer, tk, instr, _) <- lex_line (C "\t\tCPY\tADDRESS\n") lexer tk instr line_num ;;
  let bad := chk 484 (res =? LEXER_SUCCESS) bad in
  '(res, lexer, _) <- parse_line lexer ;;
  let bad := chk 484 (res =? PARSER_SUCCESS) bad in
  let line_num := line_num + 1 in
  res <- find_operand lexer ;;
  i <- some res ;;
  '(res, lexer, _) <- parse_label_operand lexer instr i symtab ;;
  let bad := chk 485 (res =? PARSER_SUCCESS) bad in
  '(res, lexer, tk, instr, _) <- lex_line (C "\t\tROR\tCONSTANT8,X\n") lexer tk instr line_num ;;
  let bad := chk 486 (res =? LEXER_SUCCESS) bad in
  '(res, lexer, _) <- parse_line lexer ;;
  let bad := chk 486 (res =? PARSER_SUCCESS) bad in
  let line_num := line_num + 1 in
  res <- find_operand lexer ;;
  i <- some res ;;
  '(res, lexer, _) <- parse_label_operand lexer instr i symtab ;;
  let bad := chk 487 (res =? PARSER_SUCCESS) bad in
  '(res, lexer, tk, instr, _) <- lex_line (C "\t\tCMP\tCONSTANT16,X\n") lexer tk instr line_num ;;
  let bad := chk 488 (res =? LEXER_SUCCESS) bad in
  '(res, lexer, _) <- parse_line lexer ;;
  let bad := chk 488 (res =? PARSER_SUCCESS) bad in
  let line_num := line_num + 1 in
  res <- find_operand lexer ;;
  i <- some res ;;
  '(res, lexer, _) <- parse_label_operand lexer instr i symtab ;;
  let bad := chk 489 (res =? PARSER_SUCCESS) bad in
  '(res, lexer, tk, instr, _) <- lex_line (C "\t\tLDX\tCONSTANT8,Y\n") lexer tk instr line_num ;;
  let bad := chk 490 (res =? LEXER_SUCCESS) bad in
  '(res, lexer, _) <- parse_line lexer ;;
  let bad := chk 490 (res =? PARSER_SUCCESS) bad in
  let line_num := line_num + 1 in
  res <- find_operand lexer ;;
  i <- some res ;;
  '(res, lexer, _) <- parse_label_operand lexer instr i symtab ;;
  let bad := chk 491 (res =? PARSER_SUCCESS) bad in
  '(res, lexer, tk, instr, _) <- lex_line (C "\t\tAND\tADDRESS,Y\n") lexer tk instr line_num ;;
  let bad := chk 492 (res =? LEXER_SUCCESS) bad in
  '(res, lexer, _) <- parse_line lexer ;;
  let bad := chk 492 (res =? PARSER_SUCCESS) bad in
  let line_num := line_num + 1 in
  res <- find_operand lexer ;;
  i <- some res ;;
  '(res, lexer, _) <- parse_label_operand lexer instr i symtab ;;
  let bad := chk 493 (res =? PARSER_SUCCESS) bad in
  '(res, lexer, tk, instr, _) <- lex_line (C "\t\tLDY\t#CONSTANT8\n") lexer tk instr line_num ;;
  let bad := chk 497 (res =? LEXER_SUCCESS) bad in
  '(res, lexer, _) <- parse_line lexer ;;
  let bad := chk 497 (res =? PARSER_SUCCESS) bad in
  let line_num := line_num + 1 in
  res <- find_operand lexer ;;
  i <- some res ;;
  '(res, lexer, _) <- parse_label_operand lexer instr i symtab ;;
  let bad := chk 498 (res =? PARSER_SUCCESS) bad in
  '(res, lexer, tk, instr, _) <- lex_line (C "\t\tLDA\t(CONSTANT8,X)\n") lexer tk instr line_num ;;
  let bad := chk 499 (res =? LEXER_SUCCESS) bad in
  '(res, lexer, _) <- parse_line lexer ;;
  let bad := chk 499 (res =? PARSER_SUCCESS) bad in
  let line_num := line_num + 1 in
  res <- find_operand lexer ;;
  i <- some res ;;
  '(res, lexer, _) <- parse_label_operand lexer instr i symtab ;;
  let bad := chk 500 (res =? PARSER_SUCCESS) bad in
  '(res, lexer, tk, instr, _) <- lex_line (C "\t\tSBC\t(CONSTANT8),Y\n") lexer tk instr line_num ;;
  let bad := chk 501 (res =? LEXER_SUCCESS) bad in
  '(res, lexer, _) <- parse_line lexer ;;
  let bad := chk 501 (res =? PARSER_SUCCESS) bad in
  let line_num := line_num + 1 in
  res <- find_operand lexer ;;
  i <- some res ;;
  '(res, lexer, _) <- parse_label_operand lexer instr i symtab ;;
  let bad := chk 502 (res =? PARSER_SUCCESS) bad in
  '(res, lexer, tk, instr, _) <- lex_line (C "ADC constant8\n") lexer tk instr line_num ;;
  let bad := chk 506 (res =? LEXER_SUCCESS) bad in
  '(res, lexer, _) <- parse_line lexer ;;
  let bad := chk 506 (res =? PARSER_SUCCESS) bad in
  let line_num := line_num + 1 in
  res <- find_operand lexer ;;
  i <- some res ;;
  '(res, lexer, _) <- parse_label_operand lexer instr i symtab ;;
  let bad := chk 507 (res =? PARSER_SUCCESS) bad in
  '(res, lexer, tk, instr, _) <- lex_line (C "STX constant16\n") lexer tk instr line_num ;;
  let bad := chk 510 (res =? LEXER_SUCCESS) bad in
  '(res, lexer, _) <- parse_line lexer ;;
  let bad := chk 510 (res =? PARSER_SUCCESS) bad in
  let line_num := line_num + 1 in
  res <- find_operand lexer ;;
  i <- some res ;;
  '(res, lexer, _) <- parse_label_operand lexer instr i symtab ;;
  let bad := chk 511 (res =? PARSER_SUCCESS) bad in
  '(res, lexer, tk, instr, _) <- lex_line (C "\t\tSTY\taddress\n") lexer tk instr line_num ;;
  let bad := chk 514 (res =? LEXER_SUCCESS) bad in
  '(res, lexer, _) <- parse_line lexer ;;
  let bad := chk 514 (res =? PARSER_SUCCESS) bad in
  let line_num := line_num + 1 in
  res <- find_operand lexer ;;
  i <- some res ;;
  '(res, lexer, _) <- parse_label_operand lexer instr i symtab ;;
  let bad := chk 515 (res =? PARSER_SUCCESS) bad in
  let symtab := init_symbol_table in
  let line_num := (1) in
  let pc := 0 in
  '(res, lexer, tk, instr, _) <- lex_line (C "LABEL1:\n") lexer tk instr line_num ;;
  let bad := chk 551 (res =? LEXER_SUCCESS) bad in
  '(res, lexer, _) <- parse_line lexer ;;
  let bad := chk 551 (res =? PARSER_SUCCESS) bad in
  let line_num := line_num + 1 in
  '(res, lexer, symtab, _) <- parse_label_declaration true true lexer symtab pc ;;
  let bad := chk 552 (res =? SYMBOL_INSERTION_SUCCESS) bad in
  res <- search_symbol symtab (C "LABEL1") ;;
  let bad := chk 553 (res =? 0) bad in
  '(res, lexer, tk, instr, _) <- lex_line (C "\t\tINX\n") lexer tk instr line_num ;;
  let bad := chk 556 (res =? LEXER_SUCCESS) bad in
  '(res, lexer, _) <- parse_line lexer ;;
  let bad := chk 556 (res =? PARSER_SUCCESS) bad in
  let line_num := line_num + 1 in
  let pc := pc + (1) in
  '(res, lexer, tk, instr, _) <- lex_line (C "\t\tCPY\tADDRESS\n") lexer tk instr line_num ;;
  let bad := chk 561 (res =? LEXER_SUCCESS) bad in
  '(res, lexer, _) <- parse_line lexer ;;
  let bad := chk 561 (res =? PARSER_SUCCESS) bad in
  let line_num := line_num + 1 in
  res <- search_symbol symtab (C "ADDRESS") ;;
  let bad := chk 562 (res =? ERROR_SYMBOL_NOT_FOUND) bad in
  res <- find_operand lexer ;;
  i <- some res ;;
  '(res, lexer, _) <- parse_label_operand lexer instr i symtab ;;
  let bad := chk 563 (res =? ERROR_ILLEGAL_FORWARD_REFERENCE) bad in
  let bad := chk 565 (opt_z_eqb (lx_error_tk lexer) (Some 1)) bad in
  '(res, lexer, tk, instr, _) <- lex_line (C "RANDOM_LABEL\t\tDEY\n") lexer tk instr line_num ;;
  let bad := chk 569 (res =? LEXER_SUCCESS) bad in
  '(res, lexer, _) <- parse_line lexer ;;
  let bad := chk 569 (res =? PARSER_SUCCESS) bad in
  let line_num := line_num + 1 in
  '(res, lexer, symtab, _) <- parse_label_declaration true true lexer symtab pc ;;
  let bad := chk 570 (res =? SYMBOL_INSERTION_SUCCESS) bad in
  let pc := pc + (1) in
  '(res, lexer, tk, instr, _) <- lex_line (C "\t\tBMI\tLABEL1\n") lexer tk instr line_num ;;
  let bad := chk 574 (res =? LEXER_SUCCESS) bad in
  '(res, lexer, _) <- parse_line lexer ;;
  let bad := chk 574 (res =? PARSER_SUCCESS) bad in
  let line_num := line_num + 1 in
  res <- find_operand lexer ;;
  i <- some res ;;
  '(res, lexer, _) <- parse_label_operand lexer instr i symtab ;;
  let bad := chk 575 (res =? BRANCH_OPERAND) bad in
  let pc := pc + (2) in
  '(res, lexer, tk, instr, _) <- lex_line (C "\t\tBVS\tL1\n") lexer tk instr line_num ;;
  let bad := chk 579 (res =? LEXER_SUCCESS) bad in
  '(res, lexer, _) <- parse_line lexer ;;
  let bad := chk 579 (res =? PARSER_SUCCESS) bad in
  let line_num := line_num + 1 in
  res <- find_operand lexer ;;
  i <- some res ;;
  '(res, lexer, _) <- parse_label_operand lexer instr i symtab ;;
  let bad := chk 580 (res =? BRANCH_FORWARD_REFERENCE) bad in
  let pc := pc + (2) in
  '(res, lexer, tk, instr, _) <- lex_line (C "\t\tJMP\tLABEL1\n") lexer tk instr line_num ;;
  let bad := chk 584 (res =? LEXER_SUCCESS) bad in
  '(res, lexer, _) <- parse_line lexer ;;
  let bad := chk 584 (res =? PARSER_SUCCESS) bad in
  let line_num := line_num + 1 in
  res <- find_operand lexer ;;
  i <- some res ;;
  '(res, lexer, _) <- parse_label_operand lexer instr i symtab ;;
  let bad := chk 585 (res =? JUMP_OPERAND) bad in
  let pc := pc + (3) in
  '(res, lexer, tk, instr, _) <- lex_line (C "\t\tJSR\tL3\n") lexer tk instr line_num ;;
  let bad := chk 589 (res =? LEXER_SUCCESS) bad in
  '(res, lexer, _) <- parse_line lexer ;;
  let bad := chk 589 (res =? PARSER_SUCCESS) bad in
  let line_num := line_num + 1 in
  res <- find_operand lexer ;;
  i <- some res ;;
  '(res, lexer, _) <- parse_label_operand lexer instr i symtab ;;
  let bad := chk 590 (res =? JUMP_FORWARD_REFERENCE) bad in
  let pc := pc + (3) in
  '(res, lexer, tk, instr, _) <- lex_line (C "LABEL2\t\tBCC\tLABEL1\n") lexer tk instr line_num ;;
  let bad := chk 594 (res =? LEXER_SUCCESS) bad in
  '(res, lexer, _) <- parse_line lexer ;;
  let bad := chk 594 (res =? PARSER_SUCCESS) bad in
  let line_num := line_num + 1 in
  '(res, lexer, symtab, _) <- parse_label_declaration true true lexer symtab pc ;;
  let bad := chk 595 (res =? SYMBOL_INSERTION_SUCCESS) bad in
  t <- get (lx_seq lexer) (0) ;;
  res <- search_symbol symtab (tk_str t) ;;
  let bad := chk 596 (res =? (12)) bad in
  res <- find_operand lexer ;;
  i <- some res ;;
  '(res, lexer, _) <- parse_label_operand lexer instr i symtab ;;
  let bad := chk 597 (res =? BRANCH_OPERAND) bad in
  let pc := pc + (2) in
  '(res, lexer, tk, instr, _) <- lex_line (C "FORREF1\t\tBVC\tL19\n") lexer tk instr line_num ;;
  let bad := chk 601 (res =? LEXER_SUCCESS) bad in
  '(res, lexer, _) <- parse_line lexer ;;
  let bad := chk 601 (res =? PARSER_SUCCESS) bad in
  let line_num := line_num + 1 in
  '(res, lexer, symtab, _) <- parse_label_declaration true true lexer symtab pc ;;
  let bad := chk 602 (res =? SYMBOL_INSERTION_SUCCESS) bad in
  t <- get (lx_seq lexer) (0) ;;
  res <- search_symbol symtab (tk_str t) ;;
  let bad := chk 603 (res =? (14)) bad in
  res <- find_operand lexer ;;
  i <- some res ;;
  '(res, lexer, _) <- parse_label_operand lexer instr i symtab ;;
  let bad := chk 604 (res =? BRANCH_FORWARD_REFERENCE) bad in
  let pc := pc + (2) in
  '(res, lexer, tk, instr, _) <- lex_line (C "LABEL3\t\tJSR\tLABEL2\n") lexer tk instr line_num ;;
  let bad := chk 608 (res =? LEXER_SUCCESS) bad in
  '(res, lexer, _) <- parse_line lexer ;;
  let bad := chk 608 (res =? PARSER_SUCCESS) bad in
  let line_num := line_num + 1 in
  '(res, lexer, symtab, _) <- parse_label_declaration true true lexer symtab pc ;;
  let bad := chk 609 (res =? SYMBOL_INSERTION_SUCCESS) bad in
  t <- get (lx_seq lexer) (0) ;;
  res <- search_symbol symtab (tk_str t) ;;
  let bad := chk 610 (res =? (16)) bad in
  res <- find_operand lexer ;;
  i <- some res ;;
  '(res, lexer, _) <- parse_label_operand lexer instr i symtab ;;
  let bad := chk 611 (res =? JUMP_OPERAND) bad in
  let pc := pc + (3) in
  '(res, lexer, tk, instr, _) <- lex_line (C "FORREF2\t\tJMP\tL21\n") lexer tk instr line_num ;;
  let bad := chk 615 (res =? LEXER_SUCCESS) bad in
  '(res, lexer, _) <- parse_line lexer ;;
  let bad := chk 615 (res =? PARSER_SUCCESS) bad in
  let line_num := line_num + 1 in
  '(res, lexer, symtab, _) <- parse_label_declaration true true lexer symtab pc ;;
  let bad := chk 616 (res =? SYMBOL_INSERTION_SUCCESS) bad in
  t <- get (lx_seq lexer) (0) ;;
  res <- search_symbol symtab (tk_str t) ;;
  let bad := chk 617 (res =? (19)) bad in
  res <- find_operand lexer ;;
  i <- some res ;;
  '(res, lexer, _) <- parse_label_operand lexer instr i symtab ;;
  let bad := chk 618 (res =? JUMP_FORWARD_REFERENCE) bad in
  let pc := pc + (3) in
  '(res, lexer, tk, instr, _) <- lex_line (C "L2 STY $AA\n") lexer tk instr line_num ;;
  let bad := chk 626 (res =? LEXER_SUCCESS) bad in
  '(res, lexer, _) <- parse_line lexer ;;
  let bad := chk 626 (res =? PARSER_SUCCESS) bad in
  let line_num := line_num + 1 in
  '(res, lexer, symtab, _) <- parse_label_declaration true true lexer symtab pc ;;
  let bad := chk 627 (res =? SYMBOL_INSERTION_SUCCESS) bad in
  res <- search_symbol symtab (C "L2") ;;
  let bad := chk 628 (res =? (22)) bad in
  let pc := pc + (2) in
  '(res, lexer, tk, instr, _) <- lex_line (C "\t\tJMP\t(WHERE)\n") lexer tk instr line_num ;;
  let bad := chk 632 (res =? LEXER_SUCCESS) bad in
  '(res, lexer, _) <- parse_line lexer ;;
  let bad := chk 632 (res =? PARSER_SUCCESS) bad in
  let line_num := line_num + 1 in
  res <- find_operand lexer ;;
  i <- some res ;;
  '(res, lexer, _) <- parse_label_operand lexer instr i symtab ;;
  let bad := chk 633 (res =? JUMP_FORWARD_REFERENCE) bad in
  let pc := pc + (3) in
  '(res, lexer, tk, instr, _) <- lex_line (C "FORREF3\t\tJMP\t(THERE)\n") lexer tk instr line_num ;;
  let bad := chk 637 (res =? LEXER_SUCCESS) bad in
  '(res, lexer, _) <- parse_line lexer ;;
  let bad := chk 637 (res =? PARSER_SUCCESS) bad in
  let line_num := line_num + 1 in
  '(res, lexer, symtab, _) <- parse_label_declaration true true lexer symtab pc ;;
  let bad := chk 638 (res =? SYMBOL_INSERTION_SUCCESS) bad in
  res <- search_symbol symtab (C "FORREF3") ;;
  let bad := chk 639 (res =? (27)) bad in
  res <- find_operand lexer ;;
  i <- some res ;;
  '(res, lexer, _) <- parse_label_operand lexer instr i symtab ;;
  let bad := chk 640 (res =? JUMP_FORWARD_REFERENCE) bad in
  Ret (rev bad).
Example test_parse_label_operand_passes : test_parse_label_operand = Ret [].
Proof. vm_compute. reflexivity. Qed.

