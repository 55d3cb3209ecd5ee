(** Check_forward_reference.v -- generated by tools/tests.py: the unit tests of /repo/tests/forward_reference/test_forward_reference.c run on the model.
    These are tests of the model against the expectations of the authors of the program, not
    proofs of properties: 66 assertions in 4 test functions; 17 assertions and statements without
    counterpart in the model are left out (pointers that are not NULL, the int returned by
    token_strcpy, enum values out of range).  Each computation returns the lines of the test file
    whose assertions fail. *)
From Verif Require Import Base Model_Opcode Model_Error Model_Lexer Model_SymbolTable Model_Parser
  Model_ForwardRef Model_Generator Check_Base.

(** test_init_destroy_unresolved: 2 assertions *)
Definition test_init_destroy_unresolved : M (list Z) :=
  let bad := @nil Z in
  let unresolved := init_unresolved in
  let bad := chk 17 ((un_curr unresolved) =? (0)) bad in
  let bad := chk 18 ((un_size unresolved) =? (8)) bad in
  Ret (rev bad).
Example test_init_destroy_unresolved_passes : test_init_destroy_unresolved = Ret [].
Proof. vm_compute. reflexivity. Qed.

(** test_create_forward_ref: 28 assertions *)
Definition test_create_forward_ref : M (list Z) :=
  let bad := @nil Z in
  let lexer := init_lexer (C "test_create_forward_ref.asm") in
  let tk := init_token in
  let instr := init_instruction in
  let symtab := init_symbol_table in
  let line_num := (1) in
  '(res, lexer, tk, instr, _) <- lex_line (C "\t\tJMP\tL21\t; comment\n") lexer tk instr line_num ;;
  let bad := chk 43 (res =? LEXER_SUCCESS) bad in
  '(res, lexer, _) <- parse_line lexer ;;
  let bad := chk 44 (res =? PARSER_SUCCESS) bad in
  let pc := 0 in
  res <- find_operand lexer ;;
  let operand := res in
  '(res, lexer, _) <- parse_operand lexer instr operand symtab ;;
  let operand_status := res in
  let bad := chk 49 (operand_status =? JUMP_FORWARD_REFERENCE) bad in
  let expected := (Z.land (Z.land NOT_INDIRECT_FIELD NOT_REGISTER_FIELD) ABSOLUTE_FIELD) in
  '(res, instr, _) <- parse_addr_mode lexer instr operand operand_status ;;
  let bad := chk 52 (res =? FORWARD_REFERENCE) bad in
  let bad := chk 53 ((i_bitflag instr) =? expected) bad in
  i <- some operand ;;
  t <- get (lx_seq lexer) i ;;
  o <- create_forward_ref true (C "\t\tJMP\tL21\t; comment\n") instr t operand_status pc line_num ;;
  res <- some o ;;
  let ref := res in
  let bad := chk 58 (text_eqb (fr_label ref) (C "L21")) bad in
  let bad := chk 59 (text_eqb (fr_source_line ref) (C "\t\tJMP\tL21\t; comment")) bad in
  let bad := chk 61 (mn_eqb (i_mnemonic (fr_instr ref)) JMP) bad in
  let bad := chk 62 ((i_bitfield (fr_instr ref)) =? JMP_BITFIELD) bad in
  let bad := chk 63 ((i_bitflag (fr_instr ref)) =? expected) bad in
  let bad := chk 65 ((fr_pc ref) =? 0) bad in
  let bad := chk 66 ((fr_line_num ref) =? (1)) bad in
  let bad := chk 67 ((fr_operand_status ref) =? JUMP_FORWARD_REFERENCE) bad in
  let bad := chk 68 (opt_n_eqb (Some (fr_operand_location ref)) (Some 6%nat)) bad in
  let line_num := line_num + 1 in
  '(res, lexer, tk, instr, _) <- lex_line (C "             BNE LABEL1 \t\t\n") lexer tk instr line_num ;;
  let bad := chk 76 (res =? LEXER_SUCCESS) bad in
  '(res, lexer, _) <- parse_line lexer ;;
  let bad := chk 77 (res =? PARSER_SUCCESS) bad in
  let pc := 3 in
  res <- find_operand lexer ;;
  let operand := res in
  '(res, lexer, _) <- parse_operand lexer instr operand symtab ;;
  let operand_status := res in
  let bad := chk 82 (operand_status =? BRANCH_FORWARD_REFERENCE) bad in
  let expected := (Z.land (Z.land NOT_INDIRECT_FIELD NOT_REGISTER_FIELD) ADDR_MODE_RELATIVE) in
  '(res, instr, _) <- parse_addr_mode lexer instr operand operand_status ;;
  let bad := chk 85 (res =? FORWARD_REFERENCE) bad in
  let bad := chk 86 ((i_bitflag instr) =? expected) bad in
  i <- some operand ;;
  t <- get (lx_seq lexer) i ;;
  o <- create_forward_ref true (C "             BNE LABEL1 \t\t\n") instr t operand_status pc line_num ;;
  res <- some o ;;
  let ref := res in
  let bad := chk 91 (text_eqb (fr_label ref) (C "LABEL1")) bad in
  let bad := chk 92 (text_eqb (fr_source_line ref) (C "             BNE LABEL1")) bad in
  let bad := chk 94 (mn_eqb (i_mnemonic (fr_instr ref)) BNE) bad in
  let bad := chk 95 ((i_bitfield (fr_instr ref)) =? BNE_BITFIELD) bad in
  let bad := chk 96 ((i_bitflag (fr_instr ref)) =? expected) bad in
  let bad := chk 98 ((fr_pc ref) =? 3) bad in
  let bad := chk 99 ((fr_line_num ref) =? (2)) bad in
  let bad := chk 100 ((fr_operand_status ref) =? BRANCH_FORWARD_REFERENCE) bad in
  let bad := chk 101 (opt_n_eqb (Some (fr_operand_location ref)) (Some 17%nat)) bad in
  Ret (rev bad).
Example test_create_forward_ref_passes : test_create_forward_ref = Ret [].
Proof. vm_compute. reflexivity. Qed.

(** test_add_forward_ref: 22 assertions *)
Definition test_add_forward_ref : M (list Z) :=
  let bad := @nil Z in
  let lexer := init_lexer (C "test_add_forward_ref.asm") in
  let tk := init_token in
  let instr := init_instruction in
  let symtab := init_symbol_table in
  let unresolved := init_unresolved in
  let line_num := (1) in
  '(res, lexer, tk, instr, _) <- lex_line (C "\t\tJSR\tFORREF\n") lexer tk instr line_num ;;
  let bad := chk 132 (res =? LEXER_SUCCESS) bad in
  '(res, lexer, _) <- parse_line lexer ;;
  let bad := chk 133 (res =? PARSER_SUCCESS) bad in
  let pc := 0 in
  res <- find_operand lexer ;;
  let operand := res in
  '(res, lexer, _) <- parse_operand lexer instr operand symtab ;;
  let operand_status := res in
  '(res, instr, _) <- parse_addr_mode lexer instr operand operand_status ;;
  i <- some operand ;;
  t <- get (lx_seq lexer) i ;;
  o <- create_forward_ref true (C "\t\tJSR\tFORREF\n") instr t operand_status pc line_num ;;
  res <- some o ;;
  let ref := res in
  '(res, unresolved) <- add_forward_ref true unresolved ref ;;
  let bad := chk 141 (res =? FORWARD_REFERENCE_INSERTION_SUCCESS) bad in
  o <- get (un_refs unresolved) (0) ;;
  r <- some o ;;
  let ref := r in
  let bad := chk 144 (text_eqb (fr_label ref) (C "FORREF")) bad in
  let bad := chk 145 (text_eqb (fr_source_line ref) (C "\t\tJSR\tFORREF")) bad in
  let bad := chk 146 (mn_eqb (i_mnemonic (fr_instr ref)) JSR) bad in
  let bad := chk 147 ((i_bitflag (fr_instr ref)) =? ADDR_MODE_ABSOLUTE) bad in
  let bad := chk 148 ((fr_pc ref) =? (0)) bad in
  let bad := chk 149 ((fr_line_num ref) =? (1)) bad in
  let bad := chk 150 ((fr_operand_status ref) =? JUMP_FORWARD_REFERENCE) bad in
  let bad := chk 151 (opt_n_eqb (Some (fr_operand_location ref)) (Some 6%nat)) bad in
  let line_num := line_num + 1 in
  '(res, lexer, tk, instr, _) <- lex_line (C "             BMI        FORREF2\n") lexer tk instr line_num ;;
  let bad := chk 157 (res =? LEXER_SUCCESS) bad in
  '(res, lexer, _) <- parse_line lexer ;;
  let bad := chk 158 (res =? PARSER_SUCCESS) bad in
  let pc := 3 in
  res <- find_operand lexer ;;
  let operand := res in
  '(res, lexer, _) <- parse_operand lexer instr operand symtab ;;
  let operand_status := res in
  '(res, instr, _) <- parse_addr_mode lexer instr operand operand_status ;;
  i <- some operand ;;
  t <- get (lx_seq lexer) i ;;
  o <- create_forward_ref true (C "             BMI        FORREF2\n") instr t operand_status pc line_num ;;
  res <- some o ;;
  let ref := res in
  '(res, unresolved) <- add_forward_ref true unresolved ref ;;
  let bad := chk 169 (res =? FORWARD_REFERENCE_INSERTION_SUCCESS) bad in
  o <- get (un_refs unresolved) (1) ;;
  r <- some o ;;
  let ref := r in
  let bad := chk 172 (text_eqb (fr_label ref) (C "FORREF2")) bad in
  let bad := chk 173 (text_eqb (fr_source_line ref) (C "             BMI        FORREF2")) bad in
  let bad := chk 174 (mn_eqb (i_mnemonic (fr_instr ref)) BMI) bad in
  let bad := chk 175 ((i_bitflag (fr_instr ref)) =? ADDR_MODE_RELATIVE) bad in
  let bad := chk 176 ((fr_pc ref) =? (3)) bad in
  let bad := chk 177 ((fr_line_num ref) =? (2)) bad in
  let bad := chk 178 ((fr_operand_status ref) =? BRANCH_FORWARD_REFERENCE) bad in
  let bad := chk 179 (opt_n_eqb (Some (fr_operand_location ref)) (Some 24%nat)) bad in
  Ret (rev bad).
Example test_add_forward_ref_passes : test_add_forward_ref = Ret [].
Proof. vm_compute. reflexivity. Qed.

(** test_resize_unresolved: 14 assertions *)
Definition test_resize_unresolved : M (list Z) :=
  let bad := @nil Z in
  let lexer := init_lexer (C "test_resize_unresolved.asm") in
  let tk := init_token in
  let instr := init_instruction in
  let symtab := init_symbol_table in
  let unresolved := init_unresolved in
  let line_num := (1) in
  '(res, lexer, tk, instr, _) <- lex_line (C "\t\tJMP\t(FORREF)\t;hi\n") lexer tk instr line_num ;;
  let bad := chk 209 (res =? LEXER_SUCCESS) bad in
  '(res, lexer, _) <- parse_line lexer ;;
  let bad := chk 210 (res =? PARSER_SUCCESS) bad in
  let pc := 0 in
  res <- find_operand lexer ;;
  let operand := res in
  '(res, lexer, _) <- parse_operand lexer instr operand symtab ;;
  let operand_status := res in
  '(res, instr, _) <- parse_addr_mode lexer instr operand operand_status ;;
  i <- some operand ;;
  t <- get (lx_seq lexer) i ;;
  o <- create_forward_ref true (C "\t\tJMP\t(FORREF)\t;hi\n") instr t operand_status pc line_num ;;
  res <- some o ;;
  let ref := res in
  '(res, unresolved) <- add_forward_ref true unresolved ref ;;
  let bad := chk 218 (res =? FORWARD_REFERENCE_INSERTION_SUCCESS) bad in
  i <- some operand ;;
  t <- get (lx_seq lexer) i ;;
  o <- create_forward_ref true (C "\t\tJMP\t(FORREF)\t;hi\n") instr t operand_status pc line_num ;;
  res <- some o ;;
  let ref := res in
  '(res, unresolved) <- add_forward_ref true unresolved ref ;;
  let bad := chk 220 (res =? FORWARD_REFERENCE_INSERTION_SUCCESS) bad in
  i <- some operand ;;
  t <- get (lx_seq lexer) i ;;
  o <- create_forward_ref true (C "\t\tJMP\t(FORREF)\t;hi\n") instr t operand_status pc line_num ;;
  res <- some o ;;
  let ref := res in
  '(res, unresolved) <- add_forward_ref true unresolved ref ;;
  let bad := chk 222 (res =? FORWARD_REFERENCE_INSERTION_SUCCESS) bad in
  i <- some operand ;;
  t <- get (lx_seq lexer) i ;;
  o <- create_forward_ref true (C "\t\tJMP\t(FORREF)\t;hi\n") instr t operand_status pc line_num ;;
  res <- some o ;;
  let ref := res in
  '(res, unresolved) <- add_forward_ref true unresolved ref ;;
  let bad := chk 224 (res =? FORWARD_REFERENCE_INSERTION_SUCCESS) bad in
  i <- some operand ;;
  t <- get (lx_seq lexer) i ;;
  o <- create_forward_ref true (C "\t\tJMP\t(FORREF)\t;hi\n") instr t operand_status pc line_num ;;
  res <- some o ;;
  let ref := res in
  '(res, unresolved) <- add_forward_ref true unresolved ref ;;
  let bad := chk 226 (res =? FORWARD_REFERENCE_INSERTION_SUCCESS) bad in
  i <- some operand ;;
  t <- get (lx_seq lexer) i ;;
  o <- create_forward_ref true (C "\t\tJMP\t(FORREF)\t;hi\n") instr t operand_status pc line_num ;;
  res <- some o ;;
  let ref := res in
  '(res, unresolved) <- add_forward_ref true unresolved ref ;;
  let bad := chk 228 (res =? FORWARD_REFERENCE_INSERTION_SUCCESS) bad in
  i <- some operand ;;
  t <- get (lx_seq lexer) i ;;
  o <- create_forward_ref true (C "\t\tJMP\t(FORREF)\t;hi\n") instr t operand_status pc line_num ;;
  res <- some o ;;
  let ref := res in
  '(res, unresolved) <- add_forward_ref true unresolved ref ;;
  let bad := chk 230 (res =? FORWARD_REFERENCE_INSERTION_SUCCESS) bad in
  let bad := chk 231 ((un_size unresolved) =? (8)) bad in
  let bad := chk 232 ((un_curr unresolved) =? (7)) bad in
  i <- some operand ;;
  t <- get (lx_seq lexer) i ;;
  o <- create_forward_ref true (C "\t\tJMP\t(FORREF)\t;hi\n") instr t operand_status pc line_num ;;
  res <- some o ;;
  let ref := res in
  '(res, unresolved) <- add_forward_ref true unresolved ref ;;
  let bad := chk 235 (res =? FORWARD_REFERENCE_INSERTION_SUCCESS) bad in
  let bad := chk 236 ((un_size unresolved) =? (16)) bad in
  let bad := chk 237 ((un_curr unresolved) =? (8)) bad in
  Ret (rev bad).
Example test_resize_unresolved_passes : test_resize_unresolved = Ret [].
Proof. vm_compute. reflexivity. Qed.

